(** * SessionProofs: the property lemmas about whole sessions, C82. *)

From Verif Require Import Base Wide Tags Irc SpecIrc MsgBase MsgTypes MsgNotice Message SpecMsg SpecWrite Common Client SpecClient SpecSession Samples.
From Coq Require Import Lia ZifyBool ZifyNat ZifyN.
From Verif Require Import BaseFacts IrcFacts IrcProofs LineProofs TypedProofs RecvProofs SendProofs HandshakeProofs SmallProofs ConnectProofs WriteProofs.

Open Scope nat_scope.

(** A message that was received is the typed message [c] for every profile. *)
Definition reads_as (c : content) (m : msg_own) : Prop :=
  forall pf, own_as_typed pf m = Ret (Some (typed_of c)).

Lemma sendable_own (bd : build) (c : content) :
  sendable c -> exists m, own_parse bd (render (line c)) = Ret (Some m) /\ reads_as c m.
Proof.
  intros (A & W & F & U & S & _).
  pose proof (p_c22_entry_points bd Debug (render (line c))) as ED.
  pose proof (p_c22_entry_points bd Release (render (line c))) as ER.
  pose proof (p_c81_written_message_is_read bd Debug c A W F U S) as D.
  pose proof (p_c81_written_message_is_read bd Release c A W F U S) as R.
  destruct (ref_parse bd (render (line c))) as [[m|]| | |]; try congruence.
  destruct ED as (D1 & _ & o & O & D2). destruct ER as (R1 & _ & o' & O' & R2).
  exists o. split; [exact O|]. rewrite O in O'. injection O' as <-. intros []; congruence.
Qed.

Lemma lines_stream (cs : list content) :
  Forall sendable cs -> lines_then (stream cs) (map (fun c => render (line c)) cs) [].
Proof.
  induction 1 as [|c cs H F IH]; cbn [stream map]; [constructor; intros []|].
  replace (render (line c) ++ crlf ++ stream cs) with ((render (line c) ++ [cr]) ++ [lf] ++ stream cs)
    by (rewrite <- app_assoc; reflexivity).
  constructor; [|now left|exact IH].
  rewrite in_app_iff. intros [I|[I|[]]]; [now apply H|discriminate].
Qed.

Lemma results_stream (cs : list content) :
  Forall sendable cs -> forall bd : nat -> build,
  exists ms, results bd (map (fun c => render (line c)) cs) (map Ok ms) /\ Forall2 reads_as cs ms.
Proof.
  induction 1 as [|c cs H F IH]; intros bd; [exists []; split; constructor|].
  destruct (IH (fun i => bd (S i))) as (ms & R & Q). destruct (sendable_own (bd 0) c H) as (m & P & T).
  exists (m :: ms). split; [|now constructor]. cbn [map]. constructor; [|exact R].
  right. split; [apply H|]. left. eauto.
Qed.

Lemma receive_stream (ct : list content) (bd : nat -> build) (buf : str) (cs : list str) (tail : list read) :
  Forall sendable ct -> filled cs -> buf ++ concat cs = stream ct ->
  exists r ms, recvs bd (length ct) (mk_reader buf (gots cs ++ tail) false) = Ret (r, map (fun m => Some (Ok m)) ms) /\
    Forall2 reads_as ct ms.
Proof.
  intros H F E. destruct (results_stream ct H bd) as (ms & R & Q).
  destruct (lines_recvs _ _ _ (lines_stream ct H) bd _ buf cs tail F E R) as (buf' & cs' & _ & _ & X).
  rewrite map_length, map_map in X. eauto.
Qed.

(** C82. Typed messages sent one per line are received as exactly these messages, in order,
    whatever the chunks in which the bytes arrive and whatever follows. *)
Lemma p_c82_stream_is_received :
  forall (bd : nat -> build) (ct : list content) (reads tail : list read),
    Forall sendable ct -> chunked (stream ct) reads ->
    exists r ms,
      recvs bd (length ct) (mk_reader [] (reads ++ tail) false) = Ret (r, map (fun m => Some (Ok m)) ms) /\
      Forall2 (fun c m => forall pf, own_as_typed pf m = Ret (Some (typed_of c))) ct ms.
Proof.
  intros bd ct reads tail H (cs & -> & F & E).
  now apply (receive_stream ct bd [] cs tail H F).
Qed.

(** C82. Two different sequences of typed messages are never the same bytes. *)
Lemma p_c82_stream_is_unambiguous :
  forall (ct ct' : list content),
    Forall sendable ct -> Forall sendable ct' -> stream ct = stream ct' -> map typed_of ct = map typed_of ct'.
Proof.
  intros ct ct' H. revert ct'. induction H as [|c ct H F IH]; intros [|c' ct'] H' E; cbn [stream map] in *.
  - reflexivity.
  - destruct (render (line c')); discriminate.
  - destruct (render (line c)); discriminate.
  - inversion H' as [|? ? H1 F1]; subst.
    assert (X : forall c, render (line c) ++ crlf = (render (line c) ++ [cr]) ++ [lf]) by (intros; now rewrite <- app_assoc).
    rewrite !app_assoc, !X, <- !app_assoc in E. rewrite !app_assoc in E.
    assert (N : forall c, sendable c -> ~ In lf (render (line c) ++ [cr])).
    { intros d (_ & _ & _ & _ & _ & N). rewrite in_app_iff. intros [I|[I|[]]]; [now apply N|discriminate]. }
    rewrite <- !(app_assoc _ [lf]) in E. cbn [app] in E.
    destruct (first_split_unique _ _ _ _ _ E (N _ H) (N _ H1)) as [E1 E2].
    apply app_inv_tail in E1. f_equal; [|now apply IH].
    destruct H as (A & W & T & U & S & _), H1 as (A1 & W1 & T1 & U1 & S1 & _).
    pose proof (p_c81_written_message_is_read Scalar Debug c A W T U S) as R.
    pose proof (p_c81_written_message_is_read Scalar Debug c' A1 W1 T1 U1 S1) as R1. congruence.
Qed.

(** The next line of a text that is arriving. *)
Lemma receive_line (bd : build) (l rest buf : str) (cs : list str) (tail : list read) (m : msg_own) :
  filled cs -> ~ In lf l -> utf8_valid l = true -> own_parse bd l = Ret (Some m) ->
  buf ++ concat cs = l ++ crlf ++ rest ->
  exists buf' cs', filled cs' /\ buf' ++ concat cs' = rest /\
    recv bd (mk_reader buf (gots cs ++ tail) false) = Ret (mk_reader buf' (gots cs' ++ tail) false, Some (Ok m)).
Proof.
  intros F N U P E.
  destruct (poll_line_some cs tail F buf (l ++ [cr]) l rest) as (buf' & cs' & A & B & Q).
  - rewrite in_app_iff. intros [I|[I|[]]]; [now apply N|discriminate].
  - now left.
  - rewrite E. now rewrite <- app_assoc.
  - exists buf', cs'. split; [exact A|]. split; [exact B|]. apply (recv_line _ l).
    + unfold poll_next. cbn [rd_ended rd_buf rd_reads]. rewrite Q. unfold line_item. rewrite U. reflexivity.
    + right. split; [exact U|]. left. eauto.
Qed.

Lemma holds_gots (s : str) (cs : list str) : holds s (gots cs) <-> exists rest, concat cs = s ++ rest.
Proof. unfold holds, gots. rewrite map_map, map_id. tauto. Qed.

Lemma gots_app (x y : list str) : gots (x ++ y) = gots x ++ gots y.
Proof. apply map_app. Qed.

Lemma chunked_app (s : str) (x y : list read) :
  chunked s (x ++ y) -> exists cx cy, x = gots cx /\ y = gots cy /\ filled cx /\ filled cy /\ s = concat (cx ++ cy).
Proof.
  intros (cs & E & F & ->). symmetry in E. apply map_eq_app in E as (cx & cy & -> & <- & <-).
  apply Forall_app in F as [F1 F2]. exists cx, cy. auto 10.
Qed.

Lemma served (c : client) (h : handshake_out) (bd : nat -> build) (ct : list content) (more tail : list read) :
  c_reader c = reader_new -> delivered h -> serves h more ct ->
  exists c', handshake c h = Ret (c', Done (Ok tt)) /\
  exists r ms,
    recvs bd (length ct) (arrive (c_reader c') (more ++ tail)) = Ret (r, map (fun m => Some (Ok m)) ms) /\
    Forall2 reads_as ct ms.
Proof.
  intros RN D (l1 & l2 & v1 & v2 & N1 & F1 & V1 & A1 & N2 & F2 & V2 & C2 & H & CH & H1 & H2).
  destruct (chunked_app _ _ _ CH) as (cx & cyz & E1 & E23 & G1 & G23 & S).
  assert (CH' : chunked (concat cyz) (w_reads (h_second h) ++ more)) by (exists cyz; auto).
  destruct (chunked_app _ _ _ CH') as (cy & cz & E2 & E3 & G2 & G3 & S').
  rewrite concat_app, S', concat_app in S. clear CH CH' S' E23 G23 cyz.
  rewrite E1 in H1. rewrite E1, E2, <- gots_app in H2. rewrite holds_gots in H1, H2. destruct H1 as (x1 & H1), H2 as (x2 & H2).
  destruct (fit_parses _ _ _ F1 V1) as (m1 & P1 & Q1). destruct (fit_parses _ _ _ F2 V2) as (m2 & P2 & Q2).
  assert (Y1 : x1 ++ concat cy ++ concat cz = l2 ++ crlf ++ stream ct).
  { rewrite H1, <- !app_assoc in S. do 2 apply app_inv_head in S. now symmetry. }
  assert (Y2 : x1 ++ concat cy = l2 ++ crlf ++ x2).
  { rewrite concat_app, H1, <- !app_assoc in H2. now do 2 apply app_inv_head in H2. }
  assert (Y3 : x2 ++ concat cz = stream ct).
  { rewrite app_assoc, Y2, <- !app_assoc in Y1. now do 2 apply app_inv_head in Y1. }
  destruct (receive_line (w_build (h_first h)) l1 x1 [] cx [] m1 G1 N1 (proj1 F1) P1) as (b1 & c1 & K1 & B1 & R1).
  { cbn [app]. rewrite H1. now rewrite <- app_assoc. }
  destruct (receive_line (w_build (h_second h)) l2 x2 b1 (c1 ++ cy) [] m2) as (b2 & c2 & K2 & B2 & R2); auto.
  { now apply Forall_app. }
  { apply F2. }
  { rewrite concat_app, app_assoc, B1. exact Y2. }
  destruct (receive_stream ct bd b2 (c2 ++ cz) tail H) as (r & ms & R & Q).
  { now apply Forall_app. }
  { rewrite concat_app, app_assoc, B2. exact Y3. }
  rewrite !app_nil_r in R1, R2.
  assert (O1 : exists v, spec_view (own_raw m1) = Some v /\ own_command m1 = Ret (spec_command (v_command v)) /\ own_params m1 = Ret (v_params v)).
  { apply (own_reads (w_build (h_first h))); rewrite Q1; [apply F1|apply F1|exact P1]. }
  assert (O2 : exists v, spec_view (own_raw m2) = Some v /\ own_command m2 = Ret (spec_command (v_command v)) /\ own_params m2 = Ret (v_params v)).
  { apply (own_reads (w_build (h_second h))); rewrite Q2; [apply F2|apply F2|exact P2]. }
  destruct O1 as (v & V & OC1 & OP1). rewrite Q1, V1 in V. injection V as <-.
  destruct O2 as (v & V & OC2 & OP2). rewrite Q2, V2 in V. injection V as <-.
  assert (X : exists c', handshake c h = Ret (c', Done (Ok tt)) /\ c_reader c' = mk_reader b2 (gots c2) false).
  { destruct D as [W F]. rewrite handshake_cases, W, F, verdict_code.
    set (k1 := mk_client [] (c_wire c ++ told c) (c_log c) (c_reader c) (c_config c)).
    assert (T1 : recv_timeout k1 (h_first h) = Ret (set_reader k1 (mk_reader b1 (gots c1) false), Done (Ok m1))).
    { apply recv_timeout_iff. eexists. split; [reflexivity|]. constructor. rewrite E1. unfold k1. cbn [c_reader]. rewrite RN. exact R1. }
    rewrite T1. cbn [bind]. rewrite OC1. cbn [bind].
    assert (C1 : v_command v1 = b "CAP") by apply A1. rewrite C1. change (spec_command (b "CAP")) with Capability.
    cbn iota. rewrite OP1. cbn [bind].
    destruct (bool_case _ _ (starts_ack v1 C1)) as [[I1 _]|[_ I1]]; [|contradiction]. rewrite I1.
    unfold second_part.
    assert (T2 : recv_timeout (set_reader k1 (mk_reader b1 (gots c1) false)) (h_second h) =
      Ret (set_reader k1 (mk_reader b2 (gots c2) false), Done (Ok m2))).
    { apply recv_timeout_iff. eexists. split; [reflexivity|]. constructor.
      rewrite E2. unfold arrive. cbn [c_reader set_reader rd_buf rd_reads rd_ended]. rewrite <- gots_app. exact R2. }
    rewrite T2. cbn [bind]. rewrite OC2. cbn [bind]. rewrite C2. change (spec_command (b "001")) with RplWelcome.
    eexists. split; reflexivity. }
  destruct X as (c' & X & RD). exists c'. split; [exact X|].
  exists r, ms. split; [|exact Q]. rewrite RD, E3. unfold arrive. cbn [rd_buf rd_reads rd_ended].
  rewrite app_assoc, <- gots_app. exact R.
Qed.

(** C82. A whole session: the server acknowledges the capabilities, welcomes the client and
    sends typed messages, in any chunks. The client connects, having written its greeting,
    and receives exactly these messages. *)
Lemma p_c82_session :
  forall (cf : config) (h : handshake_out) (elapsed : bool) (bd : nat -> build) (ct : list content) (more tail : list read),
    delivered h -> serves h more ct ->
    exists c, connect cf TlsOk OpOk h elapsed = Ret (Done (Ok c)) /\ greeting (cf_credentials cf) (c_wire c) /\
      exists r ms,
        recvs bd (length ct) (arrive (c_reader c) (more ++ tail)) = Ret (r, map (fun m => Some (Ok m)) ms) /\
        Forall2 (fun c m => forall pf, own_as_typed pf m = Ret (Some (typed_of c))) ct ms.
Proof.
  intros cf h el bd ct more tail D S.
  destruct (served (fresh cf) h bd ct more tail eq_refl D S) as (c & X & R). exists c.
  assert (CO : connect cf TlsOk OpOk h el = Ret (Done (Ok c))) by (unfold connect; fold (fresh cf); now rewrite X).
  split; [exact CO|]. split; [exact (proj1 (proj2 (p_c64_new_client _ _ _ _ _ _ CO)))|exact R].
Qed.

(** C82. The same after a reconnect: whatever was going on before, and whatever was left of
    the old connection, what the server sends on the new one is what is received. *)
Lemma p_c82_session_after_reconnect :
  forall (fuel k : nat) (oracle : nat -> attempt) (c c' : client) (tr : list event) (bd : nat -> build)
    (ct : list content) (more tail : list read),
    reconnect fuel oracle c = Ret (c', tr, Finished (Ok tt)) -> attempts tr = S k ->
    serves (a_handshake (oracle k)) more ct ->
    exists r ms,
      recvs bd (length ct) (arrive (c_reader c') (more ++ tail)) = Ret (r, map (fun m => Some (Ok m)) ms) /\
      Forall2 (fun c m => forall pf, own_as_typed pf m = Ret (Some (typed_of c))) ct ms.
Proof.
  intros fuel k oracle c c' tr bd ct more tail E K S. unfold reconnect in E.
  apply loop_reader in E as (k' & c1 & N & W & H & L).
  assert (k' = k) by lia. subst k'.
  assert (D : delivered (a_handshake (oracle k))).
  { rewrite handshake_cases in H. unfold delivered.
    destruct (h_write (a_handshake (oracle k))); try discriminate.
    destruct (h_flush (a_handshake (oracle k))); try discriminate. auto. }
  destruct (served c1 _ bd ct more tail N D S) as (c2 & X & R). rewrite H in X. injection X as <-.
  exact R.
Qed.

(** A session cut into three reads at odd places: a gift, a ping and the order to reconnect. *)
Example ex_c82 :
  let gift := KUserNotice (mk_user_notice (b "#c") (b "4") None None None (AnonSubMysteryGift 5%N (b "1000"))
    (b "submysterygift") [] [] None (b "77") (-1)%Z) in
  let ct := [gift; KPing (mk_ping (Some (b "tmi"))); KReconnect] in
  let l1 := b ":tmi.twitch.tv CAP * ACK :twitch.tv/tags" in
  let l2 := b ":tmi.twitch.tv 001 me :Welcome, GLHF!" in
  let bytes := l1 ++ crlf ++ l2 ++ crlf ++ stream ct in
  let h := mk_handshake_out WOk FOk (mk_wait [Got (firstn 41 bytes); Got (firstn 9 (skipn 41 bytes))] false Scalar)
    (mk_wait [Got (firstn 40 (skipn 50 bytes))] false (Simd Sse2 5)) in
  let more := [Got (skipn 90 bytes)] in
  delivered h /\ serves h more ct /\
  stream [KPing (mk_ping (Some (b "tmi"))); KReconnect] =
    b "PING :tmi" ++ crlf ++ b ":tmi.twitch.tv RECONNECT" ++ crlf /\
  exists c r m1 m2 m3,
    connect (config_default 12345) TlsOk OpOk h false = Ret (Done (Ok c)) /\
    recvs (fun _ => Scalar) 3 (arrive (c_reader c) more) = Ret (r, [Some (Ok m1); Some (Ok m2); Some (Ok m3)]) /\
    own_raw m2 = b "PING :tmi" /\ own_as_typed Debug m1 = Ret (Some (typed_of gift)) /\
    own_as_typed Release m3 = Ret (Some MReconnect).
Proof.
  assert (NI : forall s x, existsb (Byte.eqb x) s = false -> ~ In x s).
  { intros s x E I. rewrite <- not_true_iff_false in E. apply E. apply existsb_exists. exists x.
    split; [exact I|]. now destruct (byte_eqb_spec x x). }
  intros gift ct l1 l2 bytes h more. split; [now split|]. split; [|split; [vm_compute; reflexivity|]].
  - exists l1, l2. eexists _, _.
    split; [apply NI; reflexivity|]. split; [split; [reflexivity|split; [reflexivity|split; [vm_compute; lia|]]]|].
    { intros _ ((x & E) & _). discriminate. }
    split; [reflexivity|]. split; [split; [reflexivity|eexists; reflexivity]|].
    split; [apply NI; reflexivity|]. split; [split; [reflexivity|split; [reflexivity|split; [vm_compute; lia|discriminate]]]|].
    split; [reflexivity|]. split; [reflexivity|]. split; [|split; [|split]].
    + constructor; [|constructor; [|constructor; [|constructor]]].
      * destruct ex_c81_gift as (A & W & U & F & S & _). do 5 (split; [assumption|]). apply NI. vm_compute. reflexivity.
      * split; [vm_compute; tauto|]. split; [|split; [constructor|split; [reflexivity|split; [reflexivity|apply NI; reflexivity]]]].
        split; [constructor|]. split; [intros (x & E); discriminate|]. split; [intros _ _ (x & E); discriminate|].
        split; [discriminate|]. split; [apply NI; reflexivity|]. split; [|discriminate].
        intros p E (x & X). injection E as <-. discriminate.
      * split; [vm_compute; tauto|]. split; [|split; [constructor|split; [reflexivity|split; [reflexivity|apply NI; reflexivity]]]].
        split; [constructor|]. split; [repeat split; apply NI; reflexivity|]. split; [discriminate|].
        split; [discriminate|]. split; [apply NI; reflexivity|]. split; [discriminate|discriminate].
    + exists [firstn 41 bytes; firstn 9 (skipn 41 bytes); firstn 40 (skipn 50 bytes); skipn 90 bytes].
      split; [reflexivity|]. split; [repeat constructor; discriminate|]. vm_compute. reflexivity.
    + exists (firstn 8 (skipn 42 bytes)). vm_compute. reflexivity.
    + exists (firstn 9 (skipn 81 bytes)). vm_compute. reflexivity.
  - eexists _, _, _, _, _. split; [vm_compute; reflexivity|]. split; [vm_compute; reflexivity|].
    split; [reflexivity|]. split; vm_compute; reflexivity.
Qed.
