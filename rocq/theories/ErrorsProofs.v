(** * ErrorsProofs: the property lemmas about the texts of errors, C72. *)

From Verif Require Import Base Wide Common Client SpecClient Tags Irc MsgBase MsgTypes MsgNotice Message SpecIrc SpecMsg SpecDbg Dbg Errors SpecErrors Samples HandshakeProofs.
From Coq Require Import Lia ZifyBool ZifyNat ZifyN.
From Verif Require Import BaseFacts Utf8Facts IrcFacts IrcProofs LineProofs AccessProofs FieldFacts TypedFacts RecvProofs SmallProofs SendProofs HandshakeProofs ConnectProofs DbgFacts DbgValues DbgTyped DbgLine DbgProofs.

Open Scope nat_scope.

Lemma own_parts (m : msg_own) : readable m ->
  exists t p w h q, own_tags m = Ret t /\ own_prefix m = Ret p /\ own_command m = Ret (spec_command w) /\
    own_channel m = Ret h /\ own_params m = Ret q /\
    dbg_own m = Ret (dbg_parts "IrcMessage" t p (spec_command w) h q) /\
    wf (dbg_parts "IrcMessage" t p (spec_command w) h q).
Proof.
  intros (bd & s & v & r & P & O). destruct (parsed_parts _ _ _ _ "IrcMessage" P eq_refl) as (T & Pr & C & Ch & Pa & W).
  pose proof (p_c15_owned_agrees bd s) as A. rewrite (pd_parse _ _ _ _ P) in A.
  destruct A as (A1 & _ & _ & A2 & _ & A3 & A4 & A5 & A6).
  assert (m = ref_into_owned r) as -> by congruence.
  exists (v_tags v), (v_prefix v), (v_command v), (spec_channel v), (v_params v).
  unfold dbg_own. rewrite A2, A3, A4, A5, A6, T, Pr, C, Ch, Pa. cbn [bind]. repeat (split; [reflexivity|]). exact W.
Qed.

Lemma own_shown (f : uchar -> bool) (m m' : msg_own) : readable m -> readable m' ->
  exists d d', dbg_own m = Ret d /\ dbg_own m' = Ret d' /\ wf d /\ wf d' /\
    (show f false d = show f false d' <-> same_own m m').
Proof.
  intros R R'. destruct (own_parts m R) as (t & p & w & h & q & T & P & C & H & Q & D & W).
  destruct (own_parts m' R') as (t' & p' & w' & h' & q' & T' & P' & C' & H' & Q' & D' & W').
  eexists _, _. split; [exact D|]. split; [exact D'|]. split; [exact W|]. split; [exact W'|].
  unfold same_own. rewrite T, P, C, H, Q, T', P', C', H', Q'. split.
  - intros E. apply show_inj in E; [|exact W|exact W']. apply parts_same in E as (-> & -> & -> & -> & ->). auto.
  - intros ([= ->] & [= ->] & [= ->] & [= ->] & [= ->]). reflexivity.
Qed.

(** What follows [failed to connect: ]. *)
Inductive rest (F : foreign) : connect_error -> str -> Prop :=
| rt_read e : rest F (CRead e) (recv_error_text F e)
| rt_io e : rest F (CIo e) (io_text F e)
| rt_dns : rest F CDns (dns_text F)
| rt_tls : rest F CTls (b "tls config error" ++ b ": " ++ cert_text F)
| rt_open e : rest F (COpen e) (b "failed to open tls stream" ++ b ": " ++ io_text F e)
| rt_timeout : rest F CTimeout (b "connection timed out" ++ [])
| rt_welcome m d : dbg_own m = Ret d -> wf d ->
    rest F (CWelcome m) (b "expected `NOTICE`" ++ b " or `001` as first message, instead received: " ++ show (shown F) false d)
| rt_auth : rest F CAuth (b "invalid credentials" ++ [])
| rt_notice m d : dbg_own m = Ret d -> wf d ->
    rest F (CNotice m) (b "received unrecognized notice" ++ b ": " ++ show (shown F) false d).

Lemma text_rest (F : foreign) (e : connect_error) : printable e ->
  exists r, connect_error_text F e = Ret (b "failed to connect: " ++ r) /\ rest F e r.
Proof.
  intros P. destruct e; try (eexists; split; [|econstructor]; reflexivity).
  - destruct (own_parts m P) as (? & ? & ? & ? & ? & _ & _ & _ & _ & _ & D & W). cbn [connect_error_text]. rewrite D. cbn [bind].
    eexists; split; [|exact (rt_welcome F m _ D W)]. reflexivity.
  - destruct (own_parts m P) as (? & ? & ? & ? & ? & _ & _ & _ & _ & _ & D & W). cbn [connect_error_text]. rewrite D. cbn [bind].
    eexists; split; [|exact (rt_notice F m _ D W)]. reflexivity.
Qed.

(** C72. Every error of connecting has a text that begins by saying so. *)
Lemma p_c72_text :
  forall (F : foreign) (e : connect_error), printable e ->
    exists r, connect_error_text F e = Ret (b "failed to connect: " ++ r).
Proof. intros F e P. destruct (text_rest F e P) as (r & T & _). eauto. Qed.

Lemma recv_text_phrase (F : foreign) (e : recv_error) :
  exists x, recv_error_text F e = b "failed to read message" ++ x.
Proof. destruct e; eexists; reflexivity. Qed.

Ltac phrase := cbn [own_phrases In]; tauto.

(** The kinds of errors, by how their texts begin. *)
Definition kind (e : connect_error) : option str :=
  match e with
  | CRead _ => Some (b "failed to read message")
  | CIo _ | CDns => None
  | CTls => Some (b "tls config error")
  | COpen _ => Some (b "failed to open tls stream")
  | CTimeout => Some (b "connection timed out")
  | CWelcome _ => Some (b "expected `NOTICE`")
  | CAuth => Some (b "invalid credentials")
  | CNotice _ => Some (b "received unrecognized notice")
  end.

Lemma rest_kind (F : foreign) (e : connect_error) (r : str) : ordinary F -> rest F e r ->
  match kind e with
  | Some p => In p own_phrases /\ exists x, r = p ++ x
  | None => forall p x, In p own_phrases -> r <> p ++ x
  end.
Proof.
  intros O R. destruct R; cbn [kind]; try (split; [phrase|]; eexists; reflexivity).
  - split; [phrase|]. apply recv_text_phrase.
  - apply (or_io F O).
  - apply (or_dns F O).
Qed.

Lemma phrases_apart (p q x y : str) : In p own_phrases -> In q own_phrases -> p ++ x = q ++ y -> p = q.
Proof.
  intros P Q E. cbn [own_phrases In] in P, Q.
  repeat match goal with H : _ \/ _ |- _ => destruct H as [H|H] end; try tauto; subst p q; try reflexivity;
    exfalso; cbv in E; discriminate E.
Qed.

Lemma kind_same (F : foreign) (e e' : connect_error) (r : str) : ordinary F -> rest F e r -> rest F e' r -> kind e = kind e'.
Proof.
  intros O R R'. apply (rest_kind F) in R; [|exact O]. apply (rest_kind F) in R'; [|exact O].
  destruct (kind e) as [p|], (kind e') as [q|]; try reflexivity.
  - destruct R as [P [x ->]], R' as [Q [y E]]. f_equal. eapply phrases_apart; eauto.
  - destruct R as [P [x ->]]. exfalso. exact (R' p x P eq_refl).
  - destruct R' as [Q [y ->]]. exfalso. exact (R q y Q eq_refl).
Qed.

Lemma app_same (p x y : str) : p ++ x = p ++ y -> x = y.
Proof. apply app_inv_head. Qed.

Lemma recv_text_inj (F : foreign) (e e' : recv_error) : ordinary F ->
  recv_error_text F e = recv_error_text F e' -> same_error F (CRead e) (CRead e').
Proof.
  intros O E. destruct e as [k|s|], e' as [k'|s'|]; cbn [recv_error_text] in E.
  - constructor. exact (app_same _ _ _ E).
  - exfalso. apply (or_invalid F O k (s' ++ b "`")). exact (app_same (b "failed to read message: ") _ _ E).
  - exfalso. apply (or_closed F O k). exact (app_same (b "failed to read message: ") _ _ E).
  - exfalso. apply (or_invalid F O k' (s ++ b "`")). symmetry. exact (app_same (b "failed to read message: ") _ _ E).
  - apply app_same, app_inv_tail in E. subst. constructor.
  - exfalso. apply (app_same (b "failed to read message: ") (b "invalid message `" ++ s ++ b "`") (b "stream closed")) in E. cbv in E. discriminate E.
  - exfalso. apply (or_closed F O k'). symmetry. exact (app_same (b "failed to read message: ") _ _ E).
  - exfalso. apply (app_same (b "failed to read message: ") (b "stream closed") (b "invalid message `" ++ s' ++ b "`")) in E. cbv in E. discriminate E.
  - constructor.
Qed.

(** C72. The text tells what happened: two errors have the same text exactly if they
    are the same failure, with the same contents. *)
Lemma p_c72_tells :
  forall (F : foreign) (e e' : connect_error), ordinary F -> printable e -> printable e' ->
    (connect_error_text F e = connect_error_text F e' <-> same_error F e e').
Proof.
  intros F e e' O P P'. split.
  - intros E. destruct (text_rest F e P) as (r & T & R). destruct (text_rest F e' P') as (r' & T' & R').
    rewrite T, T' in E. assert (r = r') as <- by (apply (app_same (b "failed to connect: ")); congruence).
    clear E T T'. pose proof (kind_same F e e' r O R R') as K.
    destruct R; inversion R' as [x X1 X2|x X1 X2|X1 X2|X1 X2|x X1 X2|X1 X2|m' d' D' W' X1 X2|X1 X2|m' d' D' W' X1 X2]; subst e';
      try discriminate K; try constructor.
    + now apply recv_text_inj.
    + congruence.
    + exfalso. now apply (or_apart F O e).
    + exfalso. now apply (or_apart F O x).
    + congruence.
    + destruct (own_shown (shown F) m m' P P') as (y & y' & Y & Y' & _ & _ & Z).
      apply Z. assert (y = d) as -> by congruence. assert (y' = d') as -> by congruence. congruence.
    + destruct (own_shown (shown F) m m' P P') as (y & y' & Y & Y' & _ & _ & Z).
      apply Z. assert (y = d) as -> by congruence. assert (y' = d') as -> by congruence. congruence.
  - intros S. destruct S; cbn [connect_error_text recv_error_text open_error_text]; unfold open_error_text; try congruence.
    + destruct (own_shown (shown F) m m' P P') as (y & y' & Y & Y' & _ & _ & Z). rewrite Y, Y'. cbn [bind]. apply Z in H. congruence.
    + destruct (own_shown (shown F) m m' P P') as (y & y' & Y & Y' & _ & _ & Z). rewrite Y, Y'. cbn [bind]. apply Z in H. congruence.
Qed.

(** ** Connecting *)

Lemma received_readable (bd : build) (r r' : reader) (m : msg_own) (n : nat) :
  recv bd r = Ret (r', Some (Ok m)) -> (N.of_nat (pending r + n) < 4294967296)%N -> all_short (own_raw m) -> readable m.
Proof.
  intros R S A. apply recv_message in R as (U & P & L).
  pose proof (p_c15_owned_agrees bd (own_raw m)) as Q.
  destruct (ref_parse bd (own_raw m)) as [[x|]| | |] eqn:E; try contradiction; try congruence.
  assert (B : below_4gib (own_raw m)) by (unfold below_4gib; lia).
  destruct (parse_reads bd (own_raw m) x U B E) as (v & V & _).
  exists bd, (own_raw m), v, x. split; [|exact P]. now constructor.
Qed.

Lemma verdict_printable (r : reader) (h : handshake_out) (e : connect_error) :
  small_answers r h -> verdict r h (Done (Err e)) ->
  (forall m, e = CWelcome m \/ e = CNotice m -> all_short (own_raw m)) -> printable e.
Proof.
  intros S V A. unfold small_answers in S. fold (pending r) in S.
  assert (G : forall r w r' e, waits r w r' (Done (Err e)) -> printable e) by (inversion 1; exact I).
  assert (M : forall r w r' m n, waits r w r' (Done (Ok m)) -> (N.of_nat (pending r + read_size (w_reads w) + n) < 4294967296)%N ->
    all_short (own_raw m) -> readable m).
  { intros r0 w r' m n W L X. apply waits_message in W.
    apply (received_readable _ _ _ _ n W); [rewrite pending_arrive; lia|exact X]. }
  inversion V as [r1 e' W|r1 W|r1 m v W Q C|r1 m v W Q C D|r1 m v o' W Q C D]; subst.
  - now apply (G _ _ _ _ W).
  - apply (M _ _ _ _ (read_size (w_reads (h_second h))) W); [lia|auto].
  - exact I.
  - destruct (message_view _ _ _ _ (read_size (w_reads (h_second h))) W) as [_ L]; [lia|].
    inversion D as [r2 e' W2|r2 W2|r2 m2 v2 W2 Q2 C2|r2 m2 v2 W2 Q2 C2|r2 m2 v2 W2 Q2 C2 D2|r2 m2 v2 W2 Q2 C2 D2]; subst.
    + now apply (G _ _ _ _ W2).
    + exact I.
    + apply (M _ _ _ _ 0 W2); [lia|auto].
    + apply (M _ _ _ _ 0 W2); [lia|auto].
Qed.

(** C72. Whatever makes connecting fail can be printed, as long as the tags of the
    message that caused it are within the parser's limit. *)
Lemma p_c72_connect :
  forall (F : foreign) (cf : config) (tls : tls_out) (o : open_out) (h : handshake_out) (elapsed : bool) (e : connect_error),
    small_answers reader_new h -> connect cf tls o h elapsed = Ret (Done (Err e)) ->
    (forall m, e = CWelcome m \/ e = CNotice m -> all_short (own_raw m)) ->
    printable e /\ exists r, connect_error_text F e = Ret (b "failed to connect: " ++ r).
Proof.
  intros F cf tls o h el e S C A. apply p_c64_failure in C; [|exact S].
  assert (P : printable e) by (destruct C; try exact I; eapply verdict_printable; eassumption).
  split; [exact P|]. now apply p_c72_text.
Qed.

(** A value whose length, taken modulo 65536, cuts a character in two. *)
Lemma long_value : exists v : str,
  length v = N.to_nat 65537 /\ utf8_valid v = true /\ ~ In " "%byte v /\ ~ In ";"%byte v /\ ~ In lf v /\ truncated v = [xc3].
Proof.
  remember (N.to_nat 32767) as n eqn:N.
  set (v := b "é" ++ concat (repeat (b "é") n) ++ b "a").
  assert (L : length v = N.to_nat 65537).
  { unfold v. rewrite !app_length, concat_repeat_length.
    change (length (b "é")) with 2. change (length (b "a")) with 1. lia. }
  assert (U : utf8_valid v = true).
  { unfold v. rewrite utf8_app by reflexivity. rewrite utf8_app; [reflexivity|].
    apply utf8_concat. apply Forall_forall. intros x I. apply repeat_spec in I. now subst. }
  assert (NI : forall c, ascii c = true -> c <> "a"%byte -> ~ In c v).
  { intros c A NA I. unfold v in I. apply in_app_or in I as [I|I].
    - cbn in I. intuition (subst; discriminate).
    - apply in_app_or in I as [I|I].
      + apply in_concat in I as (x & I1 & I2). apply repeat_spec in I1. subst x.
        cbn in I2. intuition (subst; discriminate).
      + cbn in I. intuition congruence. }
  assert (T : truncated v = [xc3]) by (unfold truncated; replace (N.of_nat (length v) mod 65536)%N with 1%N;
      [reflexivity|]; replace (N.of_nat (length v)) with 65537%N by lia; reflexivity).
  exists v. split; [exact L|]. split; [exact U|]. split; [apply NI; [reflexivity|discriminate]|].
  split; [apply NI; [reflexivity|discriminate]|]. split; [apply NI; [reflexivity|discriminate]|]. exact T.
Qed.

Lemma one_answer (bd : build) (l : str) (m : msg_own) : utf8_valid l = true -> ~ In lf l -> own_parse bd l = Ret (Some m) ->
  exists r, recv bd (mk_reader [] [Got (l ++ crlf)] false) = Ret (r, Some (Ok m)).
Proof.
  intros U NL P.
  destruct (p_c55_lines (fun _ => bd) (l ++ crlf) [l] [] [Got (l ++ crlf)] [] [Ok m]) as [r R].
  - exists [l ++ crlf]. split; [reflexivity|]. split; [|cbn [concat]; now rewrite app_nil_r].
    constructor; [|constructor]. destruct l; discriminate.
  - replace (l ++ crlf) with ((l ++ [cr]) ++ [lf] ++ []) by now rewrite <- app_assoc.
    apply lt_line; [|now left|constructor; intros []].
    intros I. apply in_app_or in I as [I|[I|[]]]; [tauto|discriminate].
  - constructor; [|constructor]. right. split; [exact U|]. left. eauto.
  - cbn [length recvs app] in R. destruct (recv bd (mk_reader [] [Got (l ++ crlf)] false)) as [[r1 x]| | |]; try discriminate R.
    cbn [bind map] in R. injection R as _ ->. now exists r1.
Qed.

Lemma unexpected_first (bd : build) (l : str) (v : view) (m : msg_own) (w : wait_out) :
  let h := mk_handshake_out WOk FOk (mk_wait [Got (l ++ crlf)] false bd) w in
  utf8_valid l = true -> ~ In lf l -> own_parse bd l = Ret (Some m) -> own_raw m = l ->
  spec_view l = Some v -> v_command v <> b "CAP" -> small_answers reader_new h ->
  forall cf, connect cf TlsOk OpOk h false = Ret (Done (Err (CWelcome m))).
Proof.
  intros h U NL P RW V NC SA cf. apply p_c64_failure; [exact SA|]. apply cf_verdict; try reflexivity; [now split|].
  destruct (one_answer bd l m U NL P) as [r R].
  apply (vd_not_cap reader_new h r m v); [|now rewrite RW|exact NC]. apply wt_message. exact R.
Qed.

Lemma owned_raw (bd : build) (s : str) (m : msg_own) : own_parse bd s = Ret (Some m) -> own_raw m = s.
Proof.
  unfold own_parse. destruct (ref_parse bd s) as [[x|]| | |]; try discriminate. cbn [bind]. intros [= <-]. reflexivity.
Qed.

(** C72. Otherwise printing it can panic: the first answer has a tag value of 65537 bytes. *)
Lemma p_c72_printing_panics_refuted :
  exists (h : handshake_out) (m : msg_own),
    small_answers reader_new h /\
    (forall cf, connect cf TlsOk OpOk h false = Ret (Done (Err (CWelcome m)))) /\
    (forall F, connect_error_text F (CWelcome m) = Panic).
Proof.
  destruct long_value as (v & L & U & N1 & N2 & N3 & T).
  assert (LL : length (color_line v) = N.to_nat 65549).
  { unfold color_line. rewrite !app_length, L. change (length (b "@color=")) with 7. change (length (b " PING")) with 5. lia. }
  assert (S : below_4gib (color_line v)) by (unfold below_4gib; lia).
  destruct (color_line_facts v U N2 N1 S) as (A & B & m & C).
  assert (R : ref_tags m = Panic).
  { apply line_tags_spec in B. destruct (parse_inv _ _ m A S C) as (_ & _ & w & V & Q1 & Q2 & _).
    destruct (ref_tags_any _ m A S Q1 Q2) as [R _]; [rewrite B; repeat constructor|].
    rewrite R, B. cbn [mapM]. unfold stored. cbn [snd]. now rewrite T. }
  assert (V : spec_view (color_line v) = Some (mk_view [(b "color", v)] None (b "PING") None None)).
  { unfold spec_view.
    assert (E : spec_tags (color_line v) = ([(b "color", v)], b "PING")).
    { apply (section_spec _ (b "color=" ++ v) (b "PING") _).
      - split; [unfold color_line; now rewrite <- !app_assoc|].
        intros I. apply in_app_or in I as [I|I]; [cbn in I; intuition discriminate|tauto].
      - apply (ts_last (b "color") v); [cbn; intuition discriminate|exact N2]. }
    rewrite E. reflexivity. }
  pose proof (p_c15_owned_agrees (Simd Sse2 0) (color_line v)) as Q. rewrite C in Q.
  destruct Q as (Q1 & _ & _ & Q3 & _).
  eexists (mk_handshake_out WOk FOk (mk_wait [Got (color_line v ++ crlf)] false (Simd Sse2 0)) (mk_wait [] false Scalar)),
    (ref_into_owned m).
  assert (SA : small_answers reader_new (mk_handshake_out WOk FOk (mk_wait [Got (color_line v ++ crlf)] false (Simd Sse2 0)) (mk_wait [] false Scalar))).
  { unfold small_answers, reader_new. cbn [rd_buf rd_reads h_first h_second w_reads read_size length].
    rewrite app_length, LL. change (length crlf) with 2. lia. }
  split; [exact SA|]. split.
  - refine (unexpected_first (Simd Sse2 0) (color_line v) _ (ref_into_owned m) (mk_wait [] false Scalar)
             A _ Q1 (owned_raw _ _ _ Q1) V _ SA); [|discriminate].
    unfold color_line. intros I. apply in_app_or in I as [I|I]; [cbn in I; intuition discriminate|].
    apply in_app_or in I as [I|I]; [tauto|cbn in I; intuition discriminate].
  - intros F. cbn [connect_error_text]. unfold dbg_own. rewrite Q3, R. reflexivity.
Qed.

(** ** One line *)

Lemma visible_lit (s : str) :
  forallb (fun c => (32 <=? Byte.to_N c)%N && negb (Byte.to_N c =? 127)%N) s = true -> Forall visible s.
Proof. intros P. rewrite forallb_forall in P. apply Forall_forall. intros c I. apply P in I. unfold visible. lia. Qed.

Ltac lit := apply visible_lit; reflexivity.

(** C72. The text is one line without control characters, unless it quotes a line that
    has some. *)
Lemma p_c72_one_line :
  forall (F : foreign) (e : connect_error), visible_foreign F -> printable e ->
    exists t, connect_error_text F e = Ret t /\
      (Forall visible t <-> forall s, e = CRead (RecvParse s) -> Forall visible s).
Proof.
  intros F e (VI & VD & VC) P. destruct (text_rest F e P) as (r & T & R). exists (b "failed to connect: " ++ r).
  split; [exact T|]. rewrite Forall_app. split.
  - intros [_ X] s ->. inversion R; subst. cbn [recv_error_text] in X. apply Forall_app in X as [_ X].
    now apply Forall_app in X as [X _].
  - intros X. split; [lit|]. destruct R; repeat (apply Forall_app; split); try lit; auto; try now apply show_visible.
    destruct e as [k|s|]; cbn [recv_error_text]; repeat (apply Forall_app; split); try lit; auto.
Qed.

Definition sample_foreign : foreign :=
  mk_foreign (fun k => match k with ConnectionRefused => b "connection refused" | _ => b "other error" end)
    (b "invalid dns name") (b "no certificates") (fun _ => true).

(** C72. Such a line can come from the server: the text then carries its control
    characters to wherever it is printed. *)
Lemma p_c72_control_characters_refuted :
  exists (h : handshake_out) (e : connect_error) (t : str),
    small_answers reader_new h /\ visible_foreign sample_foreign /\
    (forall cf, connect cf TlsOk OpOk h false = Ret (Done (Err e))) /\
    connect_error_text sample_foreign e = Ret t /\ ~ Forall visible t.
Proof.
  set (l := b ":" ++ [x1b] ++ b "[2J ").
  exists (sample_handshake l (b "001 me")), (CRead (RecvParse l)).
  eexists. split; [vm_compute; reflexivity|]. split.
  { split; [|split; lit]. intros []; lit. }
  split; [intros cf; vm_compute; reflexivity|]. split; [reflexivity|].
  intros X. rewrite !Forall_app in X. cbn [recv_error_text] in X. rewrite !Forall_app in X.
  destruct X as (_ & _ & X & _). apply Forall_inv_tail, Forall_inv in X. destruct X as [X _]. cbn in X. lia.
Qed.

(** ** Reconnecting *)

(** C72. The error of [reconnect] quotes its source; that is the error of the last
    attempt, if there was one. *)
Lemma p_c72_reconnect :
  forall (F : foreign) (fuel : nat) (oracle : nat -> attempt) (c c' : client) (tr : list Client.event) (o : outcome)
         (err : reconnect_error),
    small_oracle oracle -> reconnect fuel oracle c = Ret (c', tr, o) -> returned o = Some err ->
    exists e, reconnect_source err = Some e /\
      (forall t, connect_error_text F e = Ret t ->
         reconnect_error_text F err = Ret (b "all reconnect attempts failed. last error was: " ++ t)) /\
      (attempts tr = 0 -> e = CTimeout) /\
      (forall j, attempts tr = S j -> attempt_error (oracle j) e).
Proof.
  intros F fuel oracle c c' tr o err S R E. exists (re_cause err). split; [reflexivity|]. split.
  { intros t T. unfold reconnect_error_text. now rewrite T. }
  destruct o as [[[]|e]| |]; try discriminate E. injection E as <-. cbn [re_cause].
  destruct (p_c52_how_it_ends fuel oracle c c' tr _ S R) as (k & B & [(W & A & x & X & Z & Y)|(W & A & K)]); [discriminate| |].
  - injection X as <-. rewrite A. split; [exact Z|]. intros j J. left. now apply Y.
  - assert (SL : a_sleeps (oracle k) = true) by (inversion A; auto). rewrite SL in K. rewrite K. split; [lia|].
    intros j J. assert (j = k) as -> by lia. now right.
Qed.

(** C72. The text is wrong when there was no attempt: it reports a timeout. *)
Lemma p_c72_last_error_refuted :
  exists (c c' : client) (err : reconnect_error),
    reconnect 9 (fun _ => accepted) c = Ret (c', [], Finished (Err (re_cause err))) /\
    returned (Finished (Err (re_cause err))) = Some err /\
    forall F, reconnect_error_text F err =
      Ret (b "all reconnect attempts failed. last error was: failed to connect: connection timed out").
Proof.
  exists (sample_client (credentials_anon 12345) (mk_backoff (Some 0%N) (secs 1) 1 (secs 1))).
  eexists _, (mk_reconnect_error CTimeout). split; [vm_compute; reflexivity|]. split; [reflexivity|]. reflexivity.
Qed.

(** C72. It says that all attempts failed even though seven of eight were never made. *)
Lemma p_c72_all_attempts_refuted :
  exists (oracle : nat -> attempt) (c c' : client) (tr : list Client.event) (err : reconnect_error),
    max_tries (cf_backoff (c_config c)) = Some 8%N /\
    settles (oracle 1) (Finished (Ok tt)) /\
    reconnect 9 oracle c = Ret (c', tr, Finished (Err (re_cause err))) /\ attempts tr = 1 /\
    forall F, reconnect_error_text F err =
      Ret (b "all reconnect attempts failed. last error was: failed to connect: failed to read message: stream closed").
Proof.
  set (closing := mk_attempt true OpOk (mk_handshake_out WOk FOk (mk_wait [Got []] false Scalar) (mk_wait [] false Scalar)) false).
  exists (fun j => if j =? 0 then closing else accepted), (sample_client (credentials_anon 12345) backoff_default).
  eexists _, _, (mk_reconnect_error (CRead RecvStreamClosed)). split; [reflexivity|].
  split.
  { destruct ex_c52 as (_ & _ & X & _). exact X. }
  split; [vm_compute; reflexivity|]. split; [reflexivity|]. reflexivity.
Qed.

(** ** Texts that mislead *)

(** C72. A server that refuses the capabilities is reported as invalid credentials,
    before it has answered anything about them. *)
Lemma p_c72_credentials_refuted :
  exists (h : handshake_out) (e : connect_error),
    delivered h /\ h_second h = mk_wait [] false Scalar /\
    (forall cf, connect cf TlsOk OpOk h false = Ret (Done (Err e))) /\
    forall F, connect_error_text F e = Ret (b "failed to connect: invalid credentials").
Proof.
  exists (mk_handshake_out WOk FOk (mk_wait [Got (b "CAP * NAK" ++ crlf)] false Scalar) (mk_wait [] false Scalar)), CAuth.
  split; [now split|]. split; [reflexivity|]. split; [intros cf; vm_compute; reflexivity|]. reflexivity.
Qed.

(** C72. A server whose first message is [001] is told that [001] was expected. *)
Lemma p_c72_expected_refuted :
  exists (h : handshake_out) (e : connect_error),
    delivered h /\ (forall cf, connect cf TlsOk OpOk h false = Ret (Done (Err e))) /\
    connect_error_text sample_foreign e =
      Ret (b "failed to connect: expected `NOTICE` or `001` as first message, instead received: " ++
           b "IrcMessage { tags: [], prefix: None, command: RplWelcome, channel: None, params: Some(""me"") }").
Proof.
  eexists (sample_handshake (b "001 me") []), _. split; [now split|].
  split; [intros cf; vm_compute; reflexivity|]. vm_compute. reflexivity.
Qed.

(** ** Sending and receiving *)

(** C72. A failed send names the I/O error, or says that the text was not terminated;
    the latter only for raw texts that are not. *)
Lemma p_c72_send :
  forall (F : foreign) (c c' : client) (k : call) (w : write_out) (e : send_error),
    run_call c k w = (c', Done (Err e)) ->
    (exists n kind, w = WErr n kind /\ send_error_text F e = b "failed to write message: " ++ io_text F kind) \/
    (exists s, k = CallRaw s /\ ~ ends_crlf s /\ c' = c /\
       send_error_text F e =
         b "failed to write message: message was incorrectly formatted, not terminated by ""\r\n""").
Proof.
  intros F c c' k w e R.
  assert (G : (is_raw k -> ends_crlf (call_line k)) ->
    exists n kind, w = WErr n kind /\ send_error_text F e = b "failed to write message: " ++ io_text F kind).
  { intros G. rewrite run_call_spec in R by exact G. destruct w as [|n kd|n]; try discriminate R.
    injection R as _ <-. exists n, kd. split; reflexivity. }
  destruct k as [s| | | | |]; try (left; apply G; intros [x X]; discriminate X).
  destruct (ends_with crlf s) eqn:E.
  - left. apply G. intros _. now apply ends_with_crlf.
  - right. assert (N : ~ ends_crlf s) by (intros K; apply ends_with_crlf in K; congruence).
    rewrite run_raw_invalid in R by exact N. injection R as <- <-. exists s. auto.
Qed.

(** C72. The texts of errors of sending tell them apart in the same way. *)
Lemma p_c72_send_tells :
  forall (F : foreign) (e e' : send_error), ordinary F ->
    (send_error_text F e = send_error_text F e' <-> same_send F e e').
Proof.
  intros F e e' O.
  assert (C : forall k, b "failed to write message: " ++ io_text F k <> b "failed to write message: " ++ b "stream closed").
  { intros k E. apply app_same in E. exact (or_closed F O k E). }
  assert (I : forall k x, b "failed to write message: " ++ io_text F k <>
    b "failed to write message: " ++ b "message was incorrectly formatted" ++ x).
  { intros k x E. apply app_same in E. exact (or_format F O k x E). }
  split.
  - destruct e as [k| |], e' as [k'| |]; cbn [send_error_text]; intros E; try constructor.
    + exact (app_same _ _ _ E).
    + exfalso. exact (C k E).
    + exfalso. exact (I k _ E).
    + exfalso. exact (C k' (eq_sym E)).
    + exfalso. cbv in E. discriminate E.
    + exfalso. exact (I k' _ (eq_sym E)).
    + exfalso. cbv in E. discriminate E.
  - intros []; cbn [send_error_text]; congruence.
Qed.

(** C72. A failed [recv] names the I/O error, quotes the rejected line, or says that
    the stream is closed. *)
Lemma p_c72_recv :
  forall (F : foreign) (bd : build) (r r' : reader) (e : recv_error),
    recv bd r = Ret (r', Some (Err e)) ->
    (exists k, e = RecvIo k /\ recv_error_text F e = b "failed to read message: " ++ io_text F k) \/
    (exists l, e = RecvParse l /\ own_parse bd l = Ret None /\
       recv_error_text F e = b "failed to read message: invalid message `" ++ l ++ b "`") \/
    (e = RecvStreamClosed /\ recv_error_text F e = b "failed to read message: stream closed").
Proof.
  intros F bd r r' e. unfold recv. destruct (poll_next r) as [r1 p]. destruct p as [|[[l|k]|]]; try discriminate.
  - destruct (own_parse bd l) as [[x|]| | |] eqn:O; try discriminate; cbn [bind]; intros [= <- <-]. right. left. eauto.
  - intros [= <- <-]. left. exists k. split; reflexivity.
  - intros [= <- <-]. right. right. split; reflexivity.
Qed.

(** ** Examples *)

Example ex_c72_tells :
  ordinary sample_foreign /\ visible_foreign sample_foreign /\
  printable CTimeout /\ (exists m, own_parse Scalar (b ":tmi.twitch.tv NOTICE * :Improperly formatted auth") = Ret (Some m) /\
    printable (CNotice m) /\
    connect_error_text sample_foreign (CNotice m) =
      Ret (b "failed to connect: received unrecognized notice: IrcMessage { tags: [], " ++
           b "prefix: Some(Prefix { nick: None, user: None, host: ""tmi.twitch.tv"" }), command: Notice, channel: None, " ++
           b "params: Some(""* :Improperly formatted auth"") }")) /\
  connect_error_text sample_foreign (COpen ConnectionRefused) =
    Ret (b "failed to connect: failed to open tls stream: connection refused").
Proof.
  split; [|split; [|split; [exact I|split]]].
  - constructor; try (intros []; discriminate); cbn [own_phrases In];
      intros; intros E; repeat match goal with H : _ \/ _ |- _ => destruct H as [H|H] end; subst; try tauto;
      try (destruct e; cbv in E; discriminate E); cbv in E; discriminate E.
  - split; [|split; lit]. intros []; lit.
  - eexists. split; [vm_compute; reflexivity|]. split; [|vm_compute; reflexivity].
    exists Scalar, (b ":tmi.twitch.tv NOTICE * :Improperly formatted auth"). eexists _, _. split; [|vm_compute; reflexivity].
    constructor; [reflexivity|reflexivity| |vm_compute; reflexivity|vm_compute; reflexivity].
    intros sec rest l [H _] _. discriminate H.
  - reflexivity.
Qed.

Example ex_c72_reconnect :
  let c := sample_client (credentials_anon 12345) backoff_default in
  small_oracle (fun _ => refused) /\
  exists c' tr err, reconnect 9 (fun _ => refused) c = Ret (c', tr, Finished (Err (re_cause err))) /\ attempts tr = 8 /\
    reconnect_error_text sample_foreign err =
      Ret (b "all reconnect attempts failed. last error was: failed to connect: " ++
           b "failed to open tls stream: connection refused").
Proof.
  split; [intros j; vm_compute; reflexivity|].
  eexists _, _, (mk_reconnect_error (COpen ConnectionRefused)). split; [vm_compute; reflexivity|]. split; reflexivity.
Qed.

Example ex_c72_send :
  let c := sample_client (credentials_anon 12345) backoff_default in
  run_call c (CallRaw (b "PING")) WOk = (c, Done (Err SendInvalidMessage)) /\
  snd (run_call c (CallPing (b "x")) (WErr 2 BrokenPipe)) = Done (Err (SendIo BrokenPipe)) /\
  send_error_text sample_foreign (SendIo BrokenPipe) = b "failed to write message: other error" /\
  exists r, recv Scalar (mk_reader [] [Got (b ":a " ++ crlf)] false) = Ret (r, Some (Err (RecvParse (b ":a ")))) /\
    recv_error_text sample_foreign (RecvParse (b ":a ")) = b "failed to read message: invalid message `:a `".
Proof. repeat (split; [vm_compute; reflexivity|]). eexists. split; vm_compute; reflexivity. Qed.
