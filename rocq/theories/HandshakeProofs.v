(** * HandshakeProofs: handshake and reconnecting (C49 to C54). *)

From Verif Require Import Base Wide Tags Irc SpecIrc MsgBase MsgTypes SpecMsg Common Client SpecClient LineProofs.
From Coq Require Import Lia ZifyBool ZifyNat ZifyN.
From Verif Require Import BaseFacts IrcFacts Utf8Facts IrcProofs LineProofs AccessProofs FieldFacts TypedFacts RecvProofs SmallProofs SendProofs.

(** ** The text sent *)

Lemma greeting_text (cr : credentials) : greeting cr (handshake_text cr).
Proof.
  unfold greeting, handshake_text. set (tok := match token cr with Some t => t | None => b "just_a_lil_guy" end).
  destruct (starts_with (b "oauth:") tok) eqn:E.
  - apply starts_with_true in E as [t E]. exists tok. split; [|reflexivity]. exists t. auto.
  - exists (b "oauth:" ++ tok). split; [|rewrite <- !app_assoc; reflexivity]. exists tok. split; [reflexivity|]. right.
    split; [reflexivity|]. intros x K. assert (starts_with (b "oauth:") tok = true); [|congruence].
    apply starts_with_true. eauto.
Qed.

Lemma password_unique (tok p q : str) : password tok p -> password tok q -> p = q.
Proof.
  intros (t & -> & [A|[A NA]]) (u & -> & [B|[B NB]]).
  - congruence.
  - exfalso. apply (NB t). congruence.
  - exfalso. apply (NA u). congruence.
  - congruence.
Qed.

Lemma greeting_unique (cr : credentials) (s t : str) : greeting cr s -> greeting cr t -> s = t.
Proof. intros (p & P & ->) (q & Q & ->). now rewrite (password_unique _ p q P Q). Qed.

Lemma greeting_iff (cr : credentials) (s : str) : greeting cr s <-> s = handshake_text cr.
Proof.
  split; [|intros ->; apply greeting_text]. intros G. apply (greeting_unique cr); [exact G|apply greeting_text].
Qed.

Definition told (c : client) : str := c_scratch c ++ handshake_text (cf_credentials (c_config c)).

Lemma handshake_cases (c : client) (h : handshake_out) :
  handshake c h =
  match h_write h with
  | WErr n e => Ret (mk_client (told c) (c_wire c ++ firstn n (told c)) (c_log c) (c_reader c) (c_config c), Done (Err (CIo e)))
  | WDrop n => Ret (mk_client (told c) (c_wire c ++ firstn n (told c)) (c_log c) (c_reader c) (c_config c), Dropped)
  | WOk =>
    match h_flush h with
    | FErr e => Ret (mk_client (told c) (c_wire c ++ told c) (c_log c) (c_reader c) (c_config c), Done (Err (CIo e)))
    | FDrop => Ret (mk_client (told c) (c_wire c ++ told c) (c_log c) (c_reader c) (c_config c), Dropped)
    | FOk => handshake_verdict (mk_client [] (c_wire c ++ told c) (c_log c) (c_reader c) (c_config c)) h
    end
  end.
Proof. unfold handshake, told. destruct (h_write h); reflexivity. Qed.

(** ** Waiting *)

Lemma recv_timeout_iff (c : client) (w : wait_out) (c' : client) (o : fin (result msg_own connect_error)) :
  recv_timeout c w = Ret (c', o) <-> exists r, c' = set_reader c r /\ waits (c_reader c) w r o.
Proof.
  unfold recv_timeout. split.
  - destruct (recv (w_build w) (arrive (c_reader c) (w_reads w))) as [[r x]| | |] eqn:E; try discriminate. cbn [bind].
    intros H. exists r. destruct x as [[m|e]|].
    + injection H as <- <-. split; [reflexivity|now constructor].
    + injection H as <- <-. split; [reflexivity|now constructor].
    + destruct (w_dropped w) eqn:D; injection H as <- <-; (split; [reflexivity|now constructor]).
  - intros (r & -> & W). inversion W as [? m E|? e E|? E D|? E D]; subst; rewrite E; cbn [bind]; rewrite ?D; reflexivity.
Qed.

Lemma waits_unique (r : reader) (w : wait_out) (r1 r2 : reader) (o1 o2 : fin (result msg_own connect_error)) :
  waits r w r1 o1 -> waits r w r2 o2 -> r1 = r2 /\ o1 = o2.
Proof.
  intros A B. inversion A as [? ? E|? ? E|? E D|? E D]; subst; inversion B as [? ? E'|? ? E'|? E' D'|? E' D']; subst;
    rewrite E' in E; try discriminate; try (injection E as -> ->); try (injection E as ->); try congruence; auto.
Qed.

Lemma read_size_app (l l' : list read) : read_size (l ++ l') = read_size l + read_size l'.
Proof. induction l as [|[s|e] l IH]; cbn [app read_size]; lia. Qed.

Lemma finish_size (s l : str) : finish_line s = Ok l -> length l <= length s.
Proof.
  unfold finish_line. destruct (utf8_valid s); [|discriminate].
  destruct (strip_suffix [lf] s) as [x|] eqn:E; [|intros [= <-]; lia].
  apply strip_suffix_spec in E. subst s. rewrite app_length.
  destruct (strip_suffix [cr] x) as [y|] eqn:E'; intros [= <-]; [|lia].
  apply strip_suffix_spec in E'. subst x. rewrite app_length. lia.
Qed.

Lemma poll_line_size (reads : list read) : forall (buf buf' : str) (reads' : list read) (p : polled),
  poll_line buf reads = (buf', reads', p) ->
  length buf' + read_size reads' + match p with Item (Some (Ok l)) => length l | _ => 0 end <=
  length buf + read_size reads.
Proof.
  induction reads as [|rd reads IH]; intros buf buf' reads' p; cbn [poll_line].
  - destruct (find_byte lf buf) as [i|].
    + intros [= <- <- <-]. pose proof (firstn_skipn (i + 1) buf) as E. apply (f_equal (@length byte)) in E. rewrite app_length in E.
      destruct (finish_line (firstn (i + 1) buf)) as [l|] eqn:F; [apply finish_size in F; lia|lia].
    + intros [= <- <- <-]. cbn. lia.
  - destruct (find_byte lf buf) as [i|].
    + intros [= <- <- <-]. pose proof (firstn_skipn (i + 1) buf) as E. apply (f_equal (@length byte)) in E. rewrite app_length in E.
      destruct (finish_line (firstn (i + 1) buf)) as [l|] eqn:F; [apply finish_size in F; lia|lia].
    + destruct rd as [[|x s]|e].
      * destruct buf as [|y buf].
        -- intros [= <- <- <-]. cbn. lia.
        -- intros [= <- <- <-]. destruct (finish_line (y :: buf)) as [l|] eqn:F; [apply finish_size in F; cbn in *; lia|cbn; lia].
      * intros E. apply IH in E. rewrite app_length in E. cbn [read_size length] in *. lia.
      * intros [= <- <- <-]. cbn. lia.
Qed.

Definition pending (r : reader) : nat := length (rd_buf r) + read_size (rd_reads r).

Lemma poll_next_size (r r' : reader) (p : polled) :
  poll_next r = (r', p) ->
  pending r' + match p with Item (Some (Ok l)) => length l | _ => 0 end <= pending r.
Proof.
  unfold poll_next. destruct (rd_ended r); [intros [= <- <-]; lia|].
  destruct (poll_line (rd_buf r) (rd_reads r)) as [[buf reads] q] eqn:E. apply poll_line_size in E. unfold pending.
  destruct q as [|[[l|e]|]]; intros [= <- <-]; cbn [rd_buf rd_reads] in *; lia.
Qed.

Lemma poll_line_valid (reads : list read) : forall (buf buf' : str) (reads' : list read) (l : str),
  poll_line buf reads = (buf', reads', Item (Some (Ok l))) -> utf8_valid l = true.
Proof.
  assert (F : forall s l, finish_line s = Ok l -> utf8_valid l = true).
  { intros s l. unfold finish_line. destruct (utf8_valid s) eqn:U; [|discriminate].
    destruct (strip_suffix [lf] s) as [x|] eqn:E; [|now intros [= <-]].
    apply strip_suffix_spec in E. subst s. apply (utf8_left x [] lf lf_ascii) in U.
    destruct (strip_suffix [cr] x) as [y|] eqn:E'; intros [= <-]; [|exact U].
    apply strip_suffix_spec in E'. subst x. now apply (utf8_left y [] cr cr_ascii) in U. }
  induction reads as [|rd reads IH]; intros buf buf' reads' l; cbn [poll_line].
  - destruct (find_byte lf buf) as [i|]; [|discriminate]. intros [= _ _ E]. now apply F in E.
  - destruct (find_byte lf buf) as [i|]; [intros [= _ _ E]; now apply F in E|].
    destruct rd as [[|x s]|e]; [|apply IH|discriminate].
    destruct buf as [|y buf]; [discriminate|]. intros [= _ _ E]. now apply F in E.
Qed.

Lemma recv_message (bd : build) (r r' : reader) (m : msg_own) :
  recv bd r = Ret (r', Some (Ok m)) ->
  utf8_valid (own_raw m) = true /\ own_parse bd (own_raw m) = Ret (Some m) /\
  pending r' + length (own_raw m) <= pending r.
Proof.
  unfold recv. destruct (poll_next r) as [r1 p] eqn:P. pose proof (poll_next_size r r1 p P) as SZ.
  destruct p as [|[[l|e]|]]; try discriminate.
  assert (U : utf8_valid l = true).
  { unfold poll_next in P. destruct (rd_ended r); [discriminate|].
    destruct (poll_line (rd_buf r) (rd_reads r)) as [[buf reads] q] eqn:E.
    destruct q as [|[[y|e]|]]; try discriminate; injection P as _ <-. now apply poll_line_valid in E. }
  destruct (own_parse bd l) as [[x|]| | |] eqn:O; try discriminate. cbn [bind]. intros [= <- <-].
  assert (own_raw x = l).
  { unfold own_parse in O. destruct (ref_parse bd l) as [[y|]| | |]; try discriminate. cbn [bind] in O. injection O as <-. reflexivity. }
  rewrite H. auto.
Qed.

Lemma recv_pending (bd : build) (r r' : reader) (o : option (result msg_own recv_error)) :
  recv bd r = Ret (r', o) -> pending r' <= pending r.
Proof.
  unfold recv. destruct (poll_next r) as [r1 p] eqn:P. pose proof (poll_next_size r r1 p P) as SZ.
  destruct p as [|[[l|e]|]]; try (intros [= <- <-]; lia).
  destruct (own_parse bd l) as [[x|]| | |]; try discriminate; cbn [bind]; intros [= <- <-]; lia.
Qed.

(** What the accessors give for a received message. *)
Lemma own_reads (bd : build) (m : msg_own) :
  utf8_valid (own_raw m) = true -> below_4gib (own_raw m) -> own_parse bd (own_raw m) = Ret (Some m) ->
  exists v, spec_view (own_raw m) = Some v /\ own_command m = Ret (spec_command (v_command v)) /\
    own_params m = Ret (v_params v).
Proof.
  intros U S O. pose proof (p_c15_owned_agrees bd (own_raw m)) as A.
  destruct (ref_parse bd (own_raw m)) as [[r|]| | |] eqn:E; try contradiction; try congruence.
  destruct A as (A1 & A2 & A3 & A4 & A5 & A6 & A7 & A8 & A9).
  assert (X : m = ref_into_owned r) by congruence.
  destruct (parse_reads bd (own_raw m) r U S E) as (v & V & [R1 R2 R3 R4 R5 R6]).
  exists v. split; [exact V|]. rewrite X, A7, A9. split; [exact R3|exact R5].
Qed.

Lemma command_is (w n : str) (c : command) : In (n, c) known_commands -> (spec_command w = c <-> w = n).
Proof. intros I. destruct (spec_command_names w) as (F & _). rewrite Forall_forall in F. exact (F _ I). Qed.

Lemma contains_spec (p s : str) : contains p s = true <-> infix p s.
Proof.
  unfold contains, infix. destruct (split_once p s) as [[l r]|] eqn:E.
  - apply split_once_around in E as [E _]. split; eauto.
  - split; [discriminate|]. intros K. exfalso. now apply (proj1 (split_once_none p s) E).
Qed.

(** ** C51 *)

Lemma pending_arrive (r : reader) (l : list read) : pending (arrive r l) = pending r + read_size l.
Proof. unfold pending, arrive. cbn. rewrite read_size_app. lia. Qed.

Lemma waits_message (r r' : reader) (w : wait_out) (m : msg_own) :
  waits r w r' (Done (Ok m)) ->
  recv (w_build w) (arrive r (w_reads w)) = Ret (r', Some (Ok m)).
Proof. now inversion 1. Qed.

Lemma message_view (r r' : reader) (w : wait_out) (m : msg_own) (n : nat) :
  waits r w r' (Done (Ok m)) -> (N.of_nat (pending r + read_size (w_reads w) + n) < 4294967296)%N ->
  (exists v, spec_view (own_raw m) = Some v /\ own_command m = Ret (spec_command (v_command v)) /\
    own_params m = Ret (v_params v)) /\ (N.of_nat (pending r' + n) < 4294967296)%N.
Proof.
  intros W S. apply waits_message in W. apply recv_message in W as (U & P & L). rewrite pending_arrive in L.
  split; [|lia]. apply (own_reads (w_build w)); auto. unfold below_4gib. lia.
Qed.

Lemma starts_ack (v : view) :
  v_command v = b "CAP" ->
  (match v_params v with Some p => starts_with (b "* ACK") p | None => false end = true <-> acknowledges v).
Proof.
  intros C. unfold acknowledges. destruct (v_params v) as [p|].
  - rewrite starts_with_true. split.
    + intros [r ->]. split; [exact C|]. now exists r.
    + intros (_ & r & [= ->]). now exists r.
  - split; [discriminate|]. intros (_ & r & K). discriminate.
Qed.

Lemma contains_denial (v : view) :
  v_command v = b "NOTICE" ->
  (match v_params v with Some p => contains (b "authentication failed") p | None => false end = true <-> denies v).
Proof.
  intros C. unfold denies. destruct (v_params v) as [p|].
  - rewrite contains_spec. split; [intros H; split; [exact C|now exists p]|]. intros (_ & q & [= <-] & H). exact H.
  - split; [discriminate|]. intros (_ & r & K & _). discriminate.
Qed.

Lemma bool_case (x : bool) (P : Prop) : (x = true <-> P) -> (x = true /\ P) \/ (x = false /\ ~ P).
Proof. intros H. destruct x; [left|right]; split; auto; [now apply H|]. intros K. apply H in K. discriminate. Qed.

Ltac known := cbn; tauto.

(** The second half of the verdict, as code. *)
Definition second_part (c : client) (h : handshake_out) : res (client * fin (result unit connect_error)) :=
  let! (c, o) := recv_timeout c (h_second h) in
  match o with
  | Dropped => Ret (c, Dropped)
  | Done (Err e) => Ret (c, Done (Err e))
  | Done (Ok message) =>
    let! cmd := own_command message in
    match cmd with
    | RplWelcome => Ret (c, Done (Ok tt))
    | Notice =>
      let! params := own_params message in
      if match params with Some v => contains (b "authentication failed") v | None => false end
      then Ret (c, Done (Err CAuth))
      else Ret (c, Done (Err (CNotice message)))
    | _ => Ret (c, Done (Err (CWelcome message)))
    end
  end.

Lemma second_iff (c : client) (h : handshake_out) (o : fin (result unit connect_error)) :
  (N.of_nat (pending (c_reader c) + read_size (w_reads (h_second h))) < 4294967296)%N ->
  ((exists r, second_part c h = Ret (set_reader c r, o)) <-> second_verdict (c_reader c) h o) /\
  (forall c' o', second_part c h = Ret (c', o') -> exists r, c' = set_reader c r).
Proof.
  intros S. unfold second_part.
  assert (M : forall r m, waits (c_reader c) (h_second h) r (Done (Ok m)) ->
    exists v, spec_view (own_raw m) = Some v /\ own_command m = Ret (spec_command (v_command v)) /\ own_params m = Ret (v_params v)).
  { intros r m W. apply (message_view _ _ _ _ 0) in W as [W _]; [exact W|lia]. }
  split; [split|].
  - intros (r & E). destruct (recv_timeout c (h_second h)) as [[c1 x]| | |] eqn:T; try discriminate. cbn [bind] in E.
    apply recv_timeout_iff in T as (r1 & -> & W). destruct x as [[m|e]|].
    + destruct (M r1 m W) as (v & V & C & P). rewrite C in E. cbn [bind] in E.
      pose proof (command_is (v_command v) (b "001") RplWelcome ltac:(known)) as K1.
      pose proof (command_is (v_command v) (b "NOTICE") Notice ltac:(known)) as K2.
      assert (OT : spec_command (v_command v) <> RplWelcome -> spec_command (v_command v) <> Notice ->
                   second_verdict (c_reader c) h (Done (Err (CWelcome m)))).
      { intros A1 A2. apply (vd_other _ _ r1 m v); auto; intros Q; [apply A1|apply A2]; [now apply K1|now apply K2]. }
      destruct (spec_command (v_command v)) eqn:SC; try (injection E as _ <-; apply OT; discriminate).
      * rewrite P in E. cbn [bind] in E. assert (CN : v_command v = b "NOTICE") by now apply K2.
        destruct (bool_case _ _ (contains_denial v CN)) as [[B D]|[B D]]; rewrite B in E; injection E as _ <-;
          [now apply (vd_denied _ _ r1 m v)|now apply (vd_notice _ _ r1 m v)].
      * injection E as _ <-. apply (vd_welcome _ _ r1 m v); auto. now apply K1.
    + injection E as _ <-. now apply (vd_second_failed _ _ r1).
    + injection E as _ <-. now apply (vd_second_dropped _ _ r1).
  - intros V.
    assert (T : forall r x, waits (c_reader c) (h_second h) r x -> recv_timeout c (h_second h) = Ret (set_reader c r, x)).
    { intros r x W. apply recv_timeout_iff. eauto. }
    inversion V as [r1 e W|r1 W|r1 m v W Q C|r1 m v W Q C|r1 m v W Q C D|r1 m v W Q C D]; subst;
      exists r1; rewrite (T _ _ W); cbn [bind]; try reflexivity;
      destruct (M r1 m W) as (v' & V' & EC & EP); rewrite Q in V'; injection V' as <-; rewrite EC; cbn [bind].
    + rewrite C. reflexivity.
    + pose proof C as [C1 _]. rewrite C1, EP. change (spec_command (b "NOTICE")) with Notice. cbn [bind].
      apply (contains_denial v C1) in C. now rewrite C.
    + rewrite C, EP. change (spec_command (b "NOTICE")) with Notice. cbn [bind].
      destruct (bool_case _ _ (contains_denial v C)) as [[B X]|[B X]]; [contradiction|]. now rewrite B.
    + pose proof (command_is (v_command v) (b "001") RplWelcome ltac:(known)) as K1.
      pose proof (command_is (v_command v) (b "NOTICE") Notice ltac:(known)) as K2.
      destruct (spec_command (v_command v)); try reflexivity; exfalso; [apply D, K2|apply C, K1]; reflexivity.
  - intros c' o' E. destruct (recv_timeout c (h_second h)) as [[c1 x]| | |] eqn:T; try discriminate. cbn [bind] in E.
    apply recv_timeout_iff in T as (r1 & -> & W). exists r1. destruct x as [[m|e]|]; [|now injection E|now injection E].
    destruct (own_command m) as [cm| | |]; try discriminate. cbn [bind] in E.
    destruct cm; try now injection E.
    destruct (own_params m) as [ps| | |]; try discriminate. cbn [bind] in E.
    destruct (match ps with Some v => contains (b "authentication failed") v | None => false end); now injection E.
Qed.

Lemma verdict_code (c : client) (h : handshake_out) :
  handshake_verdict c h =
  let! (c, o) := recv_timeout c (h_first h) in
  match o with
  | Dropped => Ret (c, Dropped)
  | Done (Err e) => Ret (c, Done (Err e))
  | Done (Ok message) =>
    let! cmd := own_command message in
    match cmd with
    | Capability =>
      let! params := own_params message in
      if match params with Some v => starts_with (b "* ACK") v | None => false end then second_part c h
      else Ret (c, Done (Err CAuth))
    | _ => Ret (c, Done (Err (CWelcome message)))
    end
  end.
Proof. reflexivity. Qed.

Lemma verdict_iff (c : client) (h : handshake_out) (o : fin (result unit connect_error)) :
  small_answers (c_reader c) h ->
  ((exists r, handshake_verdict c h = Ret (set_reader c r, o)) <-> verdict (c_reader c) h o) /\
  (forall c' o', handshake_verdict c h = Ret (c', o') -> exists r, c' = set_reader c r).
Proof.
  intros S. rewrite verdict_code. unfold small_answers in S. fold (pending (c_reader c)) in S.
  assert (M : forall r m, waits (c_reader c) (h_first h) r (Done (Ok m)) ->
    (exists v, spec_view (own_raw m) = Some v /\ own_command m = Ret (spec_command (v_command v)) /\ own_params m = Ret (v_params v)) /\
    (N.of_nat (pending r + read_size (w_reads (h_second h))) < 4294967296)%N).
  { intros r m W. now apply (message_view _ _ _ _ (read_size (w_reads (h_second h)))) in W. }
  split; [split|].
  - intros (r & E). destruct (recv_timeout c (h_first h)) as [[c1 x]| | |] eqn:T; try discriminate. cbn [bind] in E.
    apply recv_timeout_iff in T as (r1 & -> & W). destruct x as [[m|e]|].
    + destruct (M r1 m W) as [(v & V & C & P) S2]. rewrite C in E. cbn [bind] in E.
      pose proof (command_is (v_command v) (b "CAP") Capability ltac:(known)) as K1.
      assert (OT : spec_command (v_command v) <> Capability -> verdict (c_reader c) h (Done (Err (CWelcome m)))).
      { intros A1. apply (vd_not_cap _ _ r1 m v); auto. intros Q. apply A1. now apply K1. }
      destruct (spec_command (v_command v)) eqn:SC; try (injection E as _ <-; apply OT; discriminate).
      rewrite P in E. cbn [bind] in E. assert (CN : v_command v = b "CAP") by now apply K1.
      destruct (bool_case _ _ (starts_ack v CN)) as [[B D]|[B D]]; rewrite B in E.
      * apply (vd_acknowledged _ _ r1 m v); auto. apply (second_iff (set_reader c r1) h o S2). exists r. exact E.
      * injection E as _ <-. now apply (vd_refused _ _ r1 m v).
    + injection E as _ <-. now apply (vd_first_failed _ _ r1).
    + injection E as _ <-. now apply (vd_first_dropped _ _ r1).
  - intros V.
    assert (T : forall r x, waits (c_reader c) (h_first h) r x -> recv_timeout c (h_first h) = Ret (set_reader c r, x)).
    { intros r x W. apply recv_timeout_iff. eauto. }
    inversion V as [r1 e W|r1 W|r1 m v W Q C|r1 m v W Q C D|r1 m v o' W Q C D]; subst;
      rewrite (T _ _ W); cbn [bind]; try (now exists r1);
      destruct (M r1 m W) as [(v' & V' & EC & EP) S2]; rewrite Q in V'; injection V' as <-; rewrite EC; cbn [bind].
    + exists r1. pose proof (command_is (v_command v) (b "CAP") Capability ltac:(known)) as K1.
      destruct (spec_command (v_command v)); try reflexivity; exfalso; apply C, K1; reflexivity.
    + exists r1. rewrite C, EP. change (spec_command (b "CAP")) with Capability. cbn [bind].
      destruct (bool_case _ _ (starts_ack v C)) as [[B X]|[B X]]; [contradiction|]. now rewrite B.
    + pose proof C as [C1 _]. rewrite C1, EP. change (spec_command (b "CAP")) with Capability. cbn [bind].
      apply (starts_ack v C1) in C. rewrite C. apply (second_iff (set_reader c r1) h o S2). exact D.
  - intros c' o' E. destruct (recv_timeout c (h_first h)) as [[c1 x]| | |] eqn:T; try discriminate. cbn [bind] in E.
    apply recv_timeout_iff in T as (r1 & -> & W). destruct x as [[m|e]|]; [|now exists r1; injection E|now exists r1; injection E].
    destruct (M r1 m W) as [_ S2].
    destruct (own_command m) as [cm| | |]; try discriminate. cbn [bind] in E.
    destruct cm; try (now exists r1; injection E).
    destruct (own_params m) as [ps| | |]; try discriminate. cbn [bind] in E.
    destruct (match ps with Some v => starts_with (b "* ACK") v | None => false end); [|now exists r1; injection E].
    apply (proj2 (second_iff (set_reader c r1) h o S2)) in E as [r2 ->]. now exists r2.
Qed.

Lemma frame (c c' : client) (h : handshake_out) (o : fin (result unit connect_error)) :
  handshake_verdict c h = Ret (c', o) -> exists r, c' = set_reader c r.
Proof.
  rewrite verdict_code.
  intros E. destruct (recv_timeout c (h_first h)) as [[c1 x]| | |] eqn:T; try discriminate. cbn [bind] in E.
  apply recv_timeout_iff in T as (r1 & -> & W). destruct x as [[m|e]|]; [|now exists r1; injection E|now exists r1; injection E].
  destruct (own_command m) as [cm| | |]; try discriminate. cbn [bind] in E.
  destruct cm; try (now exists r1; injection E).
  destruct (own_params m) as [ps| | |]; try discriminate. cbn [bind] in E.
  destruct (match ps with Some v => starts_with (b "* ACK") v | None => false end); [|now exists r1; injection E].
  clear W m ps. unfold second_part in E.
  destruct (recv_timeout (set_reader c r1) (h_second h)) as [[c1 x]| | |] eqn:T; try discriminate. cbn [bind] in E.
  apply recv_timeout_iff in T as (r2 & -> & W). exists r2. destruct x as [[m|e]|]; [|now injection E|now injection E].
  destruct (own_command m) as [cm| | |]; try discriminate. cbn [bind] in E.
  destruct cm; try now injection E.
  destruct (own_params m) as [ps| | |]; try discriminate. cbn [bind] in E.
  destruct (match ps with Some v => contains (b "authentication failed") v | None => false end); now injection E.
Qed.

(** C51. Once the handshake is delivered, its result is the verdict on the answers. *)
Lemma p_c51_verdict :
  forall (c : client) (h : handshake_out) (o : fin (result unit connect_error)),
    delivered h -> small_answers (c_reader c) h ->
    ((exists c', handshake c h = Ret (c', o)) <-> verdict (c_reader c) h o).
Proof.
  intros c h o [W F] S. rewrite handshake_cases, W, F.
  set (c1 := mk_client [] (c_wire c ++ told c) (c_log c) (c_reader c) (c_config c)).
  destruct (verdict_iff c1 h o S) as [A B]. split.
  - intros [c' E]. destruct (B _ _ E) as [r ->]. apply A. now exists r.
  - intros V. apply A in V as [r E]. eauto.
Qed.

Lemma second_verdict_unique (r : reader) (h : handshake_out) (o1 o2 : fin (result unit connect_error)) :
  second_verdict r h o1 -> second_verdict r h o2 -> o1 = o2.
Proof.
  assert (X : forall v, denies v -> v_command v = b "001" -> False).
  { intros v [E _] F. rewrite E in F. discriminate. }
  assert (Y : forall v, denies v -> v_command v <> b "NOTICE" -> False).
  { intros v [E _] F. contradiction. }
  intros A B.
  inversion A; subst; inversion B; subst;
    repeat match goal with
    | H : waits ?r ?w ?r1 ?x, K : waits ?r ?w ?r2 ?y |- _ =>
      let E := fresh in let F := fresh in
      destruct (waits_unique r w r1 r2 x y H K) as [E F]; clear K; try discriminate F; try (injection F as F); subst
    end; try reflexivity;
    repeat match goal with
    | H : spec_view ?s = Some ?v1, K : spec_view ?s = Some ?v2 |- _ =>
      let E := fresh in assert (E : v1 = v2) by congruence; clear K; subst
    end; try contradiction; try congruence; exfalso; eauto;
    match goal with H : v_command ?v = _, K : v_command ?v = _ |- _ => rewrite H in K; discriminate K end.
Qed.

(** C51. The verdict is unique. *)
Lemma p_c51_verdict_unique :
  forall (r : reader) (h : handshake_out) (o1 o2 : fin (result unit connect_error)),
    verdict r h o1 -> verdict r h o2 -> o1 = o2.
Proof.
  intros r h o1 o2 A B.
  inversion A; subst; inversion B; subst;
    repeat match goal with
    | H : waits ?r ?w ?r1 ?x, K : waits ?r ?w ?r2 ?y |- _ =>
      let E := fresh in let F := fresh in
      destruct (waits_unique r w r1 r2 x y H K) as [E F]; clear K; try discriminate F; try (injection F as F); subst
    end; try reflexivity;
    repeat match goal with
    | H : spec_view ?s = Some ?v1, K : spec_view ?s = Some ?v2 |- _ =>
      let E := fresh in assert (E : v1 = v2) by congruence; clear K; subst
    end; try contradiction; try congruence;
    try (match goal with H : acknowledges ?v |- _ => destruct H as [? ?] end; contradiction).
  eapply second_verdict_unique; eassumption.
Qed.

(** C51. Success means: CAP acknowledged, then 001. *)
Lemma p_c51_success :
  forall (c c' : client) (h : handshake_out),
    small_answers (c_reader c) h -> handshake c h = Ret (c', Done (Ok tt)) ->
    delivered h /\
    exists r1 r2 m1 m2 v1 v2,
      recv (w_build (h_first h)) (arrive (c_reader c) (w_reads (h_first h))) = Ret (r1, Some (Ok m1)) /\
      recv (w_build (h_second h)) (arrive r1 (w_reads (h_second h))) = Ret (r2, Some (Ok m2)) /\
      spec_view (own_raw m1) = Some v1 /\ acknowledges v1 /\
      spec_view (own_raw m2) = Some v2 /\ v_command v2 = b "001".
Proof.
  intros c c' h S E.
  assert (D : delivered h).
  { rewrite handshake_cases in E. unfold delivered.
    destruct (h_write h); try discriminate. destruct (h_flush h); try discriminate. auto. }
  split; [exact D|]. assert (V : verdict (c_reader c) h (Done (Ok tt))) by (apply p_c51_verdict; eauto).
  inversion V as [| | | |r1 m v o W Q C SV]; subst. inversion SV as [| |r2 m2 v2 W2 Q2 C2| | |]; subst.
  exists r1, r2, m, m2, v, v2. apply waits_message in W, W2. auto 10.
Qed.

(** The result for two lines from the server. *)
Definition two_line_result (bd1 bd2 : build) (l1 l2 : str) (v1 v2 : view) (o : fin (result unit connect_error)) : Prop :=
  exists m1 m2, own_parse bd1 l1 = Ret (Some m1) /\ own_parse bd2 l2 = Ret (Some m2) /\
  ((v_command v1 <> b "CAP" /\ o = Done (Err (CWelcome m1))) \/
   (v_command v1 = b "CAP" /\ ~ acknowledges v1 /\ o = Done (Err CAuth)) \/
   (acknowledges v1 /\ v_command v2 = b "001" /\ o = Done (Ok tt)) \/
   (acknowledges v1 /\ denies v2 /\ o = Done (Err CAuth)) \/
   (acknowledges v1 /\ v_command v2 = b "NOTICE" /\ ~ denies v2 /\ o = Done (Err (CNotice m2))) \/
   (acknowledges v1 /\ v_command v2 <> b "001" /\ v_command v2 <> b "NOTICE" /\ o = Done (Err (CWelcome m2)))).

Lemma fit_parses (bd : build) (l : str) (v : view) :
  fit_line bd l -> spec_view l = Some v -> exists m, own_parse bd l = Ret (Some m) /\ own_raw m = l.
Proof.
  intros (U & S & T & N) V. pose proof (parse_cases bd l U S N T) as P. rewrite V in P.
  destruct P as (r & E & Q). unfold own_parse. rewrite E. cbn [bind]. eexists. split; [reflexivity|]. reflexivity.
Qed.

Lemma acknowledges_dec (v : view) : v_command v = b "CAP" -> acknowledges v \/ ~ acknowledges v.
Proof. intros C. destruct (bool_case _ _ (starts_ack v C)) as [[_ H]|[_ H]]; auto. Qed.

Lemma denies_dec (v : view) : v_command v = b "NOTICE" -> denies v \/ ~ denies v.
Proof. intros C. destruct (bool_case _ _ (contains_denial v C)) as [[_ H]|[_ H]]; auto. Qed.

Lemma str_dec (x y : str) : x = y \/ x <> y.
Proof. destruct (str_eqb_spec x y); auto. Qed.

(** C51. Every pair of lines from the server, arriving in any chunks (the first one in
    time, and both in time), decides the result as documented. *)
Lemma p_c51_two_lines :
  forall (c : client) (h : handshake_out) (l1 l2 rest1 rest2 : str) (more : list read) (v1 v2 : view),
    delivered h -> c_reader c = reader_new ->
    ~ In lf l1 -> ~ In lf l2 ->
    fit_line (w_build (h_first h)) l1 -> fit_line (w_build (h_second h)) l2 ->
    spec_view l1 = Some v1 -> spec_view l2 = Some v2 ->
    chunked (l1 ++ crlf ++ rest1) (w_reads (h_first h)) ->
    (exists reads, w_reads (h_second h) = reads ++ more /\ chunked rest2 reads) ->
    rest1 ++ rest2 = l2 ++ crlf ->
    exists c' o, handshake c h = Ret (c', o) /\
      two_line_result (w_build (h_first h)) (w_build (h_second h)) l1 l2 v1 v2 o.
Proof.
  intros c h l1 l2 rest1 rest2 more v1 v2 D RN N1 N2 F1 F2 V1 V2 (cs1 & E1 & Fc1 & C1) (reads2 & E2 & cs2 & -> & Fc2 & C2) R.
  destruct (fit_parses _ _ _ F1 V1) as (m1 & P1 & Q1). destruct (fit_parses _ _ _ F2 V2) as (m2 & P2 & Q2).
  assert (X1 : exists buf cs, filled cs /\ buf ++ concat cs = rest1 /\
    recv (w_build (h_first h)) (arrive (c_reader c) (w_reads (h_first h))) =
    Ret (mk_reader buf (gots cs) false, Some (Ok m1))).
  { rewrite RN, E1. unfold arrive, reader_new. cbn [rd_buf rd_reads rd_ended app].
    destruct (poll_line_some cs1 [] Fc1 [] (l1 ++ [cr]) l1 rest1) as (buf & cs & A & B & P).
    - rewrite in_app_iff. intros [I|[I|[]]]; [now apply N1|discriminate].
    - now left.
    - cbn [app]. rewrite <- C1. now rewrite <- app_assoc.
    - exists buf, cs. split; [exact A|]. split; [exact B|]. rewrite !app_nil_r in P.
      apply (recv_line _ l1).
      + unfold poll_next. cbn [rd_ended rd_buf rd_reads]. change (map Got cs1) with (gots cs1). rewrite P.
        unfold line_item. destruct F1 as (U & _). rewrite U. reflexivity.
      + right. split; [apply F1|]. left. eauto. }
  destruct X1 as (buf & cs & Fc & B & X1).
  assert (X2 : exists r2, recv (w_build (h_second h)) (arrive (mk_reader buf (gots cs) false) (w_reads (h_second h))) =
    Ret (r2, Some (Ok m2))).
  { rewrite E2. unfold arrive. cbn [rd_buf rd_reads rd_ended].
    replace (gots cs ++ map Got cs2 ++ more) with (gots (cs ++ cs2) ++ more)
      by (unfold gots; rewrite map_app, <- app_assoc; reflexivity).
    destruct (poll_line_some (cs ++ cs2) more) with (buf := buf) (l := l2 ++ [cr]) (l' := l2) (rest := @nil byte)
      as (buf2 & cs3 & A & B' & P).
    - apply Forall_app. split; [exact Fc|exact Fc2].
    - rewrite in_app_iff. intros [I|[I|[]]]; [now apply N2|discriminate].
    - now left.
    - rewrite concat_app, app_assoc, B, <- C2, R. rewrite <- app_assoc. reflexivity.
    - eexists. apply (recv_line _ l2).
      + unfold poll_next. cbn [rd_ended rd_buf rd_reads]. rewrite P.
        unfold line_item. destruct F2 as (U & _). rewrite U. reflexivity.
      + right. split; [apply F2|]. left. eauto. }
  destruct X2 as (r2 & X2).
  set (r1 := mk_reader buf (gots cs) false) in *.
  assert (O1 : exists v, spec_view (own_raw m1) = Some v /\ own_command m1 = Ret (spec_command (v_command v)) /\ own_params m1 = Ret (v_params v)).
  { apply (own_reads (w_build (h_first h))); rewrite Q1; [apply F1|apply F1|exact P1]. }
  assert (O2 : exists v, spec_view (own_raw m2) = Some v /\ own_command m2 = Ret (spec_command (v_command v)) /\ own_params m2 = Ret (v_params v)).
  { apply (own_reads (w_build (h_second h))); rewrite Q2; [apply F2|apply F2|exact P2]. }
  destruct O1 as (v & V & OC1 & OP1). rewrite Q1, V1 in V. injection V as <-.
  destruct O2 as (v & V & OC2 & OP2). rewrite Q2, V2 in V. injection V as <-.
  destruct D as [W F]. rewrite handshake_cases, W, F, verdict_code.
  set (c1 := mk_client [] (c_wire c ++ told c) (c_log c) (c_reader c) (c_config c)).
  assert (T1 : recv_timeout c1 (h_first h) = Ret (set_reader c1 r1, Done (Ok m1))).
  { apply recv_timeout_iff. exists r1. split; [reflexivity|]. now constructor. }
  rewrite T1. cbn [bind]. rewrite OC1. cbn [bind].
  destruct (str_dec (v_command v1) (b "CAP")) as [C|C].
  - rewrite C. change (spec_command (b "CAP")) with Capability. cbn iota. rewrite OP1. cbn [bind].
    destruct (bool_case _ _ (starts_ack v1 C)) as [[B1 H1]|[B1 H1]]; rewrite B1.
    + unfold second_part.
      assert (T2 : recv_timeout (set_reader c1 r1) (h_second h) = Ret (set_reader c1 r2, Done (Ok m2))).
      { apply recv_timeout_iff. exists r2. split; [reflexivity|]. now constructor. }
      rewrite T2. cbn [bind]. rewrite OC2. cbn [bind].
      pose proof (command_is (v_command v2) (b "001") RplWelcome ltac:(known)) as K1.
      pose proof (command_is (v_command v2) (b "NOTICE") Notice ltac:(known)) as K2.
      assert (OT : spec_command (v_command v2) <> RplWelcome -> spec_command (v_command v2) <> Notice ->
        two_line_result (w_build (h_first h)) (w_build (h_second h)) l1 l2 v1 v2 (Done (Err (CWelcome m2)))).
      { intros A1 A2. exists m1, m2. repeat (split; [assumption|]). do 5 right. split; [exact H1|].
        split; [intros Q; apply A1, K1, Q|]. split; [intros Q; apply A2, K2, Q|reflexivity]. }
      destruct (spec_command (v_command v2)) eqn:SC; try (eexists _, _; split; [reflexivity|apply OT; discriminate]).
      * assert (CN : v_command v2 = b "NOTICE") by now apply K2. rewrite OP2. cbn [bind].
        destruct (bool_case _ _ (contains_denial v2 CN)) as [[B2 H2]|[B2 H2]]; rewrite B2;
          (eexists _, _; split; [reflexivity|]); exists m1, m2; repeat (split; [assumption|]); auto 10.
      * eexists _, _. split; [reflexivity|]. exists m1, m2. repeat (split; [assumption|]). do 2 right. left.
        split; [exact H1|]. split; [now apply K1|reflexivity].
    + eexists _, _. split; [reflexivity|]. exists m1, m2. repeat (split; [assumption|]). auto.
  - assert (NC : spec_command (v_command v1) <> Capability).
    { intros K. apply C. apply (command_is (v_command v1) (b "CAP") Capability ltac:(known)). exact K. }
    assert (RS : two_line_result (w_build (h_first h)) (w_build (h_second h)) l1 l2 v1 v2 (Done (Err (CWelcome m1)))).
    { exists m1, m2. repeat (split; [assumption|]). auto. }
    destruct (spec_command (v_command v1)); try (eexists _, _; split; [reflexivity|exact RS]). congruence.
Qed.

Definition sample_handshake (l1 l2 : str) : handshake_out :=
  mk_handshake_out WOk FOk (mk_wait [Got (l1 ++ crlf)] false Scalar) (mk_wait [Got (l2 ++ crlf)] false Scalar).

Definition sample_client (cr : credentials) (bk : backoff) : client :=
  mk_client [] [] [] reader_new (mk_config cr default_timeout bk).

Example ex_c51 :
  let c := sample_client (credentials_new (b "me") (b "tok")) backoff_default in
  let h := sample_handshake (b ":tmi.twitch.tv CAP * ACK :twitch.tv/tags") (b ":tmi.twitch.tv 001 me :Welcome, GLHF!") in
  let h' := sample_handshake (b ":tmi.twitch.tv CAP * ACK :twitch.tv/tags")
              (b ":tmi.twitch.tv NOTICE * :Login authentication failed") in
  delivered h /\ small_answers (c_reader c) h /\
  (exists c', handshake c h = Ret (c', Done (Ok tt))) /\
  (exists c', handshake c h' = Ret (c', Done (Err CAuth))).
Proof.
  split; [split; reflexivity|]. split; [vm_compute; reflexivity|].
  split; eexists; vm_compute; reflexivity.
Qed.

(** ** C49 *)

(** C49. A handshake from an empty buffer sends the greeting (or, if writing is cut
    short, an initial part of it), logs nothing of it, and once the bytes are delivered
    leaves the buffer empty. *)
Lemma p_c49_greeting_sent :
  forall (c c' : client) (h : handshake_out) (o : fin (result unit connect_error)),
    c_scratch c = [] -> handshake c h = Ret (c', o) ->
    exists g x, greeting (cf_credentials (c_config c)) g /\ part_of g x /\
      c_wire c' = c_wire c ++ x /\ (h_write h = WOk -> x = g) /\
      c_log c' = c_log c /\ (delivered h -> c_scratch c' = []) /\ (~ delivered h -> c_scratch c' = g).
Proof.
  intros c c' h o S E. exists (handshake_text (cf_credentials (c_config c))).
  assert (T : told c = handshake_text (cf_credentials (c_config c))) by (unfold told; now rewrite S).
  rewrite handshake_cases, T in E. unfold delivered.
  destruct (h_write h) as [|n e|n].
  - exists (handshake_text (cf_credentials (c_config c))). split; [apply greeting_text|].
    split; [exists []; now rewrite app_nil_r|].
    destruct (h_flush h) as [|e|].
    + set (c1 := mk_client [] (c_wire c ++ handshake_text (cf_credentials (c_config c))) (c_log c) (c_reader c) (c_config c)) in E.
      destruct (frame _ _ _ _ E) as [r ->]. cbn.
      repeat (split; [reflexivity|]). intros K. exfalso. apply K. auto.
    + injection E as <- <-. cbn. repeat (split; [reflexivity|]). split; [intros [_ K]; discriminate|reflexivity].
    + injection E as <- <-. cbn. repeat (split; [reflexivity|]). split; [intros [_ K]; discriminate|reflexivity].
  - injection E as <- <-. exists (firstn n (handshake_text (cf_credentials (c_config c)))).
    split; [apply greeting_text|]. split; [eexists; now rewrite firstn_skipn|]. cbn.
    split; [reflexivity|]. split; [discriminate|]. split; [reflexivity|]. split; [intros [K _]; discriminate|reflexivity].
  - injection E as <- <-. exists (firstn n (handshake_text (cf_credentials (c_config c)))).
    split; [apply greeting_text|]. split; [eexists; now rewrite firstn_skipn|]. cbn.
    split; [reflexivity|]. split; [discriminate|]. split; [reflexivity|]. split; [intros [K _]; discriminate|reflexivity].
Qed.

(** C49. There is exactly one greeting for given credentials. *)
Lemma p_c49_greeting_unique :
  forall cr : credentials, exists! g, greeting cr g.
Proof.
  intros cr. exists (handshake_text cr). split; [apply greeting_text|]. intros g G. symmetry. now apply greeting_iff.
Qed.

(** C49. If neither login nor token contains a line feed, it is three lines. *)
Lemma p_c49_three_lines :
  forall (cd : credentials) (g : str),
    greeting cd g -> ~ In lf (login cd) -> (forall t, token cd = Some t -> ~ In lf t) ->
    exists pass, password (match token cd with Some t => t | None => b "just_a_lil_guy" end) pass /\
      lines_then g [b "CAP REQ :twitch.tv/commands twitch.tv/tags twitch.tv/membership";
                    b "PASS " ++ pass; b "NICK " ++ login cd] [].
Proof.
  intros cd g (pass & P & ->) L T. exists pass. split; [exact P|].
  assert (LP : ~ In lf pass).
  { destruct P as (t & -> & D).
    assert (O : forall x, ~ In lf x -> ~ In lf (b "oauth:" ++ x)).
    { intros x N. rewrite in_app_iff. intros [I|I]; [cbn in I; intuition discriminate|contradiction]. }
    destruct (token cd) as [q|].
    - specialize (T q eq_refl). destruct D as [E|[E _]]; [now rewrite <- E|]. apply O. now rewrite <- E.
    - destruct D as [E|[E _]]; [discriminate|]. apply O. rewrite <- E. cbn. intuition discriminate. }
  assert (X : forall l s ls, ~ In lf l -> lines_then s ls [] -> lines_then (l ++ crlf ++ s) (l :: ls) []).
  { intros l s ls N H. replace (l ++ crlf ++ s) with ((l ++ [cr]) ++ [lf] ++ s) by (rewrite <- app_assoc; reflexivity).
    apply lt_line; [|now left|exact H]. rewrite in_app_iff. intros [I|[I|[]]]; [now apply N|discriminate]. }
  apply X; [cbn; intuition discriminate|].
  replace (b "PASS " ++ pass ++ crlf ++ b "NICK " ++ login cd ++ crlf)
    with ((b "PASS " ++ pass) ++ crlf ++ (b "NICK " ++ login cd) ++ crlf ++ []) by (rewrite app_nil_r, <- !app_assoc; reflexivity).
  apply X; [rewrite in_app_iff; intros [I|I]; [cbn in I; intuition discriminate|contradiction]|].
  apply X; [rewrite in_app_iff; intros [I|I]; [cbn in I; intuition discriminate|contradiction]|].
  constructor. auto.
Qed.

Example ex_c49 :
  greeting (credentials_new (b "me") (b "oauth:abc"))
    (b "CAP REQ :twitch.tv/commands twitch.tv/tags twitch.tv/membership" ++ crlf ++
     b "PASS oauth:abc" ++ crlf ++ b "NICK me" ++ crlf) /\
  greeting (credentials_new (b "me") (b "abc"))
    (b "CAP REQ :twitch.tv/commands twitch.tv/tags twitch.tv/membership" ++ crlf ++
     b "PASS oauth:abc" ++ crlf ++ b "NICK me" ++ crlf) /\
  exists c', handshake (sample_client (credentials_new (b "me") (b "abc")) backoff_default)
    (mk_handshake_out (WErr 3 BrokenPipe) FOk (mk_wait [] false Scalar) (mk_wait [] false Scalar)) =
    Ret (c', Done (Err (CIo BrokenPipe))) /\ c_wire c' = b "CAP".
Proof.
  split; [apply greeting_iff; reflexivity|]. split; [apply greeting_iff; reflexivity|].
  eexists. split; reflexivity.
Qed.

(** ** The loop *)

(** What is in the buffer after a handshake. *)
Lemma handshake_keeps (c c' : client) (h : handshake_out) (o : fin (result unit connect_error)) :
  handshake c h = Ret (c', o) ->
  c_config c' = c_config c /\ c_log c' = c_log c /\
  (c_scratch c' = [] \/ c_scratch c' = told c) /\
  (o = Done (Ok tt) -> c_scratch c' = [] /\ c_wire c' = c_wire c ++ told c) /\
  (~ delivered h -> c_scratch c' = told c) /\ (delivered h -> c_scratch c' = []) /\
  (h_write h = WOk -> c_wire c' = c_wire c ++ told c).
Proof.
  rewrite handshake_cases. unfold delivered. destruct (h_write h) as [|n e|n].
  - destruct (h_flush h) as [|e|].
    + intros E. apply frame in E as [r ->]. cbn. repeat split; auto. intros K. exfalso. auto.
    + intros [= <- <-]. cbn. repeat split; auto; try discriminate; try (intros [_ K]; discriminate).
    + intros [= <- <-]. cbn. repeat split; auto; try discriminate; try (intros [_ K]; discriminate).
  - intros [= <- <-]. cbn. repeat split; auto; try discriminate; try (intros [K _]; discriminate).
  - intros [= <- <-]. cbn. repeat split; auto; try discriminate; try (intros [K _]; discriminate).
Qed.

Lemma second_not_retried (r : reader) (h : handshake_out) (e : connect_error) :
  second_verdict r h (Done (Err e)) -> should_retry e = false.
Proof.
  inversion 1 as [r1 e' W|r1 W|r1 m v W Q C|r1 m v W Q C|r1 m v W Q C D|r1 m v W Q C D]; subst; try reflexivity.
  now inversion W.
Qed.

Lemma verdict_not_retried (r : reader) (h : handshake_out) (e : connect_error) :
  verdict r h (Done (Err e)) -> should_retry e = false.
Proof.
  inversion 1 as [r1 e' W|r1 W|r1 m v W Q C|r1 m v W Q C D|r1 m v o' W Q C D]; subst; try reflexivity.
  - now inversion W.
  - eapply second_not_retried; eassumption.
Qed.

(** The handshake of an attempt: retried, or settled. *)
Lemma attempt_handshake (c c1 : client) (a : attempt) (r : fin (result unit connect_error)) :
  a_sleeps a = true -> a_open a = OpOk -> small_answers reader_new (a_handshake a) ->
  handshake (new_connection c) (a_handshake a) = Ret (c1, r) ->
  (exists e, r = Done (Err e) /\ should_retry e = true /\ retried a e) \/
  (r = Dropped /\ settles a (if a_elapsed a then Finished (Err CTimeout) else Abandoned)) \/
  (exists x, r = Done x /\ settles a (Finished x) /\ forall e, x = Err e -> should_retry e = false).
Proof.
  intros S O SM E. assert (DV := fun d => p_c51_verdict (new_connection c) (a_handshake a) r d SM).
  rewrite handshake_cases in E. unfold delivered in DV.
  destruct (h_write (a_handshake a)) as [|n e|n] eqn:W.
  - destruct (h_flush (a_handshake a)) as [|e|] eqn:F.
    + assert (V : verdict reader_new (a_handshake a) r).
      { apply (DV (conj eq_refl eq_refl)). exists c1. rewrite handshake_cases, W, F. exact E. }
      destruct r as [x|].
      * right. right. exists x. split; [reflexivity|]. split.
        -- apply st_answered; auto. now split.
        -- intros e ->. eapply verdict_not_retried; eassumption.
      * right. left. split; [reflexivity|]. apply st_cut_short; auto. right. right. split; [now split|exact V].
    + injection E as _ <-. left. exists (CIo e). split; [reflexivity|]. split; [reflexivity|]. split; [exact S|].
      right. split; [exact O|]. right. split; [exact W|]. now exists e.
    + injection E as _ <-. right. left. split; [reflexivity|]. apply st_cut_short; auto.
  - injection E as _ <-. left. exists (CIo e). split; [reflexivity|]. split; [reflexivity|]. split; [exact S|].
    right. split; [exact O|]. left. now exists n, e.
  - injection E as _ <-. right. left. split; [reflexivity|]. apply st_cut_short; auto. left. now exists n.
Qed.

(** And back: an attempt of each kind does have such a handshake. *)
Lemma retried_handshake (c : client) (a : attempt) (e : connect_error) :
  retried a e -> a_open a = OpOk ->
  exists c1, handshake (new_connection c) (a_handshake a) = Ret (c1, Done (Err e)) /\ should_retry e = true /\
    c_config c1 = c_config c.
Proof.
  intros (S & [(k & O & _)|(O & D)]) O'; [congruence|]. rewrite handshake_cases.
  destruct D as [(n & k & W & ->)|(W & k & F & ->)]; rewrite W; rewrite ?F; eexists; (split; [reflexivity|split; reflexivity]).
Qed.

(** Delays from a given one on. *)
Fixpoint nd (bk : backoff) (d : duration) (k : nat) : duration :=
  match k with 0 => d | S k' => N.min (max_delay bk) (nd bk d k' * delay_multiplier bk) end.

Lemma nd_nth (bk : backoff) (k : nat) : nd bk (initial_delay bk) k = nth_delay bk k.
Proof. induction k as [|k IH]; cbn [nd nth_delay]; [reflexivity|now rewrite IH]. Qed.

Lemma nd_next (bk : backoff) (d : duration) (k : nat) :
  nd bk (N.min (max_delay bk) (d * delay_multiplier bk)) k = nd bk d (S k).
Proof. induction k as [|k IH]; [reflexivity|]. cbn [nd] in *. now rewrite IH. Qed.

Lemma within_step (tries : option N) (k : nat) :
  tries_left tries = true -> (within (option_map (fun n => (n - 1)%N) tries) k <-> within tries (S k)).
Proof. destruct tries as [n|]; cbn [tries_left option_map within]; [|tauto]. intros H. lia. Qed.

Lemma within_0 (tries : option N) : tries_left tries = true <-> within tries 0.
Proof. destruct tries as [n|]; cbn [tries_left within]; [lia|tauto]. Qed.

Definition slept (a : attempt) : nat := if a_sleeps a then 1 else 0.

Lemma delays_cons (d : duration) (tr : list event) : delays (Slept d :: tr) = d :: delays tr.
Proof. reflexivity. Qed.

Lemma map_nd_shift (bk : backoff) (d : duration) (n : nat) :
  d :: map (nd bk (N.min (max_delay bk) (d * delay_multiplier bk))) (seq 0 n) = map (nd bk d) (seq 0 (S n)).
Proof.
  cbn [seq map nd]. f_equal. rewrite <- seq_shift, map_map. apply map_ext. intros k. apply nd_next.
Qed.

Record loop_shape (fuel : nat) (bk : backoff) (oracle : nat -> attempt) (i : nat) (tries : option N)
       (delay : duration) (cause : connect_error) (c c' : client) (tr : list event) (o : outcome) (k : nat) : Prop :=
  { ls_retried : forall j, j < k -> within tries j /\ exists e, retried (oracle (i + j)) e;
    ls_config : c_config c' = c_config c;
    ls_delays : delays tr = map (nd bk delay) (seq 0 (length (delays tr)));
    ls_fits : forall j, j < attempts tr -> (nd bk delay j * delay_multiplier bk < duration_limit)%N;
    ls_end :
      (exists cz, (k = 0 -> cz = cause) /\ (forall j, k = S j -> retried (oracle (i + j)) cz) /\
         ~ within tries k /\ k < fuel /\ o = Finished (Err cz) /\ attempts tr = k /\ length (delays tr) = k) \/
      (within tries k /\ k < fuel /\ settles (oracle (i + k)) o /\
         attempts tr = k + slept (oracle (i + k)) /\ length (delays tr) = k + 1) \/
      (k = fuel /\ o = Running /\ attempts tr = k /\ length (delays tr) = k) }.

Lemma loop_extend (fuel : nat) (bk : backoff) (oracle : nat -> attempt) (i : nat) (tries : option N)
      (delay : duration) (cause e : connect_error) (c c1 c' : client) (tr tr0 : list event) (o : outcome) (k : nat) :
  tries_left tries = true -> retried (oracle i) e -> c_config c1 = c_config c ->
  (delay * delay_multiplier bk < duration_limit)%N ->
  delays tr0 = [delay] -> attempts tr0 = 1 ->
  loop_shape fuel bk oracle (i + 1) (option_map (fun n => (n - 1)%N) tries)
    (N.min (max_delay bk) (delay * delay_multiplier bk)) e c1 c' tr o k ->
  loop_shape (S fuel) bk oracle i tries delay cause c c' (tr0 ++ tr) o (S k).
Proof.
  intros T R CF FT D0 A0 [H1 H2 H3 HF H4].
  assert (DA : delays (tr0 ++ tr) = delay :: delays tr) by (unfold delays in *; rewrite flat_map_app, D0; reflexivity).
  assert (AA : attempts (tr0 ++ tr) = S (attempts tr)) by (unfold attempts in *; rewrite filter_app, app_length, A0; reflexivity).
  constructor.
  - intros [|j] J.
    + split; [now apply within_0|]. exists e. now rewrite Nat.add_0_r.
    + destruct (H1 j) as [W E]; [lia|]. split; [now apply within_step|]. now replace (i + S j) with (i + 1 + j) by lia.
  - congruence.
  - rewrite DA. cbn [length]. rewrite H3 at 1. apply map_nd_shift.
  - rewrite AA. intros [|j] J; [exact FT|]. rewrite <- nd_next. apply HF. lia.
  - rewrite DA, AA. cbn [length]. replace (i + S k) with (i + 1 + k) by lia.
    destruct H4 as [(cz & Z1 & Z2 & Z3 & Z4 & Z5 & Z6 & Z7)|[(Z1 & Z2 & Z3 & Z4 & Z5)|(Z1 & Z2 & Z3 & Z4)]].
    + left. exists cz. split; [discriminate|]. split.
      * intros j [= <-]. destruct k as [|k]; [rewrite Z1 by reflexivity; now rewrite Nat.add_0_r|].
        replace (i + S k) with (i + 1 + k) by lia. now apply Z2.
      * split; [intros W; apply Z3; now apply within_step|]. repeat split; auto; lia.
    + right. left. split; [now apply within_step|]. repeat split; auto; lia.
    + right. right. repeat split; auto; lia.
Qed.

Lemma loop_shaped (fuel : nat) : forall (bk : backoff) (oracle : nat -> attempt) (i : nat) (tries : option N)
    (delay : duration) (cause : connect_error) (c c' : client) (tr : list event) (o : outcome),
  (forall j, small_answers reader_new (a_handshake (oracle j))) ->
  reconnect_loop fuel bk oracle i tries delay cause c = Ret (c', tr, o) ->
  exists k, loop_shape fuel bk oracle i tries delay cause c c' tr o k.
Proof.
  induction fuel as [|fuel IH]; intros bk oracle i tries delay cause c c' tr o SM E.
  - cbn [reconnect_loop] in E. injection E as <- <- <-. exists 0. constructor; auto.
    + lia.
    + cbn. lia.
    + right. right. repeat split.
  - cbn [reconnect_loop] in E. destruct (tries_left tries) eqn:T.
    2:{ injection E as <- <- <-. exists 0. constructor; auto; [lia|cbn; lia|]. left. exists cause.
        split; [auto|]. split; [discriminate|]. rewrite <- within_0, T. repeat split; auto; lia. }
    pose proof T as T'. apply within_0 in T'.
    assert (FIN : forall tr1 o1, delays tr1 = [delay] -> attempts tr1 = slept (oracle i) ->
              (1 <= slept (oracle i) -> (delay * delay_multiplier bk < duration_limit)%N) ->
              settles (oracle i) o1 -> forall c2, c_config c2 = c_config c ->
              exists k, loop_shape (S fuel) bk oracle i tries delay cause c c2 tr1 o1 k).
    { intros tr1 o1 D A FT ST c2 CF. exists 0. constructor; auto; [lia|now rewrite D| |].
      - intros j J. assert (j = 0 /\ 1 <= slept (oracle i)) as [-> Q] by (unfold slept in *; destruct (a_sleeps (oracle i)); lia).
        apply FT. exact Q.
      - right. left. rewrite Nat.add_0_r, D, A. repeat split; auto; lia. }
    destruct (a_sleeps (oracle i)) eqn:SL.
    2:{ injection E as <- <- <-. apply FIN; auto; [unfold slept; now rewrite SL|unfold slept; rewrite SL; lia|now constructor]. }
    assert (SL1 : slept (oracle i) = 1) by (unfold slept; now rewrite SL).
    unfold duration_mul in E. destruct (delay * delay_multiplier bk <? duration_limit)%N eqn:DM; [|discriminate]. cbn [bind] in E.
    assert (FT : (delay * delay_multiplier bk < duration_limit)%N) by lia.
    destruct (a_open (oracle i)) as [|e| |] eqn:O.
    + destruct (handshake (new_connection c) (a_handshake (oracle i))) as [[c1 r]| | |] eqn:H; try discriminate. cbn [bind] in E.
      assert (CF : c_config c1 = c_config c) by (apply handshake_keeps in H as (H & _); exact H).
      destruct (attempt_handshake c c1 (oracle i) r SL O (SM i) H) as [(e & -> & RE & RT)|[[-> ST]|(x & -> & ST & NR)]].
      * rewrite RE in E. destruct (reconnect_loop fuel bk oracle (i + 1) _ _ e c1) as [[[c2 tr2] o2]| | |] eqn:L; try discriminate.
        cbn [bind] in E. injection E as <- <- <-. apply IH in L as [k L]; [|exact SM]. exists (S k).
        change (Slept delay :: Opening :: Sent (c_wire c1) :: tr2) with ([Slept delay; Opening; Sent (c_wire c1)] ++ tr2).
        eapply loop_extend; eauto.
      * destruct (a_elapsed (oracle i)); injection E as <- <- <-; apply FIN; auto.
      * destruct x as [u|e].
        -- injection E as <- <- <-. destruct u. apply FIN; auto.
        -- rewrite (NR e eq_refl) in E. injection E as <- <- <-. apply FIN; auto.
    + destruct (reconnect_loop fuel bk oracle (i + 1) _ _ (COpen e) c) as [[[c2 tr2] o2]| | |] eqn:L; try discriminate.
      cbn [bind] in E. injection E as <- <- <-. apply IH in L as [k L]; [|exact SM]. exists (S k).
      change (Slept delay :: Opening :: tr2) with ([Slept delay; Opening] ++ tr2).
      eapply loop_extend; eauto. split; [exact SL|]. left. now exists e.
    + injection E as <- <- <-. apply FIN; auto. now apply st_open_elapsed.
    + injection E as <- <- <-. apply FIN; auto. now apply st_open_dropped.
Qed.

(** One more retried attempt in front. *)
Lemma loop_retry (fuel : nat) (bk : backoff) (oracle : nat -> attempt) (i : nat) (tries : option N)
      (delay : duration) (cause e : connect_error) (c : client) :
  tries_left tries = true -> retried (oracle i) e -> (delay * delay_multiplier bk < duration_limit)%N ->
  exists c1 pre, c_config c1 = c_config c /\
    reconnect_loop (S fuel) bk oracle i tries delay cause c =
    let! (c2, tr, o) := reconnect_loop fuel bk oracle (i + 1) (option_map (fun n => (n - 1)%N) tries)
                          (N.min (max_delay bk) (delay * delay_multiplier bk)) e c1 in
    Ret (c2, pre ++ tr, o).
Proof.
  intros T R F. cbn [reconnect_loop]. rewrite T. pose proof R as (S & D). rewrite S.
  unfold duration_mul. rewrite (proj2 (N.ltb_lt _ _) F). cbn [bind].
  destruct D as [(k & O & ->)|(O & _)]; rewrite O.
  - exists c, [Slept delay; Opening]. split; reflexivity.
  - destruct (retried_handshake c (oracle i) e R O) as (c1 & H & RE & CF). rewrite H. cbn [bind]. rewrite RE.
    exists c1, [Slept delay; Opening; Sent (c_wire c1)]. split; [exact CF|reflexivity].
Qed.

Lemma settle_handshake (c : client) (a : attempt) (o : outcome) (fuel : nat) (bk : backoff) (oracle : nat -> attempt)
      (i : nat) (tries : option N) (delay : duration) (cause : connect_error) :
  oracle i = a -> tries_left tries = true -> settles a o -> small_answers reader_new (a_handshake a) ->
  (a_sleeps a = true -> (delay * delay_multiplier bk < duration_limit)%N) ->
  exists c' tr, reconnect_loop (S fuel) bk oracle i tries delay cause c = Ret (c', tr, o).
Proof.
  intros EA T ST SM FT. cbn [reconnect_loop]. rewrite T, EA.
  assert (DM : a_sleeps a = true -> duration_mul delay (delay_multiplier bk) = Ret (delay * delay_multiplier bk)%N).
  { intros S. unfold duration_mul. now rewrite (proj2 (N.ltb_lt _ _) (FT S)). }
  inversion ST as [S|S O|S O|S O D|x S O D V]; subst; rewrite S.
  - eexists _, _. reflexivity.
  - rewrite (DM S), O. cbn [bind]. eexists _, _. reflexivity.
  - rewrite (DM S), O. cbn [bind]. eexists _, _. reflexivity.
  - rewrite (DM S), O. cbn [bind].
    assert (H : exists c1, handshake (new_connection c) (a_handshake (oracle i)) = Ret (c1, Dropped)).
    { destruct D as [[n W]|[[W F]|[D V]]].
      - rewrite handshake_cases, W. eexists. reflexivity.
      - rewrite handshake_cases, W, F. eexists. reflexivity.
      - apply (p_c51_verdict (new_connection c) (a_handshake (oracle i)) Dropped D SM). exact V. }
    destruct H as [c1 H]. rewrite H. cbn [bind]. destruct (a_elapsed (oracle i)); eexists _, _; reflexivity.
  - rewrite (DM S), O. cbn [bind].
    assert (H : exists c1, handshake (new_connection c) (a_handshake (oracle i)) = Ret (c1, Done x)).
    { apply (p_c51_verdict (new_connection c) (a_handshake (oracle i)) (Done x) D SM). exact V. }
    destruct H as [c1 H]. rewrite H. cbn [bind]. destruct x as [[]|e]; [eexists _, _; reflexivity|].
    apply verdict_not_retried in V. rewrite V. eexists _, _. reflexivity.
Qed.

Definition fits_at (bk : backoff) (delay : duration) (j : nat) : Prop :=
  (nd bk delay j * delay_multiplier bk < duration_limit)%N.

Lemma loop_settles (k : nat) : forall (fuel : nat) (bk : backoff) (oracle : nat -> attempt) (i : nat) (tries : option N)
    (delay : duration) (cause : connect_error) (c : client) (o : outcome),
  (forall j, j < k -> exists e, retried (oracle (i + j)) e) -> (forall j, j < k -> fits_at bk delay j) ->
  within tries k -> settles (oracle (i + k)) o -> small_answers reader_new (a_handshake (oracle (i + k))) ->
  (a_sleeps (oracle (i + k)) = true -> fits_at bk delay k) -> k < fuel ->
  exists c' tr, reconnect_loop fuel bk oracle i tries delay cause c = Ret (c', tr, o).
Proof.
  induction k as [|k IH]; intros fuel bk oracle i tries delay cause c o R F W ST SM FT L.
  - destruct fuel as [|fuel]; [lia|]. rewrite Nat.add_0_r in *.
    apply (settle_handshake c (oracle i) o); auto. now apply within_0.
  - destruct fuel as [|fuel]; [lia|]. destruct (R 0) as [e E]; [lia|]. rewrite Nat.add_0_r in E.
    assert (T : tries_left tries = true).
    { apply within_0. destruct tries as [n|]; cbn in *; [lia|exact I]. }
    destruct (loop_retry fuel bk oracle i tries delay cause e c T E (F 0 ltac:(lia))) as (c1 & pre & CF & ->).
    destruct (IH fuel bk oracle (i + 1) (option_map (fun n => (n - 1)%N) tries)
      (N.min (max_delay bk) (delay * delay_multiplier bk)) e c1 o) as (c' & tr & ->).
    + intros j J. replace (i + 1 + j) with (i + S j) by lia. apply R. lia.
    + intros j J. unfold fits_at. rewrite nd_next. apply F. lia.
    + now apply within_step.
    + now replace (i + 1 + k) with (i + S k) by lia.
    + now replace (i + 1 + k) with (i + S k) by lia.
    + replace (i + 1 + k) with (i + S k) by lia. intros S. unfold fits_at. rewrite nd_next. now apply FT.
    + lia.
    + eexists _, _. reflexivity.
Qed.

Lemma loop_gives_up (k : nat) : forall (fuel : nat) (bk : backoff) (oracle : nat -> attempt) (i : nat) (tries : option N)
    (delay : duration) (cause : connect_error) (c : client),
  (forall j, j < k -> exists e, retried (oracle (i + j)) e) -> (forall j, j < k -> fits_at bk delay j) ->
  tries = Some (N.of_nat k) -> k < fuel ->
  exists c' tr e, reconnect_loop fuel bk oracle i tries delay cause c = Ret (c', tr, Finished (Err e)).
Proof.
  induction k as [|k IH]; intros fuel bk oracle i tries delay cause c R F -> L.
  - destruct fuel as [|fuel]; [lia|]. cbn. eexists _, _, _. reflexivity.
  - destruct fuel as [|fuel]; [lia|]. destruct (R 0) as [e E]; [lia|]. rewrite Nat.add_0_r in E.
    destruct (loop_retry fuel bk oracle i (Some (N.of_nat (S k))) delay cause e c) as (c1 & pre & CF & ->).
    { cbn. lia. } { exact E. } { apply (F 0). lia. }
    destruct (IH fuel bk oracle (i + 1) (option_map (fun n => (n - 1)%N) (Some (N.of_nat (S k))))
      (N.min (max_delay bk) (delay * delay_multiplier bk)) e c1) as (c' & tr & e' & ->).
    + intros j J. replace (i + 1 + j) with (i + S j) by lia. apply R. lia.
    + intros j J. unfold fits_at. rewrite nd_next. apply F. lia.
    + cbn [option_map]. f_equal. lia.
    + lia.
    + eexists _, _, _. reflexivity.
Qed.

Lemma loop_overflow (k : nat) : forall (fuel : nat) (bk : backoff) (oracle : nat -> attempt) (i : nat) (tries : option N)
    (delay : duration) (cause : connect_error) (c : client),
  (forall j, j < k -> exists e, retried (oracle (i + j)) e) -> (forall j, j < k -> fits_at bk delay j) ->
  within tries k -> a_sleeps (oracle (i + k)) = true -> ~ fits_at bk delay k -> k < fuel ->
  reconnect_loop fuel bk oracle i tries delay cause c = Panic.
Proof.
  induction k as [|k IH]; intros fuel bk oracle i tries delay cause c R F W S N L.
  - destruct fuel as [|fuel]; [lia|]. rewrite Nat.add_0_r in *. cbn [reconnect_loop].
    rewrite (proj2 (within_0 tries) W), S. unfold duration_mul. unfold fits_at in N. cbn [nd] in N.
    destruct (delay * delay_multiplier bk <? duration_limit)%N eqn:E; [lia|reflexivity].
  - destruct fuel as [|fuel]; [lia|]. destruct (R 0) as [e E]; [lia|]. rewrite Nat.add_0_r in E.
    assert (T : tries_left tries = true).
    { apply within_0. destruct tries as [n|]; cbn in *; [lia|exact I]. }
    destruct (loop_retry fuel bk oracle i tries delay cause e c T E (F 0 ltac:(lia))) as (c1 & pre & CF & ->).
    rewrite IH; [reflexivity| | | | | |lia].
    + intros j J. replace (i + 1 + j) with (i + Datatypes.S j) by lia. apply R. lia.
    + intros j J. unfold fits_at. rewrite nd_next. apply F. lia.
    + now apply within_step.
    + now replace (i + 1 + k) with (i + Datatypes.S k) by lia.
    + unfold fits_at. rewrite nd_next. exact N.
Qed.

Lemma loop_unlimited (fuel : nat) : forall (bk : backoff) (oracle : nat -> attempt) (i : nat)
    (delay : duration) (cause : connect_error) (c : client),
  (forall j, exists e, retried (oracle j) e) -> (forall j, fits_at bk delay j) ->
  exists c' tr, reconnect_loop fuel bk oracle i None delay cause c = Ret (c', tr, Running).
Proof.
  induction fuel as [|fuel IH]; intros bk oracle i delay cause c R F; [eexists _, _; reflexivity|].
  destruct (R i) as [e E].
  destruct (loop_retry fuel bk oracle i None delay cause e c eq_refl E (F 0)) as (c1 & pre & CF & ->).
  destruct (IH bk oracle (i + 1) (N.min (max_delay bk) (delay * delay_multiplier bk)) e c1 R) as (c' & tr & E').
  { intros j. unfold fits_at. rewrite nd_next. apply F. }
  cbn [option_map]. rewrite E'. eexists _, _. reflexivity.
Qed.

Lemma retried_not_settled (a : attempt) (e : connect_error) (o : outcome) : retried a e -> settles a o -> False.
Proof.
  intros (S & D) ST. unfold delivered in *.
  inversion ST as [S'|S' O|S' O|S' O K|x S' O K V]; subst; try congruence;
    destruct D as [(k & O' & _)|(O' & [(n & k & W & _)|(W & k & F & _)])]; try congruence.
  - destruct K as [[m K]|[[K1 K2]|[[K1 K2] _]]]; congruence.
  - destruct K as [[m K]|[[K1 K2]|[[K1 K2] _]]]; congruence.
  - destruct K; congruence.
  - destruct K; congruence.
Qed.

Lemma settles_not_running (a : attempt) : ~ settles a Running.
Proof.
  intros K. remember Running as o eqn:Q. destruct K; try discriminate. destruct (a_elapsed a); discriminate.
Qed.

Lemma retried_unique (a : attempt) (e e' : connect_error) : retried a e -> retried a e' -> e = e'.
Proof.
  intros (_ & D) (_ & D').
  destruct D as [(k & O & ->)|(O & [(n & k & W & ->)|(W & k & F & ->)])];
    destruct D' as [(k' & O' & ->)|(O' & [(n' & k' & W' & ->)|(W' & k' & F' & ->)])]; congruence.
Qed.

(** ** C52 *)

Definition small_oracle (oracle : nat -> attempt) : Prop :=
  forall j, small_answers reader_new (a_handshake (oracle j)).

(** C52. Never more than [max_tries] connection attempts. *)
Lemma p_c52_at_most :
  forall (fuel : nat) (oracle : nat -> attempt) (c c' : client) (tr : list event) (o : outcome) (n : N),
    small_oracle oracle -> max_tries (cf_backoff (c_config c)) = Some n ->
    reconnect fuel oracle c = Ret (c', tr, o) -> (N.of_nat (attempts tr) <= n)%N.
Proof.
  intros fuel oracle c c' tr o n SM MT E. unfold reconnect in E. rewrite MT in E.
  apply loop_shaped in E as [k [H1 H2 H3 HF H4]]; [|exact SM].
  assert (B : (N.of_nat k <= n)%N).
  { destruct k as [|k]; [lia|]. destruct (H1 k) as [W _]; [lia|]. cbn in W. lia. }
  destruct H4 as [(cz & _ & _ & _ & _ & _ & A & _)|[(W & _ & _ & A & _)|(_ & _ & A & _)]]; [lia| |lia].
  cbn in W. unfold slept in A. destruct (a_sleeps (oracle (0 + k))); lia.
Qed.

(** C52. How it ends: some attempts are retried, all within the limit; then either the
    limit is reached, and the last failure is returned ([Timeout] if there was no
    attempt at all), or the next attempt settles it. *)
Lemma p_c52_how_it_ends :
  forall (fuel : nat) (oracle : nat -> attempt) (c c' : client) (tr : list event) (o : outcome),
    small_oracle oracle -> reconnect fuel oracle c = Ret (c', tr, o) -> o <> Running ->
    let tries := max_tries (cf_backoff (c_config c)) in
    exists k, (forall j, j < k -> within tries j /\ exists e, retried (oracle j) e) /\
      ((~ within tries k /\ attempts tr = k /\
        exists e, o = Finished (Err e) /\ (k = 0 -> e = CTimeout) /\ (forall j, k = S j -> retried (oracle j) e)) \/
       (within tries k /\ settles (oracle k) o /\
        attempts tr = k + (if a_sleeps (oracle k) then 1 else 0))).
Proof.
  intros fuel oracle c c' tr o SM E NR tries. unfold reconnect in E.
  apply loop_shaped in E as [k [H1 H2 H3 HF H4]]; [|exact SM]. cbn [Nat.add] in *. exists k. split; [exact H1|].
  destruct H4 as [(cz & Z1 & Z2 & W & _ & -> & A & _)|[(W & _ & ST & A & _)|(_ & Z & _)]]; [| |contradiction].
  - left. split; [exact W|]. split; [exact A|]. now exists cz.
  - right. split; [exact W|]. split; [exact ST|exact A].
Qed.

(** *** When it panics *)

Lemma hostile_iff (bd : build) (l : str) :
  utf8_valid l = true -> below_4gib l -> (own_parse bd l = Panic <-> hostile bd l).
Proof.
  intros U S. pose proof (p_c15_owned_agrees bd l) as A.
  assert (E : own_parse bd l = Panic <-> ref_parse bd l = Panic).
  { destruct (ref_parse bd l) as [[m|]| | |]; try contradiction; [destruct A as [A _]| |]; rewrite A; split; congruence. }
  rewrite E. unfold hostile. destruct bd as [v addr|].
  - rewrite (proj1 (p_c05_simd_panics_iff v addr l U S)). split; [auto|]. intros [[K _]|K]; [discriminate|exact K].
  - rewrite (proj1 (p_c05_scalar_panics_iff l U S)). tauto.
Qed.

Lemma own_parse_cases (bd : build) (l : str) :
  (exists x, own_parse bd l = Ret x) \/ own_parse bd l = Panic.
Proof.
  pose proof (p_c15_owned_agrees bd l) as A. destruct (ref_parse bd l) as [[m|]| | |]; try contradiction; auto; left.
  - destruct A as [A _]. eauto.
  - eauto.
Qed.

(** A wait ends, or the line it gets is hostile. *)
Lemma waits_or_hostile (r : reader) (w : wait_out) :
  (N.of_nat (pending r + read_size (w_reads w)) < 4294967296)%N ->
  ((exists r' o, waits r w r' o) /\ ~ (exists r' l, next_line r (w_reads w) r' l /\ hostile (w_build w) l)) \/
  ((forall c, c_reader c = r -> recv_timeout c w = Panic) /\
   exists r' l, next_line r (w_reads w) r' l /\ hostile (w_build w) l).
Proof.
  intros S. unfold next_line.
  destruct (poll_next (arrive r (w_reads w))) as [r1 p] eqn:P.
  assert (RC : recv (w_build w) (arrive r (w_reads w)) =
    match p with
    | Pending => Ret (r1, None)
    | Item None => Ret (r1, Some (Err RecvStreamClosed))
    | Item (Some (Err e)) => Ret (r1, Some (Err (RecvIo e)))
    | Item (Some (Ok message)) =>
      let! m := own_parse (w_build w) message in
      match m with Some m => Ret (r1, Some (Ok m)) | None => Ret (r1, Some (Err (RecvParse message))) end
    end) by (unfold recv; now rewrite P).
  destruct p as [|[[l|e]|]].
  - left. split; [|intros (r' & l & K & _); discriminate]. exists r1.
    destruct (w_dropped w) eqn:D; [exists Dropped|exists (Done (Err CTimeout))]; now constructor.
  - pose proof (poll_next_size _ r1 _ P) as SZ. rewrite pending_arrive in SZ.
    assert (U : utf8_valid l = true).
    { unfold poll_next in P. destruct (rd_ended (arrive r (w_reads w))); [discriminate|].
      destruct (poll_line (rd_buf (arrive r (w_reads w))) (rd_reads (arrive r (w_reads w)))) as [[buf reads] q] eqn:E.
      destruct q as [|[[y|e]|]]; try discriminate; injection P as _ <-. now apply poll_line_valid in E. }
    assert (B : below_4gib l) by (unfold below_4gib; lia).
    pose proof (hostile_iff (w_build w) l U B) as H.
    destruct (own_parse_cases (w_build w) l) as [[x X]|X].
    + left. split.
      * rewrite X in RC. cbn [bind] in RC. exists r1. destruct x as [m|]; eexists; constructor; exact RC.
      * intros (r' & l' & K & HH). injection K as <- <-. apply H in HH. congruence.
    + right. split.
      * intros c C. unfold recv_timeout. rewrite C, RC, X. reflexivity.
      * exists r1, l. split; [reflexivity|]. now apply H.
  - left. split; [|intros (r' & l & K & _); discriminate]. eexists _, _. apply wt_failed. exact RC.
  - left. split; [|intros (r' & l & K & _); discriminate]. eexists _, _. apply wt_failed. exact RC.
Qed.

Lemma second_total (c : client) (h : handshake_out) :
  (N.of_nat (pending (c_reader c) + read_size (w_reads (h_second h))) < 4294967296)%N ->
  ((exists o, second_verdict (c_reader c) h o) /\
   ~ (exists r' l, next_line (c_reader c) (w_reads (h_second h)) r' l /\ hostile (w_build (h_second h)) l)) \/
  (second_part c h = Panic /\
   exists r' l, next_line (c_reader c) (w_reads (h_second h)) r' l /\ hostile (w_build (h_second h)) l).
Proof.
  intros S. destruct (waits_or_hostile (c_reader c) (h_second h) S) as [[(r' & o & W) N]|[P H]].
  - left. split; [|exact N]. destruct o as [[m|e]|].
    + destruct (message_view _ _ _ _ 0 W) as [(v & V & _) _]; [lia|].
      destruct (str_dec (v_command v) (b "001")) as [C|C]; [eexists; now apply (vd_welcome _ _ r' m v)|].
      destruct (str_dec (v_command v) (b "NOTICE")) as [C'|C']; [|eexists; now apply (vd_other _ _ r' m v)].
      destruct (denies_dec v C') as [D|D]; eexists; [now apply (vd_denied _ _ r' m v)|now apply (vd_notice _ _ r' m v)].
    + eexists. exact (vd_second_failed _ _ r' e W).
    + eexists. exact (vd_second_dropped _ _ r' W).
  - right. split; [|exact H]. unfold second_part. now rewrite (P c eq_refl).
Qed.

Lemma verdict_total (c : client) (h : handshake_out) :
  small_answers (c_reader c) h ->
  ((exists o, verdict (c_reader c) h o) /\ ~ chokes (c_reader c) h) \/
  (handshake_verdict c h = Panic /\ chokes (c_reader c) h).
Proof.
  intros S. unfold small_answers in S. fold (pending (c_reader c)) in S.
  destruct (waits_or_hostile (c_reader c) (h_first h)) as [[(r' & o & W) N]|[P (r' & l & K)]]; [lia| |].
  - assert (NC : ~ chokes (c_reader c) h \/ exists m v, o = Done (Ok m) /\ spec_view (own_raw m) = Some v /\ acknowledges v).
    { destruct o as [[m|e]|].
      - destruct (message_view _ _ _ _ (read_size (w_reads (h_second h))) W) as [(v & V & _) _]; [lia|].
        destruct (str_dec (v_command v) (b "CAP")) as [C|C].
        + destruct (acknowledges_dec v C) as [A|A]; [right; eauto|]. left. intros [r1 l K1 K2|r1 m' v' r2 l W' V' A' _ _].
          * apply N. eauto.
          * destruct (waits_unique _ _ _ _ _ _ W W') as [_ Q]. injection Q as <-. rewrite V in V'. injection V' as <-. now apply A.
        + left. intros [r1 l K1 K2|r1 m' v' r2 l W' V' [A' _] _ _].
          * apply N. eauto.
          * destruct (waits_unique _ _ _ _ _ _ W W') as [_ Q]. injection Q as <-. rewrite V in V'. injection V' as <-. now apply C.
      - left. intros [r1 l K1 K2|r1 m' v' r2 l W' V' A' _ _]; [apply N; eauto|].
        destruct (waits_unique _ _ _ _ _ _ W W') as [_ Q]. discriminate.
      - left. intros [r1 l K1 K2|r1 m' v' r2 l W' V' A' _ _]; [apply N; eauto|].
        destruct (waits_unique _ _ _ _ _ _ W W') as [_ Q]. discriminate. }
    destruct NC as [NC|(m & v & -> & V & A)].
    + left. split; [|exact NC]. destruct o as [[m|e]|].
      * destruct (message_view _ _ _ _ (read_size (w_reads (h_second h))) W) as [(v & V & _) S2]; [lia|].
        destruct (str_dec (v_command v) (b "CAP")) as [C|C]; [|eexists; now apply (vd_not_cap _ _ r' m v)].
        destruct (acknowledges_dec v C) as [A|A]; [|eexists; now apply (vd_refused _ _ r' m v)].
        destruct (second_total (set_reader c r') h) as [[[o O] _]|[_ (r2 & l & L1 & L2)]].
        -- exact S2.
        -- exists o. now apply (vd_acknowledged _ _ r' m v).
        -- exfalso. apply NC. now apply (ck_second _ _ r' m v r2 l).
      * eexists. exact (vd_first_failed _ _ r' e W).
      * eexists. exact (vd_first_dropped _ _ r' W).
    + destruct (message_view _ _ _ _ (read_size (w_reads (h_second h))) W) as [(v' & V' & EC & EP) S2]; [lia|].
      rewrite V in V'. injection V' as <-.
      destruct (second_total (set_reader c r') h S2) as [[[o O] NS]|[SP (r2 & l & L1 & L2)]].
      * left. split; [exists o; now apply (vd_acknowledged _ _ r' m v)|].
        intros [r1 l K1 K2|r1 m' v' r2 l W' V' A' L1 L2]; [apply N; eauto|].
        destruct (waits_unique _ _ _ _ _ _ W W') as [<- _]. apply NS. exists r2, l. now split.
      * right. split; [|now apply (ck_second _ _ r' m v r2 l)]. rewrite verdict_code.
        rewrite (proj2 (recv_timeout_iff c (h_first h) (set_reader c r') (Done (Ok m)))) by eauto. cbn [bind].
        rewrite EC. cbn [bind]. pose proof (proj1 A) as C. rewrite C. change (spec_command (b "CAP")) with Capability.
        cbn [bind]. rewrite EP. cbn [bind]. now rewrite (proj2 (starts_ack v C) A).
  - right. split; [|destruct K; now apply (ck_first _ _ r' l)]. rewrite verdict_code. now rewrite (P c eq_refl).
Qed.

(** C51. The handshake panics exactly if an answer it waits for is a line on which parsing
    panics; otherwise there is a verdict. *)
Lemma p_c51_panics_iff :
  forall (c : client) (h : handshake_out),
    small_answers (c_reader c) h ->
    (handshake c h = Panic <-> delivered h /\ chokes (c_reader c) h) /\
    (handshake c h <> Panic -> exists c' o, handshake c h = Ret (c', o)).
Proof.
  intros c h SM. rewrite handshake_cases. unfold delivered.
  destruct (h_write h) as [|n e|n]; [destruct (h_flush h) as [|e|]| |];
    try (split; [split; [discriminate|intros [[? ?] _]; discriminate]|intros _; eexists _, _; reflexivity]).
  set (c0 := mk_client [] (c_wire c ++ told c) (c_log c) (c_reader c) (c_config c)).
  destruct (verdict_total c0 h SM) as [[[o O] N]|[P K]].
  - apply (verdict_iff c0 h o SM) in O as [r O]. rewrite O. split; [|eauto].
    split; [discriminate|]. intros [_ K]. now apply N in K.
  - rewrite P. split; [|congruence]. split; [|reflexivity]. intros _. now split.
Qed.

Lemma returns_or_panics :
  forall (fuel : nat) (oracle : nat -> attempt) (c : client),
    small_oracle oracle ->
    let bk := cf_backoff (c_config c) in
    (exists c' tr o, reconnect fuel oracle c = Ret (c', tr, o)) \/
    (reconnect fuel oracle c = Panic /\
     exists k, k < fuel /\ within (max_tries bk) k /\ (forall j, j < k -> exists e, retried (oracle j) e) /\
       a_sleeps (oracle k) = true /\
       (~ delay_fits bk k \/
        a_open (oracle k) = OpOk /\ delivered (a_handshake (oracle k)) /\ chokes reader_new (a_handshake (oracle k)))).
Proof.
  intros fuel oracle c SM bk. unfold reconnect. fold bk.
  assert (G : forall fuel i tries delay cause c0,
    (exists c' tr o, reconnect_loop fuel bk oracle i tries delay cause c0 = Ret (c', tr, o)) \/
    (reconnect_loop fuel bk oracle i tries delay cause c0 = Panic /\
     exists k, k < fuel /\ within tries k /\ (forall j, j < k -> exists e, retried (oracle (i + j)) e) /\
       a_sleeps (oracle (i + k)) = true /\
       (~ fits_at bk delay k \/
        a_open (oracle (i + k)) = OpOk /\ delivered (a_handshake (oracle (i + k))) /\
        chokes reader_new (a_handshake (oracle (i + k)))))).
  { clearbody bk. clear c fuel. induction fuel as [|fuel IH]; intros i tries delay cause c; [left; eexists _, _, _; reflexivity|].
    destruct (tries_left tries) eqn:T; [|left; cbn [reconnect_loop]; rewrite T; eexists _, _, _; reflexivity].
    destruct (a_sleeps (oracle i)) eqn:S; [|left; cbn [reconnect_loop]; rewrite T, S; eexists _, _, _; reflexivity].
    destruct (N.lt_ge_cases (delay * delay_multiplier bk) duration_limit) as [F|F].
    2:{ right. split.
        - apply (loop_overflow 0); try lia; rewrite ?Nat.add_0_r; auto; [now apply within_0|].
          unfold fits_at. cbn [nd]. lia.
        - exists 0. rewrite Nat.add_0_r. split; [lia|]. split; [now apply within_0|]. split; [lia|]. split; [exact S|].
          left. unfold fits_at. cbn [nd]. lia. }
    assert (RT : forall e, retried (oracle i) e ->
      (exists c' tr o, reconnect_loop (Datatypes.S fuel) bk oracle i tries delay cause c = Ret (c', tr, o)) \/
      (reconnect_loop (Datatypes.S fuel) bk oracle i tries delay cause c = Panic /\
       exists k, k < Datatypes.S fuel /\ within tries k /\ (forall j, j < k -> exists e, retried (oracle (i + j)) e) /\
         a_sleeps (oracle (i + k)) = true /\
         (~ fits_at bk delay k \/
          a_open (oracle (i + k)) = OpOk /\ delivered (a_handshake (oracle (i + k))) /\
          chokes reader_new (a_handshake (oracle (i + k)))))).
    { intros e R. destruct (loop_retry fuel bk oracle i tries delay cause e c T R F) as (c1 & pre & CF & ->).
      destruct (IH (i + 1) (option_map (fun n => (n - 1)%N) tries) (N.min (max_delay bk) (delay * delay_multiplier bk)) e c1)
        as [(c' & tr & o & ->)|(-> & k & K1 & K2 & K3 & K4 & K5)]; [left; eexists _, _, _; reflexivity|].
      right. split; [reflexivity|]. exists (Datatypes.S k). replace (i + Datatypes.S k) with (i + 1 + k) by lia.
      split; [lia|]. split; [now apply within_step|]. split.
      { intros j J. destruct j as [|j]; [rewrite Nat.add_0_r; eauto|]. replace (i + Datatypes.S j) with (i + 1 + j) by lia. apply K3. lia. }
      split; [exact K4|]. unfold fits_at in *. rewrite nd_next in K5. exact K5. }
    destruct (a_open (oracle i)) as [|e| |] eqn:O.
    - destruct (p_c51_panics_iff (new_connection c) (a_handshake (oracle i)) (SM i)) as [PI RI].
      assert (D : handshake (new_connection c) (a_handshake (oracle i)) = Panic \/
                  handshake (new_connection c) (a_handshake (oracle i)) <> Panic).
      { destruct (handshake (new_connection c) (a_handshake (oracle i))); auto; right; discriminate. }
      destruct D as [P|P].
      + right. split.
        * cbn [reconnect_loop]. rewrite T, S, O. unfold duration_mul. rewrite (proj2 (N.ltb_lt _ _) F). cbn [bind].
          rewrite P. reflexivity.
        * apply PI in P as [P1 P2]. exists 0. rewrite Nat.add_0_r. split; [lia|]. split; [now apply within_0|]. split; [lia|]. split; [exact S|].
          right. auto.
      + apply RI in P as (c1 & r & P).
        destruct (attempt_handshake c c1 (oracle i) r S O (SM i) P) as [(e & _ & _ & R)|[(_ & ST)|(x & _ & ST & _)]].
        * now apply (RT e).
        * left. destruct (settle_handshake c (oracle i) _ fuel bk oracle i tries delay cause eq_refl T ST (SM i) (fun _ => F)) as (c' & tr & E).
          eauto.
        * left. destruct (settle_handshake c (oracle i) _ fuel bk oracle i tries delay cause eq_refl T ST (SM i) (fun _ => F)) as (c' & tr & E).
          eauto.
    - apply (RT (COpen e)). split; [exact S|]. left. eauto.
    - left. cbn [reconnect_loop]. rewrite T, S, O. unfold duration_mul. rewrite (proj2 (N.ltb_lt _ _) F). cbn [bind].
      eexists _, _, _. reflexivity.
    - left. cbn [reconnect_loop]. rewrite T, S, O. unfold duration_mul. rewrite (proj2 (N.ltb_lt _ _) F). cbn [bind].
      eexists _, _, _. reflexivity. }
  destruct (G fuel 0 (max_tries bk) (initial_delay bk) CTimeout c) as [H|(P & k & K1 & K2 & K3 & K4 & K5)]; [auto|].
  right. split; [exact P|]. exists k. cbn [Nat.add] in *. unfold fits_at in K5. rewrite nd_nth in K5.
  repeat split; auto; exact K5.
Qed.

Example ex_c51_panics :
  let c := sample_client (credentials_new (b "me") (b "tok")) backoff_default in
  let h := sample_handshake (b ":tmi.twitch.tv CAP * ACK :twitch.tv/tags") (b "@" ++ many_tags 129 ++ b " :tmi.twitch.tv 001 me :Hi") in
  delivered h /\ small_answers (c_reader c) h /\ handshake c h = Panic.
Proof. split; [split; reflexivity|]. split; vm_compute; reflexivity. Qed.

Lemma loop_panics (k : nat) : forall (fuel : nat) (bk : backoff) (oracle : nat -> attempt) (i : nat) (tries : option N)
    (delay : duration) (cause : connect_error) (c : client),
  small_oracle oracle -> k < fuel -> within tries k -> (forall j, j < k -> exists e, retried (oracle (i + j)) e) ->
  a_sleeps (oracle (i + k)) = true ->
  (~ fits_at bk delay k \/
   a_open (oracle (i + k)) = OpOk /\ delivered (a_handshake (oracle (i + k))) /\
   chokes reader_new (a_handshake (oracle (i + k)))) ->
  reconnect_loop fuel bk oracle i tries delay cause c = Panic.
Proof.
  induction k as [|k IH]; intros fuel bk oracle i tries delay cause c SM L W R S K;
    (destruct fuel as [|fuel]; [lia|]); destruct (N.lt_ge_cases (delay * delay_multiplier bk) duration_limit) as [F|F].
  - rewrite Nat.add_0_r in *. destruct K as [K|(O & D & K)]; [now contradiction K|].
    cbn [reconnect_loop]. rewrite (proj2 (within_0 tries) W), S, O. unfold duration_mul. rewrite (proj2 (N.ltb_lt _ _) F).
    cbn [bind]. now rewrite (proj2 (proj1 (p_c51_panics_iff (new_connection c) _ (SM i))) (conj D K)).
  - apply (loop_overflow 0); try lia; auto. unfold fits_at. cbn [nd]. lia.
  - assert (T : tries_left tries = true).
    { apply within_0. destruct tries as [n|]; cbn in *; [lia|exact I]. }
    destruct (R 0) as [e E]; [lia|]. rewrite Nat.add_0_r in E.
    destruct (loop_retry fuel bk oracle i tries delay cause e c T E F) as (c1 & pre & CF & ->).
    replace (i + Datatypes.S k) with (i + 1 + k) in * by lia.
    rewrite IH; [reflexivity|exact SM|lia|now apply within_step| |exact S|].
    + intros j J. replace (i + 1 + j) with (i + Datatypes.S j) by lia. apply R. lia.
    + unfold fits_at in *. now rewrite nd_next.
  - destruct (R 0) as [e [E _]]; [lia|]. apply (loop_overflow 0); try lia; auto.
    + destruct tries as [n|]; cbn in *; [lia|exact I].
    + unfold fits_at. cbn [nd]. lia.
Qed.

(** C52. It panics exactly if, after some retried attempts, the next delay is not a
    [Duration], or an answer is a line on which parsing panics. Otherwise it returns. *)
Lemma p_c52_panics_iff :
  forall (fuel : nat) (oracle : nat -> attempt) (c : client),
    small_oracle oracle ->
    let bk := cf_backoff (c_config c) in
    (reconnect fuel oracle c = Panic <->
     exists k, k < fuel /\ within (max_tries bk) k /\ (forall j, j < k -> exists e, retried (oracle j) e) /\
       a_sleeps (oracle k) = true /\
       (~ delay_fits bk k \/
        a_open (oracle k) = OpOk /\ delivered (a_handshake (oracle k)) /\ chokes reader_new (a_handshake (oracle k)))) /\
    (reconnect fuel oracle c <> Panic -> exists c' tr o, reconnect fuel oracle c = Ret (c', tr, o)).
Proof.
  intros fuel oracle c SM bk. pose proof (returns_or_panics fuel oracle c SM) as H. cbv zeta in H. fold bk in H. split; [split|].
  - intros P. destruct H as [(c' & tr & o & E)|[_ H]]; [congruence|exact H].
  - intros (k & K1 & K2 & K3 & K4 & K5). unfold reconnect. fold bk. apply (loop_panics k); auto.
    unfold fits_at. now rewrite nd_nth.
  - intros P. destruct H as [H|[E _]]; [exact H|contradiction].
Qed.

(** C52. And it does end: with a limit, after at most so many iterations. *)
Lemma p_c52_ends :
  forall (fuel : nat) (oracle : nat -> attempt) (c c' : client) (tr : list event) (o : outcome) (n : N),
    small_oracle oracle -> max_tries (cf_backoff (c_config c)) = Some n -> (n < N.of_nat fuel)%N ->
    reconnect fuel oracle c = Ret (c', tr, o) -> o <> Running.
Proof.
  intros fuel oracle c c' tr o n SM MT L E ->. unfold reconnect in E. rewrite MT in E.
  apply loop_shaped in E as [k [H1 H2 H3 HF H4]]; [|exact SM].
  destruct H4 as [(cz & _ & _ & _ & _ & Z & _)|[(_ & _ & ST & _)|(-> & _)]].
  - discriminate.
  - now apply settles_not_running in ST.
  - destruct fuel as [|fuel]; [lia|]. destruct (H1 fuel) as [W _]; [lia|]. cbn in W. lia.
Qed.

(** C52. The first attempt that settles it decides. *)
Lemma p_c52_first_settled :
  forall (fuel k : nat) (oracle : nat -> attempt) (c : client) (o : outcome),
    let bk := cf_backoff (c_config c) in
    (forall j, j < k -> exists e, retried (oracle j) e) -> (forall j, j <= k -> delay_fits bk j) ->
    within (max_tries bk) k -> settles (oracle k) o -> small_oracle oracle -> k < fuel ->
    exists c' tr, reconnect fuel oracle c = Ret (c', tr, o) /\
      attempts tr = k + (if a_sleeps (oracle k) then 1 else 0).
Proof.
  intros fuel k oracle c o bk R F W ST SM L. unfold reconnect. fold bk.
  assert (FT : forall j, j <= k -> fits_at bk (initial_delay bk) j).
  { intros j J. unfold fits_at. rewrite nd_nth. now apply F. }
  destruct (loop_settles k fuel bk oracle 0 (max_tries bk) (initial_delay bk) CTimeout c o) as (c' & tr & E); auto.
  { intros j J. apply FT. lia. }
  exists c', tr. split; [exact E|]. apply loop_shaped in E as [k' [H1 H2 H3 HF H4]]; [|exact SM]. cbn [Nat.add] in *.
  assert (NR : o <> Running). { intros ->. now apply settles_not_running in ST. }
  assert (GE : ~ k < k').
  { intros J. destruct (H1 k J) as [_ [e Q]]. eapply retried_not_settled; eauto. }
  destruct H4 as [(cz & _ & _ & NW & _)|[(W' & _ & ST' & A & _)|(_ & Z & _)]]; [| |contradiction].
  - exfalso. apply NW. destruct (max_tries bk) as [n|]; cbn in *; [lia|exact I].
  - assert (k' = k) as ->; [|exact A]. destruct (Nat.lt_trichotomy k' k) as [J|[J|J]]; auto; [|contradiction].
    destruct (R k' J) as [e Q]. exfalso. eapply retried_not_settled; eauto.
Qed.

(** C52. After exactly [max_tries] retried attempts it gives up. *)
Lemma p_c52_gives_up :
  forall (fuel k : nat) (oracle : nat -> attempt) (c : client),
    let bk := cf_backoff (c_config c) in
    max_tries bk = Some (N.of_nat k) ->
    (forall j, j < k -> exists e, retried (oracle j) e) -> (forall j, j < k -> delay_fits bk j) ->
    small_oracle oracle -> k < fuel ->
    exists c' tr e, reconnect fuel oracle c = Ret (c', tr, Finished (Err e)) /\ attempts tr = k /\
      (k = 0 -> e = CTimeout) /\ (forall j, k = S j -> retried (oracle j) e).
Proof.
  intros fuel k oracle c bk MT R F SM L. unfold reconnect. fold bk.
  destruct (loop_gives_up k fuel bk oracle 0 (max_tries bk) (initial_delay bk) CTimeout c) as (c' & tr & e & E); auto.
  { intros j J. unfold fits_at. rewrite nd_nth. now apply F. }
  exists c', tr, e. split; [exact E|]. apply loop_shaped in E as [k' [H1 H2 H3 HF H4]]; [|exact SM]. cbn [Nat.add] in *.
  assert (LE : k' <= k).
  { destruct k' as [|k']; [lia|]. destruct (H1 k') as [W _]; [lia|]. rewrite MT in W. cbn in W. lia. }
  destruct H4 as [(cz & Z1 & Z2 & NW & _ & Z & A & _)|[(W' & _ & ST' & A & _)|(_ & Z & _)]]; [| |discriminate].
  - injection Z as ->. assert (k' = k) as -> by (rewrite MT in NW; cbn in NW; lia). auto.
  - rewrite MT in W'. cbn in W'. destruct (R k') as [e' Q]; [lia|]. exfalso. eapply retried_not_settled; eauto.
Qed.

(** C52. Without a limit it never gives up on failures that are retried. *)
Lemma p_c52_unlimited :
  forall (fuel : nat) (oracle : nat -> attempt) (c : client),
    let bk := cf_backoff (c_config c) in
    max_tries bk = None -> (forall j, exists e, retried (oracle j) e) -> (forall j, delay_fits bk j) ->
    small_oracle oracle ->
    exists c' tr, reconnect fuel oracle c = Ret (c', tr, Running) /\ attempts tr = fuel.
Proof.
  intros fuel oracle c bk MT R F SM. unfold reconnect. fold bk. rewrite MT.
  destruct (loop_unlimited fuel bk oracle 0 (initial_delay bk) CTimeout c R) as (c' & tr & E).
  { intros j. unfold fits_at. rewrite nd_nth. apply F. }
  exists c', tr. split; [exact E|]. apply loop_shaped in E as [k' [H1 H2 H3 HF H4]]; [|exact SM].
  destruct H4 as [(cz & Z1 & Z2 & NW & _ & Z & A & _)|[(W' & _ & ST' & A & _)|(-> & _ & A & _)]]; [discriminate| |exact A].
  now apply settles_not_running in ST'.
Qed.

(** An attempt whose connection is refused. *)
Definition refused : attempt :=
  mk_attempt true (OpErr ConnectionRefused)
    (mk_handshake_out WOk FOk (mk_wait [] false Scalar) (mk_wait [] false Scalar)) false.

Definition accepted : attempt :=
  mk_attempt true OpOk (sample_handshake (b "CAP * ACK") (b "001 me")) false.

Definition sample_oracle (j : nat) : attempt := if j <? 2 then refused else accepted.

Example ex_c52 :
  let c := sample_client (credentials_anon 12345) backoff_default in
  small_oracle sample_oracle /\ retried (sample_oracle 0) (COpen ConnectionRefused) /\
  settles (sample_oracle 2) (Finished (Ok tt)) /\
  (exists c' tr, reconnect 9 sample_oracle c = Ret (c', tr, Finished (Ok tt)) /\ attempts tr = 3 /\
     delays tr = [secs 1; secs 3; secs 9]) /\
  (exists c' tr, reconnect 9 (fun _ => refused) c = Ret (c', tr, Finished (Err (COpen ConnectionRefused))) /\
     attempts tr = 8 /\ delays tr = [secs 1; secs 3; secs 9; secs 12; secs 12; secs 12; secs 12; secs 12]).
Proof.
  split; [intros [|[|j]]; vm_compute; reflexivity|].
  split; [split; [reflexivity|left; eexists; split; reflexivity]|].
  split.
  { apply st_answered; try reflexivity; [split; reflexivity|].
    eapply vd_acknowledged; [constructor; vm_compute; reflexivity|vm_compute; reflexivity| |].
    - split; [reflexivity|]. exists []. reflexivity.
    - eapply vd_welcome; [constructor; vm_compute; reflexivity|vm_compute; reflexivity|reflexivity]. }
  split.
  - eexists _, _. split; [vm_compute; reflexivity|]. split; vm_compute; reflexivity.
  - eexists _, _. split; [vm_compute; reflexivity|]. split; vm_compute; reflexivity.
Qed.

(** C52. [Some 0] is taken literally: no attempt at all, reported as a timeout. *)
Lemma p_c52_zero_means_unlimited_refuted :
  exists (c c' : client) (tr : list event),
    max_tries (cf_backoff (c_config c)) = Some 0%N /\
    reconnect 5 (fun _ => accepted) c = Ret (c', tr, Finished (Err CTimeout)) /\ attempts tr = 0.
Proof.
  exists (sample_client (credentials_anon 12345) (mk_backoff (Some 0%N) (secs 1) 1 (secs 1))). eexists _, _.
  split; [reflexivity|]. split; [vm_compute; reflexivity|reflexivity].
Qed.

(** ** C53 *)

(** C53. The delays are those of the configuration, in order. *)
Lemma p_c53_delays :
  forall (fuel : nat) (oracle : nat -> attempt) (c c' : client) (tr : list event) (o : outcome),
    small_oracle oracle -> reconnect fuel oracle c = Ret (c', tr, o) ->
    delays tr = map (nth_delay (cf_backoff (c_config c))) (seq 0 (length (delays tr))) /\
    (length (delays tr) = attempts tr \/ (length (delays tr) = attempts tr + 1 /\ o = Abandoned)).
Proof.
  intros fuel oracle c c' tr o SM E. unfold reconnect in E.
  apply loop_shaped in E as [k [H1 H2 H3 HF H4]]; [|exact SM]. split.
  - rewrite H3 at 1. apply map_ext. intros j. apply nd_nth.
  - destruct H4 as [(cz & _ & _ & _ & _ & _ & A & D)|[(W & _ & ST & A & D)|(_ & _ & A & D)]]; [left; lia| |left; lia].
    unfold slept in A. destruct (a_sleeps (oracle (0 + k))) eqn:S; [left; lia|right; split; [lia|]].
    inversion ST; congruence.
Qed.

(** C53. None exceeds both the initial and the maximal delay; and none after the first
    exceeds the maximal one. *)
Lemma p_c53_bound :
  forall (bk : backoff) (k : nat),
    (nth_delay bk k <= N.max (initial_delay bk) (max_delay bk))%N /\
    (nth_delay bk (S k) <= max_delay bk)%N.
Proof.
  intros bk k. split; [|cbn [nth_delay]; lia]. destruct k as [|k]; cbn [nth_delay]; lia.
Qed.

(** C53. The first delay is not capped. *)
Lemma p_c53_never_above_max_refuted :
  exists (c c' : client) (tr : list event) (o : outcome) (d : duration),
    reconnect 2 (fun _ => accepted) c = Ret (c', tr, o) /\
    In d (delays tr) /\ (max_delay (cf_backoff (c_config c)) < d)%N.
Proof.
  exists (sample_client (credentials_anon 12345) (mk_backoff (Some 3%N) (secs 60) 1 (secs 10))).
  eexists _, _, _, (secs 60). split; [vm_compute; reflexivity|]. split; [left; reflexivity|]. vm_compute. reflexivity.
Qed.

(** C53. The product is computed before it is capped: it panics if it is not a
    [Duration], even if the cap is below. *)
Lemma p_c53_overflow_panics :
  forall (fuel k : nat) (oracle : nat -> attempt) (c : client),
    let bk := cf_backoff (c_config c) in
    (forall j, j < k -> exists e, retried (oracle j) e) -> (forall j, j < k -> delay_fits bk j) ->
    within (max_tries bk) k -> a_sleeps (oracle k) = true -> ~ delay_fits bk k -> k < fuel ->
    reconnect fuel oracle c = Panic.
Proof.
  intros fuel k oracle c bk R F W S N L. unfold reconnect. fold bk.
  apply (loop_overflow k); auto.
  - intros j J. unfold fits_at. rewrite nd_nth. now apply F.
  - unfold fits_at. now rewrite nd_nth.
Qed.

(** C53. With the default configuration it never is too large. *)
Lemma p_c53_default_fits :
  forall k : nat, delay_fits backoff_default k.
Proof.
  intros k. unfold delay_fits. destruct (p_c53_bound backoff_default k) as [B _].
  unfold backoff_default in *. cbn [delay_multiplier initial_delay max_delay] in *. unfold secs, duration_limit in *.
  apply N.le_lt_trans with (12000000000 * 3)%N; [|reflexivity].
  apply N.mul_le_mono_r. etransitivity; [exact B|]. vm_compute. discriminate.
Qed.

Example ex_c53 :
  let c := sample_client (credentials_anon 12345) (mk_backoff None (secs 60) 4294967295 (secs 1000000000000)) in
  delay_fits (cf_backoff (c_config c)) 0 /\ ~ delay_fits (cf_backoff (c_config c)) 1 /\
  reconnect 2 (fun _ => refused) c = Panic.
Proof.
  split; [vm_compute; reflexivity|]. split; [vm_compute; discriminate|]. vm_compute. reflexivity.
Qed.

(** ** C54 *)

(** C54. An attempt is retried exactly if opening or writing failed with an I/O error:
    no attempt is both retried and settled, and [reconnect] goes on to a second attempt
    only after a retried one. *)
Lemma p_c54_classification :
  forall (fuel : nat) (oracle : nat -> attempt) (c c' : client) (tr : list event) (o : outcome),
    small_oracle oracle -> reconnect fuel oracle c = Ret (c', tr, o) ->
    (forall a e x, retried a e -> ~ settles a x) /\
    (forall j, S j < length (delays tr) -> exists e, retried (oracle j) e) /\
    (forall j, j < length (delays tr) -> (forall e, ~ retried (oracle j) e) ->
       length (delays tr) = S j /\ settles (oracle j) o).
Proof.
  intros fuel oracle c c' tr o SM E. split; [intros a e x R S; eapply retried_not_settled; eauto|].
  unfold reconnect in E. apply loop_shaped in E as [k [H1 H2 H3 HF H4]]; [|exact SM]. cbn [Nat.add] in *. split.
  - intros j J. destruct H4 as [(cz & _ & _ & _ & _ & _ & A & D)|[(W & _ & ST & A & D)|(_ & _ & A & D)]];
      apply H1; lia.
  - intros j J N. assert (NK : ~ j < k) by (intros Q; destruct (H1 j Q) as [_ [e K]]; exact (N e K)).
    destruct H4 as [(cz & _ & _ & _ & _ & _ & A & D)|[(W & _ & ST & A & D)|(_ & _ & A & D)]]; [lia| |lia].
    assert (j = k) as -> by lia. split; [lia|exact ST].
Qed.

(** C54. Which outcomes are returned at once: a timeout while opening, or during the
    handshake, and every verdict of the handshake (authentication failures, unexpected
    messages, lines that do not parse, a closed stream, read errors, silence). *)
Lemma p_c54_returned_at_once :
  forall (fuel k : nat) (oracle : nat -> attempt) (c : client) (e : connect_error),
    let bk := cf_backoff (c_config c) in
    let a := oracle k in
    (forall j, j < k -> exists e, retried (oracle j) e) -> (forall j, j <= k -> delay_fits bk j) ->
    within (max_tries bk) k -> small_oracle oracle -> k < fuel -> a_sleeps a = true ->
    (a_open a = OpElapsed /\ e = CTimeout) \/
    (a_open a = OpOk /\ (exists n, h_write (a_handshake a) = WDrop n) /\ a_elapsed a = true /\ e = CTimeout) \/
    (a_open a = OpOk /\ delivered (a_handshake a) /\ verdict reader_new (a_handshake a) (Done (Err e))) ->
    exists c' tr, reconnect fuel oracle c = Ret (c', tr, Finished (Err e)) /\ attempts tr = S k.
Proof.
  intros fuel k oracle c e bk a R F W SM L S D.
  assert (ST : settles (oracle k) (Finished (Err e))).
  { fold a. destruct D as [[O ->]|[(O & H & EL & ->)|(O & DL & V)]].
    - now apply st_open_elapsed.
    - pose proof (st_cut_short a S O (or_introl H)) as Q. now rewrite EL in Q.
    - now apply st_answered. }
  destruct (p_c52_first_settled fuel k oracle c (Finished (Err e)) R F W ST SM L) as (c' & tr & E & A).
  exists c', tr. split; [exact E|]. fold a in A. rewrite S in A. lia.
Qed.

(** C54. So a connection lost while waiting for the answer is not retried. *)
Lemma p_c54_lost_connection_retried_refuted :
  exists (oracle : nat -> attempt) (c c' : client) (tr : list event),
    max_tries (cf_backoff (c_config c)) = Some 8%N /\
    settles (oracle 1) (Finished (Ok tt)) /\
    reconnect 9 oracle c = Ret (c', tr, Finished (Err (CRead RecvStreamClosed))) /\ attempts tr = 1.
Proof.
  exists (fun j => match j with
          | 0 => mk_attempt true OpOk (mk_handshake_out WOk FOk (mk_wait [Got []] false Scalar) (mk_wait [] false Scalar)) false
          | _ => accepted end).
  exists (sample_client (credentials_anon 12345) backoff_default). eexists _, _.
  split; [reflexivity|]. split; [apply ex_c52|]. split; [vm_compute; reflexivity|reflexivity].
Qed.

Example ex_c54 :
  let a := mk_attempt true OpOk (sample_handshake (b "CAP * NAK") (b "001 me")) false in
  delivered (a_handshake a) /\ verdict reader_new (a_handshake a) (Done (Err CAuth)) /\
  exists c' tr, reconnect 9 (fun _ => a) (sample_client (credentials_anon 12345) backoff_default) =
    Ret (c', tr, Finished (Err CAuth)) /\ attempts tr = 1.
Proof.
  split; [split; reflexivity|]. split.
  - eapply vd_refused; [constructor; vm_compute; reflexivity|vm_compute; reflexivity|reflexivity|].
    intros [_ [r K]]. vm_compute in K. discriminate.
  - eexists _, _. split; [vm_compute; reflexivity|reflexivity].
Qed.

(** ** C50 *)

Lemma copies_S (n : nat) (s : str) : copies (S n) s = s ++ copies n s.
Proof. reflexivity. Qed.

Lemma copies_snoc (n : nat) (s : str) : copies n s ++ s = copies (S n) s.
Proof. induction n as [|n IH]; [cbn; now rewrite app_nil_r|]. rewrite copies_S, <- app_assoc, IH. reflexivity. Qed.

Definition greet (c : client) : str := handshake_text (cf_credentials (c_config c)).

Lemma loop_scratch (fuel : nat) : forall (bk : backoff) (oracle : nat -> attempt) (i : nat) (tries : option N)
    (delay : duration) (cause : connect_error) (c c' : client) (tr : list event) (o : outcome) (n : nat),
  reconnect_loop fuel bk oracle i tries delay cause c = Ret (c', tr, o) -> c_scratch c = copies n (greet c) ->
  c_config c' = c_config c /\ c_log c' = c_log c /\ (exists n', c_scratch c' = copies n' (greet c)) /\
  (o = Finished (Ok tt) -> c_scratch c' = [] /\ exists n', c_wire c' = copies (S n') (greet c)).
Proof.
  induction fuel as [|fuel IH]; intros bk oracle i tries delay cause c c' tr o n E S.
  - cbn [reconnect_loop] in E. injection E as <- <- <-. repeat split; eauto; discriminate.
  - cbn [reconnect_loop] in E. destruct (tries_left tries).
    2:{ injection E as <- <- <-. repeat split; eauto; discriminate. }
    destruct (a_sleeps (oracle i)).
    2:{ injection E as <- <- <-. repeat split; eauto; discriminate. }
    destruct (duration_mul delay (delay_multiplier bk)) as [p| | |]; try discriminate. cbn [bind] in E.
    destruct (a_open (oracle i)) as [|e| |].
    + destruct (handshake (new_connection c) (a_handshake (oracle i))) as [[c1 r]| | |] eqn:H; try discriminate. cbn [bind] in E.
      apply handshake_keeps in H as (K1 & K2 & K3 & K4 & _).
      assert (T : told (new_connection c) = copies (Datatypes.S n) (greet c)).
      { unfold told. cbn [new_connection set_reader set_wire c_scratch c_config]. rewrite S. apply copies_snoc. }
      rewrite T in K3, K4.
      assert (X : exists n', c_scratch c1 = copies n' (greet c)).
      { destruct K3 as [K3|K3]; [now exists 0|now exists (Datatypes.S n)]. }
      destruct r as [[u|e]|].
      * injection E as <- <- <-. split; [exact K1|]. split; [exact K2|]. split; [exact X|]. intros _. destruct u.
        destruct (K4 eq_refl) as [A B]. split; [exact A|]. exists n. exact B.
      * destruct (should_retry e).
        -- destruct (reconnect_loop fuel bk oracle (i + 1) _ _ e c1) as [[[c2 tr2] o2]| | |] eqn:L; try discriminate.
           cbn [bind] in E. injection E as <- <- <-. destruct X as [n' X].
           assert (G : greet c1 = greet c) by (unfold greet; now rewrite K1).
           rewrite <- G in X. apply (IH _ _ _ _ _ _ _ _ _ _ n') in L; [|exact X].
           rewrite G in L. destruct L as (L1 & L2 & L3 & L4). rewrite K1 in L1. rewrite K2 in L2. auto.
        -- injection E as <- <- <-. repeat split; auto; discriminate.
      * destruct (a_elapsed (oracle i)); injection E as <- <- <-; repeat split; auto; discriminate.
    + destruct (reconnect_loop fuel bk oracle (i + 1) _ _ (COpen e) c) as [[[c2 tr2] o2]| | |] eqn:L; try discriminate.
      cbn [bind] in E. injection E as <- <- <-. eapply IH; eauto.
    + injection E as <- <- <-. repeat split; eauto; discriminate.
    + injection E as <- <- <-. repeat split; eauto; discriminate.
Qed.

Lemma run_call_frame (c : client) (k : call) (w : write_out) :
  c_config (fst (run_call c k w)) = c_config c /\
  (c_scratch (fst (run_call c k w)) = c_scratch c \/ c_scratch (fst (run_call c k w)) = []).
Proof.
  destruct k as [s|ch t r n|n|p|ch|chs].
  2-6: rewrite run_call_spec by (intros [s K]; discriminate); cbn; auto.
  destruct (ends_with crlf s) eqn:E.
  - apply ends_with_crlf in E. rewrite run_call_spec by auto. cbn. auto.
  - rewrite run_raw_invalid; [auto|]. intros K. apply ends_with_crlf in K. congruence.
Qed.

(** C50. Whatever happens to a client that starts with an empty buffer (sends, receives
    and reconnects with any outcome), its buffer holds a number of greetings. *)
Lemma p_c50_buffer_holds_greetings :
  forall (c c' : client) (g : str),
    c_scratch c = [] -> greeting (cf_credentials (c_config c)) g -> history c c' ->
    c_config c' = c_config c /\ exists n, c_scratch c' = copies n g.
Proof.
  intros c c' g S G H. apply greeting_iff in G. revert S G.
  induction H as [c|c c1 k w H IH|c c1 bd reads r o H IH E|c c1 fuel oracle c2 tr o H IH E]; intros S G.
  - split; [reflexivity|]. now exists 0.
  - destruct (IH S G) as [I1 [n I2]]. destruct (run_call_frame c1 k w) as [F1 [F2|F2]].
    + split; [congruence|]. exists n. congruence.
    + split; [congruence|]. now exists 0.
  - destruct (IH S G) as [I1 [n I2]]. split; [exact I1|]. now exists n.
  - destruct (IH S G) as [I1 [n I2]].
    assert (EG : greet c1 = g) by (unfold greet; now rewrite I1, G).
    rewrite <- EG in I2. apply (loop_scratch _ _ _ _ _ _ _ _ _ _ _ n) in E as (E1 & _ & [n' E2] & _); [|exact I2].
    split; [congruence|]. exists n'. congruence.
Qed.

(** C50. What a later send puts on the wire and into the log is preceded by what the
    buffer holds; afterwards the buffer is empty. *)
Lemma p_c50_next_send :
  forall (c c' : client) (g : str) (k : call) (w : write_out),
    c_scratch c = [] -> greeting (cf_credentials (c_config c)) g -> history c c' -> ~ is_raw k ->
    exists n x, c_scratch c' = copies n g /\ part_of (copies n g ++ call_line k) x /\
      c_wire (fst (run_call c' k w)) = c_wire c' ++ x /\
      (w = WOk -> x = copies n g ++ call_line k) /\
      c_log (fst (run_call c' k w)) = c_log c' ++ [copies n g ++ call_line k] /\
      c_scratch (fst (run_call c' k w)) = [].
Proof.
  intros c c' g k w S G H NR. destruct (p_c50_buffer_holds_greetings c c' g S G H) as [_ [n N]].
  exists n. rewrite run_call_spec by (intros K; contradiction).
  assert (P : payload c' k = copies n g ++ call_line k).
  { destruct k; [exfalso; apply NR; eexists; reflexivity|..]; cbn [payload]; now rewrite N. }
  assert (L : left_over c' k = []).
  { destruct k; try reflexivity. exfalso. apply NR. eexists. reflexivity. }
  rewrite P, L. exists (taken w (copies n g ++ call_line k)). cbn. split; [exact N|]. split; [apply taken_part|].
  split; [reflexivity|]. split; [now intros ->|]. split; reflexivity.
Qed.

(** C50. After a successful reconnect the buffer is empty again, so that C48 applies. *)
Lemma p_c50_clean_after_success :
  forall (c c1 c2 : client) (g : str) (fuel : nat) (oracle : nat -> attempt) (tr : list event),
    c_scratch c = [] -> greeting (cf_credentials (c_config c)) g -> history c c1 ->
    reconnect fuel oracle c1 = Ret (c2, tr, Finished (Ok tt)) ->
    c_scratch c2 = [] /\ c_log c2 = c_log c1 /\ exists n, c_wire c2 = copies (S n) g.
Proof.
  intros c c1 c2 g fuel oracle tr S G H E.
  destruct (p_c50_buffer_holds_greetings c c1 g S G H) as [CF [n N]]. apply greeting_iff in G.
  assert (EG : greet c1 = g) by (unfold greet; now rewrite CF, G).
  rewrite <- EG in N. apply (loop_scratch _ _ _ _ _ _ _ _ _ _ _ n) in E as (_ & E1 & _ & E2); [|exact N].
  destruct (E2 eq_refl) as [A B]. rewrite EG in B. auto.
Qed.

(** A connection that is opened, but fails while the handshake is written or flushed. *)
Definition write_fails (a : attempt) : Prop :=
  a_sleeps a = true /\ a_open a = OpOk /\
  ((exists n e, h_write (a_handshake a) = WErr n e) \/ (h_write (a_handshake a) = WOk /\ exists e, h_flush (a_handshake a) = FErr e)).

Lemma loop_copies (n : nat) : forall (fuel : nat) (bk : backoff) (oracle : nat -> attempt) (i : nat) (tries : option N)
    (delay : duration) (cause : connect_error) (c c' : client) (tr : list event) (o : outcome),
  (forall j, j < n -> write_fails (oracle (i + j))) -> within tries n ->
  a_sleeps (oracle (i + n)) = true -> a_open (oracle (i + n)) = OpOk -> h_write (a_handshake (oracle (i + n))) = WOk ->
  n < fuel -> reconnect_loop fuel bk oracle i tries delay cause c = Ret (c', tr, o) ->
  nth_error (sent tr) n = Some (c_scratch c ++ copies (S n) (greet c)).
Proof.
  induction n as [|n IH]; intros fuel bk oracle i tries delay cause c c' tr o WF W SL O WR L E.
  - destruct fuel as [|fuel]; [lia|]. rewrite Nat.add_0_r in *. cbn [reconnect_loop] in E.
    rewrite (proj2 (within_0 tries) W), SL, O in E.
    destruct (duration_mul delay (delay_multiplier bk)) as [p| | |]; try discriminate. cbn [bind] in E.
    destruct (handshake (new_connection c) (a_handshake (oracle i))) as [[c1 r]| | |] eqn:H; try discriminate. cbn [bind] in E.
    apply handshake_keeps in H as (K1 & K2 & K3 & K4 & _ & _ & K5). specialize (K5 WR).
    assert (X : c_wire c1 = c_scratch c ++ copies 1 (greet c)).
    { rewrite K5. unfold told. cbn. now rewrite app_nil_r. }
    assert (Y : exists tr', tr = [Slept delay; Opening; Sent (c_wire c1)] ++ tr').
    { destruct r as [[u|e]|].
      - injection E as <- <- <-. now exists [].
      - destruct (should_retry e); [|injection E as <- <- <-; now exists []].
        destruct (reconnect_loop fuel bk oracle (i + 1) _ _ e c1) as [[[c2 tr2] o2]| | |]; try discriminate.
        cbn [bind] in E. injection E as <- <- <-. now exists tr2.
      - destruct (a_elapsed (oracle i)); injection E as <- <- <-; now exists []. }
    destruct Y as [tr' ->]. cbn. now rewrite X.
  - destruct fuel as [|fuel]; [lia|]. destruct (WF 0) as (SL0 & O0 & F0); [lia|]. rewrite Nat.add_0_r in *.
    cbn [reconnect_loop] in E.
    assert (T : tries_left tries = true).
    { apply within_0. destruct tries as [q|]; cbn in *; [lia|exact I]. }
    rewrite T, SL0, O0 in E.
    destruct (duration_mul delay (delay_multiplier bk)) as [p| | |]; try discriminate. cbn [bind] in E.
    destruct (handshake (new_connection c) (a_handshake (oracle i))) as [[c1 r]| | |] eqn:H; try discriminate. cbn [bind] in E.
    assert (RE : exists e, r = Done (Err (CIo e))).
    { rewrite handshake_cases in H. destruct F0 as [(q & e & Q)|[Q [e Q']]]; rewrite Q in H; [|rewrite Q' in H];
        injection H as _ <-; now exists e. }
    assert (ND : ~ delivered (a_handshake (oracle i))).
    { intros [D1 D2]. destruct F0 as [(q & e & Q)|[Q [e Q']]]; congruence. }
    apply handshake_keeps in H as (K1 & K2 & K3 & K4 & K5 & _). specialize (K5 ND).
    destruct RE as [e ->]. cbn [should_retry] in E.
    destruct (reconnect_loop fuel bk oracle (i + 1) _ _ (CIo e) c1) as [[[c2 tr2] o2]| | |] eqn:LP; try discriminate.
    cbn [bind] in E. injection E as <- <- <-.
    apply IH in LP; [| | | | | |lia].
    + change (nth_error (sent tr2) n = Some (c_scratch c ++ copies (S (S n)) (greet c))). rewrite LP, K5. f_equal.
      unfold told. cbn [new_connection set_reader set_wire c_scratch c_config].
      assert (G : greet c1 = greet c) by (unfold greet; now rewrite K1). rewrite G.
      rewrite (copies_S (S n)). unfold greet. now rewrite <- app_assoc.
    + intros j J. replace (i + 1 + j) with (i + S j) by lia. apply WF. lia.
    + now apply within_step.
    + now replace (i + 1 + n) with (i + S n) by lia.
    + now replace (i + 1 + n) with (i + S n) by lia.
    + now replace (i + 1 + n) with (i + S n) by lia.
Qed.

(** C50. After [n] attempts of a reconnect that failed while writing, the next
    connection is sent the greeting [n + 1] times. *)
Lemma p_c50_repeated_greeting :
  forall (n fuel : nat) (oracle : nat -> attempt) (c c' : client) (tr : list event) (o : outcome) (g : str),
    c_scratch c = [] -> greeting (cf_credentials (c_config c)) g ->
    (forall j, j < n -> write_fails (oracle j)) -> within (max_tries (cf_backoff (c_config c))) n ->
    a_sleeps (oracle n) = true -> a_open (oracle n) = OpOk -> h_write (a_handshake (oracle n)) = WOk ->
    n < fuel -> reconnect fuel oracle c = Ret (c', tr, o) ->
    nth_error (sent tr) n = Some (copies (S n) g).
Proof.
  intros n fuel oracle c c' tr o g S G WF W SL O WR L E. apply greeting_iff in G. subst g.
  apply (loop_copies n) in E; auto. now rewrite S in E.
Qed.

Definition broken : attempt :=
  mk_attempt true OpOk (mk_handshake_out (WErr 0 BrokenPipe) FOk (mk_wait [] false Scalar) (mk_wait [] false Scalar)) false.

(** C50. So the isolation of C48 does not extend to reconnecting: a message sent after a
    reconnect that failed while writing is preceded by the old greeting, with the token,
    on the wire and in the log. *)
Lemma p_c50_isolation_refuted :
  exists (c c1 c2 : client) (tr : list event) (e : connect_error) (l1 l2 : str),
    token (cf_credentials (c_config c)) = Some (b "secret") /\ c_scratch c = [] /\
    reconnect 3 (fun _ => broken) c = Ret (c1, tr, Finished (Err e)) /\
    run_call c1 (CallPing (b "x")) WOk = (c2, Done (Ok tt)) /\
    c_wire c2 = c_wire c1 ++ l1 ++ b "PASS oauth:secret" ++ l2 ++ b "PING :x" ++ crlf /\
    c_log c2 = [l1 ++ b "PASS oauth:secret" ++ l2 ++ b "PING :x" ++ crlf].
Proof.
  exists (sample_client (credentials_new (b "me") (b "secret")) (mk_backoff (Some 1%N) (secs 1) 1 (secs 1))). eexists _, _, _, _.
  exists (b "CAP REQ :twitch.tv/commands twitch.tv/tags twitch.tv/membership" ++ crlf), (crlf ++ b "NICK me" ++ crlf).
  split; [reflexivity|]. split; [reflexivity|]. split; [vm_compute; reflexivity|].
  split; [vm_compute; reflexivity|]. split; vm_compute; reflexivity.
Qed.

Example ex_c50 :
  let c := sample_client (credentials_new (b "me") (b "secret")) backoff_default in
  let g := handshake_text (cf_credentials (c_config c)) in
  let oracle := fun j => if j <? 2 then broken else accepted in
  greeting (cf_credentials (c_config c)) g /\ write_fails (oracle 0) /\ write_fails (oracle 1) /\
  exists c' tr, reconnect 9 oracle c = Ret (c', tr, Finished (Ok tt)) /\ sent tr = [[]; []; g ++ g ++ g] /\
    history c c'.
Proof.
  split; [apply greeting_text|].
  split; [repeat split; left; eexists _, _; reflexivity|]. split; [repeat split; left; eexists _, _; reflexivity|].
  eexists _, _. split; [vm_compute; reflexivity|]. split; [vm_compute; reflexivity|].
  eapply (hs_reconnect _ _ 9 (fun j => if j <? 2 then broken else accepted)); [constructor|]. vm_compute. reflexivity.
Qed.
