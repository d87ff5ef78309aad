(** * ReadmeProofs: the program in README.md (C78). *)

From Verif Require Import Base Wide Tags Irc SpecIrc SpecText MsgBase MsgTypes MsgNotice Message SpecMsg Common Client SpecClient Bot SpecBot Readme SpecReadme HandshakeProofs ConnectProofs BotProofs Samples.
From Verif Require Import BaseFacts IrcFacts IrcProofs LineProofs AccessProofs UnescapeProofs FieldFacts TypedFacts MapFacts TypedProofs RecvProofs SendProofs.
From Coq Require Import Lia ZifyBool ZifyNat ZifyN.

(** Logged in anonymously, a turn is a turn of the example program. *)
Lemma readme_turn_bot (pf : profile) (c : client) (x : turn) :
  is_anon (cf_credentials (c_config c)) = true -> readme_turn pf c x = bot_turn pf CHANNELS c x.
Proof.
  intros A. unfold readme_turn, bot_turn.
  destruct (recv (t_build x) (arrive (c_reader c) (t_reads x))) as [[r [[m|e]|]]| | |]; try reflexivity. cbn [bind].
  destruct (own_as_typed pf m) as [[t|]| | |]; try reflexivity. cbn [bind].
  destruct t; try reflexivity. unfold on_msg. cbn [set_reader c_config]. rewrite A. reflexivity.
Qed.

Lemma sent_config (c c' : client) (k : call) (w : write_out) (r : fin (result unit send_error)) :
  ~ is_raw k -> run_call c k w = (c', r) ->
  c_config c' = c_config c /\ c_scratch c' = [] /\ c_log c' = c_log c ++ [payload c k] /\ r = ending w.
Proof.
  intros N E. rewrite run_call_spec in E by (intros R; now destruct (N R)). injection E as <- <-.
  cbn. split; [reflexivity|]. split; [|auto]. destruct k; try reflexivity. destruct N. now eexists.
Qed.

(** What one turn leaves of the client. *)
Lemma turn_keeps (pf : profile) (c c' : client) (x : turn) (out : list str) (r : fin (result unit bot_error)) :
  readme_turn pf c x = Ret (c', out, r) -> c_scratch c = [] ->
  c_config c' = c_config c /\ (r = Done (Ok tt) -> c_scratch c' = []) /\
  exists ss, c_log c' = c_log c ++ ss /\
    Forall polite ss.
Proof.
  intros E S. unfold readme_turn in E.
  destruct (recv (t_build x) (arrive (c_reader c) (t_reads x))) as [[rd [[m|e]|]]| | |]; try discriminate; cbn [bind] in E.
  2:{ injection E as <- <- <-. cbn. split; [reflexivity|]. split; [auto|]. exists []. rewrite app_nil_r. auto. }
  2:{ injection E as <- <- <-. cbn. split; [reflexivity|]. split; [auto|]. exists []. rewrite app_nil_r. auto. }
  assert (Q : forall o r', Ret (set_reader c rd, o, r') = Ret (c', out, r) ->
    c_config c' = c_config c /\ (r = Done (Ok tt) -> c_scratch c' = []) /\
    exists ss, c_log c' = c_log c ++ ss /\
      Forall polite ss).
  { intros o r' K. injection K as <- <- <-. cbn. split; [reflexivity|]. split; [auto|]. exists []. rewrite app_nil_r. auto. }
  destruct (own_as_typed pf m) as [[t|]| | |]; try discriminate; cbn [bind] in E.
  2:{ eapply Q. exact E. }
  destruct t as [| | | | | |p| |p| | | | | |]; try (eapply Q; exact E).
  - change (send_pong (set_reader c rd) p (t_write x)) with (run_call (set_reader c rd) (CallPong p) (t_write x)) in E.
    destruct (run_call (set_reader c rd) (CallPong p) (t_write x)) as [c1 r1] eqn:R.
    apply sent_config in R as (R1 & R2 & R3 & _); [|intros [z Z]; discriminate].
    rewrite payload_clean in R3 by exact S.
    assert (c' = c1) as -> by (unfold sent_or_stop in E; destruct r1 as [[|]|]; now injection E).
    split; [exact R1|]. split; [auto|]. eexists. split; [exact R3|]. constructor; [|constructor].
    right. cbn [call_line]. destruct (pi_nonce p); [right; eauto|now left].
  - destruct (user_name (pm_sender p)) as [nm| | |]; try discriminate. eapply Q. exact E.
  - destruct (reconnect (t_fuel x) (t_oracle x) (set_reader c rd)) as [[[c1 tr] o]| | |] eqn:R; try discriminate.
    cbn [bind] in E. destruct (loop_scratch _ _ _ _ _ _ _ _ _ _ _ 0 R S) as (K1 & K2 & _ & K3).
    destruct o as [[[]|e]| |].
    + destruct (K3 eq_refl) as [K4 _].
      change (send_join_all c1 CHANNELS (t_write x)) with (run_call c1 (CallJoinAll CHANNELS) (t_write x)) in E.
      destruct (run_call c1 (CallJoinAll CHANNELS) (t_write x)) as [c2 r1] eqn:J.
      apply sent_config in J as (R1 & R2 & R3 & _); [|intros [z Z]; discriminate].
      rewrite payload_clean in R3 by exact K4.
      assert (c' = c2) as -> by (unfold sent_or_stop in E; destruct r1 as [[|]|]; now injection E).
      split; [now rewrite R1, K1|]. split; [auto|]. eexists. split; [rewrite R3, K2; reflexivity|].
      constructor; [|constructor]. now left.
    + injection E as <- _ <-. split; [exact K1|]. split; [discriminate|]. exists []. rewrite app_nil_r. auto.
    + injection E as <- _ <-. split; [exact K1|]. split; [discriminate|]. exists []. rewrite app_nil_r. auto.
    + injection E as <- _ <-. split; [exact K1|]. split; [discriminate|]. exists []. rewrite app_nil_r. auto.
Qed.

Lemma readme_run_bot (pf : profile) (xs : list turn) : forall c,
  is_anon (cf_credentials (c_config c)) = true -> c_scratch c = [] ->
  readme_run pf c xs = bot_run pf CHANNELS c xs.
Proof.
  induction xs as [|x xs IH]; intros c A S; [reflexivity|]. cbn [readme_run bot_run].
  rewrite <- (readme_turn_bot pf c x A).
  destruct (readme_turn pf c x) as [[[c1 out] r]| | |] eqn:T; try reflexivity. cbn [bind].
  destruct r as [[[]|e]|]; try reflexivity.
  destruct (turn_keeps _ _ _ _ _ _ T S) as (K1 & K2 & _). rewrite IH; [reflexivity|now rewrite K1|auto].
Qed.

Lemma anon_config (n : N) : is_anon (cf_credentials (config_default n)) = true.
Proof. reflexivity. Qed.

(** C78. It joins the channel behind the anonymous greeting, and then runs. *)
Lemma p_c78_start :
  forall (pf : profile) (n : N) (tls : tls_out) (o : open_out) (h : handshake_out) (elapsed : bool) (c0 : client) (g : str),
    greeting (credentials_anon n) g ->
    connect_anonymous n tls o h elapsed = Ret (Done (Ok c0)) ->
    exists c1, c_wire c1 = g ++ join_line /\ c_log c1 = [join_line] /\
      c_scratch c1 = [] /\ c_reader c1 = c_reader c0 /\ c_config c1 = config_default n /\
      forall turns,
        readme_main pf n tls o h elapsed WOk turns =
        let! (c, out, s) := readme_run pf c1 turns in Ret (Some c, out, s).
Proof.
  intros pf n tls o h el c0 g G E.
  destruct (p_c64_new_client _ _ _ _ _ _ E) as (CF & GW & L & S).
  pose proof (greeting_unique _ _ _ GW G) as W.
  pose proof (run_call_spec c0 (CallJoinAll CHANNELS) WOk ltac:(intros [z Z]; discriminate)) as J.
  rewrite payload_clean in J by exact S. cbn [run_call left_over] in J.
  exists (fst (send_join_all c0 CHANNELS WOk)). rewrite J. cbn [fst c_wire c_log c_scratch c_reader c_config taken].
  rewrite W, L. split; [reflexivity|]. split; [reflexivity|]. split; [reflexivity|]. split; [reflexivity|]. split; [exact CF|].
  intros turns. unfold readme_main. rewrite E. cbn [bind]. rewrite J. cbn [ending taken]. now rewrite W, L.
Qed.

(** C78. If connecting or joining fails, it ends with that error and prints nothing. *)
Lemma p_c78_start_fails :
  forall (pf : profile) (n : N) (tls : tls_out) (o : open_out) (h : handshake_out) (elapsed : bool) (w : write_out)
    (turns : list turn),
    (forall e, connect_anonymous n tls o h elapsed = Ret (Done (Err e)) ->
       readme_main pf n tls o h elapsed w turns = Ret (None, [], Failed (BotConnect e))) /\
    (forall c0 k e, connect_anonymous n tls o h elapsed = Ret (Done (Ok c0)) -> w = WErr k e ->
       exists c, readme_main pf n tls o h elapsed w turns = Ret (Some c, [], Failed (BotSend (SendIo e))) /\
         c_wire c = c_wire c0 ++ firstn k join_line).
Proof.
  intros pf n tls o h el w turns. unfold readme_main. split.
  - intros e E. rewrite E. reflexivity.
  - intros c0 k e E ->. rewrite E. cbn [bind].
    destruct (p_c64_new_client _ _ _ _ _ _ E) as (_ & _ & _ & S).
    pose proof (run_call_spec c0 (CallJoinAll CHANNELS) (WErr k e) ltac:(intros [z Z]; discriminate)) as J.
    rewrite payload_clean in J by exact S. cbn [run_call left_over] in J.
    rewrite J. cbn [ending]. eexists. split; [reflexivity|]. reflexivity.
Qed.

(** C78. Whatever the chunks in which the lines arrive, it sends exactly the PONGs that
    are due, prints who says what for each message, and goes on. *)
Lemma p_c78_answers :
  forall (pf : profile) (n : N) (c : client) (s rest : str) (ls os : list str) (reads tail : list read) (xs : list turn),
    c_config c = config_default n ->
    c_scratch c = [] -> c_reader c = mk_reader [] (reads ++ tail) false -> chunked s reads -> lines_then s ls rest ->
    answers pf true xs ls os ->
    exists c' out, readme_run pf c xs = Ret (c', out, Going) /\
      c_wire c' = c_wire c ++ concat os /\ c_log c' = c_log c ++ filter non_empty os /\ all_printed true ls out.
Proof.
  intros pf n c s rest ls os reads tail xs C S R CH L A.
  assert (AN : is_anon (cf_credentials (c_config c)) = true) by (rewrite C; apply anon_config).
  rewrite (readme_run_bot pf xs c AN S).
  pose proof (p_c67_answers pf CHANNELS c s rest ls os reads tail xs S R CH L) as K. rewrite AN in K. exact (K A).
Qed.

(** C78. The first line that cannot be read, is not the message it should be, or whose
    PONG cannot be written, ends it with that error; nothing is sent after. *)
Lemma p_c78_stops :
  forall (pf : profile) (n : N) (c : client) (s rest : str) (ls more os : list str) (l a : str) (e : bot_error)
    (reads tail : list read) (xs ys : list turn) (x : turn),
    c_config c = config_default n ->
    c_scratch c = [] -> c_reader c = mk_reader [] (reads ++ tail) false -> chunked s reads ->
    lines_then s (ls ++ l :: more) rest -> answers pf true xs ls os -> fatal pf true x l a e ->
    exists c' out, readme_run pf c (xs ++ x :: ys) = Ret (c', out, Failed e) /\
      c_wire c' = c_wire c ++ concat os ++ a /\
      exists out1 out2, out = out1 ++ out2 /\ all_printed true ls out1 /\ last_printed true l e out2.
Proof.
  intros pf n c s rest ls more os l a e reads tail xs ys x C S R CH L A F.
  assert (AN : is_anon (cf_credentials (c_config c)) = true) by (rewrite C; apply anon_config).
  rewrite (readme_run_bot pf _ c AN S).
  pose proof (p_c67_stops pf CHANNELS c s rest ls more os l a e reads tail xs ys x S R CH L) as K.
  rewrite AN in K. exact (K A F).
Qed.

(** C78. After a RECONNECT and a successful reconnect it joins the channel again, behind
    the greeting of the new connection. *)
Lemma p_c78_rejoins :
  forall (pf : profile) (n : N) (c c2 : client) (l : str) (v : view) (g : str)
    (tr : list event) (x : turn) (ys : list turn) (m : msg_ref) (r : reader),
    c_config c = config_default n -> c_scratch c = [] ->
    parsed (t_build x) l v m -> v_command v = b "RECONNECT" -> greeting (credentials_anon n) g -> t_write x = WOk ->
    recv (t_build x) (arrive (c_reader c) (t_reads x)) = Ret (r, Some (Ok (ref_into_owned m))) ->
    reconnect (t_fuel x) (t_oracle x) (set_reader c r) = Ret (c2, tr, Finished (Ok tt)) ->
    exists c3 k, c_wire c3 = copies (S k) g ++ join_line /\ c_scratch c3 = [] /\ c_reader c3 = c_reader c2 /\
      c_config c3 = config_default n /\ readme_run pf c (x :: ys) = readme_run pf c3 ys.
Proof.
  intros pf n c c2 l v g tr x ys m r C S P V G W RC RE.
  destruct (own_typed _ pf _ _ _ P) as [OP OT].
  assert (T : from_irc pf m = Ret (Some MReconnect)).
  { destruct (p_c22_variants (t_build x) pf l v m (pd_utf8 _ _ _ _ P) (pd_size _ _ _ _ P) (pd_view _ _ _ _ P)
      (pd_parse _ _ _ _ P)) as (_&_&_&_&_&_&_&_&_&_&_&_&_&Z&_). now apply Z. }
  destruct (loop_scratch _ _ _ _ _ _ _ _ _ _ _ 0 RE S) as (K1 & K2 & _ & K3).
  destruct (K3 eq_refl) as (K4 & k & K5).
  assert (EG : greet (set_reader c r) = g).
  { unfold greet. cbn [set_reader c_config]. rewrite C. cbn [cf_credentials config_default]. apply greeting_iff in G. now rewrite G. }
  pose proof (run_call_spec c2 (CallJoinAll CHANNELS) WOk ltac:(intros [z Z]; discriminate)) as J.
  rewrite payload_clean in J by exact K4. cbn [run_call left_over] in J.
  exists (fst (send_join_all c2 CHANNELS WOk)), k. rewrite J.
  split; [cbn [fst c_wire taken]; now rewrite K5, EG|]. split; [reflexivity|]. split; [reflexivity|].
  split; [cbn [fst c_config]; rewrite K1; exact C|].
  cbn [readme_run]. unfold readme_turn. rewrite RC. cbn [bind]. rewrite OT, T. cbn [bind].
  rewrite RE. cbn [bind]. rewrite W, J. cbn [ending sent_or_stop bind app].
  destruct (readme_run pf _ ys) as [[[c4 out] st]| | |]; reflexivity.
Qed.

Lemma run_polite (pf : profile) (xs : list turn) : forall c c' out s,
  readme_run pf c xs = Ret (c', out, s) -> c_scratch c = [] ->
  c_config c' = c_config c /\ exists ss, c_log c' = c_log c ++ ss /\ Forall polite ss.
Proof.
  induction xs as [|x xs IH]; intros c c' out s E S; cbn [readme_run] in E.
  - injection E as <- _ _. split; [reflexivity|]. exists []. rewrite app_nil_r. auto.
  - destruct (readme_turn pf c x) as [[[c1 o1] r]| | |] eqn:T; try discriminate. cbn [bind] in E.
    destruct (turn_keeps _ _ _ _ _ _ T S) as (K1 & K2 & ss & K3 & K4).
    destruct r as [[[]|e]|]; [|injection E as <- _ _; eauto|injection E as <- _ _; eauto].
    destruct (readme_run pf c1 xs) as [[[c2 o2] s2]| | |] eqn:R; try discriminate. injection E as <- _ _.
    destruct (IH _ _ _ _ R (K2 eq_refl)) as (Q1 & ts & Q2 & Q3).
    split; [now rewrite Q1|]. exists (ss ++ ts). split; [now rewrite Q2, K3, app_assoc|now apply Forall_app].
Qed.

(** C78. In every run, however it goes and ends, all it sends on its connections after
    the greetings is the line that joins the channel and PONGs, first the former; and it
    stays anonymous. *)
Lemma p_c78_only_polite :
  forall (pf : profile) (n : N) (tls : tls_out) (o : open_out) (h : handshake_out) (elapsed : bool) (w : write_out)
    (turns : list turn) (c : client) (out : list str) (s : bot_state),
    readme_main pf n tls o h elapsed w turns = Ret (Some c, out, s) ->
    c_config c = config_default n /\ exists ss, c_log c = join_line :: ss /\ Forall polite ss.
Proof.
  intros pf n tls o h el w turns c out s E. unfold readme_main in E.
  destruct (connect_anonymous n tls o h el) as [[[c0|e]|]| | |] eqn:EC; try discriminate. cbn [bind] in E.
  destruct (p_c64_new_client _ _ _ _ _ _ EC) as (CF & _ & L & S).
  change (send_join_all c0 CHANNELS w) with (run_call c0 (CallJoinAll CHANNELS) w) in E.
  destruct (run_call c0 (CallJoinAll CHANNELS) w) as [c1 r1] eqn:J.
  apply sent_config in J as (R1 & R2 & R3 & _); [|intros [z Z]; discriminate].
  rewrite payload_clean in R3 by exact S. rewrite L in R3. change (c_log c1 = [join_line]) in R3. rewrite CF in R1.
  destruct r1 as [[[]|e]|]; [|injection E as <- _ _; eauto|injection E as <- _ _; eauto].
  destruct (readme_run pf c1 turns) as [[[c2 o2] s2]| | |] eqn:R; try discriminate. injection E as <- _ _.
  destruct (run_polite _ _ _ _ _ _ R R2) as (Q1 & ts & Q2 & Q3).
  split; [now rewrite Q1|]. exists ts. split; [now rewrite Q2, R3|exact Q3].
Qed.

(** C78. It does what the example program does when started with no login and the
    channel [#forsen], except that it does not print its two first lines. *)
Lemma p_c78_like_example :
  forall (pf : profile) (n : N) (tls : tls_out) (o : open_out) (h : handshake_out) (elapsed : bool) (w : write_out)
    (turns : list turn) (c : option client) (out : list str) (s : bot_state),
    readme_main pf n tls o h elapsed w turns = Ret (c, out, s) ->
    exists first, length first <= 2 /\
      bot_main pf None None n [b "#forsen"] tls o h elapsed w turns = Ret (c, first ++ out, s).
Proof.
  intros pf n tls o h el w turns c out s E. unfold readme_main in E. unfold bot_main.
  change (with_credentials (bot_credentials None None n) (builder_new n)) with (config_default n).
  change (connect (config_default n) tls o h el) with (connect_anonymous n tls o h el).
  destruct (connect_anonymous n tls o h el) as [[[c0|e]|]| | |] eqn:EC; try discriminate; cbn [bind] in E |- *.
  2:{ injection E as <- <- <-. eexists. split; [|rewrite app_nil_r; reflexivity]. cbn; lia. }
  2:{ injection E as <- <- <-. eexists. split; [|rewrite app_nil_r; reflexivity]. cbn; lia. }
  destruct (p_c64_new_client _ _ _ _ _ _ EC) as (CF & _ & L & S). fold CHANNELS.
  change (send_join_all c0 CHANNELS w) with (run_call c0 (CallJoinAll CHANNELS) w) in E |- *.
  destruct (run_call c0 (CallJoinAll CHANNELS) w) as [c1 r1] eqn:J.
  apply sent_config in J as (R1 & R2 & R3 & _); [|intros [z Z]; discriminate].
  destruct r1 as [[[]|e]|].
  2:{ injection E as <- <- <-. eexists. split; [|rewrite app_nil_r; reflexivity]. cbn; lia. }
  2:{ injection E as <- <- <-. eexists. split; [|rewrite app_nil_r; reflexivity]. cbn; lia. }
  rewrite <- (readme_run_bot pf turns c1) by (try exact R2; rewrite R1, CF; apply anon_config).
  destruct (readme_run pf c1 turns) as [[[c2 o2] s2]| | |]; try discriminate. cbn [bind] in E |- *.
  injection E as <- <- <-. eexists. split; [|rewrite app_assoc; reflexivity]. cbn; lia.
Qed.

Example ex_c78 :
  let s := b "PING :x" ++ crlf ++ yo_line ++ crlf ++ b "RECONNECT" ++ crlf in
  let l1 := b ":tmi.twitch.tv CAP * ACK :twitch.tv/tags" ++ crlf in
  let l2 := b ":tmi.twitch.tv 001 me :Welcome, GLHF!" ++ crlf in
  let h := mk_handshake_out WOk FOk (mk_wait [Got (l1 ++ l2 ++ s)] false Scalar) (mk_wait [] false Scalar) in
  let x := mk_turn Scalar [] WOk 9 sample_oracle in
  (exists c, readme_main Debug 12345 TlsOk OpOk h false WOk [x; x; x] = Ret (Some c, [b "A: !yo bot"], Going) /\
     c_log c = [join_line; b "PONG :x" ++ crlf; join_line]) /\
  answers Debug true [x; x] [b "PING :x"; yo_line] [b "PONG :x" ++ crlf; []] /\
  fatal Debug true (mk_turn Scalar [] (WErr 3 BrokenPipe) 9 sample_oracle) (b "PING :x") (b "PON") (BotSend (SendIo BrokenPipe)).
Proof.
  cbn zeta.
  assert (P1 : exists v m, parsed Scalar (b "PING :x") v m /\ v_command v = b "PING" /\ has_text v (b "x") /\
    exists t, from_irc Debug m = Ret (Some t)).
  { eexists _, _. split; [parsed_line|]. split; [reflexivity|]. split; [apply has_text_iff; vm_compute; reflexivity|].
    eexists _. vm_compute; reflexivity. }
  assert (P2 : exists v m q, parsed Scalar yo_line v m /\ v_command v = b "PRIVMSG" /\ privmsg_of v q /\
    exists t, from_irc Debug m = Ret (Some t)).
  { eexists _, _, _. split; [parsed_line|]. split; [reflexivity|].
    split; [eapply (privmsg_run Scalar yo_line); [parsed_line|reflexivity|vm_compute; reflexivity]|].
    eexists _. vm_compute; reflexivity. }
  destruct P1 as (v1 & m1 & A1 & B1 & C1 & t1 & D1). destruct P2 as (v2 & m2 & q2 & A2 & B2 & C2 & t2 & D2).
  split; [|split].
  - eexists. split; [vm_compute; reflexivity|]. vm_compute. reflexivity.
  - eapply as_cons; [reflexivity|exists m1, t1; eauto|exact (an_pong true v1 (b "x") B1 C1)|].
    eapply as_cons; [reflexivity|exists m2, t2; eauto| |apply as_nil].
    apply (an_message _ _ q2 B2 C2). now left.
  - eapply (ft_write _ _ _ _ v1 _ 3 BrokenPipe (b "G :x" ++ crlf)); [exists m1, t1; eauto| |discriminate|reflexivity|reflexivity].
    exact (an_pong true v1 (b "x") B1 C1).
Qed.
