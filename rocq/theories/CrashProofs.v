(** * CrashProofs: what makes the example program panic (C93). *)

From Verif Require Import Base Wide Tags Irc SpecIrc SpecText MsgBase MsgTypes MsgNotice Message SpecMsg Common Client SpecClient Bot SpecBot Readme SpecReadme SpecCrash HandshakeProofs ConnectProofs BotProofs LineProofs Samples.
From Verif Require Import BaseFacts IrcFacts IrcProofs LineProofs AccessProofs UnescapeProofs FieldFacts TypedFacts MapFacts TypedProofs RecvProofs SendProofs ReadmeProofs SpecBuilds BuildsProofs CutProofs.
From Coq Require Import Lia ZifyBool ZifyNat ZifyN.

Lemma parse_view (bd : build) (l : str) : utf8_valid l = true -> below_4gib l ->
  match ref_parse bd l with
  | Ret None => spec_view l = None
  | Ret (Some _) => exists v, spec_view l = Some v
  | _ => True
  end.
Proof.
  intros U B.
  destruct (unterminated_dec l) as [T|T]; [destruct bd as [bk a|]|].
  2:{ now rewrite unterminated_panics. }
  all: pose proof (ref_parse_spec) as P.
  - specialize (P (Simd bk a) l U B ltac:(discriminate)). destruct (too_many l); [now rewrite P|].
    destruct (spec_view l) as [v|]; [|now rewrite P]. destruct P as (m & -> & _). eauto.
  - specialize (P bd l U B (fun _ => T)). destruct (too_many l); [now rewrite P|].
    destruct (spec_view l) as [v|]; [|now rewrite P]. destruct P as (m & -> & _). eauto.
Qed.

Lemma next_line_valid (r r' : reader) (reads : list read) (l : str) :
  next_line r reads r' l -> (N.of_nat (pending r + read_size reads) < 4294967296)%N ->
  utf8_valid l = true /\ below_4gib l.
Proof.
  unfold next_line. intros P S. split.
  - unfold poll_next in P. destruct (rd_ended (arrive r reads)); [discriminate|].
    destruct (poll_line (rd_buf (arrive r reads)) (rd_reads (arrive r reads))) as [[buf rds] q] eqn:E.
    destruct q as [|[[y|e]|]]; try discriminate; injection P as _ <-. now apply poll_line_valid in E.
  - pose proof (poll_next_size _ r' _ P) as SZ. rewrite pending_arrive in SZ. unfold below_4gib. lia.
Qed.

(** What a turn comes to, given the line. *)
Lemma line_turn (pf : profile) (chs : list str) (c : client) (x : turn) (r : reader) (l : str) :
  next_line (c_reader c) (t_reads x) r l -> moderate c x ->
  (bot_turn pf chs c x = Panic <->
   hostile (t_build x) l \/ (pf = Debug /\ too_many_minutes l) \/
   (asks_to_reconnect l /\ bad_attempt (cf_backoff (c_config c)) (t_fuel x) (t_oracle x))) /\
  (bot_turn pf chs c x <> Panic -> exists y, bot_turn pf chs c x = Ret y).
Proof.
  intros P (S & SH & SO). destruct (next_line_valid _ _ _ _ P S) as [U B]. pose proof (SH _ _ P) as A.
  pose proof (hostile_iff (t_build x) l U B) as H. pose proof (parse_view (t_build x) l U B) as V.
  unfold bot_turn, recv. unfold next_line in P. rewrite P.
  pose proof (p_c15_owned_agrees (t_build x) l) as O.
  destruct (ref_parse (t_build x) l) as [[m|]| | |] eqn:R; try contradiction.
  2:{ rewrite O in H |- *. cbn [bind]. split; [|eauto]. split; [discriminate|].
      intros [K|[(_ & v & n & K & _)|((v & K & _) & _)]]; [apply H in K; discriminate|congruence|congruence]. }
  2:{ rewrite O in H |- *. cbn [bind]. split; [|congruence]. split; [intros _; left; now apply H|reflexivity]. }
  destruct O as (O & OR & _). rewrite O in H |- *. cbn [bind]. unfold own_as_typed. rewrite OR.
  destruct V as [v V]. assert (PD : parsed (t_build x) l v m) by now constructor.
  assert (NH : ~ hostile (t_build x) l) by (intros K; apply H in K; discriminate). clear H.
  destruct (p_c92_profiles (t_build x) l v m PD) as (D1 & D2 & D3).
  assert (TM : pf = Debug /\ too_many_minutes l <-> from_irc pf m = Panic).
  { split.
    - intros (-> & v' & n & V' & C & N & F & L). rewrite V in V'. injection V' as <-. apply D1. eauto 6.
    - intros E. destruct pf; [|contradiction]. split; [reflexivity|]. apply D1 in E as (C & N & n & F & L).
      exists v, n. auto. }
  destruct (from_irc pf m) as [t| | |] eqn:T.
  2:{ cbn [bind]. split; [|congruence]. split; [intros _; right; left; now apply TM|reflexivity]. }
  2,3: exfalso; destruct (p_c22_no_panic (t_build x) Release l v m PD (or_introl eq_refl)) as [o E];
       destruct pf; [destruct D2; congruence|congruence].
  assert (NT : ~ (pf = Debug /\ too_many_minutes l)) by (intros K; apply TM in K; discriminate). clear TM D1 D2 D3.
  assert (RE : asks_to_reconnect l <-> t = Some MReconnect).
  { split.
    - intros (v' & V' & C). rewrite V in V'. injection V' as <-.
      pose proof (parsed_seen _ _ _ _ PD) as SN. unfold from_irc in T. rewrite (sn_command _ _ SN), C in T.
      cbn in T. congruence.
    - intros ->. exists v. split; [exact V|].
      pose proof (parsed_seen _ _ _ _ PD) as SN. unfold from_irc in T. rewrite (sn_command _ _ SN) in T. cbn [bind] in T.
      destruct (spec_command_names (v_command v)) as (_ & _ & K).
      destruct (spec_command (v_command v)) eqn:SC; try (rewrite <- K; reflexivity);
        unfold into in T;
        match type of T with
        | context [bindo ?p _] => destruct p as [[?|]| | |]; discriminate
        | _ => discriminate
        end. }
  cbn [bind].
  assert (Q : forall y, (match t with Some MReconnect => False | _ => True end) ->
     (Ret y = @Panic (client * list str * fin (result unit bot_error)) <-> 
      hostile (t_build x) l \/ (pf = Debug /\ too_many_minutes l) \/
      (asks_to_reconnect l /\ bad_attempt (cf_backoff (c_config c)) (t_fuel x) (t_oracle x))) /\
     (Ret y <> @Panic (client * list str * fin (result unit bot_error)) -> exists z, Ret y = Ret z)).
  { intros y N. split; [|eauto]. split; [discriminate|]. intros [K|[K|(K & _)]]; [contradiction|contradiction|].
    apply RE in K. subst t. contradiction. }
  destruct t as [t|]; [|now apply Q].
  destruct t as [?|?|?|?|?|?|ping|?|q| |?|?|?|?|?]; try (now apply Q).
  - destruct (send_pong (set_reader c r) ping (t_write x)) as [c' o]. now apply Q.
  - assert (C : v_command v = b "PRIVMSG" /\ privmsg_parse m = Ret (Some q)).
    { destruct (p_c22_variants (t_build x) pf l v m U B V R) as (_ & _ & _ & _ & _ & _ & _ & _ & K & _).
      apply K in T. split; [|exact T].
      pose proof (parsed_seen _ _ _ _ PD) as SN. unfold privmsg_parse in T. rewrite (sn_command _ _ SN) in T.
      destruct (spec_command_names (v_command v)) as (_ & _ & W).
      destruct (spec_command (v_command v)); try discriminate. rewrite <- W. reflexivity. }
    destruct C as [C PM]. apply (p_c28_privmsg _ _ _ _ _ PD C) in PM as (y & -> & Y).
    destruct (sender_named _ _ _ _ _ PD Y) as (name & N & _).
    unfold on_msg. rewrite N. cbn [bind].
    destruct (is_anon _); [now apply Q|]. destruct (negb _); [now apply Q|].
    destruct (send_privmsg _ _ _ _ _ _) as [c' o]. unfold sent_or_stop. destruct o as [[u|e]|]; now apply Q.
  - assert (SM : small_oracle (t_oracle x)) by exact SO.
    destruct (p_c52_panics_iff (t_fuel x) (t_oracle x) (set_reader c r) SM) as [K1 K2].
    cbn [set_reader c_config] in K1. fold (bad_attempt (cf_backoff (c_config c)) (t_fuel x) (t_oracle x)) in K1.
    destruct (reconnect (t_fuel x) (t_oracle x) (set_reader c r)) as [[[c' tr] o]| | |] eqn:RC.
    + cbn [bind].
      assert (W : exists y, match o with
        | Finished (Ok _) => let '(c, r) := send_join_all c' chs (t_write x) in Ret (sent_or_stop c [] r)
        | Finished (Err e) => Ret (c', [], Done (Err (BotConnect e)))
        | _ => Ret (c', [], Dropped) end = Ret y).
      { destruct o as [[u|e]| |]; eauto. destruct (send_join_all c' chs (t_write x)); eauto. }
      destruct W as [y W]. rewrite W. split; [|eauto]. split; [discriminate|].
      intros [K|[K|(_ & K)]]; [contradiction|contradiction|]. apply K1 in K. discriminate.
    + cbn [bind]. split; [|congruence]. split; [|reflexivity]. intros _. right. right. split; [now apply RE|]. now apply K1.
    + destruct K2 as (? & ? & ? & K2); discriminate.
    + destruct K2 as (? & ? & ? & K2); discriminate.
Qed.

(** C93. A turn of the example program panics exactly if the line it gets is one on
    which parsing panics, or (debug builds) a ROOMSTATE with too many minutes, or asks
    to reconnect, and that panics. Otherwise the turn ends. *)
Lemma p_c93_turn_panics_iff :
  forall (pf : profile) (chs : list str) (c : client) (x : turn),
    moderate c x ->
    (bot_turn pf chs c x = Panic <-> deadly pf c x) /\
    (bot_turn pf chs c x <> Panic -> exists y, bot_turn pf chs c x = Ret y).
Proof.
  intros pf chs c x M.
  destruct (poll_next (arrive (c_reader c) (t_reads x))) as [r p] eqn:P.
  assert (N : (forall l, p <> Item (Some (Ok l))) -> exists y, bot_turn pf chs c x = Ret y).
  { intros N. unfold bot_turn, recv. rewrite P. destruct p as [|[[l|e]|]]; cbn [bind]; eauto. now destruct (N l). }
  assert (D : (exists l, p = Item (Some (Ok l))) \/ (forall l, p <> Item (Some (Ok l)))).
  { destruct p as [|[[l|e]|]]; [right; discriminate|left; eauto|right; discriminate|right; discriminate]. }
  destruct D as [(l & ->)|D].
  - destruct (line_turn pf chs c x r l P M) as [A B]. split; [|exact B]. rewrite A. unfold deadly. split.
    + intros K. exists r, l. split; [exact P|exact K].
    + intros (r' & l' & P' & K). unfold next_line in P'. rewrite P in P'. injection P' as <- <-. exact K.
  - destruct (N D) as [y Y]. rewrite Y. split; [|eauto]. split; [discriminate|].
    intros (r' & l' & P' & _). unfold next_line in P'. rewrite P in P'. injection P' as _ ->. now destruct (D l').
Qed.

(** C93. A whole run panics exactly if it comes to such a turn; it then has gone on up
    to there. *)
Lemma p_c93_run_panics_iff :
  forall (pf : profile) (chs : list str) (xs : list turn) (c : client),
    let reached c' x := exists xs1 xs2 out, xs = xs1 ++ x :: xs2 /\ bot_run pf chs c xs1 = Ret (c', out, Going) in
    (forall c' x, reached c' x -> moderate c' x) ->
    (bot_run pf chs c xs = Panic <-> exists c' x, reached c' x /\ deadly pf c' x) /\
    (bot_run pf chs c xs <> Panic -> exists y, bot_run pf chs c xs = Ret y).
Proof.
  intros pf chs xs. induction xs as [|x xs IH]; intros c; cbn zeta; intros M.
  - cbn [bot_run]. split; [|eauto]. split; [discriminate|]. intros (c' & x & (xs1 & xs2 & out & E & _) & _). now destruct xs1.
  - assert (M0 : moderate c x) by (apply M; exists [], xs, []; auto).
    destruct (p_c93_turn_panics_iff pf chs c x M0) as [T1 T2]. cbn [bot_run].
    destruct (bot_turn pf chs c x) as [[[c1 out1] r]| | |] eqn:T.
    2:{ cbn [bind]. split; [|congruence]. split; [|reflexivity]. intros _. exists c, x.
        split; [exists [], xs, []; auto|now apply T1]. }
    2,3: destruct T2 as [y T2]; discriminate.
    cbn [bind]. clear T2.
    assert (ND : ~ deadly pf c x) by (intros K; apply T1 in K; discriminate). clear T1.
    assert (FIRST : forall c' x', (exists xs1 xs2 out, x :: xs = xs1 ++ x' :: xs2 /\ bot_run pf chs c xs1 = Ret (c', out, Going)) ->
      (c' = c /\ x' = x) \/ (r = Done (Ok tt) /\ exists xs1 xs2 out, xs = xs1 ++ x' :: xs2 /\ bot_run pf chs c1 xs1 = Ret (c', out, Going))).
    { intros c' x' (xs1 & xs2 & out & E & R). destruct xs1 as [|x1 xs1].
      - injection E as <- <-. cbn in R. injection R as <- _. auto.
      - injection E as <- E. right. cbn [bot_run] in R. rewrite T in R. cbn [bind] in R.
        destruct r as [[[]|e]|]; try discriminate. split; [reflexivity|].
        destruct (bot_run pf chs c1 xs1) as [[[c2 out2] st]| | |] eqn:R1; try discriminate.
        cbn [bind] in R. injection R as <- _ ->. exists xs1, xs2, out2. auto. }
    assert (STOP : forall y, r <> Done (Ok tt) ->
      (Ret y = @Panic (client * list str * bot_state) <-> exists c' x', (exists xs1 xs2 out, x :: xs = xs1 ++ x' :: xs2 /\ bot_run pf chs c xs1 = Ret (c', out, Going)) /\ deadly pf c' x') /\
      (Ret y <> @Panic (client * list str * bot_state) -> exists z, Ret y = Ret z)).
    { intros y NR. split; [|eauto]. split; [discriminate|]. intros (c' & x' & K & D).
      apply FIRST in K as [[-> ->]|[K _]]; contradiction. }
    destruct r as [[u|e]|]; [|now apply STOP|now apply STOP]. clear STOP. destruct u.
    assert (NEXT : forall c' x', (exists xs1 xs2 out, xs = xs1 ++ x' :: xs2 /\ bot_run pf chs c1 xs1 = Ret (c', out, Going)) ->
      exists xs1 xs2 out, x :: xs = xs1 ++ x' :: xs2 /\ bot_run pf chs c xs1 = Ret (c', out, Going)).
    { intros c' x' (xs1 & xs2 & out & -> & R). exists (x :: xs1), xs2, (out1 ++ out). split; [reflexivity|].
      cbn [bot_run]. rewrite T. cbn [bind]. rewrite R. reflexivity. }
    destruct (IH c1) as [I1 I2]; [intros c' x' K; now apply M, NEXT|].
    split.
    + split.
      * intros E. destruct (bot_run pf chs c1 xs) as [[[c2 out2] st]| | |]; try discriminate.
        destruct (proj1 I1 eq_refl) as (c' & x' & K & D). exists c', x'. auto.
      * intros (c' & x' & K & D). apply FIRST in K as [[-> ->]|[_ K]]; [contradiction|].
        rewrite (proj2 I1 (ex_intro _ c' (ex_intro _ x' (conj K D)))). reflexivity.
    + intros NP. destruct (bot_run pf chs c1 xs) as [[[c2 out2] st]| | |]; cbn [bind] in *; eauto; try congruence;
        destruct I2 as [y I2]; discriminate.
Qed.

(** C93. The same for the program of the front page, which is anonymous. *)
Lemma p_c93_readme_panics_iff :
  forall (pf : profile) (c : client) (x : turn),
    is_anon (cf_credentials (c_config c)) = true -> moderate c x ->
    (readme_turn pf c x = Panic <-> deadly pf c x) /\
    (readme_turn pf c x <> Panic -> exists y, readme_turn pf c x = Ret y).
Proof.
  intros pf c x A M. rewrite (readme_turn_bot pf c x A). now apply p_c93_turn_panics_iff.
Qed.

(** C93. The whole program panics exactly if the answer to the greeting has a line on
    which parsing panics, or if it comes to a deadly turn after that. *)
Lemma p_c93_program_panics_iff :
  forall (pf : profile) (name tok : option str) (n : N) (chs : list str) (tls : tls_out) (o : open_out)
    (h : handshake_out) (elapsed : bool) (w : write_out) (xs : list turn),
    let reached c' x := exists xs1 xs2 out, xs = xs1 ++ x :: xs2 /\
      bot_main pf name tok n chs tls o h elapsed w xs1 = Ret (Some c', out, Going) in
    small_answers reader_new h -> (forall c' x, reached c' x -> moderate c' x) ->
    (bot_main pf name tok n chs tls o h elapsed w xs = Panic <->
      (tls = TlsOk /\ o = OpOk /\ delivered h /\ chokes reader_new h) \/
      exists c' x, reached c' x /\ deadly pf c' x) /\
    (bot_main pf name tok n chs tls o h elapsed w xs <> Panic ->
      exists y, bot_main pf name tok n chs tls o h elapsed w xs = Ret y).
Proof.
  intros pf name tok n chs tls o h elapsed w xs. cbn zeta. intros SM.
  unfold bot_main. set (cf := with_credentials (bot_credentials name tok n) (builder_new n)).
  destruct (p_c51_panics_iff (mk_client [] [] [] reader_new cf) h SM) as [HP HR]. cbn [c_reader] in HP.
  assert (K : connect cf tls o h elapsed = Panic /\ (tls = TlsOk /\ o = OpOk /\ delivered h /\ chokes reader_new h) \/
              ~ (tls = TlsOk /\ o = OpOk /\ delivered h /\ chokes reader_new h) /\ exists r, connect cf tls o h elapsed = Ret r).
  { unfold connect. destruct tls; try (right; split; [intros (? & _); discriminate|eauto]).
    destruct o; try (right; split; [intros (_ & ? & _); discriminate|eauto]).
    destruct (handshake (mk_client [] [] [] reader_new cf) h) as [[c r]| | |] eqn:E.
    - right. split; [intros (_ & _ & D); apply HP in D; discriminate|]. cbn [bind]. destruct r as [[u|e]|]; eauto.
      destruct elapsed; eauto.
    - left. cbn [bind]. split; [reflexivity|]. split; [reflexivity|]. split; [reflexivity|]. now apply HP.
    - destruct HR as (? & ? & ?); discriminate.
    - destruct HR as (? & ? & ?); discriminate. }
  destruct K as [[-> D]|[D [r ->]]]; cbn [bind].
  { intros _. split; [|intros X; now destruct X]. split; [auto|reflexivity]. }
  assert (STOP : forall (g : list turn -> res (option client * list str * bot_state)) y,
    (forall l, g l = Ret y) -> snd y <> Going ->
    (forall c' x, (exists xs1 xs2 out, xs = xs1 ++ x :: xs2 /\ g xs1 = Ret (Some c', out, Going)) -> moderate c' x) ->
    (g xs = Panic <-> (tls = TlsOk /\ o = OpOk /\ delivered h /\ chokes reader_new h) \/
       exists c' x, (exists xs1 xs2 out, xs = xs1 ++ x :: xs2 /\ g xs1 = Ret (Some c', out, Going)) /\ deadly pf c' x) /\
    (g xs <> Panic -> exists y, g xs = Ret y)).
  { intros g y G NG _. rewrite G. split; [|eauto]. split; [discriminate|].
    intros [X|(c' & x & (xs1 & xs2 & out & _ & X) & _)]; [contradiction|]. rewrite G in X. injection X as ->. now destruct NG. }
  destruct r as [[c0|e]|].
  2: eapply (STOP (fun _ => _)); [intros; reflexivity|discriminate].
  2: eapply (STOP (fun _ => _)); [intros; reflexivity|discriminate].
  destruct (send_join_all c0 chs w) as [c1 [[u|e]|]].
  2: eapply (STOP (fun _ => _)); [intros; reflexivity|discriminate].
  2: eapply (STOP (fun _ => _)); [intros; reflexivity|discriminate].
  set (pre := [b "Connecting as " ++ login (bot_credentials name tok n)]).
  set (joined := [b "Joined the following channels: " ++ slice_join (b ", ") chs]).
  assert (R : forall c' x,
    (exists xs1 xs2 out, xs = xs1 ++ x :: xs2 /\
       (let! (c, out', s) := bot_run pf chs c1 xs1 in Ret (Some c, pre ++ joined ++ out', s)) = Ret (Some c', out, Going)) <->
    (exists xs1 xs2 out, xs = xs1 ++ x :: xs2 /\ bot_run pf chs c1 xs1 = Ret (c', out, Going))).
  { intros c' x. split.
    - intros (xs1 & xs2 & out & E & B). exists xs1, xs2.
      destruct (bot_run pf chs c1 xs1) as [[[c2 o2] s2]| | |]; try discriminate. cbn [bind] in B. injection B as -> _ ->. eauto.
    - intros (xs1 & xs2 & out & E & B). exists xs1, xs2, (pre ++ joined ++ out). split; [exact E|]. now rewrite B. }
  intros M. destruct (p_c93_run_panics_iff pf chs xs c1) as [A B]; [intros c' x X; apply M, R, X|].
  split.
  - split.
    + intros P. right. destruct (proj1 A) as (c' & x & X & Y).
      { destruct (bot_run pf chs c1 xs) as [[[? ?] ?]| | |]; try discriminate; reflexivity. }
      exists c', x. split; [now apply R|exact Y].
    + intros [X|(c' & x & X & Y)]; [contradiction|]. rewrite (proj2 A); [reflexivity|].
      exists c', x. split; [now apply R|exact Y].
  - intros NP. destruct B as [[[c2 o2] s2] B]; [|rewrite B; cbn [bind]; eauto].
    intros P. now rewrite P in NP.
Qed.

(** The program of the front page ends as the example program does. *)
Lemma readme_main_bot (pf : profile) (n : N) (tls : tls_out) (o : open_out) (h : handshake_out) (el : bool) (w : write_out)
  (xs : list turn) :
  (readme_main pf n tls o h el w xs = Panic <-> bot_main pf None None n CHANNELS tls o h el w xs = Panic) /\
  forall c s, (exists out, readme_main pf n tls o h el w xs = Ret (c, out, s)) <->
              (exists out, bot_main pf None None n CHANNELS tls o h el w xs = Ret (c, out, s)).
Proof.
  unfold readme_main, bot_main.
  change (with_credentials (bot_credentials None None n) (builder_new n)) with (config_default n).
  change (connect (config_default n) tls o h el) with (connect_anonymous n tls o h el).
  assert (RET : forall (c0 : option client) (o1 o2 : list str) (s0 : bot_state),
    (Ret (c0, o1, s0) = Panic <-> Ret (c0, o2, s0) = Panic) /\
    forall c s, (exists out, Ret (c0, o1, s0) = Ret (c, out, s)) <-> (exists out, Ret (c0, o2, s0) = Ret (c, out, s))).
  { intros c0 o1 o2 s0. split; [split; discriminate|]. intros c s. split; intros [out E]; injection E as <- _ <-; eauto. }
  assert (BAD : forall x : res (option client * list str * bot_state), (forall y, x <> Ret y) ->
    (x = Panic <-> x = Panic) /\ forall c s, (exists out, x = Ret (c, out, s)) <-> (exists out, x = Ret (c, out, s))).
  { intros x _. split; [tauto|]. intros c s. tauto. }
  destruct (connect_anonymous n tls o h el) as [[[c0|e]|]| | |] eqn:EC; cbn [bind]; try apply RET; try (apply BAD; discriminate).
  destruct (p_c64_new_client _ _ _ _ _ _ EC) as (CF & _ & L & S).
  change (send_join_all c0 CHANNELS w) with (run_call c0 (CallJoinAll CHANNELS) w).
  destruct (run_call c0 (CallJoinAll CHANNELS) w) as [c1 r1] eqn:J.
  apply sent_config in J as (R1 & R2 & R3 & _); [|intros [z Z]; discriminate].
  destruct r1 as [[[]|e]|]; try apply RET.
  rewrite <- (readme_run_bot pf xs c1) by (try exact R2; rewrite R1, CF; apply anon_config).
  destruct (readme_run pf c1 xs) as [[[c2 o2] s2]| | |]; cbn [bind]; try apply RET; apply BAD; discriminate.
Qed.

(** C93. The whole program of the front page panics exactly in the same cases. *)
Lemma p_c93_readme_program_panics_iff :
  forall (pf : profile) (n : N) (tls : tls_out) (o : open_out)
    (h : handshake_out) (elapsed : bool) (w : write_out) (xs : list turn),
    let reached c' x := exists xs1 xs2 out, xs = xs1 ++ x :: xs2 /\
      readme_main pf n tls o h elapsed w xs1 = Ret (Some c', out, Going) in
    small_answers reader_new h -> (forall c' x, reached c' x -> moderate c' x) ->
    (readme_main pf n tls o h elapsed w xs = Panic <->
      (tls = TlsOk /\ o = OpOk /\ delivered h /\ chokes reader_new h) \/
      exists c' x, reached c' x /\ deadly pf c' x) /\
    (readme_main pf n tls o h elapsed w xs <> Panic ->
      exists y, readme_main pf n tls o h elapsed w xs = Ret y).
Proof.
  intros pf n tls o h el w xs. cbn zeta. intros SM M.
  assert (R : forall c' x,
    (exists xs1 xs2 out, xs = xs1 ++ x :: xs2 /\ readme_main pf n tls o h el w xs1 = Ret (Some c', out, Going)) <->
    (exists xs1 xs2 out, xs = xs1 ++ x :: xs2 /\
       bot_main pf None None n CHANNELS tls o h el w xs1 = Ret (Some c', out, Going))).
  { intros c' x. split; intros (xs1 & xs2 & out & E & K); exists xs1, xs2;
      destruct (readme_main_bot pf n tls o h el w xs1) as [_ Q]; specialize (Q (Some c') Going).
    - destruct (proj1 Q (ex_intro _ out K)) as [out' K']. eauto.
    - destruct (proj2 Q (ex_intro _ out K)) as [out' K']. eauto. }
  destruct (p_c93_program_panics_iff pf None None n CHANNELS tls o h el w xs SM) as [A B].
  { intros c' x X. apply M, R, X. }
  destruct (readme_main_bot pf n tls o h el w xs) as [P Q]. split.
  - rewrite P, A. split; (intros [X|(c' & x & X & Y)]; [auto|right; exists c', x; split; [now apply R|exact Y]]).
  - intros NP. destruct B as [[[c' out] s] B]; [now rewrite <- P|]. destruct (proj2 (Q c' s) (ex_intro _ out B)) as [out' K]. eauto.
Qed.

(** C93. So a server can stop it: with a ROOMSTATE, and with too many tags. *)
Example ex_c93 :
  let c l := mk_client [] [] [] (mk_reader [] [Got (l ++ crlf)] false) (config_default 1) in
  let x bd := mk_turn bd [] WOk 0 (fun _ => refused) in
  let l1 := b "@followers-only=4611686018427387904;room-id=1 ROOMSTATE #c" in
  let l2 := b "@" ++ many_tags 129 ++ b " PING" in
  deadly Debug (c l1) (x (Simd Sse2 0)) /\ ~ deadly Release (c l1) (x (Simd Sse2 0)) /\
  deadly Release (c l2) (x Scalar) /\ moderate (c l1) (x (Simd Sse2 0)).
Proof.
  cbn zeta. set (l1 := b "@followers-only=4611686018427387904;room-id=1 ROOMSTATE #c").
  set (c := fun l => mk_client [] [] [] (mk_reader [] [Got (l ++ crlf)] false) (config_default 1)).
  set (x := fun bd => mk_turn bd [] WOk 0 (fun _ => refused)).
  assert (A : all_short l1).
  { assert (K : exists v m, parsed Scalar l1 v m) by (eexists _, _; unfold l1; parsed_line).
    destruct K as (v & m & K). apply K. }
  assert (M : moderate (c l1) (x (Simd Sse2 0))).
  { split; [vm_compute; reflexivity|]. split.
    - intros r l P. assert (E : poll_next (arrive (c_reader (c l1)) (t_reads (x (Simd Sse2 0)))) = (mk_reader [] [] false, Item (Some (Ok l1))))
        by (vm_compute; reflexivity).
      unfold next_line in P. rewrite E in P. injection P as _ <-. exact A.
    - intros j. vm_compute. reflexivity. }
  split; [|split; [|split; [|exact M]]].
  - apply (p_c93_turn_panics_iff Debug [] _ _ M). vm_compute. reflexivity.
  - intros K. apply (p_c93_turn_panics_iff Release [] _ _ M) in K. vm_compute in K. discriminate.
  - exists (mk_reader [] [] false), (b "@" ++ many_tags 129 ++ b " PING"). split; [vm_compute; reflexivity|]. left.
    apply hostile_iff; vm_compute; reflexivity.
Qed.

(** C93. The whole program, whose server sends this ROOMSTATE right after the welcome. *)
Example ex_c93_program :
  let l1 := b "@followers-only=4611686018427387904;room-id=1 ROOMSTATE #c" in
  let s := b ":tmi.twitch.tv CAP * ACK :twitch.tv/tags" ++ crlf ++ b ":tmi.twitch.tv 001 me :Welcome, GLHF!" ++ crlf ++ l1 ++ crlf in
  let h := mk_handshake_out WOk FOk (mk_wait [Got s] false Scalar) (mk_wait [] false Scalar) in
  let x := mk_turn Scalar [] WOk 0 (fun _ => refused) in
  let main pf xs := bot_main pf None None 1 [b "#c"] TlsOk OpOk h false WOk xs in
  let reached pf c' x' := exists xs1 xs2 out, [x] = xs1 ++ x' :: xs2 /\ main pf xs1 = Ret (Some c', out, Going) in
  small_answers reader_new h /\ (forall pf c' x', reached pf c' x' -> moderate c' x') /\
  main Debug [x] = Panic /\ main Release [x] <> Panic /\ readme_main Debug 1 TlsOk OpOk h false WOk [x] = Panic.
Proof.
  cbn zeta. split; [vm_compute; reflexivity|].
  split; [|split; [vm_compute; reflexivity|split; [vm_compute; discriminate|vm_compute; reflexivity]]].
  intros pf c' x' (xs1 & xs2 & out & E & B).
  destruct xs1 as [|x1 xs1]; [|destruct xs1; discriminate]. injection E as <- <-.
  vm_compute in B. injection B as <- _.
  split; [vm_compute; reflexivity|]. split; [|intros j; vm_compute; reflexivity].
  intros r l P. vm_compute in P. injection P as _ <-.
  assert (K : exists v m, parsed Scalar (b "@followers-only=4611686018427387904;room-id=1 ROOMSTATE #c") v m)
    by (eexists _, _; parsed_line).
  destruct K as (v & m & K). apply K.
Qed.
