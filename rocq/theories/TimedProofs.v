(** * TimedProofs: connecting against the clock (C69). *)

From Coq Require Import Lia ZifyBool ZifyNat ZifyN.
From Verif Require Import Base Wide Tags Irc SpecIrc SpecMsg MsgBase MsgTypes Common Client SpecClient HandshakeProofs Timed SpecTimed.
From Verif Require Import BaseFacts RecvProofs.

(* props-preamble
Open Scope N_scope.
*)

Open Scope N_scope.

(** ** The primitives *)

Lemma t_write_all_time (ws : list (duration * wrote)) : forall (lim now t : instant) (data acc : str) (r : fin (result unit io_kind)),
  t_write_all lim now data ws = (t, acc, r) -> now <= lim -> now <= t <= lim /\ (r = Dropped -> t = lim).
Proof.
  induction ws as [|[d w] ws IH]; intros lim now t data acc r E L; cbn [t_write_all] in E.
  - destruct data; injection E as <- <- <-; split; try lia; discriminate.
  - destruct data as [|x data]; [injection E as <- <- <-; split; [lia|discriminate]|].
    destruct (N.ltb_spec lim (now + d)); [injection E as <- <- <-; split; [lia|reflexivity]|].
    destruct w as [k|e]; [|injection E as <- <- <-; split; [lia|discriminate]].
    destruct (Nat.min k (length (x :: data)) =? 0)%nat; [injection E as <- <- <-; split; [lia|discriminate]|].
    destruct (t_write_all lim (now + d) (skipn k (x :: data)) ws) as [[t' acc'] r'] eqn:E'.
    injection E as <- <- <-. apply IH in E' as [B1 B2]; [|lia]. split; [lia|exact B2].
Qed.

(** What was accepted is an initial part, and everything if it succeeded. *)
Lemma t_write_all_part (ws : list (duration * wrote)) : forall (lim now t : instant) (data acc : str) (r : fin (result unit io_kind)),
  t_write_all lim now data ws = (t, acc, r) ->
  exists rest, data = acc ++ rest /\ (forall x, r = Done (Ok x) -> rest = []).
Proof.
  induction ws as [|[d w] ws IH]; intros lim now t data acc r E; cbn [t_write_all] in E.
  - exists data. destruct data; injection E as <- <- <-; split; try reflexivity; discriminate.
  - destruct data as [|x data]; [injection E as <- <- <-; now exists []|].
    destruct (lim <? now + d); [injection E as <- <- <-; exists (x :: data); split; [reflexivity|discriminate]|].
    destruct w as [k|e]; [|injection E as <- <- <-; exists (x :: data); split; [reflexivity|discriminate]].
    destruct (Nat.min k (length (x :: data)) =? 0)%nat; [injection E as <- <- <-; exists (x :: data); split; [reflexivity|discriminate]|].
    destruct (t_write_all lim (now + d) (skipn k (x :: data)) ws) as [[t' acc'] r'] eqn:E'.
    injection E as <- <- <-. apply IH in E' as (rest & A & B). exists rest. split; [|exact B].
    rewrite <- app_assoc, <- A. symmetry. apply firstn_skipn.
Qed.

Lemma t_wait_time {A : Type} (lim now t : instant) (w : option (duration * A)) (x : fin A) :
  t_wait lim now w = (t, x) -> now <= lim -> now <= t <= lim.
Proof.
  unfold t_wait. destruct w as [[d y]|]; [|intros [= <- <-]; lia].
  destruct (N.ltb_spec lim (now + d)); intros [= <- <-]; lia.
Qed.

Lemma t_recv_spec (bd : build) (script : list (instant * read)) : forall (lim now t : instant) (r r' : reader)
  (rest : list (instant * read)) (o : option (result msg_own recv_error)),
  t_recv bd lim now r script = Ret (t, r', rest, o) ->
  (now <= lim -> now <= t <= lim /\ (o = None -> t = lim)) /\
  exists used, script = used ++ rest /\ recv bd (arrive r (map snd used)) = Ret (r', o).
Proof.
  assert (N0 : forall r, arrive r [] = r). { intros [x y z]. unfold arrive. cbn. now rewrite app_nil_r. }
  induction script as [|[d x] script IH]; intros lim now t r r' rest o E; cbn [t_recv] in E;
    destruct (recv bd r) as [[r1 [y|]]| | |] eqn:R; cbn [bind] in E; try discriminate.
  - injection E as <- <- <- <-. split; [intros L; split; [lia|discriminate]|]. exists []. cbn [map]. now rewrite N0.
  - injection E as <- <- <- <-. split; [intros ?; split; [lia|reflexivity]|]. exists []. cbn [map]. now rewrite N0.
  - injection E as <- <- <- <-. split; [intros L; split; [lia|discriminate]|]. exists []. cbn [map]. now rewrite N0.
  - destruct (N.ltb_spec lim (N.max now d)) as [L|L].
    + injection E as <- <- <- <-. split; [intros ?; split; [lia|reflexivity]|]. exists []. cbn [map]. now rewrite N0.
    + apply IH in E as [B (used & -> & U)]. split; [intros K; destruct (B L); split; [lia|assumption]|].
      exists ((d, x) :: used). split; [reflexivity|]. cbn [map snd].
      rewrite arrive_arrive in U. cbn [app] in U. rewrite (recv_pending _ _ _ _ R) in U. exact U.
Qed.

(** ** Handshake *)

Lemma t_recv_timeout_spec (fire : timers) (bd : build) (lim now t : instant) (c c' : client) (script rest : list (instant * read))
  (o : fin (result msg_own connect_error)) :
  t_recv_timeout fire bd lim now c script = Ret (t, c', rest, o) ->
  (now <= lim -> now <= fire now (secs 5) -> now <= t <= lim /\ (o = Dropped -> t = lim)) /\
  exists used, script = used ++ rest /\
    recv_timeout c (mk_wait (map snd used) (lim <? fire now (secs 5)) bd) = Ret (c', o).
Proof.
  unfold t_recv_timeout. intros E.
  destruct (t_recv bd (N.min (fire now (secs 5)) lim) now (c_reader c) script) as [[[[t1 r1] s1] o1]| | |] eqn:R; try discriminate.
  cbn [bind] in E. apply t_recv_spec in R as [B (used & -> & U)].
  assert (T : recv_timeout c (mk_wait (map snd used) (lim <? fire now (secs 5)) bd) =
    match o1 with
    | Some (Ok m) => Ret (set_reader c r1, Done (Ok m))
    | Some (Err e) => Ret (set_reader c r1, Done (Err (CRead e)))
    | None => if lim <? fire now (secs 5) then Ret (set_reader c r1, Dropped) else Ret (set_reader c r1, Done (Err CTimeout))
    end).
  { unfold recv_timeout. cbn [w_build w_reads w_dropped]. rewrite U. reflexivity. }
  destruct o1 as [[m|e]|].
  - injection E as <- <- <- <-. split; [intros L NE; destruct (B ltac:(lia)); repeat split; try lia; discriminate|eauto].
  - injection E as <- <- <- <-. split; [intros L NE; destruct (B ltac:(lia)); repeat split; try lia; discriminate|eauto].
  - destruct (N.leb_spec (fire now (secs 5)) lim) as [L|L].
    + injection E as <- <- <- <-. split; [intros K NE; destruct (B ltac:(lia)); repeat split; try lia; discriminate|].
      exists used. split; [reflexivity|]. rewrite T. replace (lim <? fire now (secs 5)) with false by lia. reflexivity.
    + injection E as <- <- <- <-. split; [intros K NE; destruct (B ltac:(lia)) as [B1 B2]; specialize (B2 eq_refl); repeat split; lia|].
      exists used. split; [reflexivity|]. rewrite T. replace (lim <? fire now (secs 5)) with true by lia. reflexivity.
Qed.

(** No timer fires before it is set. *)
Definition not_past (fire : timers) : Prop := forall now d, now <= fire now d.

Lemma t_verdict_spec (fire : timers) (lim now t : instant) (c c' : client) (p : peer) (script : list (instant * read))
  (o : fin (result unit connect_error)) (w : write_out) (f : flush_out) :
  t_verdict fire lim now c p script = Ret (t, c', o) ->
  (now <= lim -> not_past fire -> now <= t <= lim /\ (o = Dropped -> t = lim)) /\
  exists u1 u2 rest d1 d2, script = u1 ++ u2 ++ rest /\
    handshake_verdict c (mk_handshake_out w f (mk_wait (map snd u1) d1 (p_build1 p)) (mk_wait (map snd u2) d2 (p_build2 p)))
    = Ret (c', o).
Proof.
  unfold t_verdict. intros E.
  destruct (t_recv_timeout fire (p_build1 p) lim now c script) as [[[[t1 c1] s1] o1]| | |] eqn:R; try discriminate.
  cbn [bind] in E. apply t_recv_timeout_spec in R as [B (u1 & -> & U)].
  assert (ONE : t = t1 /\ (o = Dropped -> o1 = Dropped) ->
    (forall d2, handshake_verdict c (mk_handshake_out w f (mk_wait (map snd u1) (lim <? fire now (secs 5)) (p_build1 p)) d2) = Ret (c', o)) ->
    (now <= lim -> not_past fire -> now <= t <= lim /\ (o = Dropped -> t = lim)) /\
    exists u3 u2 rest d1 d2, u1 ++ s1 = u3 ++ u2 ++ rest /\
      handshake_verdict c (mk_handshake_out w f (mk_wait (map snd u3) d1 (p_build1 p)) (mk_wait (map snd u2) d2 (p_build2 p)))
      = Ret (c', o)).
  { intros [-> D] X. split; [intros L NP; destruct (B L (NP _ _)) as (B1 & B3); split; [lia|auto]|].
    exists u1, [], s1, (lim <? fire now (secs 5)), true. split; [reflexivity|]. apply X. }
  destruct o1 as [[m|e]|].
  3: { injection E as <- <- <-. apply ONE; [auto|]. intros d2. unfold handshake_verdict. cbn [h_first]. rewrite U. reflexivity. }
  2: { injection E as <- <- <-. apply ONE; [split; [reflexivity|discriminate]|]. intros d2. unfold handshake_verdict. cbn [h_first]. rewrite U. reflexivity. }
  destruct (own_command m) as [cmd| | |] eqn:C; try discriminate. cbn [bind] in E.
  destruct cmd;
    try (injection E as <- <- <-; apply ONE; [split; [reflexivity|discriminate]|]; intros d2; unfold handshake_verdict; cbn [h_first];
         rewrite U; cbn [bind]; rewrite C; reflexivity).
  destruct (own_params m) as [pr| | |] eqn:P; try discriminate. cbn [bind] in E.
  destruct (match pr with Some v => starts_with (b "* ACK") v | None => false end) eqn:K.
  2: { injection E as <- <- <-; apply ONE; [split; [reflexivity|discriminate]|]; intros d2; unfold handshake_verdict; cbn [h_first].
       rewrite U; cbn [bind]; rewrite C; cbn [bind]; rewrite P; cbn [bind]. rewrite K. reflexivity. }
  clear ONE.
  destruct (t_recv_timeout fire (p_build2 p) lim t1 c1 s1) as [[[[t2 c2] s2] o2]| | |] eqn:R2; try discriminate.
  cbn [bind] in E. apply t_recv_timeout_spec in R2 as [B2 (u2 & -> & U2)].
  assert (BB : now <= lim -> not_past fire -> now <= t2 <= lim /\ (o2 = Dropped -> t2 = lim)).
  { intros L NP. destruct (B L (NP _ _)) as (B1 & B4). destruct (B2 ltac:(lia) (NP _ _)) as (B5 & B7). repeat split; try lia. }
  assert (FIN : t = t2 /\ (o = Dropped -> o2 = Dropped) ->
    match o2 with
    | Dropped => Ret (c2, Dropped)
    | Done (Err e) => Ret (c2, Done (Err e))
    | Done (Ok message) =>
      let! cmd := own_command message in
      match cmd with
      | RplWelcome => Ret (c2, Done (Ok tt))
      | Notice =>
        let! params := own_params message in
        if match params with Some v => contains (b "authentication failed") v | None => false end
        then Ret (c2, Done (Err CAuth))
        else Ret (c2, Done (Err (CNotice message)))
      | _ => Ret (c2, Done (Err (CWelcome message)))
      end
    end = Ret (c', o) ->
    (now <= lim -> not_past fire -> now <= t <= lim /\ (o = Dropped -> t = lim)) /\
    exists u3 u4 rest d1 d2, u1 ++ u2 ++ s2 = u3 ++ u4 ++ rest /\
      handshake_verdict c (mk_handshake_out w f (mk_wait (map snd u3) d1 (p_build1 p)) (mk_wait (map snd u4) d2 (p_build2 p)))
      = Ret (c', o)).
  { intros [-> D] X. split; [intros L NP; destruct (BB L NP) as (B4 & B6); split; [lia|auto]|].
    exists u1, u2, s2, (lim <? fire now (secs 5)), (lim <? fire t1 (secs 5)). split; [reflexivity|].
    unfold handshake_verdict. cbn [h_first h_second]. rewrite U. cbn [bind]. rewrite C. cbn [bind]. rewrite P. cbn [bind].
    rewrite K, U2. cbn [bind]. exact X. }
  apply FIN; clear FIN.
  - destruct o2 as [[m2|e2]|].
    3: { injection E as <- <- <-. auto. }
    2: { injection E as <- <- <-. split; [reflexivity|discriminate]. }
    destruct (own_command m2) as [cmd2| | |] eqn:C2; try discriminate. cbn [bind] in E.
    destruct cmd2; try (injection E as <- <- <-; split; [reflexivity|discriminate]).
    destruct (own_params m2) as [pr2| | |] eqn:P2; try discriminate. cbn [bind] in E.
    destruct (match pr2 with Some v => _ | None => false end); injection E as <- <- <-; split; try reflexivity; discriminate.
  - destruct o2 as [[m2|e2]|].
    3: { injection E as <- <- <-. auto. }
    2: { injection E as <- <- <-. auto. }
    destruct (own_command m2) as [cmd2| | |] eqn:C2; try discriminate. cbn [bind] in *.
    destruct cmd2; try (injection E as <- <- <-; reflexivity).
    destruct (own_params m2) as [pr2| | |] eqn:P2; try discriminate. cbn [bind] in *.
    destruct (match pr2 with Some v => _ | None => false end); injection E as <- <- <-; reflexivity.
Qed.

Lemma script_snd (now : instant) (l : list (duration * read)) :
  map snd (map (fun '(d, x) => (now + d, x)) l) = map snd l.
Proof. rewrite map_map. apply map_ext. now intros []. Qed.

(** The handshake under the clock is the handshake with some outcomes; the answers it
    used are those of the peer. *)
Lemma t_handshake_spec (fire : timers) (lim now t : instant) (c c' : client) (p : peer) (o : fin (result unit connect_error)) :
  t_handshake fire lim now c p = Ret (t, c', o) ->
  (now <= lim -> not_past fire -> now <= t <= lim /\ (o = Dropped -> t = lim)) /\
  exists h rest, handshake c h = Ret (c', o) /\
    map snd (p_reads p) = w_reads (h_first h) ++ w_reads (h_second h) ++ rest.
Proof.
  unfold t_handshake. intros E.
  set (dt := c_scratch (set_scratch c (c_scratch c ++ handshake_text (cf_credentials (c_config c))))) in E.
  destruct (t_write_all lim now dt (p_writes p)) as [[t1 acc] r] eqn:W.
  pose proof (t_write_all_time _ _ _ _ _ _ _ W) as TW. apply t_write_all_part in W as (q & DT & WD).
  assert (ACC : acc = firstn (length acc) dt). { rewrite DT, firstn_app, firstn_all, Nat.sub_diag, firstn_O. symmetry. apply app_nil_r. }
  set (w0 := mk_wait [] false Scalar).
  destruct r as [[[]|e]|].
  - specialize (WD tt eq_refl). subst q. rewrite app_nil_r in DT.
    destruct (t_wait lim t1 (p_flush p)) as [t2 x] eqn:F. pose proof (t_wait_time _ _ _ _ _ F) as TF.
    destruct x as [[[]|e]|].
    + pose proof (t_verdict_spec _ _ _ _ _ _ _ _ _ WOk FOk E) as [B (u1 & u2 & rest & d1 & d2 & S & V)].
      split; [intros L NP; destruct (TW L); specialize (TF ltac:(lia)); destruct (B ltac:(lia) NP) as (B1 & B3); split; [lia|exact B3]|].
      exists (mk_handshake_out WOk FOk (mk_wait (map snd u1) d1 (p_build1 p)) (mk_wait (map snd u2) d2 (p_build2 p))), (map snd rest).
      split; [|rewrite <- (script_snd now), S, !map_app; cbn [h_first h_second w_reads]; reflexivity].
      unfold handshake. cbn [h_write h_flush]. cbn [write_all]. fold dt. rewrite DT. exact V.
    + injection E as <- <- <-. split; [intros L NP; destruct (TW L); specialize (TF ltac:(lia)); split; [lia|discriminate]|].
      exists (mk_handshake_out WOk (FErr e) w0 w0), (map snd (p_reads p)). split; [|reflexivity].
      unfold handshake. cbn [h_write h_flush]. cbn [write_all]. fold dt. rewrite DT. reflexivity.
    + injection E as <- <- <-. split.
      * intros L NP; destruct (TW L); specialize (TF ltac:(lia)); split; [lia|]. intros _.
        unfold t_wait in F. destruct (p_flush p) as [[d y]|]; [|congruence]. destruct (lim <? t1 + d); congruence.
      * exists (mk_handshake_out WOk FDrop w0 w0), (map snd (p_reads p)). split; [|reflexivity].
        unfold handshake. cbn [h_write h_flush]. cbn [write_all]. fold dt. rewrite DT. reflexivity.
  - injection E as <- <- <-. split; [intros L NP; destruct (TW L); split; [lia|discriminate]|].
    exists (mk_handshake_out (WErr (length acc) e) FOk w0 w0), (map snd (p_reads p)). split; [|reflexivity].
    unfold handshake. cbn [h_write h_flush]. cbn [write_all]. fold dt. rewrite <- ACC. reflexivity.
  - injection E as <- <- <-. split.
    + intros L NP. destruct (TW L) as [TW1 TW2]. split; [lia|]. intros _. now apply TW2.
    + exists (mk_handshake_out (WDrop (length acc)) FOk w0 w0), (map snd (p_reads p)). split; [|reflexivity].
      unfold handshake. cbn [h_write h_flush]. cbn [write_all]. fold dt. rewrite <- ACC. reflexivity.
Qed.

(** ** Connecting *)

(** An attempt in which nothing is read. *)
Definition idle (o : open_out) : attempt :=
  mk_attempt true o (mk_handshake_out WOk FOk (mk_wait [] false Scalar) (mk_wait [] false Scalar)) true.

Lemma read_size_app (x y : list read) : read_size (x ++ y) = (read_size x + read_size y)%nat.
Proof. induction x as [|[]]; cbn [read_size app]; lia. Qed.

Lemma small_used (p : peer) (h : handshake_out) (rest : list read) :
  map snd (p_reads p) = w_reads (h_first h) ++ w_reads (h_second h) ++ rest -> small_peer p ->
  small_answers reader_new h.
Proof.
  unfold small_peer, small_answers. intros ->. rewrite !read_size_app. cbn [rd_buf rd_reads reader_new length read_size]. lia.
Qed.

Lemma late_not_past (slack : duration) (fire : timers) : late_by slack fire -> not_past fire.
Proof. intros L now d. destruct (L now d); assumption. Qed.

Lemma early_not_past (fire : timers) : not_early fire -> not_past fire.
Proof. intros L now d. specialize (L now d). lia. Qed.

(** C69. Whatever the network does and however slowly, connecting ends: at most twice
    the timeout after the certificates are loaded, if no timer is late. *)
Lemma p_c69_connect_time :
  forall (fire : timers) (slack : duration) (now t : instant) (cf : config) (tls : duration * tls_out) (p : peer)
         (r : result client connect_error),
    late_by slack fire -> t_connect fire now cf tls p = Ret (t, r) ->
    now + fst tls <= t <= now + fst tls + 2 * (cf_timeout cf + slack).
Proof.
  intros fire slack now t cf tls p r LB E. unfold t_connect in E. set (n1 := now + fst tls) in *.
  pose proof (late_not_past _ _ LB) as NP.
  destruct (snd tls); [|injection E as <- <-; lia..].
  destruct (LB n1 (cf_timeout cf)) as [F1 F2].
  destruct (t_wait (fire n1 (cf_timeout cf)) n1 (p_open p)) as [n2 x] eqn:W. apply t_wait_time in W; [|lia].
  destruct x as [[[]|e]|]; [|injection E as <- <-; lia..].
  destruct (LB n2 (cf_timeout cf)) as [F3 F4].
  destruct (t_handshake fire (fire n2 (cf_timeout cf)) n2 (mk_client [] [] [] reader_new cf) p) as [[[n3 c] y]| | |] eqn:H; try discriminate.
  cbn [bind] in E. apply t_handshake_spec in H as [B _]. destruct (B ltac:(lia) NP).
  destruct y as [[[]|e]|]; injection E as <- <-; lia.
Qed.

(** C69. Its result is one that the untimed function has for some outcomes. *)
Lemma p_c69_connect_same :
  forall (fire : timers) (now t : instant) (cf : config) (tls : duration * tls_out) (p : peer) (r : result client connect_error),
    t_connect fire now cf tls p = Ret (t, r) ->
    exists o h elapsed, connect cf (snd tls) o h elapsed = Ret (Done r) /\
      (small_peer p -> small_answers reader_new h).
Proof.
  intros fire now t cf tls p r E. unfold t_connect in E. set (n1 := now + fst tls) in *.
  assert (S0 : small_peer p -> small_answers reader_new (a_handshake (idle OpOk))) by reflexivity.
  destruct (snd tls).
  2,3: exists OpOk, (a_handshake (idle OpOk)), true; injection E as <- <-; split; [reflexivity|exact S0].
  destruct (t_wait (fire n1 (cf_timeout cf)) n1 (p_open p)) as [n2 x] eqn:W.
  destruct x as [[[]|e]|].
  - destruct (t_handshake fire (fire n2 (cf_timeout cf)) n2 (mk_client [] [] [] reader_new cf) p) as [[[n3 c] y]| | |] eqn:H; try discriminate.
    cbn [bind] in E. apply t_handshake_spec in H as [_ (h & rest & H & R)].
    exists OpOk, h, true. split; [|intros S; exact (small_used _ _ _ R S)].
    unfold connect. rewrite H. cbn [bind]. destruct y as [[[]|e]|]; injection E as <- <-; reflexivity.
  - injection E as <- <-. exists (OpErr e), (a_handshake (idle OpOk)), true. split; [reflexivity|exact S0].
  - injection E as <- <-. exists OpElapsed, (a_handshake (idle OpOk)), true. split; [reflexivity|exact S0].
Qed.

(** ** What can fail *)

(** The second computation fails as the first does. *)
Definition same_fail {A B : Type} (x : res A) (y : res B) : Prop :=
  match x with Ret _ => False | Panic => y = Panic | Ub => y = Ub | NoFuel => y = NoFuel end.

Lemma same_fail_refl {A : Type} (x : res A) : (forall y, x <> Ret y) -> same_fail x x.
Proof. intros H. destruct x; cbn; auto. now eapply H. Qed.

Lemma same_fail_bind {A B C D : Type} (x : res A) (y : res B) (f : A -> res C) (g : B -> res D) :
  same_fail x y -> same_fail (bind x f) (bind y g).
Proof. destruct x; cbn; try contradiction; now intros ->. Qed.

Lemma t_recv_fails (bd : build) (script : list (instant * read)) : forall (lim now : instant) (r : reader),
  (forall y, t_recv bd lim now r script <> Ret y) ->
  exists used rest, script = used ++ rest /\ same_fail (t_recv bd lim now r script) (recv bd (arrive r (map snd used))).
Proof.
  assert (N0 : forall r, arrive r [] = r). { intros [x y z]. unfold arrive. cbn. now rewrite app_nil_r. }
  induction script as [|[d x] script IH]; intros lim now r E; cbn [t_recv] in *;
    destruct (recv bd r) as [[r1 [y|]]| | |] eqn:R; cbn [bind] in *;
    try (exfalso; eapply E; reflexivity);
    try (eexists [], _; split; [reflexivity|]; cbn [map]; rewrite N0, R; reflexivity).
  destruct (lim <? N.max now d); [exfalso; eapply E; reflexivity|].
  destruct (IH _ _ _ E) as (used & rest & -> & F). exists ((d, x) :: used), rest. split; [reflexivity|]. cbn [map snd].
  rewrite arrive_arrive in F. cbn [app] in F. rewrite (recv_pending _ _ _ _ R) in F. exact F.
Qed.

Lemma t_recv_timeout_fails (fire : timers) (bd : build) (lim now : instant) (c : client) (script : list (instant * read)) :
  (forall y, t_recv_timeout fire bd lim now c script <> Ret y) ->
  exists used rest dropped, script = used ++ rest /\
    same_fail (t_recv_timeout fire bd lim now c script) (recv_timeout c (mk_wait (map snd used) dropped bd)).
Proof.
  intros E. unfold t_recv_timeout in *.
  destruct (t_recv_fails bd script (N.min (fire now (secs 5)) lim) now (c_reader c)) as (used & rest & -> & F).
  { intros [[[t r] s] o] K. rewrite K in E. cbn [bind] in E.
    destruct o as [[m|e]|]; [| |destruct (fire now (secs 5) <=? lim)]; eapply E; reflexivity. }
  exists used, rest, false. split; [reflexivity|]. unfold recv_timeout. cbn [w_build w_reads w_dropped].
  now apply same_fail_bind.
Qed.

Lemma t_verdict_fails (fire : timers) (lim now : instant) (c : client) (p : peer) (script : list (instant * read)) (w : write_out) (f : flush_out) :
  (forall y, t_verdict fire lim now c p script <> Ret y) ->
  exists u1 u2 rest d1 d2, script = u1 ++ u2 ++ rest /\
    same_fail (t_verdict fire lim now c p script)
      (handshake_verdict c (mk_handshake_out w f (mk_wait (map snd u1) d1 (p_build1 p)) (mk_wait (map snd u2) d2 (p_build2 p)))).
Proof.
  unfold t_verdict. intros E.
  destruct (t_recv_timeout fire (p_build1 p) lim now c script) as [[[[t1 c1] s1] o1]| | |] eqn:R.
  2,3,4: destruct (t_recv_timeout_fails fire (p_build1 p) lim now c script) as (u1 & rest & d & -> & F);
    [rewrite R; discriminate|]; exists u1, [], rest, d, false; (split; [reflexivity|]);
    rewrite R in F; unfold handshake_verdict; cbn [h_first]; apply (same_fail_bind _ _ _ _ F).
  cbn [bind] in *. apply t_recv_timeout_spec in R as [_ (u1 & -> & U)].
  destruct o1 as [[m|e]|]; [|exfalso; eapply E; reflexivity..].
  destruct (own_command m) as [cmd| | |] eqn:C; cbn [bind] in *.
  2,3,4: exists u1, [], s1, (lim <? fire now (secs 5)), true; (split; [reflexivity|]); unfold handshake_verdict;
    cbn [h_first]; rewrite U; cbn [bind]; rewrite C; reflexivity.
  destruct cmd; try (exfalso; eapply E; reflexivity).
  destruct (own_params m) as [pr| | |] eqn:P; cbn [bind] in *.
  2,3,4: exists u1, [], s1, (lim <? fire now (secs 5)), true; (split; [reflexivity|]); unfold handshake_verdict;
    cbn [h_first]; rewrite U; cbn [bind]; rewrite C; cbn [bind]; rewrite P; reflexivity.
  destruct (match pr with Some v => starts_with (b "* ACK") v | None => false end) eqn:K; [|exfalso; eapply E; reflexivity].
  destruct (t_recv_timeout fire (p_build2 p) lim t1 c1 s1) as [[[[t2 c2] s2] o2]| | |] eqn:R2.
  2,3,4: destruct (t_recv_timeout_fails fire (p_build2 p) lim t1 c1 s1) as (u2 & rest & d & -> & F);
    [rewrite R2; discriminate|]; exists u1, u2, rest, (lim <? fire now (secs 5)), d; (split; [reflexivity|]);
    rewrite R2 in F; unfold handshake_verdict; cbn [h_first h_second]; rewrite U; cbn [bind]; rewrite C; cbn [bind]; rewrite P;
    cbn [bind same_fail] in *; rewrite K, F; reflexivity.
  cbn [bind] in *. apply t_recv_timeout_spec in R2 as [_ (u2 & -> & U2)].
  destruct o2 as [[m2|e2]|]; [|exfalso; eapply E; reflexivity..].
  exists u1, u2, s2, (lim <? fire now (secs 5)), (lim <? fire t1 (secs 5)). split; [reflexivity|].
  unfold handshake_verdict. cbn [h_first h_second]. rewrite U. cbn [bind]. rewrite C. cbn [bind]. rewrite P. cbn [bind].
  rewrite K, U2. cbn [bind].
  destruct (own_command m2) as [cmd2| | |] eqn:C2; cbn [bind] in *; [|reflexivity..].
  destruct cmd2; try (exfalso; eapply E; reflexivity).
  destruct (own_params m2) as [pr2| | |] eqn:P2; cbn [bind] in *; [|reflexivity..].
  destruct (match pr2 with Some v => _ | None => false end); exfalso; eapply E; reflexivity.
Qed.

(** The handshake returns, or one of the answers is a line on which parsing panics. *)
Lemma t_handshake_total (fire : timers) (lim now : instant) (c : client) (p : peer) :
  c_reader c = reader_new -> small_peer p ->
  (exists t c' o, t_handshake fire lim now c p = Ret (t, c', o)) \/
  (t_handshake fire lim now c p = Panic /\ exists h, took p h /\ chokes reader_new h).
Proof.
  intros RN SM.
  assert (D : (exists y, t_handshake fire lim now c p = Ret y) \/ (forall y, t_handshake fire lim now c p <> Ret y)).
  { destruct (t_handshake fire lim now c p) as [y| | |]; [left; eauto|right; discriminate..]. }
  destruct D as [[[[t c'] o] D]|D]; [left; eauto|right].
  assert (exists h, took p h /\ delivered h /\ same_fail (t_handshake fire lim now c p) (handshake c h)) as (h & T & DL & F).
  { unfold t_handshake in *.
    set (dt := c_scratch (set_scratch c (c_scratch c ++ handshake_text (cf_credentials (c_config c))))) in *.
    destruct (t_write_all lim now dt (p_writes p)) as [[t1 acc] r] eqn:W. apply t_write_all_part in W as (q & DT & WD).
    destruct r as [[[]|e]|]; [|exfalso; eapply D; reflexivity..].
    specialize (WD tt eq_refl). subst q. rewrite app_nil_r in DT.
    destruct (t_wait lim t1 (p_flush p)) as [t2 [[[]|e]|]]; [|exfalso; eapply D; reflexivity..].
    destruct (t_verdict_fails _ _ _ _ _ _ WOk FOk D) as (u1 & u2 & rest & d1 & d2 & S & V).
    exists (mk_handshake_out WOk FOk (mk_wait (map snd u1) d1 (p_build1 p)) (mk_wait (map snd u2) d2 (p_build2 p))).
    split; [|split; [split; reflexivity|]].
    - split; [reflexivity|]. split; [reflexivity|]. exists (map snd rest).
      rewrite <- (script_snd now), S, !map_app; cbn [h_first h_second w_reads]; reflexivity.
    - unfold handshake at 1. cbn [h_write h_flush write_all]. fold dt. rewrite DT. exact V. }
  assert (SA : small_answers (c_reader c) h).
  { rewrite RN. destruct T as (_ & _ & rest & T). exact (small_used _ _ _ T SM). }
  destruct (p_c51_panics_iff c h SA) as [PI RI].
  destruct (t_handshake fire lim now c p) as [y| | |]; cbn [same_fail] in F; [contradiction| | |].
  - split; [reflexivity|]. exists h. apply PI in F as [_ F]. rewrite RN in F. auto.
  - exfalso. destruct (RI ltac:(congruence)) as (? & ? & ?). congruence.
  - exfalso. destruct (RI ltac:(congruence)) as (? & ? & ?). congruence.
Qed.

(** C69. Connecting does return, unless one of the two answers is a line on which parsing
    panics (C05). *)
Lemma p_c69_connect_returns :
  forall (fire : timers) (now : instant) (cf : config) (tls : duration * tls_out) (p : peer),
    small_peer p ->
    (exists t r, t_connect fire now cf tls p = Ret (t, r)) \/
    (t_connect fire now cf tls p = Panic /\ exists h, took p h /\ chokes reader_new h).
Proof.
  intros fire now cf tls p SM. unfold t_connect. destruct (snd tls); [|left; eauto..].
  destruct (t_wait _ _ (p_open p)) as [n2 [[[]|e]|]]; [|left; eauto..].
  destruct (t_handshake_total fire (fire n2 (cf_timeout cf)) n2 (mk_client [] [] [] reader_new cf) p eq_refl SM) as [(t & c' & o & ->)|[-> H]].
  - left. cbn [bind]. destruct o as [[[]|e]|]; eauto.
  - right. split; [reflexivity|exact H].
Qed.

(** ** Reconnecting *)

Lemma loop_oracle (fuel : nat) : forall (bk : backoff) (o1 o2 : nat -> attempt) (i : nat) (tries : option N) (delay : duration)
  (cause : connect_error) (c : client),
  (forall j, (i <= j)%nat -> o1 j = o2 j) ->
  reconnect_loop fuel bk o1 i tries delay cause c = reconnect_loop fuel bk o2 i tries delay cause c.
Proof.
  induction fuel as [|fuel IH]; intros bk o1 o2 i tries delay cause c H; [reflexivity|]. cbn [reconnect_loop].
  destruct (tries_left tries); [|reflexivity]. rewrite (H i) by lia. destruct (a_sleeps (o2 i)); [|reflexivity].
  destruct (duration_mul delay (delay_multiplier bk)) as [d| | |]; try reflexivity. cbn [bind].
  destruct (a_open (o2 i)) as [|e| |]; try reflexivity.
  - destruct (handshake (new_connection c) (a_handshake (o2 i))) as [[c1 [[x|e]|]]| | |]; try reflexivity. cbn [bind].
    destruct (should_retry e); [|reflexivity]. rewrite (IH bk o1 o2); [reflexivity|]. intros j J. apply H. lia.
  - rewrite (IH bk o1 o2); [reflexivity|]. intros j J. apply H. lia.
Qed.

Definition ended (o : option (result unit connect_error)) : outcome :=
  match o with Some r => Finished r | None => Running end.

Lemma t_loop_spec (fire : timers) (slack : duration) (fuel : nat) : forall (bk : backoff) (timeout : duration) (peers : nat -> peer) (i : nat) (tries : option N)
  (delay : duration) (cause : connect_error) (now t : instant) (c c' : client) (tr : list event) (o : option (result unit connect_error)),
  t_reconnect_loop fire fuel bk timeout peers i tries delay cause now c = Ret (t, c', tr, o) ->
  ((not_early fire -> now + total (delays tr) <= t) /\ (late_by slack fire -> now <= t <= now + total (delays tr) + (2 * timeout + 3 * slack) * N.of_nat (attempts tr))) /\
  exists oracle, reconnect_loop fuel bk oracle i tries delay cause c = Ret (c', tr, ended o) /\
    (forall j, a_sleeps (oracle j) = true) /\
    ((forall j, small_peer (peers j)) -> small_oracle oracle).
Proof.
  assert (S0 : forall x, small_answers reader_new (a_handshake (idle x))) by reflexivity.
  induction fuel as [|fuel IH]; intros bk timeout peers i tries delay cause now t c c' tr o E; cbn [t_reconnect_loop] in E.
  { injection E as <- <- <- <-. cbn [delays attempts flat_map filter length total fold_right is_opening]. split; [cbn; lia|].
    exists (fun _ => idle OpOk). split; [reflexivity|]. split; [reflexivity|]. intros _ j. apply S0. }
  destruct (tries_left tries) eqn:T.
  2: { injection E as <- <- <- <-. split; [cbn; lia|]. exists (fun _ => idle OpOk). cbn [reconnect_loop]. rewrite T.
       split; [reflexivity|]. split; [reflexivity|]. intros _ j. apply S0. }
  destruct (duration_mul delay (delay_multiplier bk)) as [pr| | |] eqn:M; try discriminate. cbn [bind] in E.
  destruct (t_wait (fire (fire now delay) timeout) (fire now delay) (p_open (peers i))) as [n2 x] eqn:W.
  assert (TW : not_past fire -> fire now delay <= n2 <= fire (fire now delay) timeout) by (intros NP; exact (t_wait_time _ _ _ _ _ W (NP _ _))).
  clear W.
  assert (CONS : forall a n3 c1 (tries' : option N) cause' pre (more : list event),
    a_sleeps a = true -> (small_peer (peers i) -> small_answers reader_new (a_handshake a)) ->
    ((not_early fire -> now + delay <= n3) /\ (late_by slack fire -> now <= n3 <= now + delay + (2 * timeout + 3 * slack))) ->
    delays pre = [delay] -> attempts pre = 1%nat -> tr = pre ++ more ->
    t_reconnect_loop fire fuel bk timeout peers (i + 1) tries' (N.min (max_delay bk) pr) cause' n3 c1 = Ret (t, c', more, o) ->
    (forall oracle, oracle i = a ->
      reconnect_loop (S fuel) bk oracle i tries delay cause c =
      let! (c, tr, o) := reconnect_loop fuel bk oracle (i + 1) tries' (N.min (max_delay bk) pr) cause' c1 in Ret (c, pre ++ tr, o)) ->
    ((not_early fire -> now + total (delays tr) <= t) /\ (late_by slack fire -> now <= t <= now + total (delays tr) + (2 * timeout + 3 * slack) * N.of_nat (attempts tr))) /\
    exists oracle, reconnect_loop (S fuel) bk oracle i tries delay cause c = Ret (c', tr, ended o) /\
      (forall j, a_sleeps (oracle j) = true) /\ ((forall j, small_peer (peers j)) -> small_oracle oracle)).
  { intros a n3 c1 tries' cause' pre more SL SM B D A -> L R. apply IH in L as [B2 (oracle & O1 & O2 & O3)]. split.
    - unfold delays, attempts in *. rewrite flat_map_app, filter_app, app_length, A, D. cbn [app total fold_right].
      fold (total (flat_map (fun e => match e with Slept d => [d] | _ => [] end) more)).
      destruct B as [Ba Bb], B2 as [B2a B2b].
      split; intros K; [specialize (Ba K); specialize (B2a K)|specialize (Bb K); specialize (B2b K)]; lia.
    - exists (fun j => if (j =? i)%nat then a else oracle j). split; [|split].
      + rewrite R by now rewrite Nat.eqb_refl.
        rewrite (loop_oracle fuel bk _ oracle); [rewrite O1; reflexivity|]. intros j J. replace (j =? i)%nat with false by lia. reflexivity.
      + intros j. destruct (j =? i)%nat; auto.
      + intros S j. destruct (j =? i)%nat; [now apply SM|now apply O3]. }
  assert (LAST : forall a pre n3 c1 r,
    a_sleeps a = true -> (small_peer (peers i) -> small_answers reader_new (a_handshake a)) ->
    ((not_early fire -> now + delay <= n3) /\ (late_by slack fire -> now <= n3 <= now + delay + (2 * timeout + 3 * slack))) -> delays pre = [delay] -> attempts pre = 1%nat ->
    (t, c', tr, o) = (n3, c1, pre, Some r) ->
    (forall oracle, oracle i = a -> reconnect_loop (S fuel) bk oracle i tries delay cause c = Ret (c1, pre, Finished r)) ->
    ((not_early fire -> now + total (delays tr) <= t) /\ (late_by slack fire -> now <= t <= now + total (delays tr) + (2 * timeout + 3 * slack) * N.of_nat (attempts tr))) /\
    exists oracle, reconnect_loop (S fuel) bk oracle i tries delay cause c = Ret (c', tr, ended o) /\
      (forall j, a_sleeps (oracle j) = true) /\ ((forall j, small_peer (peers j)) -> small_oracle oracle)).
  { intros a pre n3 c1 r SL SM B D A [= -> -> -> ->] R. split.
    { rewrite D, A. cbn [total fold_right]. destruct B as [Ba Bb]. split; intros K; [specialize (Ba K)|specialize (Bb K)]; lia. }
    exists (fun j => if (j =? i)%nat then a else idle OpOk). split; [|split].
    - rewrite R by now rewrite Nat.eqb_refl. reflexivity.
    - intros j. destruct (j =? i)%nat; auto.
    - intros S j. destruct (j =? i)%nat; [now apply SM|apply S0]. }
  assert (TO : (not_early fire -> now + delay <= n2) /\ (late_by slack fire -> now <= n2 <= now + delay + (2 * timeout + 3 * slack))).
  { split; intros K.
    - specialize (TW (early_not_past _ K)). specialize (K now delay). lia.
    - specialize (TW (late_not_past _ _ K)). pose proof (K now delay). pose proof (K (fire now delay) timeout). lia. }
  destruct x as [[[]|e]|].
  - destruct (t_handshake fire (fire n2 timeout) n2 (new_connection c) (peers i)) as [[[n3 c1] y]| | |] eqn:H; try discriminate.
    cbn [bind] in E. apply t_handshake_spec in H as [B (h & rest & H & R)]. 
    assert (TH : ((not_early fire -> now + delay <= n3) /\ (late_by slack fire -> now <= n3 <= now + delay + (2 * timeout + 3 * slack)))).
    { split; intros K.
      - pose proof (early_not_past _ K) as NP. specialize (TW NP). destruct (B (NP _ _) NP). specialize (K now delay). lia.
      - pose proof (late_not_past _ _ K) as NP. specialize (TW NP). destruct (B (NP _ _) NP).
        pose proof (K now delay). pose proof (K (fire now delay) timeout). pose proof (K n2 timeout). lia. }
    pose proof (small_used _ _ _ R) as SU.
    set (a := mk_attempt true OpOk h true).
    destruct y as [[[]|e]|].
    + apply (LAST a [Slept delay; Opening; Sent (c_wire c1)] n3 c1 (Ok tt)); [reflexivity|exact SU|exact TH|reflexivity|reflexivity|injection E as <- <- <- <-; reflexivity|].
      intros oracle O. cbn [reconnect_loop]. rewrite T, O. cbn [a a_sleeps a_open a_handshake a_elapsed]. rewrite M. cbn [bind].
      rewrite H. reflexivity.
    + destruct (should_retry e) eqn:SR.
      * destruct (t_reconnect_loop fire fuel bk timeout peers (i + 1) (option_map (fun n => n - 1) tries) (N.min (max_delay bk) pr) e n3 c1)
          as [[[[t4 c4] tr4] o4]| | |] eqn:L; try discriminate. cbn [bind] in E. injection E as <- <- <- <-.
        apply (CONS a n3 c1 (option_map (fun n => n - 1) tries) e [Slept delay; Opening; Sent (c_wire c1)] tr4); [reflexivity|exact SU|exact TH|reflexivity|reflexivity|reflexivity|exact L|].
        intros oracle O. cbn [reconnect_loop]. rewrite T, O. cbn [a a_sleeps a_open a_handshake a_elapsed]. rewrite M. cbn [bind].
        rewrite H. cbn [bind]. rewrite SR. reflexivity.
      * apply (LAST a [Slept delay; Opening; Sent (c_wire c1)] n3 c1 (Err e)); [reflexivity|exact SU|exact TH|reflexivity|reflexivity|injection E as <- <- <- <-; reflexivity|].
        intros oracle O. cbn [reconnect_loop]. rewrite T, O. cbn [a a_sleeps a_open a_handshake a_elapsed]. rewrite M. cbn [bind].
        rewrite H. cbn [bind]. rewrite SR. reflexivity.
    + apply (LAST a [Slept delay; Opening; Sent (c_wire c1)] n3 c1 (Err CTimeout)); [reflexivity|exact SU|exact TH|reflexivity|reflexivity|injection E as <- <- <- <-; reflexivity|].
      intros oracle O. cbn [reconnect_loop]. rewrite T, O. cbn [a a_sleeps a_open a_handshake a_elapsed]. rewrite M. cbn [bind].
      rewrite H. reflexivity.
  - destruct (t_reconnect_loop fire fuel bk timeout peers (i + 1) (option_map (fun n => n - 1) tries) (N.min (max_delay bk) pr) (COpen e) n2 c)
      as [[[[t4 c4] tr4] o4]| | |] eqn:L; try discriminate. cbn [bind] in E. injection E as <- <- <- <-.
    apply (CONS (idle (OpErr e)) n2 c (option_map (fun n => n - 1) tries) (COpen e) [Slept delay; Opening] tr4); [reflexivity|intros _; apply S0|exact TO|reflexivity|reflexivity|reflexivity|exact L|].
    intros oracle O. cbn [reconnect_loop]. rewrite T, O. cbn [idle a_sleeps a_open a_handshake a_elapsed]. rewrite M. reflexivity.
  - apply (LAST (idle OpElapsed) [Slept delay; Opening] n2 c (Err CTimeout)); [reflexivity|intros _; apply S0|exact TO|reflexivity|reflexivity|injection E as <- <- <- <-; reflexivity|].
    intros oracle O. cbn [reconnect_loop]. rewrite T, O. cbn [idle a_sleeps a_open a_handshake a_elapsed]. rewrite M. reflexivity.
Qed.

(** C69. Reconnecting against the clock is reconnecting with some outcomes, none of
    which is a cancellation: C50 and C52 to C54 apply. *)
Lemma p_c69_reconnect_same :
  forall (fire : timers) (fuel : nat) (peers : nat -> peer) (now t : instant) (c c' : client) (tr : list event)
         (o : option (result unit connect_error)),
    t_reconnect fire fuel peers now c = Ret (t, c', tr, o) ->
    exists oracle,
      reconnect fuel oracle c = Ret (c', tr, match o with Some r => Finished r | None => Running end) /\
      (forall j, a_sleeps (oracle j) = true) /\
      ((forall j, small_peer (peers j)) -> small_oracle oracle).
Proof.
  intros fire fuel peers now t c c' tr o E. unfold t_reconnect in E. apply (t_loop_spec fire 0) in E as [_ (oracle & A & B & C)].
  exists oracle. split; [|split; assumption]. exact A.
Qed.

(** C69. It does return, unless the next delay is no [Duration] or an answer is a line on
    which parsing panics. *)
Lemma p_c69_reconnect_returns :
  forall (fire : timers) (fuel : nat) (peers : nat -> peer) (now : instant) (c : client),
    (forall j, small_peer (peers j)) ->
    (exists t c' tr o, t_reconnect fire fuel peers now c = Ret (t, c', tr, o)) \/
    (t_reconnect fire fuel peers now c = Panic /\ exists k, (k < fuel)%nat /\ within (max_tries (cf_backoff (c_config c))) k /\
       (~ delay_fits (cf_backoff (c_config c)) k \/ exists h, took (peers k) h /\ chokes reader_new h)).
Proof.
  intros fire fuel peers now c SM. unfold t_reconnect. set (bk := cf_backoff (c_config c)). set (to := cf_timeout (c_config c)).
  assert (G : forall fuel i tries delay cause now c0,
    (exists t c' tr o, t_reconnect_loop fire fuel bk to peers i tries delay cause now c0 = Ret (t, c', tr, o)) \/
    (t_reconnect_loop fire fuel bk to peers i tries delay cause now c0 = Panic /\
     exists k, (k < fuel)%nat /\ within tries k /\
       (~ fits_at bk delay k \/ exists h, took (peers (i + k)%nat) h /\ chokes reader_new h))).
  { clearbody bk to. clear c fuel now. induction fuel as [|fuel IH]; intros i tries delay cause now c;
      [left; eexists _, _, _, _; reflexivity|].
    cbn [t_reconnect_loop].
    destruct (tries_left tries) eqn:T; [|left; eexists _, _, _, _; reflexivity].
    unfold duration_mul. destruct (N.ltb_spec (delay * delay_multiplier bk) duration_limit) as [F|F]; cbn [bind].
    2:{ right. split; [reflexivity|]. exists 0%nat. split; [lia|]. split; [now apply within_0|].
        left. unfold fits_at. cbn [nd]. lia. }
    assert (RT : forall e now' c' (pre : list event),
      (exists t c'' tr o,
        (let! (n, c0, tr, o) := t_reconnect_loop fire fuel bk to peers (i + 1) (option_map (fun n => n - 1) tries)
           (N.min (max_delay bk) (delay * delay_multiplier bk)) e now' c' in Ret (n, c0, pre ++ tr, o)) = Ret (t, c'', tr, o)) \/
      ((let! (n, c0, tr, o) := t_reconnect_loop fire fuel bk to peers (i + 1) (option_map (fun n => n - 1) tries)
           (N.min (max_delay bk) (delay * delay_multiplier bk)) e now' c' in Ret (n, c0, pre ++ tr, o)) = Panic /\
       exists k, (k < S fuel)%nat /\ within tries k /\
         (~ fits_at bk delay k \/ exists h, took (peers (i + k)%nat) h /\ chokes reader_new h))).
    { intros e now' c' pre.
      destruct (IH (i + 1)%nat (option_map (fun n => n - 1) tries) (N.min (max_delay bk) (delay * delay_multiplier bk)) e now' c')
        as [(t & c2 & tr & o & ->)|(-> & k & K1 & K2 & K3)]; [left; eexists _, _, _, _; reflexivity|].
      right. split; [reflexivity|]. exists (S k). replace (i + S k)%nat with (i + 1 + k)%nat by lia.
      split; [lia|]. split; [now apply within_step|]. unfold fits_at in *. rewrite nd_next in K3. exact K3. }
    destruct (t_wait _ _ (p_open (peers i))) as [n2 [[[]|e]|]].
    - destruct (t_handshake_total fire (fire n2 to) n2 (new_connection c) (peers i) eq_refl (SM i)) as [(t & c' & o & ->)|[-> H]]; cbn [bind].
      + destruct o as [[[]|e]|]; try (left; eexists _, _, _, _; reflexivity).
        destruct (should_retry e); [apply RT|left; eexists _, _, _, _; reflexivity].
      + right. split; [reflexivity|]. exists 0%nat. rewrite Nat.add_0_r. split; [lia|]. split; [now apply within_0|]. right. exact H.
    - apply RT.
    - left. eexists _, _, _, _. reflexivity. }
  destruct (G fuel 0%nat (max_tries bk) (initial_delay bk) CTimeout now c) as [H|(P & k & K1 & K2 & K3)]; [left; exact H|].
  right. split; [exact P|]. exists k. split; [exact K1|]. split; [exact K2|]. cbn [Nat.add] in K3. unfold fits_at in K3.
  rewrite nd_nth in K3. exact K3.
Qed.

(** C69. Reconnecting takes the delays if no timer fires early, and then at most twice the
    timeout per attempt if none is late. *)
Lemma p_c69_reconnect_time :
  forall (fire : timers) (slack : duration) (fuel : nat) (peers : nat -> peer) (now t : instant) (c c' : client)
         (tr : list event) (o : option (result unit connect_error)),
    t_reconnect fire fuel peers now c = Ret (t, c', tr, o) ->
    (not_early fire -> now + total (delays tr) <= t) /\
    (late_by slack fire ->
     t <= now + total (delays tr) + (2 * cf_timeout (c_config c) + 3 * slack) * N.of_nat (attempts tr)).
Proof.
  intros fire slack fuel peers now t c c' tr o E. unfold t_reconnect in E.
  apply (t_loop_spec fire slack) in E as [[B1 B2] _]. split; [exact B1|]. intros L. now apply B2.
Qed.

Lemma total_app (x y : list duration) : total (x ++ y) = total x + total y.
Proof.
  induction x as [|d x IH]; cbn [app]; [reflexivity|]. change (d + total (x ++ y) = d + total x + total y).
  rewrite IH. apply N.add_assoc.
Qed.

(** C69. With a limit on the number of attempts, it is over at a time fixed by the
    configuration alone, whatever the network does. *)
Lemma p_c69_reconnect_ends :
  forall (fire : timers) (fuel : nat) (peers : nat -> peer) (now t : instant) (c c' : client) (tr : list event)
         (o : option (result unit connect_error)) (n : nat) (slack : duration),
    (forall j, small_peer (peers j)) -> late_by slack fire ->
    max_tries (cf_backoff (c_config c)) = Some (N.of_nat n) -> (n < fuel)%nat ->
    t_reconnect fire fuel peers now c = Ret (t, c', tr, o) ->
    (exists r, o = Some r) /\
    t <= now + total (map (nth_delay (cf_backoff (c_config c))) (seq 0 n))
         + (2 * cf_timeout (c_config c) + 3 * slack) * N.of_nat n.
Proof.
  intros fire fuel peers now t c c' tr o n slack SM LB MT F E.
  pose proof (p_c69_reconnect_time _ slack _ _ _ _ _ _ _ _ E) as [_ B]. specialize (B LB).
  apply p_c69_reconnect_same in E as (oracle & E & SL & SO). specialize (SO SM). split.
  - destruct o as [r|]; [now exists r|]. exfalso.
    apply (p_c52_ends fuel oracle c c' tr Running (N.of_nat n) SO MT); [lia|exact E|reflexivity].
  - pose proof (p_c52_at_most fuel oracle c c' tr _ (N.of_nat n) SO MT E) as A.
    destruct (p_c53_delays fuel oracle c c' tr _ SO E) as [D [L|[_ L]]]; [|destruct o; discriminate].
    rewrite D, L in B.
    assert (T : total (map (nth_delay (cf_backoff (c_config c))) (seq 0 (attempts tr))) <=
                total (map (nth_delay (cf_backoff (c_config c))) (seq 0 n))).
    { replace n with (attempts tr + (n - attempts tr))%nat by lia. rewrite seq_app, map_app, total_app. lia. }
    nia.
Qed.

(** C69. With the default configuration, that is 553 seconds, and what the timers are late. *)
Lemma p_c69_reconnect_default :
  forall (fire : timers) (fuel : nat) (peers : nat -> peer) (now t : instant) (c c' : client) (tr : list event)
         (o : option (result unit connect_error)) (slack : duration),
    (forall j, small_peer (peers j)) -> late_by slack fire ->
    cf_backoff (c_config c) = backoff_default -> cf_timeout (c_config c) = default_timeout -> (8 < fuel)%nat ->
    t_reconnect fire fuel peers now c = Ret (t, c', tr, o) ->
    (exists r, o = Some r) /\ t <= now + secs 553 + 24 * slack.
Proof.
  intros fire fuel peers now t c c' tr o slack SM LB BK TO F E.
  destruct (p_c69_reconnect_ends fire fuel peers now t c c' tr o 8%nat slack SM LB) as [A B]; [now rewrite BK|exact F|exact E|].
  split; [exact A|]. rewrite BK, TO in B.
  change (total (map (nth_delay backoff_default) (seq 0 8)) ) with (secs 73) in B.
  change default_timeout with (secs 30) in B. unfold secs in *. lia.
Qed.

(** ** Prompt and silent servers *)

Lemma t_write_all_takes (ws : list (duration * wrote)) (n : nat) (d : duration) :
  takes_in ws n d -> forall (lim now : instant) (data : str), length data = n -> now + d <= lim ->
  t_write_all lim now data ws = (now + d, data, Done (Ok tt)).
Proof.
  induction 1 as [ws|ws n k d d' K T IH P]; intros lim now data L B.
  - destruct data; [|discriminate]. rewrite N.add_0_r. now destruct ws.
  - destruct data as [|x data]; [cbn in L; lia|]. cbn [t_write_all].
    destruct (N.ltb_spec lim (now + d')); [lia|].
    replace (Nat.min k (length (x :: data)) =? 0)%nat with false by (cbn [length]; lia).
    rewrite (IH lim (now + d')); [|rewrite skipn_length; lia|lia].
    rewrite firstn_skipn. now rewrite N.add_assoc.
Qed.

Lemma arrive_nil (r : reader) : arrive r [] = r.
Proof. destruct r as [x y z]. unfold arrive. cbn. now rewrite app_nil_r. Qed.

Lemma recv_fails (bd : build) (r : reader) (x : list read) :
  (forall y, recv bd r <> Ret y) -> recv bd (arrive r x) = recv bd r.
Proof.
  assert (P : forall q i, poll_next r = (q, Item i) -> poll_next (arrive r x) = (arrive q x, Item i)).
  { intros q i. unfold poll_next. destruct r as [bf rs [|]]; cbn [arrive rd_ended rd_buf rd_reads].
    - intros [= <- <-]. reflexivity.
    - destruct (poll_line bf rs) as [[b1 r1] p] eqn:E. destruct p as [|j]; [discriminate|].
      rewrite (poll_line_item _ _ _ _ _ x E). destruct j; intros [= <- <-]; reflexivity. }
  unfold recv. destruct (poll_next r) as [q p] eqn:E. destruct p as [|i]; [intros F; now elim (F (q, None))|].
  rewrite (P q i eq_refl). destruct i as [[l|e]|]; intros F.
  - destruct (own_parse bd l) as [[m|]| | |]; cbn [bind] in *; try reflexivity; exfalso; eapply F; reflexivity.
  - exfalso; eapply F; reflexivity.
  - exfalso; eapply F; reflexivity.
Qed.

Definition by_then (e : instant) (script : list (instant * read)) : Prop := Forall (fun x => fst x <= e) script.

Lemma t_recv_done (bd : build) (used : list (instant * read)) : forall (lim now e : instant) (r r' : reader)
  (more : list (instant * read)) (o : result msg_own recv_error),
  recv bd (arrive r (map snd used)) = Ret (r', Some o) -> by_then e used -> now <= e -> e <= lim ->
  exists t r2 left, t_recv bd lim now r (used ++ more) = Ret (t, r2, left ++ more, Some o) /\ now <= t <= e /\
    by_then e left /\ arrive r2 (map snd left) = r'.
Proof.
  induction used as [|[d x] used IH]; intros lim now e r r' more o R F L1 L2.
  - cbn [map] in R. rewrite arrive_nil in R. exists now, r', []. cbn [app map]. rewrite arrive_nil.
    split; [|split; [lia|]; split; [constructor|reflexivity]]. destruct more as [|[d x] more]; cbn [t_recv]; now rewrite R.
  - cbn [app t_recv]. inversion F as [|? ? F1 F2]; subst. cbn [fst] in F1. cbn [map snd] in R.
    destruct (recv bd r) as [[r1 [y|]]| | |] eqn:R1; cbn [bind].
    + rewrite (recv_ready _ _ _ _ (x :: map snd used) R1) in R. injection R as <- ->.
      exists now, r1, ((d, x) :: used). repeat split; try lia; auto.
    + destruct (N.ltb_spec lim (N.max now d)); [lia|].
      change (x :: map snd used) with ([x] ++ map snd used) in R. rewrite <- arrive_arrive in R.
      rewrite arrive_arrive, <- (recv_pending _ _ _ _ R1), <- arrive_arrive in R.
      destruct (IH lim (N.max now d) e (arrive r1 [x]) r' more o R F2) as (t & r2 & left & A & B & C & D); [lia|lia|].
      exists t, r2, left. repeat split; auto; lia.
    + rewrite recv_fails in R; rewrite R1 in *; [discriminate|discriminate].
    + rewrite recv_fails in R; rewrite R1 in *; [discriminate|discriminate].
    + rewrite recv_fails in R; rewrite R1 in *; [discriminate|discriminate].
Qed.

Lemma t_recv_timeout_done (fire : timers) (bd : build) (used more : list (instant * read)) (lim now e : instant) (c c' : client)
  (o : result msg_own connect_error) (dropped : bool) :
  recv_timeout c (mk_wait (map snd used) dropped bd) = Ret (c', Done o) -> o <> Err CTimeout ->
  by_then e used -> now <= e -> e <= lim -> e <= fire now (secs 5) ->
  exists t c2 left, t_recv_timeout fire bd lim now c (used ++ more) = Ret (t, c2, left ++ more, Done o) /\ now <= t <= e /\
    by_then e left /\ set_reader c2 (arrive (c_reader c2) (map snd left)) = c'.
Proof.
  intros R NT F L1 L2 L3. unfold recv_timeout in R. cbn [w_build w_reads w_dropped] in R.
  destruct (recv bd (arrive (c_reader c) (map snd used))) as [[r1 [y|]]| | |] eqn:R1; cbn [bind] in R; try discriminate.
  2: { destruct dropped; [discriminate|]. injection R as <- <-. congruence. }
  destruct (t_recv_done bd used (N.min (fire now (secs 5)) lim) now e (c_reader c) r1 more y R1 F) as (t & r2 & left & A & B & C & D); [lia|lia|].
  unfold t_recv_timeout. rewrite A. cbn [bind].
  destruct y as [m|er]; injection R as <- <-; exists t, (set_reader c r2), left; (split; [reflexivity|]; split; [exact B|]; split; [exact C|]);
    destruct c; cbn; cbn in D; now rewrite D.
Qed.

Lemma t_verdict_done (fire : timers) (w : write_out) (f : flush_out) (used1 used2 more : list (instant * read)) (lim now e : instant) (c c' : client)
  (p : peer) (o : result unit connect_error) (x y : bool) :
  handshake_verdict c (mk_handshake_out w f (mk_wait (map snd used1) x (p_build1 p)) (mk_wait (map snd used2) y (p_build2 p))) =
    Ret (c', Done o) -> o <> Err CTimeout ->
  by_then e used1 -> by_then e used2 -> now <= e -> e <= lim -> not_early fire -> e <= now + secs 5 ->
  exists t c2, t_verdict fire lim now c p (used1 ++ used2 ++ more) = Ret (t, c2, Done o) /\ now <= t <= e.
Proof.
  intros V NT F1 F2 L1 L2 NE L3. assert (L3a : e <= fire now (secs 5)) by (specialize (NE now (secs 5)); lia). unfold handshake_verdict in V. cbn [h_first h_second] in V.
  destruct (recv_timeout c (mk_wait (map snd used1) x (p_build1 p))) as [[c1 o1]| | |] eqn:R1; try discriminate. cbn [bind] in V.
  destruct o1 as [o1|]; [|discriminate].
  assert (N1 : o1 <> Err CTimeout) by (intros ->; injection V as <- <-; congruence).
  destruct (t_recv_timeout_done fire _ used1 (used2 ++ more) lim now e c c1 o1 x R1 N1 F1 L1 L2 L3a) as (t1 & c2 & left & A & B & C & D).
  unfold t_verdict. rewrite A. cbn [bind].
  destruct o1 as [m1|e1]; [|injection V as <- <-; exists t1, c2; split; [reflexivity|lia]].
  destruct (own_command m1) as [cmd| | |]; try discriminate. cbn [bind] in *.
  destruct cmd; try (injection V as <- <-; exists t1, c2; split; [reflexivity|lia]).
  destruct (own_params m1) as [params| | |]; try discriminate. cbn [bind] in *.
  destruct (match params with Some v => starts_with (b "* ACK") v | None => false end);
    [|injection V as <- <-; exists t1, c2; split; [reflexivity|lia]].
  destruct (recv_timeout c1 (mk_wait (map snd used2) y (p_build2 p))) as [[c3 o3]| | |] eqn:R3; try discriminate. cbn [bind] in V.
  destruct o3 as [o3|]; [|discriminate].
  assert (N3 : o3 <> Err CTimeout) by (intros ->; injection V as <- <-; congruence).
  assert (R4 : recv_timeout c2 (mk_wait (map snd (left ++ used2)) y (p_build2 p)) = Ret (c3, Done o3)).
  { rewrite <- R3, <- D, map_app. unfold recv_timeout. cbn [w_build w_reads w_dropped]. rewrite <- arrive_arrive.
    destruct c2; reflexivity. }
  rewrite app_assoc.
  destruct (t_recv_timeout_done fire _ (left ++ used2) more lim t1 e c2 c3 o3 y R4 N3) as (t4 & c4 & left4 & A4 & B4 & _);
    [apply Forall_app; now split|lia|lia|specialize (NE t1 (secs 5)); lia|].
  rewrite A4. cbn [bind].
  destruct o3 as [m3|e3]; [|injection V as <- <-; exists t4, c4; split; [reflexivity|lia]].
  destruct (own_command m3) as [cmd3| | |]; try discriminate. cbn [bind] in *.
  destruct cmd3; try (injection V as <- <-; exists t4, c4; split; [reflexivity|lia]).
  destruct (own_params m3) as [params3| | |]; try discriminate. cbn [bind] in *.
  destruct (match params3 with Some v => contains (b "authentication failed") v | None => false end);
    injection V as <- <-; exists t4, c4; (split; [reflexivity|lia]).
Qed.

(** C69. A server that opens and takes the greeting within the timeout, and sends its two
    lines within it and within 5 seconds of the greeting, decides the result as in C51,
    at once. *)
Lemma p_c69_prompt :
  forall (fire : timers) (now : instant) (cf : config) (dt : duration) (p : peer) (g l1 l2 rest1 rest2 : str) (d0 d1 e : duration)
         (reads1 reads2 more : list (duration * read)) (v1 v2 : view),
    not_early fire -> greeting (cf_credentials cf) g -> greeted_by p g d0 d1 -> d0 <= cf_timeout cf ->
    d1 <= e -> e <= d1 + secs 5 -> e <= cf_timeout cf ->
    p_reads p = reads1 ++ reads2 ++ more -> (forall d x, In (d, x) (reads1 ++ reads2) -> d <= e) ->
    ~ In lf l1 -> ~ In lf l2 -> fit_line (p_build1 p) l1 -> fit_line (p_build2 p) l2 ->
    spec_view l1 = Some v1 -> spec_view l2 = Some v2 ->
    chunked (l1 ++ crlf ++ rest1) (map snd reads1) -> chunked rest2 (map snd reads2) -> rest1 ++ rest2 = l2 ++ crlf ->
    exists t r o, t_connect fire now cf (dt, TlsOk) p = Ret (t, r) /\
      now + dt + d0 + d1 <= t <= now + dt + d0 + e /\
      two_line_result (p_build1 p) (p_build2 p) l1 l2 v1 v2 o /\
      ((o = Done (Ok tt) /\ exists c, r = Ok c) \/ (exists er, o = Done (Err er) /\ r = Err er)).
Proof.
  intros fire now cf dt p g l1 l2 rest1 rest2 d0 d1 e reads1 reads2 more v1 v2 NE G (PO & dw & df & TK & PF & ->) L0 L1 L2 L3 PR IN
    N1 N2 F1 F2 V1 V2 C1 C2 RR.
  apply greeting_iff in G. subst g.
  set (c0 := mk_client [] [] [] reader_new cf).
  set (h := mk_handshake_out WOk FOk (mk_wait (map snd reads1) false (p_build1 p)) (mk_wait (map snd reads2) false (p_build2 p))).
  destruct (p_c51_two_lines c0 h l1 l2 rest1 rest2 [] v1 v2) as (c' & o & H & T); try assumption; try reflexivity.
  { split; reflexivity. }
  { exists (map snd reads2). split; [symmetry; apply app_nil_r|exact C2]. }
  cbn [h h_first h_second w_build] in T.
  assert (O : exists o', o = Done o' /\ o' <> Err CTimeout).
  { destruct T as (m1 & m2 & _ & _ & [[_ ->]|[(_ & _ & ->)|[(_ & _ & ->)|[(_ & _ & ->)|[(_ & _ & _ & ->)|(_ & _ & _ & ->)]]]]]);
      eexists; (split; [reflexivity|discriminate]). }
  destruct O as (o' & -> & NT).
  rewrite handshake_cases in H. cbn [h h_write h_flush] in H.
  set (T0 := now + dt + d0). unfold t_connect. cbn [fst snd]. rewrite PO. unfold t_wait at 1.
  pose proof (NE (now + dt) (cf_timeout cf)). destruct (N.ltb_spec (fire (now + dt) (cf_timeout cf)) (now + dt + d0)); [lia|]. fold T0.
  pose proof (NE T0 (cf_timeout cf)) as FT. set (lim0 := fire T0 (cf_timeout cf)) in *. unfold t_handshake. fold c0. cbn [set_scratch c_scratch c_config c0 app].
  rewrite (t_write_all_takes _ _ _ TK lim0 T0 _ eq_refl) by lia. rewrite PF. unfold t_wait.
  destruct (N.ltb_spec lim0 (T0 + dw + df)); [lia|]. rewrite PR, !map_app.
  set (sh := fun '(d, x) => (T0 + d, x)).
  assert (SN : forall l : list (duration * read), map snd (map sh l) = map snd l).
  { intros l. rewrite map_map. apply map_ext. now intros [d x]. }
  assert (BT : forall l, (forall d x, In (d, x) l -> d <= e) -> by_then (T0 + e) (map sh l)).
  { intros l I. apply Forall_forall. intros [d x] J. apply in_map_iff in J as ([d' x'] & E & J). injection E as <- <-.
    cbn [fst]. specialize (I _ _ J). lia. }
  destruct (t_verdict_done fire WOk FOk (map sh reads1) (map sh reads2) (map sh more) lim0 (T0 + dw + df) (T0 + e)
    (mk_client [] (handshake_text (cf_credentials cf)) [] reader_new cf) c' p o' false false) as (t & c2 & A & B); try lia.
  - rewrite !SN. exact H.
  - exact NT.
  - apply BT. intros d x J. apply (IN d x). apply in_or_app. now left.
  - apply BT. intros d x J. apply (IN d x). apply in_or_app. now right.
  - exact NE.
  - match goal with |- context [t_verdict ?f ?a ?b ?c ?d ?l] => replace (t_verdict f a b c d l) with (Ret (t, c2, Done o')) by (symmetry; exact A) end.
    cbn [bind]. exists t. destruct o' as [[]|er].
    + exists (Ok c2), (Done (Ok tt)). split; [reflexivity|]. split; [lia|]. split; [exact T|]. left. split; [reflexivity|now exists c2].
    + exists (Err er), (Done (Err er)). split; [reflexivity|]. split; [lia|]. split; [exact T|]. right. now exists er.
Qed.

Lemma recv_no_line (bd : build) (buf : str) (cs : list str) :
  filled cs -> ~ In lf (buf ++ concat cs) ->
  recv bd (mk_reader buf (gots cs) false) = Ret (mk_reader (buf ++ concat cs) [] false, None).
Proof.
  intros F NI. unfold recv, poll_next. cbn [rd_ended rd_buf rd_reads].
  rewrite <- (app_nil_r (gots cs)), (poll_line_none cs [] F buf NI). cbn [poll_line].
  destruct (find_byte lf (buf ++ concat cs)) as [i|] eqn:E; [|reflexivity].
  exfalso. apply NI. assert (D : find_byte lf (buf ++ concat cs) = None); [|congruence]. now apply find_byte_none.
Qed.

Lemma t_recv_silent (bd : build) (cs : list str) : forall (early late : list (instant * read)) (lim now : instant) (r : reader) (buf : str),
  map snd early = gots cs -> filled cs -> ~ In lf (buf ++ concat cs) ->
  (forall x y, In (x, y) late -> lim < x) ->
  recv bd r = Ret (mk_reader buf [] false, None) ->
  exists r' rest, t_recv bd lim now r (early ++ late) = Ret (lim, r', rest, None).
Proof.
  induction cs as [|c cs IH]; intros early late lim now r buf M F NI LT R.
  - destruct early; [|discriminate]. cbn [app]. destruct late as [|[x y] late]; cbn [t_recv]; rewrite R; cbn [bind].
    + eauto.
    + specialize (LT x y (or_introl eq_refl)). destruct (N.ltb_spec lim (N.max now x)); [eauto|lia].
  - destruct early as [|[x y] early]; [discriminate|]. cbn [map snd gots] in M. injection M as -> M. cbn [app t_recv].
    rewrite R. cbn [bind]. destruct (N.ltb_spec lim (N.max now x)); [eauto|]. inversion F as [|? ? F1 F2]; subst.
    cbn [concat] in NI. apply (IH early late lim _ _ (buf ++ c)); [exact M|exact F2| |exact LT|].
    + now rewrite <- app_assoc.
    + unfold arrive. cbn [rd_buf rd_reads rd_ended app]. change [Got c] with (gots [c]). rewrite (recv_no_line bd buf [c]); cbn [concat]; rewrite ?app_nil_r.
      * reflexivity.
      * repeat constructor. exact F1.
      * intros I. apply NI. apply in_app_iff in I as [I|I]; apply in_or_app; [now left|right]. apply in_or_app. now left.
Qed.

(** C69. If no line is complete when the timer of 5 seconds set after the greeting was
    taken fires, or that of the timeout, connecting ends at that moment, with [Timeout]. *)
Lemma p_c69_silent :
  forall (fire : timers) (now : instant) (cf : config) (dt : duration) (p : peer) (g s : str) (d0 d1 : duration)
         (early late : list (duration * read)),
    not_early fire -> greeting (cf_credentials cf) g -> greeted_by p g d0 d1 -> d0 <= cf_timeout cf -> d1 <= cf_timeout cf ->
    p_reads p = early ++ late -> chunked s (map snd early) -> ~ In lf s ->
    let opened := now + dt + d0 in
    let over := N.min (fire (opened + d1) (secs 5)) (fire opened (cf_timeout cf)) in
    (forall d x, In (d, x) late -> over < opened + d) ->
    t_connect fire now cf (dt, TlsOk) p = Ret (over, Err CTimeout).
Proof.
  intros fire now cf dt p g s d0 d1 early late NE G (PO & dw & df & TK & PF & ->) L0 L1 PR (cs & M & F & ->) NI opened over LT.
  apply greeting_iff in G. subst g.
  subst over. set (T0 := opened) in *. unfold t_connect. cbn [fst snd]. rewrite PO. unfold t_wait at 1.
  pose proof (NE (now + dt) (cf_timeout cf)). destruct (N.ltb_spec (fire (now + dt) (cf_timeout cf)) (now + dt + d0)); [lia|]. change (now + dt + d0) with T0.
  pose proof (NE T0 (cf_timeout cf)) as FT. set (lim0 := fire T0 (cf_timeout cf)) in *. unfold t_handshake. cbn [set_scratch c_scratch c_config app].
  rewrite (t_write_all_takes _ _ _ TK lim0 T0 _ eq_refl) by lia. rewrite PF. unfold t_wait.
  destruct (N.ltb_spec lim0 (T0 + dw + df)); [lia|]. rewrite PR, !map_app.
  set (sh := fun '(d, x) => (T0 + d, x)).
  change (set_scratch _ []) with (mk_client [] (handshake_text (cf_credentials cf)) [] reader_new cf).
  set (c1 := mk_client [] (handshake_text (cf_credentials cf)) [] reader_new cf).
  unfold t_verdict, t_recv_timeout. cbn [c_reader c1].
  rewrite N.add_assoc in *. set (lim := N.min (fire (T0 + dw + df) (secs 5)) lim0) in *.
  destruct (t_recv_silent (p_build1 p) cs (map sh early) (map sh late) lim (T0 + dw + df) reader_new []) as (r' & rest & A).
  - rewrite map_map. unfold gots. rewrite <- M. apply map_ext. now intros [d x].
  - exact F.
  - exact NI.
  - intros x y I. apply in_map_iff in I as ([d x'] & E & I). injection E as <- <-. exact (LT _ _ I).
  - reflexivity.
  - match goal with |- context [t_recv ?a ?b ?c ?d ?l] => replace (t_recv a b c d l) with (Ret (lim, r', rest, @None (result msg_own recv_error))) by (symmetry; exact A) end.
    cbn [bind]. destruct (fire (T0 + dw + df) (secs 5) <=? lim0); reflexivity.
Qed.

(** A server that opens after [d0], takes everything at once, and answers with [reads]. *)
Definition sample_peer (d0 : duration) (reads : list (duration * read)) : peer :=
  mk_peer (Some (d0, Ok tt)) [(secs 0, Wrote 60); (secs 1, Wrote 1000)] (Some (0, Ok tt)) reads Scalar Scalar.

Definition sample_config : config := mk_config (credentials_new (b "me") (b "tok")) (secs 30) backoff_default.

Definition sample_ack : str := b ":tmi.twitch.tv CAP * ACK :twitch.tv/tags".
Definition sample_001 : str := b ":tmi.twitch.tv 001 me :Welcome, GLHF!".

(** C69. The timeout does not bound connecting: opening and the handshake each have it,
    and connecting can take exactly twice as long. *)
Lemma p_c69_within_timeout_refuted :
  exists (now t : instant) (cf : config) (p : peer) (e : connect_error),
    t_connect on_time now cf (0, TlsOk) p = Ret (t, Err e) /\ 0 < cf_timeout cf /\ t = now + 2 * cf_timeout cf.
Proof.
  exists 7, (7 + secs 8), (mk_config (credentials_anon 12345) (secs 4) backoff_default), (sample_peer (secs 4) []), CTimeout.
  vm_compute. repeat split.
Qed.

(** C69. Nor is it the time the server has to answer, if it is longer than 5 seconds:
    with a timeout of 60 seconds, the right answers 6 seconds after the greeting are not
    awaited. *)
Lemma p_c69_answers_within_timeout_refuted :
  exists (t : instant) (cf : config) (p : peer),
    cf_timeout cf = secs 60 /\ greeted_by p (handshake_text (cf_credentials cf)) 0 0 /\
    p_reads p = [(secs 6, Got (sample_ack ++ crlf ++ sample_001 ++ crlf))] /\
    t_connect on_time 0 cf (0, TlsOk) p = Ret (t, Err CTimeout) /\ t = secs 5.
Proof.
  exists (secs 5), (mk_config (credentials_new (b "me") (b "tok")) (secs 60) backoff_default),
    (mk_peer (Some (0, Ok tt)) [(0, Wrote 1000)] (Some (0, Ok tt)) [(secs 6, Got (sample_ack ++ crlf ++ sample_001 ++ crlf))] Scalar Scalar).
  split; [reflexivity|]. split.
  { split; [reflexivity|]. exists 0, 0. split; [|split; reflexivity].
    apply (tk_some [] _ 1000 0 0); [lia|apply tk_all|vm_compute; lia]. }
  split; [reflexivity|]. split; [vm_compute; reflexivity|reflexivity].
Qed.

(** C69. Tokio's timers, which count whole milliseconds, are less than one late and never
    early. *)
Lemma p_c69_tokio :
  forall fire : timers, whole_ms fire -> late_by (ms - 1) fire /\ not_early fire.
Proof.
  intros fire W. split; intros now d; destruct (W now d) as (n & -> & A & B); unfold ms in *; lia.
Qed.

(** C69. Refuted for such timers: that a timeout is over when it is due. *)
Lemma p_c69_exact_refuted :
  exists (fire : timers) (t : instant) (cf : config) (p : peer),
    whole_ms fire /\ t_connect fire 1 cf (0, TlsOk) p = Ret (t, Err CTimeout) /\ t = 1 + cf_timeout cf + (ms - 1).
Proof.
  exists (fun now d => (now + d + (ms - 1)) / ms * ms), (secs 30 + ms), sample_config, (mk_peer None [] None [] Scalar Scalar).
  split; [|split; vm_compute; reflexivity].
  intros now d. exists ((now + d + (ms - 1)) / ms). split; [reflexivity|].
  pose proof (N.div_mod (now + d + (ms - 1)) ms ltac:(discriminate)).
  pose proof (N.mod_lt (now + d + (ms - 1)) ms ltac:(discriminate)). unfold ms in *. lia.
Qed.

Example ex_c69 :
  let prompt := sample_peer (secs 2) [(secs 1, Got (firstn 10 sample_ack)); (secs 3, Got (skipn 10 sample_ack ++ crlf ++ b ":tmi"));
                                      (secs 4, Got (skipn 4 sample_001 ++ crlf))] in
  let silent := sample_peer (secs 2) [(secs 3, Got (firstn 10 sample_ack)); (secs 9, Got (skipn 10 sample_ack ++ crlf))] in
  let refusing := mk_peer (Some (secs 10, Err ConnectionRefused)) [] None [] Scalar Scalar in
  let c := mk_client [] [] [] reader_new sample_config in
  let peers := fun i => match i with 0%nat => refusing | S _ => prompt end in
  greeted_by prompt (handshake_text (cf_credentials sample_config)) (secs 2) (secs 1) /\
  small_peer prompt /\ small_peer refusing /\
  (exists c', t_connect on_time 0 sample_config (secs 1, TlsOk) prompt = Ret (secs 7, Ok c')) /\
  t_connect on_time 0 sample_config (secs 1, TlsOk) silent = Ret (secs 9, Err CTimeout) /\
  (exists c' tr, t_reconnect on_time 9 peers 0 c = Ret (secs 20, c', tr, Some (Ok tt)) /\ total (delays tr) = secs 4 /\ attempts tr = 2%nat) /\
  (exists c' tr, t_reconnect on_time 9 (fun _ => refusing) 0 c = Ret (secs 153, c', tr, Some (Err (COpen ConnectionRefused))) /\ attempts tr = 8%nat) /\
  late_by 0 on_time /\ not_early on_time /\
  t_connect (fun now d => now + d + 300) 0 sample_config (secs 1, TlsOk) silent = Ret (secs 9 + 300, Err CTimeout) /\
  late_by 300 (fun now d => now + d + 300).
Proof.
  cbv zeta. split.
  { split; [reflexivity|]. exists (secs 1), 0. split; [|split; reflexivity].
    change (secs 1) with (secs 0 + (secs 1 + 0)). apply tk_some; [lia| |vm_compute; lia].
    apply tk_some; [lia| |vm_compute; lia]. apply tk_all. }
  split; [vm_compute; reflexivity|]. split; [vm_compute; reflexivity|].
  split; [eexists; vm_compute; reflexivity|]. split; [vm_compute; reflexivity|].
  split; [eexists _, _; (split; [vm_compute; reflexivity|]); vm_compute; repeat split|].
  split; [eexists _, _; (split; [vm_compute; reflexivity|]); vm_compute; repeat split|].
  split; [intros now d; unfold on_time; lia|]. split; [intros now d; unfold on_time; lia|].
  split; [vm_compute; reflexivity|]. intros now d. lia.
Qed.

Example ex_c69_panics :
  let p := sample_peer (secs 2) [(secs 3, Got (b "@" ++ flat_map (fun _ => b "k=v;") (seq 0 129) ++ b "k=v CAP * ACK :x" ++ crlf))] in
  small_peer p /\ t_connect on_time 0 sample_config (secs 1, TlsOk) p = Panic /\
  t_reconnect on_time 9 (fun _ => p) 0 (mk_client [] [] [] reader_new sample_config) = Panic.
Proof. cbv zeta. split; [vm_compute; reflexivity|]. split; vm_compute; reflexivity. Qed.
