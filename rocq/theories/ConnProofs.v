(** * ConnProofs: where connections go (C77). *)

From Coq Require Import Lia.
From Verif Require Import Base Wide Tags Irc SpecIrc MsgBase MsgTypes SpecMsg Common Client SpecClient HandshakeProofs Conn SpecConn.
From Verif Require Import BaseFacts RecvProofs ConnectProofs.

Lemma add_roots_ok (pl : platform) (certs : list str) : forall roots r,
  add_roots pl roots certs = Ok r <-> r = roots ++ certs /\ Forall (fun x => pl_refuses pl x = None) certs.
Proof.
  induction certs as [|x certs IH]; intros roots r; cbn [add_roots].
  - rewrite app_nil_r. split; [intros [= ->]; auto|intros [-> _]; reflexivity].
  - destruct (pl_refuses pl x) as [e|] eqn:E.
    + split; [discriminate|]. intros [_ F]. inversion F. congruence.
    + rewrite IH, <- app_assoc. split; intros [-> F]; (split; [reflexivity|]); [now constructor|now inversion F].
Qed.

Lemma add_roots_err (pl : platform) (certs : list str) : forall roots e,
  add_roots pl roots certs = Err e <->
  exists pre x post t, certs = pre ++ x :: post /\ Forall (fun y => pl_refuses pl y = None) pre /\
    pl_refuses pl x = Some t /\ e = TlsRustls t.
Proof.
  induction certs as [|x certs IH]; intros roots e; cbn [add_roots].
  - split; [discriminate|]. intros ([|y pre] & x & post & t & H & _); discriminate.
  - destruct (pl_refuses pl x) as [t|] eqn:E.
    + split.
      * intros [= <-]. exists [], x, certs, t. auto.
      * intros ([|y pre] & x' & post & t' & H & F & R & ->); injection H as <- ->; [congruence|].
        inversion F. congruence.
    + rewrite IH. split; intros (pre & x' & post & t & H & F & R & ->).
      * exists (x :: pre), x', post, t. subst certs. repeat split; auto.
      * destruct pre as [|y pre]; injection H as <- ->; [congruence|]. exists pre, x', post, t.
        inversion F. auto.
Qed.

(** C77. The TLS configuration is made of all certificates of the system: a single one
    that is not acceptable, or failing to load them, is an error. *)
Lemma p_c77_load :
  forall (pl : platform) (name : str),
    (forall t, tls_load pl name = Ok t <-> tc_name t = name /\ all_roots pl (tc_roots t)) /\
    (forall e, tls_load pl name = Err (TlsIo e) <-> pl_certs pl = Err e) /\
    (forall e, tls_load pl name = Err (TlsRustls e) <->
       exists pre x post, pl_certs pl = Ok (pre ++ x :: post) /\ Forall (fun y => pl_refuses pl y = None) pre /\
         pl_refuses pl x = Some e).
Proof.
  intros pl name. unfold tls_load, all_roots. destruct (pl_certs pl) as [certs|e0].
  - destruct (add_roots pl [] certs) as [roots|e1] eqn:A.
    + pose proof (proj1 (add_roots_ok _ _ _ _) A) as [-> F]. cbn [app] in *. split; [|split].
      * intros [rs n]. cbn [tc_roots tc_name]. split; [intros [= <- <-]; auto|]. intros (-> & [= <-] & _). reflexivity.
      * intros e. split; discriminate.
      * intros e. split; [discriminate|]. intros (pre & x & post & [= ->] & _ & R). apply Forall_app in F as [_ F].
        inversion F. congruence.
    + pose proof (proj1 (add_roots_err _ _ _ _) A) as (pre & x & post & t & -> & F & R & ->). split; [|split].
      * intros t'. split; [discriminate|]. intros (_ & [= <-] & F'). apply Forall_app in F' as [_ F']. inversion F'. congruence.
      * intros e. split; discriminate.
      * intros e. split; [intros [= <-]; exists pre, x, post; auto|]. intros (pre' & x' & post' & [= E] & F' & R').
        assert (K : add_roots pl [] (pre ++ x :: post) = Err (TlsRustls e)).
        { apply add_roots_err. exists pre', x', post', e. auto. }
        rewrite K in A. injection A as ->. reflexivity.
  - split; [|split].
    + intros t. split; [discriminate|]. intros (_ & E & _). discriminate.
    + intros e. split; [intros [= <-]; reflexivity|intros [= <-]; reflexivity].
    + intros e. split; [discriminate|]. intros (? & ? & ? & E & _). discriminate.
Qed.

(** C77. Opening succeeds if both steps do; a failure of one is the error, and running out
    of time or being dropped in one ends opening in the same way. *)
Lemma p_c77_open :
  forall (t : tls_config) (tcp th : step), opening_is tcp th (snd (conn_open t tcp th)).
Proof.
  intros t tcp th. destruct tcp, th; cbn; split; intros; intuition congruence.
Qed.

(** C77. The first connection goes to Twitch's server, whose name TLS checks against all
    certificates of the system. Without them there is no connection at all. *)
Lemma p_c77_connect :
  forall (pl : platform) (cf : config) (tcp th : step) (h : handshake_out) (elapsed : bool)
    (evs : list net_event) (t : option tls_config) (r : fin (result client connect_error)),
    net_connect pl cf tcp th h elapsed = Ret (evs, t, r) ->
    (evs = [] /\ t = None /\ (r = Done (Err CDns) /\ pl_name pl (b "irc.chat.twitch.tv") = false \/
                              r = Done (Err CTls) /\ ~ exists roots, all_roots pl roots)) \/
    (exists roots, all_roots pl roots /\ t = Some (mk_tls roots (b "irc.chat.twitch.tv")) /\
       (tcp = StepOk /\ evs = to_twitch roots \/ tcp <> StepOk /\ evs = firstn 1 (to_twitch roots)) /\
       forall c, r = Done (Ok c) -> tcp = StepOk /\ th = StepOk).
Proof.
  intros pl cf tcp th h elapsed evs t r H. unfold net_connect in H.
  destruct (pl_name pl HOST) eqn:N.
  2: { cbn [connect bind] in H. injection H as <- <- <-. left. auto. }
  destruct (p_c77_load pl HOST) as (L1 & L2 & L3). destruct (tls_load pl HOST) as [tc|e] eqn:L.
  2: { cbn [connect bind] in H. injection H as <- <- <-. left. split; [reflexivity|]. split; [reflexivity|]. right.
       split; [reflexivity|]. intros [roots R]. specialize (L1 (mk_tls roots HOST)). cbn [tc_name tc_roots] in L1.
       pose proof (proj2 L1 (conj eq_refl R)) as K. discriminate K. }
  destruct (proj1 (L1 tc) eq_refl) as [TN TR]. destruct tc as [roots name]. cbn [tc_name tc_roots] in *. subst name.
  right. exists roots. split; [exact TR|].
  pose proof (oi_ok _ _ _ (p_c77_open (mk_tls roots HOST) tcp th)) as O.
  destruct (conn_open (mk_tls roots HOST) tcp th) as [evs' o] eqn:C. cbn [snd] in O.
  destruct (connect cf TlsOk o h elapsed) as [r'| | |] eqn:K; try discriminate. cbn [bind] in H. injection H as <- <- <-.
  split; [reflexivity|]. split.
  - destruct tcp; cbn in C; injection C as <- <-; [left|right..]; (split; [try discriminate|]); reflexivity.
  - intros c ->. apply O. unfold connect in K. destruct o; [reflexivity|discriminate..].
Qed.

(** C77. Its result is otherwise what C64 says. *)
Lemma p_c77_connect_same :
  forall (pl : platform) (cf : config) (tcp th : step) (h : handshake_out) (elapsed : bool)
    (evs : list net_event) (t : option tls_config) (r : fin (result client connect_error)),
    net_connect pl cf tcp th h elapsed = Ret (evs, t, r) ->
    exists tls o, connect cf tls o h elapsed = Ret r /\
      (tls = TlsBadName <-> pl_name pl (b "irc.chat.twitch.tv") = false) /\
      (tls = TlsOk <-> pl_name pl (b "irc.chat.twitch.tv") = true /\ exists roots, all_roots pl roots) /\
      (tls = TlsOk -> opening_is tcp th o).
Proof.
  intros pl cf tcp th h elapsed evs t r H. unfold net_connect in H. fold HOST.
  destruct (pl_name pl HOST) eqn:N.
  2: { exists TlsBadName, OpDrop. cbn [connect bind] in *. injection H as _ _ <-. split; [reflexivity|].
       split; [tauto|]. split; [|discriminate]. split; [discriminate|intros [? _]; discriminate]. }
  destruct (p_c77_load pl HOST) as (L1 & _). destruct (tls_load pl HOST) as [tc|e] eqn:L.
  - pose proof (p_c77_open tc tcp th) as O1.
    destruct (conn_open tc tcp th) as [evs' o]. cbn [snd] in *. exists TlsOk, o.
    destruct (connect cf TlsOk o h elapsed) as [r'| | |] eqn:K; try discriminate. cbn [bind] in H. injection H as _ _ <-.
    split; [reflexivity|]. split; [split; discriminate|]. split; [|auto]. split; [|auto]. intros _. split; [reflexivity|].
    exists (tc_roots tc). now apply L1.
  - exists TlsFailed, OpDrop. cbn [connect bind] in *. injection H as _ _ <-. split; [reflexivity|].
    split; [split; discriminate|]. split; [|discriminate]. split; [discriminate|]. intros [_ [roots R]].
    specialize (L1 (mk_tls roots HOST)). cbn [tc_name tc_roots] in L1. pose proof (proj2 L1 (conj eq_refl R)) as K. discriminate K.
Qed.

(** The events of the loop: bytes are sent only right after opening succeeded. *)
Inductive loop_trace (oracle : nat -> attempt) : nat -> list event -> Prop :=
| lt_nil i : loop_trace oracle i []
| lt_slept i d tr : loop_trace oracle i tr -> loop_trace oracle i (Slept d :: tr)
| lt_open i tr : loop_trace oracle (i + 1) tr -> loop_trace oracle i (Opening :: tr)
| lt_sent i w tr :
    a_open (oracle i) = OpOk -> loop_trace oracle (i + 1) tr -> loop_trace oracle i (Opening :: Sent w :: tr).

Lemma loop_traced (oracle : nat -> attempt) (bk : backoff) (fuel : nat) : forall i tries delay cause c c' tr o,
  reconnect_loop fuel bk oracle i tries delay cause c = Ret (c', tr, o) -> loop_trace oracle i tr.
Proof.
  induction fuel as [|fuel IH]; intros i tries delay cause c c' tr o E; cbn [reconnect_loop] in E.
  { injection E as <- <- <-. constructor. }
  destruct (tries_left tries). 2: { injection E as <- <- <-. constructor. }
  destruct (a_sleeps (oracle i)). 2: { injection E as <- <- <-. repeat constructor. }
  destruct (duration_mul delay (delay_multiplier bk)) as [d| | |]; try discriminate. cbn [bind] in E.
  destruct (a_open (oracle i)) as [|e| |] eqn:O.
  - destruct (handshake (new_connection c) (a_handshake (oracle i))) as [[c1 [[x|e]|]]| | |]; try discriminate; cbn [bind] in E.
    + injection E as <- <- <-. apply lt_slept. now repeat constructor.
    + destruct (should_retry e).
      * destruct (reconnect_loop fuel bk oracle (i + 1) _ _ e c1) as [[[c2 tr2] o2]| | |] eqn:L; try discriminate.
        cbn [bind] in E. injection E as <- <- <-. apply lt_slept. cbn [app]. apply lt_sent; [exact O|]. eapply IH. exact L.
      * injection E as <- <- <-. apply lt_slept. now repeat constructor.
    + destruct (a_elapsed (oracle i)); injection E as <- <- <-; apply lt_slept; now repeat constructor.
  - destruct (reconnect_loop fuel bk oracle (i + 1) _ _ (COpen e) c) as [[[c2 tr2] o2]| | |] eqn:L; try discriminate.
    cbn [bind] in E. injection E as <- <- <-. apply lt_slept. apply lt_open. eapply IH. exact L.
  - injection E as <- <- <-. repeat constructor.
  - injection E as <- <- <-. repeat constructor.
Qed.

Lemma dials_app (x y : list full_event) : dials (x ++ y) = dials x + dials y.
Proof. unfold dials. now rewrite filter_app, app_length. Qed.

(** Every event of the list, with what is before it, is as it should be. *)
Definition sound (roots : list str) (opens : nat -> step * step) (i : nat) (tr : list full_event) : Prop :=
  forall pre e post, tr = pre ++ e :: post ->
    match e with
    | Net (NetTcp h p) => h = b "irc.chat.twitch.tv" /\ p = 6697%N
    | Net (NetTls rs n) =>
      rs = roots /\ n = b "irc.chat.twitch.tv" /\ exists pre', pre = pre' ++ map Net (firstn 1 (to_twitch roots)) /\
        fst (opens (i + dials pre')) = StepOk
    | Sent' _ => exists pre', pre = pre' ++ map Net (to_twitch roots) /\ opens (i + dials pre') = (StepOk, StepOk)
    | Slept' _ => True
    end.

Lemma sound_nil roots opens i : sound roots opens i [].
Proof. intros [|? ?] e post H; discriminate. Qed.

Lemma sound_app roots opens i (x y : list full_event) :
  sound roots opens i x -> sound roots opens (i + dials x) y -> sound roots opens i (x ++ y).
Proof.
  intros X Y pre e post H.
  destruct (le_lt_dec (length x) (length pre)) as [L|L].
  - assert (exists q, pre = x ++ q) as [q ->].
    { exists (skipn (length x) pre). rewrite <- (firstn_skipn (length x) pre) at 1. f_equal.
      apply (f_equal (firstn (length x))) in H. rewrite firstn_app, firstn_all, Nat.sub_diag, firstn_O, app_nil_r in H.
      rewrite firstn_app in H. replace (length x - length pre) with 0 in H by lia. rewrite firstn_O, app_nil_r in H. congruence. }
    rewrite <- app_assoc in H. apply app_inv_head in H. specialize (Y _ _ _ H).
    destruct e as [[h p|rs n]|d|w]; auto.
    + destruct Y as (Y1 & Y2 & pre' & -> & Y3). split; [exact Y1|]. split; [exact Y2|]. exists (x ++ pre').
      rewrite app_assoc, dials_app, Nat.add_assoc. auto.
    + destruct Y as (pre' & -> & Y3). exists (x ++ pre'). rewrite app_assoc, dials_app, Nat.add_assoc. auto.
  - assert (exists q, x = pre ++ e :: q) as [q E].
    { exists (firstn (length x - S (length pre)) post). apply (f_equal (firstn (length x))) in H.
      rewrite firstn_app, firstn_all, Nat.sub_diag, firstn_O, app_nil_r in H.
      transitivity (firstn (length x) (pre ++ e :: post)); [exact H|]. clear H.
      rewrite firstn_app, firstn_all2 by lia. f_equal. destruct (length x - length pre) as [|k] eqn:K; [lia|].
      replace (length x - S (length pre)) with k by lia. reflexivity. }
    exact (X _ _ _ E).
Qed.

Lemma sound_open roots opens i : sound roots opens i (map Net (fst (conn_open (mk_tls roots HOST) (fst (opens i)) (snd (opens i))))).
Proof.
  intros pre e post H. destruct (fst (opens i)) eqn:F; cbn in H;
    destruct pre as [|x pre]; injection H as <- H; [auto| |auto|destruct pre; discriminate|auto|destruct pre; discriminate|auto|destruct pre; discriminate].
  destruct pre as [|y pre]; injection H as <- H; [|destruct pre; discriminate].
  split; [reflexivity|]. split; [reflexivity|]. exists []. split; [reflexivity|]. cbn. now rewrite Nat.add_0_r.
Qed.

Lemma dials_open t tcp th : dials (map Net (fst (conn_open t tcp th))) = 1.
Proof. now destruct tcp. Qed.

Lemma sound_sent roots opens i w : opens i = (StepOk, StepOk) -> sound roots opens i (map Net (to_twitch roots) ++ [Sent' w]).
Proof.
  intros O pre e post H. unfold to_twitch in H. cbn [map app] in H.
  destruct pre as [|x1 pre]; injection H as <- H; [auto|].
  destruct pre as [|x2 pre]; injection H as <- H.
  { split; [reflexivity|]. split; [reflexivity|]. exists []. split; [reflexivity|]. cbn. now rewrite Nat.add_0_r, O. }
  destruct pre as [|x3 pre]; injection H as <- H; [|destruct pre; discriminate].
  exists []. split; [reflexivity|]. cbn. now rewrite Nat.add_0_r.
Qed.

Lemma expand_sound (roots : list str) (opens : nat -> step * step) (oracle : nat -> attempt) (i : nat) (tr : list event) :
  (forall j, a_open (oracle j) = snd (conn_open (mk_tls roots HOST) (fst (opens j)) (snd (opens j)))) ->
  loop_trace oracle i tr -> sound roots opens i (expand (mk_tls roots HOST) opens i tr).
Proof.
  intros O L. induction L as [i|i d tr L IH|i tr L IH|i w tr K L IH]; cbn [expand].
  - apply sound_nil.
  - apply (sound_app roots opens i [Slept' d]); [|cbn; now rewrite Nat.add_0_r].
    intros [|? [|? ?]] e post H; try discriminate. injection H as <- _. exact I.
  - apply sound_app; [apply sound_open|]. now rewrite dials_open.
  - rewrite O in K. apply (oi_ok _ _ _ (p_c77_open _ _ _)) in K as [K1 K2]. rewrite K1, K2.
    change (sound roots opens i (map Net (to_twitch roots) ++ [Sent' w] ++ expand (mk_tls roots HOST) opens (i + 1) tr)).
    rewrite app_assoc. apply sound_app; [|exact IH].
    apply sound_sent. destruct (opens i). cbn in *. congruence.
Qed.

(** C77. So do all later ones, with the same certificates. TLS starts on a TCP connection
    that is there, and bytes are sent only once TLS is there too. *)
Lemma p_c77_reconnect :
  forall (pl : platform) (cf : config) (tcp th : step) (h : handshake_out) (elapsed : bool) (evs : list net_event)
    (t : tls_config) (r : fin (result client connect_error))
    (fuel : nat) (opens : nat -> step * step) (oracle : nat -> attempt) (c c' : client) (tr : list full_event) (o : outcome),
    net_connect pl cf tcp th h elapsed = Ret (evs, Some t, r) ->
    net_reconnect fuel t opens oracle c = Ret (c', tr, o) ->
    exists roots, all_roots pl roots /\
      forall pre e post, tr = pre ++ e :: post ->
        match e with
        | Net (NetTcp host port) => host = b "irc.chat.twitch.tv" /\ port = 6697%N
        | Net (NetTls rs name) =>
          rs = roots /\ name = b "irc.chat.twitch.tv" /\
          exists pre', pre = pre' ++ [Net (NetTcp (b "irc.chat.twitch.tv") 6697)] /\ fst (opens (dials pre')) = StepOk
        | Sent' _ => exists pre', pre = pre' ++ map Net (to_twitch roots) /\ opens (dials pre') = (StepOk, StepOk)
        | Slept' _ => True
        end.
Proof.
  intros pl cf tcp th h elapsed evs t r fuel opens oracle c c' tr o N R.
  apply p_c77_connect in N as [(_ & N & _)|(roots & AR & N & _)]; [discriminate|]. injection N as ->.
  exists roots. split; [exact AR|]. unfold net_reconnect in R.
  match type of R with context [reconnect fuel ?f c] => set (oracle' := f) in R end.
  destruct (reconnect fuel oracle' c) as [[[c1 tr1] o1]| | |] eqn:E; try discriminate. cbn [bind] in R.
  injection R as <- <- <-. apply loop_traced in E.
  exact (expand_sound roots opens oracle' 0 tr1 (fun _ => eq_refl) E).
Qed.

(** C77. Reconnecting is otherwise what C50 to C54 say, an attempt ending as its
    two steps do, and each attempt dials once. *)
Lemma p_c77_reconnect_same :
  forall (fuel : nat) (t : tls_config) (opens : nat -> step * step) (oracle : nat -> attempt) (c c' : client)
    (tr : list full_event) (o : outcome),
    net_reconnect fuel t opens oracle c = Ret (c', tr, o) ->
    exists oracle' tr', reconnect fuel oracle' c = Ret (c', tr', o) /\ dials tr = attempts tr' /\
      (forall w, In (Sent' w) tr <-> In (Sent w) tr') /\ (forall d, In (Slept' d) tr <-> In (Slept d) tr') /\
      forall j, a_sleeps (oracle' j) = a_sleeps (oracle j) /\ a_handshake (oracle' j) = a_handshake (oracle j) /\
        a_elapsed (oracle' j) = a_elapsed (oracle j) /\ opening_is (fst (opens j)) (snd (opens j)) (a_open (oracle' j)).
Proof.
  intros fuel t opens oracle c c' tr o R. unfold net_reconnect in R.
  match type of R with context [reconnect fuel ?f c] => set (oracle' := f) in R end.
  destruct (reconnect fuel oracle' c) as [[[c1 tr1] o1]| | |] eqn:E; try discriminate. cbn [bind] in R.
  injection R as <- <- <-. exists oracle', tr1. split; [exact E|].
  assert (G : forall i, dials (expand t opens i tr1) = attempts tr1 /\
    (forall w, In (Sent' w) (expand t opens i tr1) <-> In (Sent w) tr1) /\
    (forall d, In (Slept' d) (expand t opens i tr1) <-> In (Slept d) tr1)).
  { clear. induction tr1 as [|[d| |w] tr IH]; intros i; cbn [expand].
    - repeat split; intros [].
    - destruct (IH i) as (I1 & I2 & I3). split; [exact I1|]. split; intros x; cbn [In]; rewrite ?I2, ?I3; intuition congruence.
    - destruct (IH (i + 1)) as (I1 & I2 & I3). split; [rewrite dials_app, dials_open, I1; reflexivity|].
      split; intros x; rewrite in_app_iff, in_map_iff; cbn [In]; rewrite ?I2, ?I3; intuition; firstorder congruence.
    - destruct (IH i) as (I1 & I2 & I3). split; [exact I1|]. split; intros x; cbn [In]; rewrite ?I2, ?I3; intuition congruence. }
  destruct (G 0) as (G1 & G2 & G3). split; [exact G1|]. split; [exact G2|]. split; [exact G3|].
  intros j. split; [reflexivity|]. split; [reflexivity|]. split; [reflexivity|]. cbn [oracle' a_open].
  apply p_c77_open.
Qed.

Lemma verdict_not_dns (r : reader) (h : handshake_out) : ~ verdict r h (Done (Err CDns)).
Proof.
  intros V. inversion V as [r1 e W| | | |r1 m v o W _ _ V2]; subst.
  - inversion W.
  - inversion V2 as [r2 e W2| | | | |]; subst. inversion W2.
Qed.

Lemma host_is_name : host_name HOST.
Proof.
  assert (L : forall l, l <> [] -> length l <= 63 -> forallb (fun x => existsb (Byte.eqb x) (b "abcdefghijklmnopqrstuvwxyz")) l = true -> label l).
  { intros l N S F. rewrite forallb_forall in F.
    assert (H : forall x, In x l -> letter x).
    { intros x X. apply F in X. apply existsb_exists in X as (y & Y & E). apply Byte.byte_dec_bl in E. now subst. }
    assert (HY : ~ letter "-"%byte). { intros K. cbn in K. intuition discriminate. }
    split; [exact N|]. split; [exact S|]. split; [auto|]. split; intros r ->; apply HY, H; [now left|].
    apply in_or_app. right. now left. }
  split; [vm_compute; lia|]. exists [b "irc"; b "chat"; b "twitch"], "t"%byte, (b "v").
  split; [|split; [cbn; tauto|reflexivity]].
  repeat (apply Forall_cons; [apply L; [discriminate|vm_compute; lia|reflexivity]|]). constructor.
Qed.

(** C77. As the host is a host name, the error for an invalid name never occurs. *)
Lemma p_c77_no_dns_error :
  forall (pl : platform) (cf : config) (tcp th : step) (h : handshake_out) (elapsed : bool)
    (evs : list net_event) (t : option tls_config) (r : fin (result client connect_error)),
    (forall s, host_name s -> pl_name pl s = true) -> small_answers reader_new h ->
    net_connect pl cf tcp th h elapsed = Ret (evs, t, r) -> r <> Done (Err CDns).
Proof.
  intros pl cf tcp th h elapsed evs t r N S H ->. unfold net_connect in H. rewrite (N _ host_is_name) in H.
  destruct (tls_load pl HOST) as [tc|e]; [|discriminate].
  destruct (conn_open tc tcp th) as [evs' o]. destruct (connect cf TlsOk o h elapsed) as [r'| | |] eqn:K; try discriminate.
  cbn [bind] in H. injection H as <- <- ->. apply (p_c64_failure cf TlsOk o h elapsed CDns S) in K.
  inversion K as [Q| | | | | | |e Q1 Q2 Q3 V]; subst; try discriminate. now apply verdict_not_dns in V.
Qed.

Example ex_c77 :
  let pl := mk_platform (Ok [b "one"; b "two"]) (fun x => if starts_with (b "bad") x then Some (b "bad certificate") else None) (fun _ => true) in
  let cf := mk_config (credentials_new (b "me") (b "tok")) default_timeout backoff_default in
  let h := sample_handshake (b ":tmi.twitch.tv CAP * ACK :x") (b ":tmi.twitch.tv 001 me :Hi") in
  let t := mk_tls [b "one"; b "two"] (b "irc.chat.twitch.tv") in
  let opens := fun j => match j with 0 => (StepErr ConnectionRefused, StepOk) | 1 => (StepOk, StepErr BrokenPipe) | _ => (StepOk, StepOk) end in
  all_roots pl [b "one"; b "two"] /\ small_answers reader_new h /\
  (exists c, net_connect pl cf StepOk StepOk h false = Ret (to_twitch [b "one"; b "two"], Some t, Done (Ok c)) /\
   exists c' d1 d2 d3 w, net_reconnect 9 t opens (fun _ => mk_attempt true OpDrop h false) c =
     Ret (c', [Slept' d1; Net (NetTcp HOST PORT); Slept' d2; Net (NetTcp HOST PORT); Net (NetTls [b "one"; b "two"] HOST);
               Slept' d3; Net (NetTcp HOST PORT); Net (NetTls [b "one"; b "two"] HOST); Sent' w], Finished (Ok tt))) /\
  tls_load (mk_platform (Ok [b "one"; b "bad"; b "two"]) (pl_refuses pl) (pl_name pl)) HOST = Err (TlsRustls (b "bad certificate")).
Proof.
  cbv zeta. split; [split; [reflexivity|repeat constructor]|]. split; [vm_compute; reflexivity|].
  split; [|reflexivity]. eexists. split; [vm_compute; reflexivity|]. eexists _, _, _, _, _. vm_compute. reflexivity.
Qed.
