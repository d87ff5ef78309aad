(** * BypassProofs: the same text again and again (C90). *)

From Verif Require Import Base Wide Tags Irc SpecIrc MsgBase MsgTypes SpecMsg Common Client SpecClient SpecBypass.
From Coq Require Import Lia.
From Verif Require Import BaseFacts IrcFacts Utf8Facts SmallProofs SendProofs.

Lemma repeated_length (ch t : str) (opts : list (option str * option str)) :
  forall st, length (repeated ch t opts st) = length opts.
Proof.
  induction opts as [|[r n] opts IH]; intros st; [reflexivity|]. cbn [repeated bypass_get length]. now rewrite IH.
Qed.

Lemma repeated_nth (ch t : str) (opts : list (option str * option str)) :
  forall st i r n, nth_error opts i = Some (r, n) ->
    nth_error (repeated ch t opts st) i =
      Some (CallPrivmsg ch (t ++ (if Bool.eqb (Nat.even i) st then invisible else [])) r n).
Proof.
  induction opts as [|[r0 n0] opts IH]; intros st i r n H; [now destruct i|].
  cbn [repeated bypass_get]. destruct i as [|i].
  - cbn [nth_error] in *. injection H as -> ->. now destruct st.
  - cbn [nth_error] in *. rewrite (IH _ _ _ _ H).
    rewrite Nat.even_succ, <- Nat.negb_even. now destruct (Nat.even i), st.
Qed.

Lemma shown_repeated (t : str) (i : nat) :
  t ++ (if Bool.eqb (Nat.even i) bypass_default then invisible else []) = shown_text t i.
Proof.
  unfold shown_text, bypass_default. destruct (Nat.even i); cbn [Bool.eqb]; [apply app_nil_r|reflexivity].
Qed.

Lemma repeated_good (ch t : str) (opts : list (option str * option str)) :
  starts "#" ch -> no_space ch -> ~ In lf ch -> utf8_valid ch = true ->
  ~ In lf t -> utf8_valid t = true -> (N.of_nat (length ch + length t) < 4294800000)%N ->
  Forall (fun o => Forall (fun x => plain_value x /\ ~ In lf x /\ utf8_valid x = true)
                     (opt_list (fst o) ++ opt_list (snd o))) opts ->
  forall st, Forall good_call (repeated ch t opts st).
Proof.
  intros H S LC UC LT UT LN. induction opts as [|[r n] opts IH]; intros F st; [constructor|].
  apply Forall_cons_iff in F as [F F']. cbn [fst snd] in F. cbn [repeated].
  destruct (bypass_get st) as [st' o] eqn:G. constructor; [|now apply IH]. clear IH F'.
  assert (O : o = [] \/ o = invisible) by (destruct st; cbn in G; injection G as _ <-; auto).
  assert (UO : utf8_valid (t ++ o) = true) by (rewrite utf8_app by assumption; destruct O as [-> | ->]; reflexivity).
  assert (LO : ~ In lf (t ++ o)).
  { rewrite in_app_iff. intros [X|X]; [now apply LT|]. destruct O as [-> | ->]; cbn in X; intuition discriminate. }
  assert (NO : length (t ++ o) <= length t + 4) by (rewrite app_length; destruct O as [-> | ->]; cbn; lia).
  split; [|split; [|split; [|split]]]; try assumption.
  - cbn [call_args]. cbn [app]. constructor; [now split|]. constructor; [now split|].
    revert F. apply Forall_impl. tauto.
  - assert (P : forall x, In x (opt_list r ++ opt_list n) -> (N.of_nat (length x) < 65536)%N).
    { intros x X. rewrite Forall_forall in F. now destruct (F x X) as ((_ & _ & Q) & _). }
    clear F. revert NO. generalize (t ++ o). intros u NO.
    destruct r as [r|], n as [n|]; cbn [opt_list app] in P; cbn [call_line];
      try pose proof (P r (or_introl eq_refl)) as P1; try pose proof (P n (or_introl eq_refl)) as P2;
      try pose proof (P n (or_intror (or_introl eq_refl))) as P3;
      repeat rewrite app_length; cbn [length b list_byte_of_string crlf String.list_byte_of_string]; clear P.
    all: cbn; lia.
  - revert F. apply Forall_impl. tauto.
Qed.

(** C90. The same text, sent any number of times to a channel with what the bypass gives
    after it, arrives as that many messages for the channel, alternately without and with
    the four bytes; no two neighbours have the same text. *)
Lemma p_c90_received :
  forall (bd : nat -> build) (c : client) (ch t : str) (opts : list (option str * option str))
         (s : str) (reads rest : list read),
    c_scratch c = [] ->
    starts "#" ch -> no_space ch -> ~ In lf ch -> utf8_valid ch = true ->
    ~ In lf t -> utf8_valid t = true -> (N.of_nat (length ch + length t) < 4294800000)%N ->
    Forall (fun o => Forall (fun x => plain_value x /\ ~ In lf x /\ utf8_valid x = true)
                       (opt_list (fst o) ++ opt_list (snd o))) opts ->
    c_wire (run_calls c (map (fun k => (k, WOk)) (repeated ch t opts bypass_default))) = c_wire c ++ s ->
    chunked s reads ->
    exists r ms,
      recvs bd (length opts) (mk_reader [] (reads ++ rest) false) = Ret (r, map (fun m => Some (Ok m)) ms) /\
      length ms = length opts /\
      (forall i m, nth_error ms i = Some m ->
         own_command m = Ret Privmsg /\ own_channel m = Ret (Some ch) /\
         own_text m = Ret (Some (shown_text t i))) /\
      (forall i m m', nth_error ms i = Some m -> nth_error ms (S i) = Some m' -> own_text m <> own_text m').
Proof.
  intros bd c ch t opts s reads rest C H S LC UC LT UT LN F W K.
  destruct (p_c56_received_as_sent bd c _ s reads rest C (repeated_good ch t opts H S LC UC LT UT LN F bypass_default) W K)
    as (r & ms & R & A).
  rewrite repeated_length in R. exists r, ms. split; [exact R|].
  assert (L : length ms = length opts) by (rewrite <- (repeated_length ch t opts bypass_default); symmetry; clear -A; induction A; cbn; congruence).
  split; [exact L|].
  assert (Q : forall i m, nth_error ms i = Some m ->
    own_command m = Ret Privmsg /\ own_channel m = Ret (Some ch) /\ own_text m = Ret (Some (shown_text t i))).
  { intros i m I.
    assert (B : i < length opts) by (rewrite <- L; apply nth_error_Some; congruence).
    destruct (nth_error opts i) as [[re no]|] eqn:O; [|apply nth_error_None in O; lia].
    pose proof (repeated_nth ch t opts bypass_default i re no O) as N. rewrite shown_repeated in N.
    assert (Z : forall ks ms', Forall2 (fun k m => exists x, call_message k = Some x /\ shows m x (call_text k)) ks ms' ->
      forall i k m, nth_error ks i = Some k -> nth_error ms' i = Some m ->
        exists x, call_message k = Some x /\ shows m x (call_text k)).
    { clear. induction 1 as [|k m ks ms' X _ IH]; intros [|i] k' m' I J; try discriminate; cbn in I, J.
      - injection I as <-. injection J as <-. exact X.
      - eapply IH; eassumption. }
    destruct (Z _ _ A i _ _ N I) as (x & X & (_ & _ & Y1 & Y2 & _ & Y3 & _)).
    cbn [call_message call_text] in X, Y3. injection X as <-. cbn [m_command m_channel] in Y1, Y2.
    repeat split; [exact Y1|exact Y2|exact Y3]. }
  split; [exact Q|]. intros i m m' I J E.
  destruct (Q _ _ I) as (_ & _ & E1), (Q _ _ J) as (_ & _ & E2). rewrite E1, E2 in E.
  unfold shown_text in E. rewrite Nat.even_succ, <- Nat.negb_even in E.
  destruct (Nat.even i); cbn [negb] in E; injection E as E; apply (f_equal (@length _)) in E;
    rewrite app_length in E; cbn in E; lia.
Qed.

(** C90. Different texts may become the same: a text that ends in the four bytes, and then
    the same without them. *)
Lemma p_c90_other_texts_refuted :
  exists (t t' : str),
    let '(st1, o1) := bypass_get bypass_default in
    let '(_, o2) := bypass_get st1 in
    t <> t' /\ t ++ o1 = t' ++ o2.
Proof. exists (b "hi" ++ invisible), (b "hi"). cbn. split; [discriminate|reflexivity]. Qed.

Example ex_c90 :
  let opts := [(None, None); (Some (b "id"), None); (None, None)] in
  Forall (fun o => Forall (fun x => plain_value x /\ ~ In lf x /\ utf8_valid x = true)
                     (opt_list (fst o) ++ opt_list (snd o))) opts /\
  c_wire (run_calls (mk_client [] [] [] reader_new (config_default 0))
            (map (fun k => (k, WOk)) (repeated (b "#c") (b "hi") opts bypass_default))) =
    b "PRIVMSG #c :hi" ++ crlf ++
    b "@reply-parent-msg-id=id PRIVMSG #c :hi " ++ [xe2; xa0; x80] ++ crlf ++
    b "PRIVMSG #c :hi" ++ crlf.
Proof.
  split; [|vm_compute; reflexivity].
  repeat constructor; cbn; intuition discriminate.
Qed.
