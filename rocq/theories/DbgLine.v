(** * DbgLine: the texts read from a line are UTF-8 (proofs). *)

From Verif Require Import Base Wide Tags Irc MsgBase MsgTypes MsgNotice Message SpecIrc SpecMsg SpecDbg.
From Coq Require Import Lia ZifyBool ZifyNat ZifyN.
From Verif Require Import BaseFacts Utf8Facts IrcFacts IrcProofs TypedFacts NoticeFacts TypedProofs MapFacts LiftFacts.

Open Scope nat_scope.

Definition ok (s : str) : Prop := utf8_valid s = true.

Lemma ok_cut (l r : str) (c : byte) : ascii c = true -> ok (l ++ c :: r) -> ok l /\ ok r.
Proof. intros A H. split; [exact (utf8_left _ _ _ A H)|exact (utf8_right _ _ _ A H)]. Qed.

(** ** The parts of a line *)

Lemma tag_walk_ok (s : str) : forall k v, ok (k ++ match v with Some x => "="%byte :: x | None => [] end ++ s) ->
  Forall (fun kv => ok (fst kv) /\ ok (snd kv)) (tag_walk k v s).
Proof.
  induction s as [|c s IH]; intros k [v|] H; cbn [tag_walk].
  - rewrite app_nil_r in H. apply ok_cut in H as [K V]; [|reflexivity]. constructor; [auto|constructor].
  - constructor.
  - cbn [app] in H. destruct (byte_eqb_spec c ";") as [->|N].
    + apply ok_cut in H as [K V]; [|reflexivity]. apply ok_cut in V as [V R]; [|reflexivity].
      constructor; [auto|]. now apply IH.
    + apply IH. cbn [app]. now rewrite <- app_assoc.
  - cbn [app] in H. destruct (byte_eqb_spec c "=") as [->|N].
    + now apply IH.
    + apply IH. cbn [app]. now rewrite <- app_assoc.
Qed.

Lemma tag_list_ok (s : str) : ok s -> Forall (fun kv => ok (fst kv) /\ ok (snd kv)) (tag_list s).
Proof. intros H. now apply tag_walk_ok. Qed.

Lemma cut_last_app (c : byte) (s l r : str) : cut_last c s = Some (l, r) -> s = l ++ c :: r.
Proof.
  revert l r. induction s as [|x s IH]; intros l r E; cbn [cut_last] in E; [discriminate|].
  destruct (cut_last c s) as [[l' r']|]; [|destruct (byte_eqb_spec x c) as [->|]; [|discriminate]].
  - injection E as <- <-. cbn. f_equal. now apply IH.
  - now injection E as <- <-.
Qed.

Definition ok_prefix (p : prefix) : Prop :=
  ok (host p) /\ (forall x, nick p = Some x -> ok x) /\ (forall x, user p = Some x -> ok x).

Lemma prefix_ok (p : str) : ok p -> ok_prefix (spec_prefix p).
Proof.
  intros H. unfold ok_prefix, spec_prefix. cbn [host nick user].
  assert (L : forall c q l r, ascii c = true -> ok q -> cut_last c q = Some (l, r) -> ok l /\ ok r).
  { intros c q l r A Q E. apply cut_last_app in E as ->. now apply ok_cut in Q. }
  assert (A1 : ascii "@" = true) by reflexivity. assert (A2 : ascii "!" = true) by reflexivity.
  destruct (cut_last "@" p) as [[q h]|] eqn:E1.
  - destruct (L _ _ _ _ A1 H E1) as [Q HH]. split; [exact HH|]. split; intros x.
    + destruct (cut_last "!" p) as [[n o]|] eqn:E2; intros [= <-]; [|exact Q].
      now apply (L _ _ _ _ A2 H E2).
    + destruct (cut_last "!" q) as [[n o]|] eqn:E2; intros [= <-]. now apply (L _ _ _ _ A2 Q E2).
  - split; [exact H|]. split; intros x; [|discriminate].
    destruct (cut_last "!" p) as [[n o]|] eqn:E2; intros [= <-]. now apply (L _ _ _ _ A2 H E2).
Qed.

Record ok_view (v : view) : Prop :=
  { ov_tags : Forall (fun kv => ok (fst kv) /\ ok (snd kv)) (v_tags v);
    ov_prefix : forall p, v_prefix v = Some p -> ok_prefix p;
    ov_command : ok (v_command v);
    ov_channel : forall x, v_channel v = Some x -> ok x;
    ov_params : forall x, v_params v = Some x -> ok x }.

Lemma view_ok (s : str) (v : view) : spec_view s = Some v -> utf8_valid s = true -> ok_view v.
Proof.
  intros V U. destruct (view_valid s v V U) as (C & Ch & Pa).
  apply view_inv in V as (s1 & s2 & rest & ET & EP & _).
  assert (T : Forall (fun kv => ok (fst kv) /\ ok (snd kv)) (v_tags v) /\ ok s1).
  { unfold spec_tags in ET. destruct s as [|c r]; [injection ET as <- <-; split; [constructor|exact U]|].
    destruct (byte_eqb_spec c "@") as [->|]; [|injection ET as <- <-; split; [constructor|exact U]].
    destruct (cut " " r) as [t [rest'|]] eqn:K; [|injection ET as <- <-; split; [constructor|exact U]].
    injection ET as <- <-. assert (r = t ++ " "%byte :: rest') as ->.
    { clear -K. revert t rest' K. induction r as [|x r IH]; intros t rest' K; cbn [cut] in K; [discriminate|].
      destruct (byte_eqb_spec x " ") as [->|]; [now injection K as <- <-|].
      destruct (cut " " r) as [l q]. injection K as <- ->. cbn. f_equal. now apply IH. }
    apply utf8_tail in U; [|reflexivity]. apply ok_cut in U as [Ut Ur]; [|reflexivity].
    split; [now apply tag_list_ok|exact Ur]. }
  destruct T as [T U1]. split; auto.
  intros p Ep. apply split_prefix_cases in EP as [_ [(pt & -> & _ & E)|(E & _)]]; [|congruence].
  rewrite Ep in E. injection E as ->. apply prefix_ok. cbn in U1. apply utf8_tail in U1; [|reflexivity].
  now apply ok_cut in U1 as [? _].
Qed.

(** ** The texts of typed messages *)

Definition up (s : str) : Prop := exists t : text, s = raw t.

Lemma ok_up (s : str) : ok s -> up s.
Proof. intros H. now exists (exist _ s H). Qed.
Lemma up_ok (s : str) : up s -> ok s.
Proof. intros [[t H] ->]. exact H. Qed.

Section View.
Context (v : view) (O : ok_view v).

Lemma up_has (n : string) (x : str) : has v n x -> up x.
Proof.
  intros (l1 & l2 & E & _). apply ok_up. pose proof (ov_tags v O) as F. rewrite E in F.
  apply Forall_app in F as [_ F]. now apply Forall_inv in F.
Qed.

Lemma up_filled (n : string) (x : str) : has_filled v n x -> up x.
Proof. intros [H _]. exact (up_has _ _ H). Qed.

Lemma up_or (n : string) (d x : str) : up d -> has_or v n d x -> up x.
Proof. intros D [H|[_ ->]]; [exact (up_has _ _ H)|exact D]. Qed.

Lemma up_channel (x : str) : has_channel v x -> up x.
Proof. intros H. apply ok_up. exact (ov_channel v O x H). Qed.

Lemma up_nick (x : str) : has_nick v x -> up x.
Proof. intros (p & E & N). apply ok_up. destruct (ov_prefix v O p E) as (_ & K & _). auto. Qed.

Lemma up_text (t : str) : has_text v t -> up t.
Proof.
  intros (p & E & A). apply ok_up. pose proof (ov_params v O p E) as P.
  destruct A as [(l & -> & _)|[_ ->]]; [|exact P]. now apply ok_cut in P.
Qed.

Lemma up_action (x : str) (f : bool) : (exists t, has_text v t /\ action_text t x f) -> up x.
Proof.
  intros (t & T & A). apply up_text in T. destruct f; cbn in A; [|now destruct A as [<- _]].
  apply up_ok in T. rewrite A in T. change (ok (b "" ++ [x01] ++ b "ACTION " ++ x ++ [x01])) in T.
  apply ok_up. change (ok (([x01] ++ b "ACTION") ++ " "%byte :: (x ++ [x01]))) in T.
  apply ok_cut in T as [_ T]; [|reflexivity]. now apply ok_cut in T.
Qed.

Lemma join_by_ok (c : byte) (ws : list str) : ascii c = true -> ok (join_by c ws) -> Forall ok ws.
Proof.
  intros A. induction ws as [|w [|w' ws] IH]; intros H; [constructor|auto|].
  cbn [join_by] in H, IH. apply ok_cut in H as [K R]; [|exact A]. auto.
Qed.

Lemma up_list (n : string) (ws : list str) : has_list v n ws -> ups (map raw) ws.
Proof.
  intros [(x & H & _ & -> & _)|[_ ->]]; [|now exists []]. apply up_has, up_ok in H.
  apply join_by_ok in H; [|reflexivity]. apply ups_all. eapply Forall_impl; [|exact H]. exact ok_up.
Qed.

Lemma items_ok (s : str) (l : list (str * str)) : ok s -> comma_items s l -> Forall (fun kv => ok (fst kv) /\ ok (snd kv)) l.
Proof.
  intros H (ws & (_ & -> & _) & I). apply join_by_ok in H; [|reflexivity].
  induction I as [|w ws l N I IH|n x ws l N I IH]; [constructor| |]; inversion H as [|? ? W F]; subst; auto.
  constructor; [|auto]. cbn [fst snd]. now apply ok_cut in W.
Qed.

Lemma up_lit (s : str) : utf8_valid s = true -> up s.
Proof. apply ok_up. Qed.

Lemma up_badges (l : list (badge str)) : has_badges v l -> ups (map (badge_map raw)) l.
Proof.
  intros [(x & y & Hx & Hy & items & extras & Ix & Iy & F)|[_ ->]]; [|now exists []].
  apply up_has, up_ok in Hx. apply up_has, up_ok in Hy. apply (items_ok _ _ Hx) in Ix. apply (items_ok _ _ Hy) in Iy.
  apply ups_all. induction F as [|[n w] g items l (e & E & B) F IH]; [constructor|].
  inversion Ix as [|? ? [On Ow] Ix']; subst. constructor; [|auto]. clear IH F. cbn [fst snd] in *.
  assert (Oe : forall z, e = Some z -> ok z).
  { intros z ->. destruct E as (l1 & l2 & -> & _). apply Forall_app in Iy as [_ Iy].
    now apply Forall_inv in Iy. }
  destruct g as [| | | |[sv sm sn]|d]; cbn in B.
  - now exists Staff.
  - now exists Turbo.
  - now exists Broadcaster.
  - now exists Moderator.
  - destruct B as (_ & -> & B). destruct (ok_up _ Ow) as [tw ->].
    assert (up sm) as [tm ->].
    { destruct e as [e|]; destruct B as [-> _]; [apply ok_up; auto|now apply up_lit]. }
    now exists (BSubscriber (mk_subscriber tw tm sn)).
  - destruct B as (_ & ->). destruct (ok_up _ On) as [tn ->], (ok_up _ Ow) as [tw ->]. destruct e as [e|].
    + destruct (ok_up e ltac:(auto)) as [te ->]. now exists (BOther (mk_badge_data tn tw (Some te))).
    + now exists (BOther (mk_badge_data tn tw None)).
Qed.

Lemma up_around (p l r : str) : v_params v = Some p -> p = l ++ b " :" ++ r -> up l /\ up r.
Proof.
  intros P A. apply (ov_params v O) in P. rewrite A in P.
  change (ok (l ++ " "%byte :: ":"%byte :: r)) in P. apply ok_cut in P as [K Q]; [|reflexivity].
  apply utf8_tail in Q; [|reflexivity]. split; now apply ok_up.
Qed.

Lemma lifts_text : lifts v raw.
Proof.
  split; [exact up_has|exact up_channel|exact up_nick|exact up_text|exact up_action|exact up_around|exact up_list|
    exact up_badges|now apply up_lit|].
  intros x _. apply up_or. now apply up_lit.
Qed.

End View.
