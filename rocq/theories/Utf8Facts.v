(** * Utf8Facts: decomposition of valid texts into characters (proofs). *)

From Coq Require Import Lia ZifyBool ZifyNat ZifyN.
From Verif Require Import Base SpecIrc BaseFacts.

(** One encoded character: a leading byte and continuation bytes. *)
Definition one_char (c : uchar) : Prop :=
  utf8_valid c = true /\
  exists x t, c = x :: t /\ is_cont x = false /\ Forall (fun y => is_cont y = true) t.

Lemma in_range_cont (lo hi : N) (x : byte) :
  (128 <= lo)%N -> (hi <= 191)%N -> in_range lo hi x = true -> is_cont x = true.
Proof. unfold is_cont, in_range. lia. Qed.

Lemma utf8_cases (s : str) :
  utf8_valid s = true ->
  s = [] \/
  exists c r, s = c ++ r /\ one_char c /\ utf8_valid r = true /\ chars s = c :: chars r /\
    (forall q, utf8_valid (c ++ q) = utf8_valid q) /\
    (forall q, chars (c ++ q) = c :: chars q).
Proof.
  destruct s as [|a s]; [now left|]. intros V. right. pose proof (utf8_head _ _ V) as H.
  cbn [utf8_valid] in V.
  destruct (in_range 0 127 a) eqn:E1.
  { exists [a], s. cbn [app utf8_valid chars]. rewrite E1. unfold one_char. cbn [utf8_valid]. rewrite E1.
    repeat split; auto. exists a, []. repeat split; auto 10; repeat constructor; auto. }
  destruct (in_range 194 223 a) eqn:E2.
  { assert (R : in_range 0 223 a = true) by (revert E2; unfold in_range; lia).
    destruct s as [|c1 s]; [discriminate|]. apply andb_prop in V as [C1 V].
    exists [a; c1], s. cbn [app utf8_valid chars]. rewrite E1, E2, R, C1. cbn [andb].
    unfold one_char. cbn [utf8_valid]. rewrite E1, E2, C1.
    repeat split; auto. exists a, [c1]. repeat split; auto 10; repeat constructor; auto. }
  destruct (in_range 224 239 a) eqn:E3.
  { assert (R : in_range 0 223 a = false) by (revert E3; unfold in_range; lia).
    assert (R' : in_range 0 239 a = true) by (revert E3; unfold in_range; lia).
    destruct s as [|c1 [|c2 s]]; try discriminate.
    apply andb_prop in V as [V0 V]. pose proof V0 as V0'. apply andb_prop in V0' as [C1 C2].
    assert (K1 : is_cont c1 = true).
    { destruct (in_range 224 224 a); [|destruct (in_range 237 237 a)];
        [apply in_range_cont in C1 | apply in_range_cont in C1 | ]; auto; lia. }
    exists [a; c1; c2], s. cbn [app utf8_valid chars]. rewrite E1, E2, E3, R, R', V0.
    unfold one_char. cbn [utf8_valid]. rewrite E1, E2, E3, V0.
    repeat split; auto. exists a, [c1; c2]. repeat split; auto 10; repeat constructor; auto. }
  destruct (in_range 240 244 a) eqn:E4; [|discriminate].
  assert (R : in_range 0 223 a = false) by (revert E4; unfold in_range; lia).
  assert (R' : in_range 0 239 a = false) by (revert E4; unfold in_range; lia).
  destruct s as [|c1 [|c2 [|c3 s]]]; try discriminate.
  apply andb_prop in V as [V0 V]. pose proof V0 as V0'. apply andb_prop in V0' as [V1 C3].
  apply andb_prop in V1 as [C1 C2].
  assert (K1 : is_cont c1 = true).
  { destruct (in_range 240 240 a); [|destruct (in_range 244 244 a)];
      [apply in_range_cont in C1 | apply in_range_cont in C1 | ]; auto; lia. }
  exists [a; c1; c2; c3], s. cbn [app utf8_valid chars]. rewrite E1, E2, E3, E4, R, R', V0.
  unfold one_char. cbn [utf8_valid]. rewrite E1, E2, E3, E4, V0.
  repeat split; auto. exists a, [c1; c2; c3]. repeat split; auto 10; repeat constructor; auto.
Qed.

Lemma one_char_nonempty (c : uchar) : one_char c -> 0 < length c.
Proof. intros (_ & x & t & -> & _). cbn. lia. Qed.

(** Induction over the characters of a valid text. *)
Lemma utf8_ind (P : str -> Prop) :
  P [] ->
  (forall c r, one_char c -> utf8_valid r = true ->
     (forall q, utf8_valid (c ++ q) = utf8_valid q) ->
     (forall q, chars (c ++ q) = c :: chars q) -> P r -> P (c ++ r)) ->
  forall s, utf8_valid s = true -> P s.
Proof.
  intros P0 PS s. remember (length s) as n eqn:E. revert s E.
  induction n as [n IH] using lt_wf_ind. intros s -> V.
  destruct (utf8_cases s V) as [->|(c & r & -> & O & Vr & _ & Q1 & Q2)]; [exact P0|].
  apply PS; auto. apply (IH (length r)); auto.
  apply one_char_nonempty in O. rewrite app_length. lia.
Qed.

Lemma utf8_app (l r : str) : utf8_valid l = true -> utf8_valid (l ++ r) = utf8_valid r.
Proof.
  intros V. revert l V. apply (utf8_ind (fun l => utf8_valid (l ++ r) = utf8_valid r)); [reflexivity|].
  intros c l O V Q1 Q2 IH. rewrite <- app_assoc. now rewrite Q1.
Qed.

Lemma chars_app (l r : str) : utf8_valid l = true -> chars (l ++ r) = chars l ++ chars r.
Proof.
  intros V. revert l V. apply (utf8_ind (fun l => chars (l ++ r) = chars l ++ chars r)); [reflexivity|].
  intros c l O V Q1 Q2 IH. rewrite <- app_assoc, !Q2, IH. reflexivity.
Qed.

Lemma concat_chars (s : str) : concat (chars s) = s.
Proof.
  remember (length s) as n eqn:E. revert s E.
  induction n as [n IH] using lt_wf_ind. intros s ->.
  destruct s as [|a s]; [reflexivity|]. cbn [chars].
  destruct (in_range 0 127 a); [cbn; f_equal; apply (IH (length s)); cbn; lia|].
  destruct (in_range 0 223 a).
  { destruct s as [|c1 s]; [reflexivity|]. cbn. do 2 f_equal. apply (IH (length s)); cbn; lia. }
  destruct (in_range 0 239 a).
  { destruct s as [|c1 [|c2 s]]; try reflexivity. cbn. do 3 f_equal. apply (IH (length s)); cbn; lia. }
  destruct s as [|c1 [|c2 [|c3 s]]]; try reflexivity. cbn. do 4 f_equal. apply (IH (length s)); cbn; lia.
Qed.

Lemma chars_one (s : str) : utf8_valid s = true -> Forall one_char (chars s).
Proof.
  revert s. apply (utf8_ind (fun s => Forall one_char (chars s))); [constructor|].
  intros c r O V Q1 Q2 IH. rewrite Q2. now constructor.
Qed.

Lemma utf8_concat (l : list str) : Forall (fun x => utf8_valid x = true) l -> utf8_valid (concat l) = true.
Proof. induction 1 as [|x l H _ IH]; [reflexivity|]. cbn. now rewrite utf8_app. Qed.

Lemma one_char_valid (l : list uchar) : Forall one_char l -> Forall (fun x => utf8_valid x = true) l.
Proof. apply Forall_impl. now intros c []. Qed.

Lemma chars_of_concat (l : list uchar) : Forall one_char l -> chars (concat l) = l.
Proof.
  induction 1 as [|c l O _ IH]; [reflexivity|]. cbn.
  rewrite chars_app by apply O. rewrite IH. f_equal.
  destruct (utf8_cases c (proj1 O)) as [->|(d & r & E & Od & Vr & C & _ & _)].
  - apply one_char_nonempty in O. cbn in O. lia.
  - rewrite C. destruct O as (V & x & t & Ec & Hx & Ht).
    destruct Od as (_ & y & u & -> & Hy & Hu).
    destruct r as [|z r]; [rewrite app_nil_r in E; cbn; congruence|].
    rewrite Ec in E. cbn in E. injection E as <- E. subst t.
    apply Forall_app in Ht as [_ Ht]. apply Forall_cons_iff in Ht as [Hz _].
    apply utf8_head in Vr. congruence.
Qed.

(** Boundaries of a valid text separate valid texts. *)
Lemma boundary_split (s : str) : utf8_valid s = true ->
  forall i, i <= length s -> is_char_boundary s i = true ->
  utf8_valid (firstn i s) = true /\ utf8_valid (skipn i s) = true.
Proof.
  revert s. apply (utf8_ind (fun s => forall i, i <= length s -> is_char_boundary s i = true ->
    utf8_valid (firstn i s) = true /\ utf8_valid (skipn i s) = true)).
  { intros i H _. cbn in H. assert (i = 0) by lia. subst. auto. }
  intros c r O V Q1 Q2 IH i Hi B.
  destruct (Nat.eq_dec i 0) as [->|NZ]; [cbn; split; [reflexivity|now rewrite Q1]|].
  destruct (Nat.lt_ge_cases i (length c)) as [L|L].
  - exfalso. destruct O as (_ & x & t & -> & Hx & Ht).
    destruct i as [|i]; [lia|]. cbn in L. unfold is_char_boundary in B. cbn [app nth_error] in B.
    rewrite nth_error_app1 in B by lia.
    destruct (nth_error t i) as [y|] eqn:E; [|apply nth_error_None in E; lia].
    apply nth_error_In in E. rewrite Forall_forall in Ht. rewrite (Ht _ E) in B.
    cbn in B. discriminate.
  - assert (E : i = length c + (i - length c)) by lia.
    rewrite app_length in Hi.
    destruct (IH (i - length c)) as [A1 A2]; [lia| |].
    + unfold is_char_boundary in *. replace (i =? 0) with false in B by lia. cbn [orb] in B.
      rewrite nth_error_app2 in B by lia. destruct (nth_error r (i - length c)) as [y|] eqn:N.
      * rewrite B. apply orb_true_r.
      * rewrite app_length in B. apply Nat.eqb_eq in B. apply orb_true_iff. right.
        apply Nat.eqb_eq. lia.
    + rewrite E. rewrite firstn_app_2, skipn_app.
      replace (length c + (i - length c) - length c) with (i - length c) by lia.
      rewrite skipn_all2 by lia. cbn [app]. split; [|exact A2]. now rewrite Q1.
Qed.

Lemma sub_infix (s : str) (i j : nat) : infix (sub s i j) s.
Proof.
  unfold sub. exists (firstn i s), (skipn (j - i) (skipn i s)).
  now rewrite firstn_skipn, firstn_skipn.
Qed.

Lemma slice_valid (s x : str) (i j : nat) :
  utf8_valid s = true -> slice s i j = Ret x -> infix x s /\ utf8_valid x = true.
Proof.
  intros V H. unfold slice in H. destruct (_ && _) eqn:E in H; [|discriminate]. injection H as <-.
  split; [apply sub_infix|].
  repeat (apply andb_prop in E as [E ?]).
  destruct (boundary_split s V i) as [_ Vi]; [lia|assumption|].
  unfold sub. apply (boundary_split (skipn i s) Vi (j - i)).
  - rewrite skipn_length. lia.
  - destruct (Nat.eq_dec i j) as [->|N]; [now rewrite Nat.sub_diag|].
    unfold is_char_boundary in *. replace (j =? 0) with false in * by lia.
    cbn [orb] in *. replace (nth_error (skipn i s) (j - i)) with (nth_error s j).
    2:{ rewrite <- (firstn_skipn i s) at 1. rewrite nth_error_app2 by (rewrite firstn_length; lia).
        rewrite firstn_length. f_equal. lia. }
    destruct (nth_error s j) as [y|]; [now rewrite H; apply orb_true_r|].
    apply orb_true_iff. right. rewrite skipn_length. lia.
Qed.

Lemma infix_trans (x y z : str) : infix x y -> infix y z -> infix x z.
Proof.
  intros (l & r & ->) (l' & r' & ->). exists (l' ++ l), (r ++ r'). now rewrite <- !app_assoc.
Qed.

Lemma infix_refl (x : str) : infix x x.
Proof. exists [], []. now rewrite app_nil_r. Qed.

(** ** [split_whitespace] *)

Lemma is_whitespace_spec (c : uchar) : is_whitespace c = true <-> In c whitespace_chars.
Proof.
  unfold is_whitespace. rewrite existsb_exists. split.
  - intros (x & H & E). destruct (str_eqb_spec c x); [now subst|discriminate].
  - intros H. exists c. split; [exact H|apply str_eqb_refl].
Qed.

Lemma split_chars_word (w cs : list uchar) :
  Forall (fun c => ~ In c whitespace_chars) w ->
  exists x xs, split_chars is_whitespace cs = x :: xs /\
    split_chars is_whitespace (w ++ cs) = (concat w ++ x) :: xs.
Proof.
  intros F. induction F as [|c w H F IH].
  - cbn [app concat]. destruct (split_chars is_whitespace cs) as [|x xs] eqn:E; [|eauto].
    exfalso. destruct cs as [|c cs]; cbn [split_chars] in E; [discriminate|]. destruct (is_whitespace c); [discriminate|].
    destruct (split_chars _ cs); discriminate.
  - destruct IH as (x & xs & E1 & E2). exists x, xs. split; [exact E1|].
    cbn [app split_chars]. destruct (is_whitespace c) eqn:W; [now apply is_whitespace_spec in W|].
    rewrite E2. cbn. now rewrite app_assoc.
Qed.

Lemma words_split (cs : list uchar) : Forall (fun c => c <> []) cs ->
  words_of cs (filter (fun w => match w with [] => false | _ => true end) (split_chars is_whitespace cs)).
Proof.
  remember (length cs) as n eqn:E. revert cs E.
  induction n as [n IH] using lt_wf_ind. intros cs -> F.
  destruct cs as [|c cs]; [constructor|].
  destruct (is_whitespace c) eqn:W.
  - cbn [split_chars]. rewrite W. cbn [filter]. apply wo_space; [now apply is_whitespace_spec|].
    apply (IH (length cs)); [cbn; lia|reflexivity|]. now apply Forall_cons_iff in F.
  - (* the maximal run *)
    assert (K : forall l : list uchar, exists w r, l = w ++ r /\ Forall (fun c => ~ In c whitespace_chars) w /\
               match r with [] => True | c :: _ => In c whitespace_chars end).
    { induction l as [|d l IHl]; [exists [], []; auto|].
      destruct (is_whitespace d) eqn:D.
      - exists [], (d :: l). repeat split; auto. now apply is_whitespace_spec.
      - destruct IHl as (w & r & -> & A & B). exists (d :: w), r. repeat split; auto.
        constructor; auto. rewrite <- is_whitespace_spec. congruence. }
    destruct (K cs) as (w & r & -> & A & B).
    assert (A' : Forall (fun c => ~ In c whitespace_chars) (c :: w)).
    { constructor; auto. rewrite <- is_whitespace_spec. congruence. }
    destruct (split_chars_word (c :: w) r A') as (x & xs & E1 & E2).
    change (c :: w ++ r) with ((c :: w) ++ r). rewrite E2. cbn [filter concat].
    assert (X : x = []).
    { destruct r as [|d r]; [now injection E1|]. cbn [split_chars] in E1.
      apply is_whitespace_spec in B. rewrite B in E1. now injection E1. }
    rewrite X, app_nil_r. apply Forall_cons_iff in F as [Fc F].
    destruct c as [|c0 c]; [congruence|]. cbn [app].
    change ((c0 :: c) :: w ++ r) with (((c0 :: c) :: w) ++ r).
    change (c0 :: c ++ concat w) with (concat ((c0 :: c) :: w)).
    apply wo_word; auto; [discriminate|].
    apply Forall_app in F as [_ F].
    assert (Q : words_of r (filter (fun w => match w with [] => false | _ => true end) (split_chars is_whitespace r))).
    { apply (IH (length r)); auto. cbn. rewrite app_length. lia. }
    rewrite E1, X in Q. exact Q.
Qed.

Lemma split_whitespace_words (s : str) : words_of (chars s) (split_whitespace s).
Proof.
  apply words_split.
  remember (length s) as n eqn:E. revert s E.
  induction n as [n IH] using lt_wf_ind. intros s ->.
  destruct s as [|a s]; [constructor|]. cbn [chars].
  repeat match goal with
  | |- Forall _ (if ?x then _ else _) => destruct x
  | |- Forall _ (match ?x with _ => _ end) => destruct x
  end; repeat constructor; try discriminate; eapply IH; try reflexivity; cbn; lia.
Qed.

Lemma words_of_unique (cs : list uchar) (ws : list str) :
  words_of cs ws -> forall ws', words_of cs ws' -> ws = ws'.
Proof.
  assert (R : forall w w' r r' : list uchar,
    w ++ r = w' ++ r' ->
    Forall (fun c => ~ In c whitespace_chars) w -> Forall (fun c => ~ In c whitespace_chars) w' ->
    match r with [] => True | c :: _ => In c whitespace_chars end ->
    match r' with [] => True | c :: _ => In c whitespace_chars end -> w = w' /\ r = r').
  { induction w as [|c w IH]; intros [|c' w'] r r' E F F' M M'; cbn in E.
    - auto.
    - subst r. apply Forall_cons_iff in F' as [F' _]. tauto.
    - subst r'. apply Forall_cons_iff in F as [F _]. tauto.
    - injection E as -> E. apply Forall_cons_iff in F as [_ F]. apply Forall_cons_iff in F' as [_ F'].
      destruct (IH _ _ _ E F F' M M') as [-> ->]. auto. }
  induction 1 as [|c cs ws Hc H IH|w cs ws Hw F M H IH]; intros ws' H'.
  - inversion H' as [| |w cs ws'' Hw F M H1 E]; [reflexivity|].
    destruct w; [congruence|discriminate].
  - inversion H' as [|c' cs' ws'' Hc' H1 E|w cs' ws'' Hw F M H1 E].
    + subst. now apply IH.
    + destruct w; [congruence|]. injection E as -> E. apply Forall_cons_iff in F as [F _]. tauto.
  - inversion H' as [E|c' cs' ws'' Hc' H1 E|w' cs' ws'' Hw' F' M' H1 E].
    + destruct w; [congruence|discriminate].
    + destruct w; [congruence|]. injection E as -> E. apply Forall_cons_iff in F as [F _]. tauto.
    + symmetry in E. destruct (R _ _ _ _ E F F' M M') as [-> ->]. f_equal. now apply IH.
Qed.

Lemma words_of_infix (cs : list uchar) (ws : list str) :
  words_of cs ws -> Forall one_char cs ->
  Forall (fun w => infix w (concat cs) /\ utf8_valid w = true /\ w <> []) ws.
Proof.
  induction 1 as [|c cs ws Hc H IH|w cs ws Hw F M H IH]; intros O.
  - constructor.
  - apply Forall_cons_iff in O as [_ O]. eapply Forall_impl; [|exact (IH O)].
    intros x (A & B & C). repeat split; auto. apply (infix_trans x (concat cs)); auto.
    exists c, []. cbn. now rewrite app_nil_r.
  - apply Forall_app in O as [Ow O]. rewrite concat_app. constructor.
    + split; [exists [], (concat cs); reflexivity|]. split.
      * apply utf8_concat, one_char_valid, Ow.
      * destruct w as [|c w]; [congruence|]. apply Forall_cons_iff in Ow as [Oc _].
        apply one_char_nonempty in Oc. destruct c; [cbn in Oc; lia|discriminate].
    + eapply Forall_impl; [|exact (IH O)].
      intros x (A & B & C). repeat split; auto. apply (infix_trans x (concat cs)); auto.
      exists (concat w), []. now rewrite app_nil_r.
Qed.

Lemma split_whitespace_infix (s w : str) :
  utf8_valid s = true -> In w (split_whitespace s) -> infix w s /\ utf8_valid w = true /\ w <> [].
Proof.
  intros V H. pose proof (words_of_infix _ _ (split_whitespace_words s) (chars_one s V)) as F.
  rewrite Forall_forall in F. specialize (F w H). now rewrite concat_chars in F.
Qed.
