(** * BaseFacts: lemmas about Base. *)

From Coq Require Import Lia ZifyBool ZifyNat ZifyN.
From Verif Require Import Base.

(** ** Bytes *)

Lemma byte_eqb_spec (x y : byte) : reflect (x = y) (Byte.eqb x y).
Proof.
  destruct (Byte.eqb x y) eqn:E; constructor.
  - now apply byte_dec_bl.
  - now apply eqb_false.
Qed.

Lemma byte_eqb_refl (x : byte) : Byte.eqb x x = true.
Proof. now apply byte_dec_lb. Qed.

Lemma byte_eqb_neq (x y : byte) : x <> y -> Byte.eqb x y = false.
Proof. destruct (byte_eqb_spec x y); congruence. Qed.

Lemma str_eqb_spec (x y : str) : reflect (x = y) (str_eqb x y).
Proof.
  revert y; induction x as [|a x IH]; intros [|c y]; cbn; try (constructor; congruence).
  destruct (byte_eqb_spec a c); cbn; [|constructor; congruence].
  destruct (IH y); constructor; congruence.
Qed.

Lemma str_eqb_refl (x : str) : str_eqb x x = true.
Proof. destruct (str_eqb_spec x x); congruence. Qed.

Lemma str_eqb_neq (x y : str) : x <> y -> str_eqb x y = false.
Proof. destruct (str_eqb_spec x y); congruence. Qed.

Definition byte_in_dec (c : byte) (s : str) : {In c s} + {~ In c s} :=
  in_dec byte_eq_dec c s.

(** ** [find_byte] *)

Lemma find_byte_none (c : byte) (s : str) : find_byte c s = None <-> ~ In c s.
Proof.
  induction s as [|x s IH]; cbn; [tauto|].
  destruct (byte_eqb_spec x c) as [->|N].
  - split; [discriminate|]; intros H; exfalso; apply H; now left.
  - destruct (find_byte c s); cbn in *; split; intros H.
    + discriminate.
    + exfalso. destruct IH as [_ IH].
      assert (Some n = None) by (apply IH; intros K; apply H; now right). discriminate.
    + intros [K|K]; [congruence|]. now apply IH.
    + reflexivity.
Qed.

Lemma find_byte_app (c : byte) (l r : str) :
  ~ In c l -> find_byte c (l ++ c :: r) = Some (length l).
Proof.
  induction l as [|x l IH]; cbn; intros H.
  - now rewrite byte_eqb_refl.
  - rewrite byte_eqb_neq by tauto. rewrite IH by tauto. reflexivity.
Qed.

Lemma find_byte_some (c : byte) (s : str) (i : nat) :
  find_byte c s = Some i ->
  exists l r, s = l ++ c :: r /\ length l = i /\ ~ In c l.
Proof.
  revert i; induction s as [|x s IH]; cbn; intros i H; [discriminate|].
  destruct (byte_eqb_spec x c) as [->|N].
  - injection H as <-. exists [], s. cbn; tauto.
  - destruct (find_byte c s) as [j|]; [|discriminate]. injection H as <-.
    destruct (IH j eq_refl) as (l & r & -> & <- & K).
    exists (x :: l), r. cbn. intuition congruence.
Qed.

Lemma in_split_first (c : byte) (s : str) :
  In c s -> exists l r, s = l ++ c :: r /\ ~ In c l.
Proof.
  intros H. destruct (find_byte c s) as [i|] eqn:E.
  - apply find_byte_some in E. destruct E as (l & r & -> & _ & K). eauto.
  - now apply find_byte_none in E.
Qed.

Lemma in_split_last (c : byte) (s : str) :
  In c s -> exists l r, s = l ++ c :: r /\ ~ In c r.
Proof.
  intros H. apply in_rev in H. apply in_split_first in H.
  destruct H as (l & r & E & K).
  exists (rev r), (rev l). split.
  - rewrite <- (rev_involutive s), E, rev_app_distr. cbn. now rewrite <- app_assoc.
  - now rewrite <- in_rev.
Qed.

Lemma first_split_unique (c : byte) (l1 r1 l2 r2 : str) :
  l1 ++ c :: r1 = l2 ++ c :: r2 -> ~ In c l1 -> ~ In c l2 -> l1 = l2 /\ r1 = r2.
Proof.
  revert l2; induction l1 as [|x l1 IH]; intros [|y l2]; cbn; intros E H1 H2.
  - split; congruence.
  - injection E as -> _. exfalso; tauto.
  - injection E as -> _. exfalso; tauto.
  - injection E as -> E. destruct (IH l2 E) as [-> ->]; tauto.
Qed.

Lemma last_split_unique (c : byte) (l1 r1 l2 r2 : str) :
  l1 ++ c :: r1 = l2 ++ c :: r2 -> ~ In c r1 -> ~ In c r2 -> l1 = l2 /\ r1 = r2.
Proof.
  intros E H1 H2.
  apply (f_equal (@rev byte)) in E. rewrite !rev_app_distr in E. cbn in E.
  rewrite <- !app_assoc in E. cbn in E.
  destruct (first_split_unique c (rev r1) (rev l1) (rev r2) (rev l2) E) as [A B].
  - now rewrite <- in_rev.
  - now rewrite <- in_rev.
  - split; [rewrite <- (rev_involutive l1), B|rewrite <- (rev_involutive r1), A];
      apply rev_involutive.
Qed.

(** ** Prefixes *)

Lemma strip_prefix_spec (p s r : str) : strip_prefix p s = Some r <-> s = p ++ r.
Proof.
  revert s; induction p as [|x p IH]; intros s; cbn.
  - split; congruence.
  - destruct s as [|y s]; [split; discriminate|].
    destruct (byte_eqb_spec x y) as [->|N].
    + rewrite IH. split; congruence.
    + split; [discriminate|congruence].
Qed.

Lemma strip_prefix_app (p r : str) : strip_prefix p (p ++ r) = Some r.
Proof. now apply strip_prefix_spec. Qed.

Lemma strip_prefix_none (p s : str) : strip_prefix p s = None <-> forall r, s <> p ++ r.
Proof.
  destruct (strip_prefix p s) as [r|] eqn:E.
  - apply strip_prefix_spec in E. split; [discriminate|]. intros H. now destruct (H r).
  - split; [|reflexivity]. intros _ r K. rewrite K, strip_prefix_app in E. discriminate.
Qed.

Lemma starts_with_true (p s : str) : starts_with p s = true <-> exists r, s = p ++ r.
Proof.
  unfold starts_with. destruct (strip_prefix p s) as [r|] eqn:E.
  - apply strip_prefix_spec in E. split; eauto.
  - rewrite strip_prefix_none in E. split; [discriminate|]. intros [r K]. now destruct (E r).
Qed.

Lemma strip_suffix_spec (p s l : str) : strip_suffix p s = Some l <-> s = l ++ p.
Proof.
  unfold strip_suffix. destruct (strip_prefix (rev p) (rev s)) as [r|] eqn:E.
  - apply strip_prefix_spec in E.
    assert (K : s = rev r ++ p).
    { rewrite <- (rev_involutive s), E, rev_app_distr, !rev_involutive. reflexivity. }
    split; intros H.
    + injection H as <-. exact K.
    + f_equal. rewrite H in K. now apply app_inv_tail in K.
  - rewrite strip_prefix_none in E. split; [discriminate|]. intros ->.
    exfalso. apply (E (rev l)). apply rev_app_distr.
Qed.

(** ** Slices *)

Lemma sub_app (l x r : str) : sub (l ++ x ++ r) (length l) (length l + length x) = x.
Proof.
  unfold sub. rewrite skipn_app, skipn_all, Nat.sub_diag. cbn.
  replace (length l + length x - length l) with (length x) by lia.
  rewrite firstn_app, firstn_all, Nat.sub_diag. cbn. apply app_nil_r.
Qed.

Definition boundary_ok (s : str) (i : nat) : Prop := is_char_boundary s i = true.

Lemma boundary_start (s : str) : boundary_ok s 0.
Proof. reflexivity. Qed.

Lemma boundary_end (s : str) (i : nat) : i = length s -> boundary_ok s i.
Proof.
  intros ->. unfold boundary_ok, is_char_boundary.
  rewrite (proj2 (nth_error_None s (length s))) by lia.
  rewrite Nat.eqb_refl. apply orb_true_r.
Qed.

Definition ascii (x : byte) : bool := in_range 0 127 x.

Lemma ascii_not_cont (x : byte) : ascii x = true -> is_cont x = false.
Proof. unfold ascii, is_cont, in_range. lia. Qed.

Lemma boundary_at (l r : str) (x : byte) (i : nat) :
  i = length l -> is_cont x = false -> boundary_ok (l ++ x :: r) i.
Proof.
  intros -> H. unfold boundary_ok, is_char_boundary.
  rewrite nth_error_app2 by lia. rewrite Nat.sub_diag. cbn. rewrite H. apply orb_true_r.
Qed.

Lemma boundary_ascii (l r : str) (x : byte) (i : nat) :
  i = length l -> ascii x = true -> boundary_ok (l ++ x :: r) i.
Proof. intros; apply boundary_at; auto using ascii_not_cont. Qed.

Lemma boundary_app (l r : str) (i : nat) :
  i = length l -> match r with [] => True | x :: _ => is_cont x = false end ->
  boundary_ok (l ++ r) i.
Proof.
  intros -> H. destruct r as [|x r].
  - apply boundary_end. now rewrite app_nil_r.
  - now apply boundary_at.
Qed.

Lemma slice_ok (l x r s : str) (i j : nat) :
  s = l ++ x ++ r -> i = length l -> j = length l + length x ->
  boundary_ok s i -> boundary_ok s j -> slice s i j = Ret x.
Proof.
  intros E -> -> Hi Hj. unfold slice.
  assert (L : length s = length l + length x + length r)
    by (rewrite E, !app_length; lia).
  replace (length l <=? length l + length x) with true by lia.
  replace (length l + length x <=? length s) with true by lia.
  rewrite Hi, Hj. cbn. now rewrite E, sub_app.
Qed.

Lemma slice_from_ok (l r s : str) (i : nat) :
  s = l ++ r -> i = length l -> boundary_ok s i -> slice_from s i = Ret r.
Proof.
  intros E -> Hi. unfold slice_from.
  apply slice_ok with (l := l) (r := []).
  - now rewrite app_nil_r.
  - reflexivity.
  - rewrite E, app_length. lia.
  - exact Hi.
  - now apply boundary_end.
Qed.

Lemma slice_panic_or (s : str) (i j : nat) :
  slice s i j = Panic \/ exists x, slice s i j = Ret x.
Proof. unfold slice. destruct (_ && _); eauto. Qed.

(** ** UTF-8 *)

Lemma utf8_head (x : byte) (r : str) : utf8_valid (x :: r) = true -> is_cont x = false.
Proof.
  cbn [utf8_valid]. unfold is_cont, in_range.
  destruct ((0 <=? to_N x)%N && (to_N x <=? 127)%N) eqn:E1; [lia|].
  destruct ((194 <=? to_N x)%N && (to_N x <=? 223)%N) eqn:E2; [lia|].
  destruct ((224 <=? to_N x)%N && (to_N x <=? 239)%N) eqn:E3; [lia|].
  destruct ((240 <=? to_N x)%N && (to_N x <=? 244)%N) eqn:E4; [lia|].
  discriminate.
Qed.

Lemma utf8_split (l r : str) (x : byte) :
  ascii x = true ->
  utf8_valid (l ++ x :: r) = utf8_valid l && utf8_valid r.
Proof.
  intros A.
  assert (NC : is_cont x = false) by now apply ascii_not_cont.
  assert (NR : forall lo hi, (127 < lo)%N -> in_range lo hi x = false).
  { intros lo hi H. unfold ascii, in_range in *. lia. }
  remember (length l) as n eqn:Hn. revert l Hn.
  induction n as [n IH] using lt_wf_ind; intros l ->.
  destruct l as [|a l].
  { cbn [app utf8_valid]. unfold ascii in A. now rewrite A. }
  cbn [app utf8_valid].
  destruct (in_range 0 127 a) eqn:E1.
  { apply (IH (length l)); cbn; auto; lia. }
  destruct (in_range 194 223 a) eqn:E2.
  { destruct l as [|c1 l]; cbn [app].
    - rewrite NC. reflexivity.
    - rewrite (IH (length l)); cbn; auto. now rewrite andb_assoc. }
  destruct (in_range 224 239 a) eqn:E3.
  { destruct l as [|c1 [|c2 l]]; cbn [app].
    - destruct r as [|y r]; [reflexivity|].
      rewrite NC, !NR by lia. destruct (in_range 224 224 a), (in_range 237 237 a); reflexivity.
    - rewrite NC, andb_false_r. reflexivity.
    - rewrite (IH (length l)); cbn; auto. now rewrite !andb_assoc. }
  destruct (in_range 240 244 a) eqn:E4.
  { destruct l as [|c1 [|c2 [|c3 l]]]; cbn [app].
    - destruct r as [|y [|z r]]; try reflexivity.
      rewrite NC, !NR by lia. destruct (in_range 240 240 a), (in_range 244 244 a); reflexivity.
    - destruct r as [|y r]; [reflexivity|].
      rewrite NC, andb_false_r. reflexivity.
    - rewrite NC, andb_false_r. reflexivity.
    - rewrite (IH (length l)); cbn; auto. now rewrite !andb_assoc. }
  reflexivity.
Qed.

Lemma utf8_tail (x : byte) (r : str) :
  ascii x = true -> utf8_valid (x :: r) = true -> utf8_valid r = true.
Proof. intros A H. change (x :: r) with ([] ++ x :: r) in H. now rewrite utf8_split in H. Qed.

Lemma utf8_right (l r : str) (x : byte) :
  ascii x = true -> utf8_valid (l ++ x :: r) = true -> utf8_valid r = true.
Proof. intros A H. rewrite utf8_split in H by assumption. now apply andb_prop in H. Qed.

Lemma utf8_left (l r : str) (x : byte) :
  ascii x = true -> utf8_valid (l ++ x :: r) = true -> utf8_valid l = true.
Proof. intros A H. rewrite utf8_split in H by assumption. now apply andb_prop in H. Qed.

Lemma utf8_head' (r : str) :
  utf8_valid r = true -> match r with [] => True | x :: _ => is_cont x = false end.
Proof. destruct r; [trivial|apply utf8_head]. Qed.

(** ** Casts *)

Lemma as_u32_id (n : nat) : (N.of_nat n < 4294967296)%N -> as_u32 n = n.
Proof. intros H. unfold as_u32. rewrite N.mod_small by assumption. lia. Qed.

Lemma as_u16_id (n : nat) : (N.of_nat n < 65536)%N -> as_u16 n = n.
Proof. intros H. unfold as_u16. rewrite N.mod_small by assumption. lia. Qed.

Lemma as_u16_le (n : nat) : as_u16 n <= n.
Proof. unfold as_u16. pose proof (N.mod_le (N.of_nat n) 65536). lia. Qed.

Lemma u32_add_ok (x y : nat) : (N.of_nat (x + y) < 4294967296)%N -> u32_add x y = Ret (x + y).
Proof. intros H. unfold u32_add. now replace (N.of_nat (x + y) <? 4294967296)%N with true by lia. Qed.

Lemma usize_sub_ok (x y : nat) : y <= x -> usize_sub x y = Ret (x - y).
Proof. intros H. unfold usize_sub. now replace (y <=? x) with true by lia. Qed.
