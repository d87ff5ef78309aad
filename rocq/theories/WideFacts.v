(** * WideFacts: masks represent lane predicates; chunk search is [find_byte]. *)

From Coq Require Import Lia ZifyBool ZifyNat ZifyN.
From Verif Require Import Base BaseFacts Wide.

(** Bits per lane in a mask. *)
Definition stride (v : backend) : nat := match v with Neon => 4 | _ => 1 end.

Lemma stride_pos (v : backend) : stride v <> 0.
Proof. destruct v; discriminate. Qed.

Lemma vsize_pos (v : backend) : 0 < vsize v.
Proof. destruct v; cbn; lia. Qed.

(** Mask [m] says exactly which lanes satisfy [f]. *)
Definition rep (v : backend) (m : N) (f : nat -> bool) : Prop :=
  forall k, N.testbit m (N.of_nat k) = f (k / stride v).

Definition bounded (v : backend) (f : nat -> bool) : Prop :=
  forall i, f i = true -> i < vsize v.

Definition lane_eq (c : byte) (chunk : list byte) (i : nat) : bool :=
  match nth_error chunk i with Some x => Byte.eqb x c | None => false end.

Lemma lane_eq_bounded (v : backend) (c : byte) (chunk : list byte) :
  length chunk = vsize v -> bounded v (lane_eq c chunk).
Proof.
  intros L i H. unfold lane_eq in H.
  destruct (nth_error chunk i) eqn:E; [|discriminate].
  rewrite <- L. apply nth_error_Some. congruence.
Qed.

Lemma bit_low (x : bool) (n : N) : N.testbit (N.b2n x + 2 * n) 0 = x.
Proof.
  rewrite N.bit0_odd, N.odd_add_mul_2. now destruct x.
Qed.

Lemma bit_high (x : bool) (n : N) (k : N) :
  N.testbit (N.b2n x + 2 * n) (N.succ k) = N.testbit n k.
Proof.
  rewrite !N.testbit_eqb.
  rewrite N.pow_succ_r'. rewrite <- N.div_div by (try apply N.pow_nonzero; lia).
  replace ((N.b2n x + 2 * n) / 2)%N with n; [reflexivity|].
  rewrite N.mul_comm, N.div_add by lia. destruct x; reflexivity.
Qed.

Lemma x86_movemask_rep (v : backend) (chunk : list byte) (c : byte) (n k : nat) :
  length chunk = n ->
  N.testbit (x86_movemask (cmpeq chunk (repeat c n))) (N.of_nat k) = lane_eq c chunk k.
Proof.
  revert n k; induction chunk as [|x chunk IH]; intros n k L; subst n; cbn [length repeat cmpeq x86_movemask].
  - unfold lane_eq. destruct k; reflexivity.
  - destruct k as [|k].
    + change (N.of_nat 0) with 0%N. rewrite bit_low. unfold lane_eq; cbn [nth_error].
      destruct (Byte.eqb x c); reflexivity.
    + replace (N.of_nat (S k)) with (N.succ (N.of_nat k)) by lia. rewrite bit_high.
      unfold lane_eq; cbn [nth_error]. now apply IH.
Qed.

Definition nib (x y : bool) : N := ((if x then 15 else 0) + (if y then 240 else 0))%N.

Lemma nib_bits (x y : bool) (r : nat) :
  r < 8 -> N.testbit (nib x y) (N.of_nat r) = if r <? 4 then x else y.
Proof.
  intros H. do 8 (destruct r as [|r]; [destruct x, y; reflexivity|]). lia.
Qed.

Lemma nib_small (x y : bool) : (nib x y < 256)%N.
Proof. destruct x, y; reflexivity. Qed.

Lemma testbit_256 (a n : N) (k : nat) :
  (a < 256)%N ->
  N.testbit (a + 256 * n) (N.of_nat k) =
  if k <? 8 then N.testbit a (N.of_nat k) else N.testbit n (N.of_nat (k - 8)).
Proof.
  intros H. destruct (k <? 8) eqn:E.
  - rewrite <- (N.mod_pow2_bits_low (a + 256 * n) 8) by lia.
    replace ((a + 256 * n) mod 2 ^ 8)%N with a; [reflexivity|].
    rewrite N.mul_comm, N.mod_add by (cbn; lia). symmetry. now apply N.mod_small.
  - replace (N.of_nat k) with (N.of_nat (k - 8) + 8)%N by lia.
    rewrite <- N.div_pow2_bits. f_equal.
    change (2 ^ 8)%N with 256%N. rewrite N.mul_comm, N.div_add by lia.
    rewrite N.div_small by assumption. lia.
Qed.

Lemma neon_movemask_rep (chunk : list byte) (c : byte) (n k : nat) :
  length chunk = 2 * n ->
  N.testbit (neon_movemask (cmpeq chunk (repeat c (2 * n)))) (N.of_nat k)
  = lane_eq c chunk (k / 4).
Proof.
  revert chunk k; induction n as [|n IH]; intros chunk k L.
  - destruct chunk; [|discriminate]. unfold lane_eq. generalize (k / 4); intros [|q]; reflexivity.
  - destruct chunk as [|x [|y chunk]]; cbn in L; [discriminate|lia|].
    replace (2 * S n) with (S (S (2 * n))) by lia. cbn [repeat cmpeq neon_movemask].
    replace (N.shiftr (Byte.to_N (if Byte.eqb x c then xff else x00)
             + 256 * Byte.to_N (if Byte.eqb y c then xff else x00)) 4 mod 256)%N
      with (nib (Byte.eqb x c) (Byte.eqb y c))
      by (destruct (Byte.eqb x c), (Byte.eqb y c); reflexivity).
    rewrite testbit_256 by apply nib_small.
    destruct (k <? 8) eqn:E.
    + rewrite nib_bits by lia. unfold lane_eq.
      destruct (k <? 4) eqn:E4.
      * rewrite Nat.div_small by lia. reflexivity.
      * replace (k / 4) with 1; [reflexivity|].
        apply (Nat.div_unique k 4 1 (k - 4)); lia.
    + rewrite IH by lia. unfold lane_eq.
      replace (k / 4) with (S (S ((k - 8) / 4))); [reflexivity|].
      replace k with ((k - 8) + 2 * 4) at 2 by lia. rewrite Nat.div_add by lia. lia.
Qed.

Lemma movemask_rep (v : backend) (chunk : list byte) (c : byte) :
  length chunk = vsize v -> rep v (movemask v (veq v chunk c)) (lane_eq c chunk).
Proof.
  intros L k. unfold veq, vfill.
  destruct v; cbn [movemask stride vsize] in *.
  - rewrite Nat.div_1_r. now apply (x86_movemask_rep Sse2).
  - rewrite Nat.div_1_r. now apply (x86_movemask_rep Avx2).
  - apply (neon_movemask_rep chunk c 8 k L).
Qed.

(** ** Tests, first match, clearing *)

Lemma has_match_false (v : backend) (m : N) (f : nat -> bool) :
  rep v m f -> has_match m = false -> forall i, f i = false.
Proof.
  intros R H i. unfold has_match in H.
  assert (m = 0%N) by lia; subst m.
  specialize (R (i * stride v)). rewrite N.bits_0 in R.
  rewrite Nat.div_mul in R by apply stride_pos. now symmetry.
Qed.

Lemma pos_ctz_spec (p : positive) :
  N.testbit (Npos p) (N.of_nat (pos_ctz p)) = true /\
  forall k, k < pos_ctz p -> N.testbit (Npos p) (N.of_nat k) = false.
Proof.
  induction p as [p IH|p IH|]; cbn [pos_ctz].
  - split; [reflexivity|lia].
  - destruct IH as [A B]. split.
    + replace (N.of_nat (S (pos_ctz p))) with (N.succ (N.of_nat (pos_ctz p))) by lia.
      change (N.pos p~0) with (2 * N.pos p)%N. now rewrite N.double_bits_succ.
    + intros [|k] Hk; [reflexivity|].
      replace (N.of_nat (S k)) with (N.succ (N.of_nat k)) by lia.
      change (N.pos p~0) with (2 * N.pos p)%N. rewrite N.double_bits_succ. apply B. lia.
  - split; [reflexivity|lia].
Qed.

(** A non-empty mask's first match is the start of the first matching lane. *)
Lemma has_match_true (v : backend) (m : N) (f : nat -> bool) :
  rep v m f -> has_match m = true ->
  exists j, first_match v m = stride v * j /\ as_index v (first_match v m) = j /\
            f j = true /\ forall i, i < j -> f i = false.
Proof.
  intros R H. destruct m as [|p]; [discriminate|]. cbn [first_match].
  destruct (pos_ctz_spec p) as [A B].
  exists (pos_ctz p / stride v).
  assert (M : pos_ctz p = stride v * (pos_ctz p / stride v)).
  { pose proof (Nat.div_mod (pos_ctz p) (stride v) (stride_pos v)) as D.
    destruct (Nat.eq_dec (pos_ctz p mod stride v) 0) as [Z|Z]; [lia|exfalso].
    assert (K : N.testbit (N.pos p) (N.of_nat (stride v * (pos_ctz p / stride v))) = false)
      by (apply B; lia).
    rewrite R in K, A. rewrite Nat.mul_comm, Nat.div_mul in K by apply stride_pos. congruence. }
  split; [exact M|]. split; [destruct v; cbn [as_index stride]; now rewrite ?Nat.div_1_r|].
  rewrite R in A. split; [exact A|].
  intros i Hi. specialize (B (stride v * i)).
  rewrite R, Nat.mul_comm, Nat.div_mul in B by apply stride_pos. apply B.
  rewrite M. rewrite Nat.mul_comm. apply Nat.mul_lt_mono_pos_l; [destruct v; cbn; lia|exact Hi].
Qed.

Lemma ones_bit (n k : nat) : N.testbit (N.ones (N.of_nat n)) (N.of_nat k) = (k <? n).
Proof.
  destruct (k <? n) eqn:E.
  - apply N.ones_spec_low. lia.
  - apply N.ones_spec_high. lia.
Qed.

(** Clearing up to and including lane [j] keeps exactly the later lanes. *)
Lemma clear_to_rep (v : backend) (m : N) (f : nat -> bool) (j : nat) :
  rep v m f -> bounded v f -> j < vsize v ->
  exists m', clear_to v m (stride v * j) = Ret m' /\
             rep v m' (fun i => (j <? i) && f i).
Proof.
  intros R Bd Hj.
  assert (G : forall w sh k, sh = w - 1 - (stride v * j + (stride v - 1)) ->
    stride v * j + (stride v - 1) < w -> vsize v * stride v <= w ->
    N.testbit (N.land m (N.lxor (N.shiftr (N.ones (N.of_nat w)) (N.of_nat sh)) (N.ones (N.of_nat w))))
              (N.of_nat k) = (j <? k / stride v) && f (k / stride v)).
  { intros w sh k Esh Hw Hv.
    rewrite N.land_spec, N.lxor_spec, N.shiftr_spec' , R.
    replace (N.of_nat k + N.of_nat sh)%N with (N.of_nat (k + sh)) by lia.
    rewrite !ones_bit.
    destruct (f (k / stride v)) eqn:F; [|now rewrite andb_false_r].
    apply Bd in F. rewrite andb_true_l, andb_true_r.
    pose proof (Nat.div_mod k (stride v) (stride_pos v)) as D.
    pose proof (Nat.mod_upper_bound k (stride v) (stride_pos v)) as U.
    assert (KW : k < w) by nia.
    replace (k <? w) with true by lia. rewrite xorb_true_r.
    destruct (j <? k / stride v) eqn:J.
    - assert (~ (k + sh < w)) by nia. lia.
    - assert (k + sh < w) by nia. lia. }
  destruct v; cbn [clear_to stride vsize] in *.
  - rewrite usize_sub_ok by lia. cbn [bind]. eexists; split; [reflexivity|].
    intros k. apply (G 32 (31 - 1 * j) k); lia.
  - rewrite usize_sub_ok by lia. cbn [bind]. eexists; split; [reflexivity|].
    intros k. apply (G 32 (31 - 1 * j) k); lia.
  - rewrite usize_sub_ok by lia. cbn [bind]. eexists; split; [reflexivity|].
    intros k. apply (G 64 (63 - (4 * j + 3)) k); lia.
Qed.

(** ** One chunk *)

Lemma lane_eq_find (c : byte) (chunk : list byte) (j : nat) :
  lane_eq c chunk j = true -> (forall i, i < j -> lane_eq c chunk i = false) ->
  find_byte c chunk = Some j.
Proof.
  revert j; induction chunk as [|x chunk IH]; intros j H K; unfold lane_eq in *.
  - destruct j; discriminate.
  - cbn [find_byte]. destruct j as [|j]; cbn in H.
    + now rewrite H.
    + pose proof (K 0 ltac:(lia)) as K0; cbn in K0. rewrite K0. rewrite (IH j); [reflexivity|exact H|].
      intros i Hi. apply (K (S i)). lia.
Qed.

Lemma lane_eq_none (c : byte) (chunk : list byte) :
  (forall i, lane_eq c chunk i = false) -> find_byte c chunk = None.
Proof.
  intros H. apply find_byte_none. intros K. apply In_nth_error in K. destruct K as [i K].
  specialize (H i). unfold lane_eq in H. rewrite K, byte_eqb_refl in H. discriminate.
Qed.

(** The [eq]/[movemask]/[has_match]/[first_match]/[as_index] pipeline on one
    full chunk is a scalar search. *)
Lemma chunk_search (v : backend) (chunk : list byte) (c : byte) :
  length chunk = vsize v ->
  (if has_match (movemask v (veq v chunk c))
   then Some (as_index v (first_match v (movemask v (veq v chunk c)))) else None)
  = find_byte c chunk.
Proof.
  intros L. pose proof (movemask_rep v chunk c L) as R.
  destruct (has_match _) eqn:H.
  - destruct (has_match_true v _ _ R H) as (j & _ & E & F & B). rewrite E.
    symmetry. now apply lane_eq_find.
  - symmetry. apply lane_eq_none. exact (has_match_false v _ _ R H).
Qed.
