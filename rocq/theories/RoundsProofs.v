(** * RoundsProofs: the loops of the vector parser end soon (C96). *)

From Verif Require Import Base Wide Tags SpecRounds.
From Verif Require Import BaseFacts WideFacts SimdFacts.
From Coq Require Import Lia ZifyBool ZifyNat.

Lemma more_same {A : Type} (loop : nat -> res A) (k : nat) :
  (forall f f', f <= f' -> loop f <> NoFuel -> loop f' = loop f) -> loop k <> NoFuel -> ends_within loop k.
Proof. intros M N. split; [exact N|]. intros k' L. now apply M. Qed.

Lemma unrolled_more (v : backend) (addr : nat) (data : list byte) (c : byte) (f : nat) : forall f' o,
  f <= f' -> find_unrolled f v addr data c o <> NoFuel -> find_unrolled f' v addr data c o = find_unrolled f v addr data c o.
Proof.
  induction f as [|f IH]; intros [|f'] o L N; try lia; [cbn in N; congruence| now destruct N|].
  cbn [find_unrolled] in *. destruct (o + 4 * vsize v <? length data); [|reflexivity].
  repeat (match goal with |- context [scan_aligned ?a ?b' ?c' ?d ?e] => destruct (scan_aligned a b' c' d e) as [[?|]| | |] end;
          cbn [bind] in *; try reflexivity; try congruence).
  apply IH; [lia|exact N].
Qed.

Lemma single_more (v : backend) (addr : nat) (data : list byte) (c : byte) (f : nat) : forall f' o,
  f <= f' -> find_single f v addr data c o <> NoFuel -> find_single f' v addr data c o = find_single f v addr data c o.
Proof.
  induction f as [|f IH]; intros [|f'] o L N; try lia; [cbn in N; congruence| now destruct N|].
  cbn [find_single] in *. destruct (o + vsize v <=? length data); [|reflexivity].
  destruct (scan_aligned v addr data c o) as [[p|]| | |]; cbn [bind] in *; try reflexivity. apply IH; [lia|exact N].
Qed.

Lemma loop_more (v : backend) (off : nat) (f : nat) : forall f' eqm semim st tags,
  f <= f' -> parse_chunk_loop f v off eqm semim st tags <> NoFuel ->
  parse_chunk_loop f' v off eqm semim st tags = parse_chunk_loop f v off eqm semim st tags.
Proof.
  induction f as [|f IH]; intros [|f'] eqm semim st tags L N; try lia; [cbn in N; congruence| now destruct N|].
  cbn [parse_chunk_loop] in *. destruct st as [ks|ks ke].
  - destruct (negb (has_match eqm)); [reflexivity|].
    destruct (clear_to v eqm _) as [m1| | |]; try reflexivity. destruct (clear_to v semim _) as [m2| | |]; try reflexivity.
    cbn [bind] in *. apply IH; [lia|exact N].
  - destruct (negb (has_match semim)); [reflexivity|].
    destruct (clear_to v eqm _) as [m1| | |]; try reflexivity. destruct (clear_to v semim _) as [m2| | |]; try reflexivity.
    cbn [bind] in *. destruct (make_pair ks ke _) as [p| | |]; try reflexivity. cbn [bind] in *.
    destruct (array_push tags p) as [t| | |]; try reflexivity. cbn [bind] in *. apply IH; [lia|exact N].
Qed.

Lemma chunks_more (v : backend) (rem : list byte) (f : nat) : forall f' o st tags,
  f <= f' -> simd_chunks f v rem o st tags <> NoFuel -> simd_chunks f' v rem o st tags = simd_chunks f v rem o st tags.
Proof.
  induction f as [|f IH]; intros [|f'] o st tags L N; try lia; [cbn in N; congruence| now destruct N|].
  cbn [simd_chunks] in *. destruct (o + vsize v <? length rem); [|reflexivity].
  destruct (load_unaligned v rem o) as [ch| | |]; try reflexivity. cbn [bind] in *.
  destruct (parse_chunk v o ch st tags) as [[st' tags']| | |]; try reflexivity. apply IH; [lia|exact N].
Qed.

Lemma scan_aligned_fuel (v : backend) (addr : nat) (data : list byte) (c : byte) (o : nat) :
  scan_aligned v addr data c o <> NoFuel.
Proof.
  unfold scan_aligned, load_aligned. destruct (_ <=? _); [|discriminate]. destruct (_ =? _); [|discriminate].
  cbn [bind]. destruct (has_match _); discriminate.
Qed.

Lemma unrolled_ends (v : backend) (addr : nat) (data : list byte) (c : byte) (k : nat) : forall o,
  k <> 0 -> length data - o <= k * (4 * vsize v) -> find_unrolled k v addr data c o <> NoFuel.
Proof.
  pose proof (vsize_pos v) as P.
  induction k as [|k IH]; intros o Z L; [lia|]. cbn [find_unrolled].
  destruct (o + 4 * vsize v <? length data) eqn:E; [|discriminate].
  repeat (match goal with |- context [scan_aligned ?a ?b' ?c' ?d ?e] =>
            pose proof (scan_aligned_fuel a b' c' d e); destruct (scan_aligned a b' c' d e) as [[?|]| | |] end;
          cbn [bind] in *; try congruence).
  apply IH; nia.
Qed.

Lemma single_ends (v : backend) (addr : nat) (data : list byte) (c : byte) (k : nat) : forall o,
  length data - o < k * vsize v -> find_single k v addr data c o <> NoFuel.
Proof.
  pose proof (vsize_pos v) as P.
  induction k as [|k IH]; intros o L; [lia|]. cbn [find_single].
  destruct (o + vsize v <=? length data) eqn:E; [|discriminate].
  pose proof (scan_aligned_fuel v addr data c o). destruct (scan_aligned v addr data c o) as [[p|]| | |]; cbn [bind]; try congruence.
  apply IH; nia.
Qed.

Lemma unrolled_left (v : backend) (addr : nat) (data : list byte) (c : byte) (f : nat) : forall o o',
  find_unrolled f v addr data c o = Ret (More o') -> length data <= o' + 4 * vsize v.
Proof.
  induction f as [|f IH]; intros o o' E; cbn [find_unrolled] in E; [discriminate|].
  destruct (o + 4 * vsize v <? length data) eqn:L; [|injection E as <-; lia].
  repeat (match type of E with context [scan_aligned ?a ?b' ?c' ?d ?e] => destruct (scan_aligned a b' c' d e) as [[?|]| | |] end;
          cbn [bind] in *; try discriminate).
  exact (IH _ _ E).
Qed.

(** C96. The loops that search for the end of the tags: the one over four vectors goes
    round once for each four vectors, and leaves at most four for the one over single
    vectors. *)
Lemma p_c96_search :
  forall (v : backend) (addr : nat) (data : list byte) (c : byte) (o : nat),
    ends_within (fun f => find_unrolled f v addr data c o) (1 + (length data - o - 1) / (4 * vsize v)) /\
    forall f o', find_unrolled f v addr data c o = Ret (More o') ->
      ends_within (fun f => find_single f v addr data c o') 5.
Proof.
  intros v addr data c o. pose proof (vsize_pos v) as P. split.
  - apply more_same; [intros; now apply unrolled_more|].
    apply unrolled_ends; [lia|]. pose proof (Nat.div_mod_eq (length data - o - 1) (4 * vsize v)).
    pose proof (Nat.mod_upper_bound (length data - o - 1) (4 * vsize v)). nia.
  - intros f o' E. apply unrolled_left in E. apply more_same; [intros; now apply single_more|].
    apply (single_ends v addr data c 5). lia.
Qed.

Lemma make_pair_fuel (ks ke p : nat) : make_pair ks ke p <> NoFuel.
Proof.
  unfold make_pair, usize_sub, u32_add. destruct (_ <? _)%N; cbn [bind]; [|discriminate].
  repeat (destruct (_ <=? _); cbn [bind]; try discriminate).
Qed.

Lemma parse_chunk_fuel (v : backend) (off : nat) (chunk : list byte) (st : tstate) (tags : array) :
  length chunk = vsize v -> parse_chunk v off chunk st tags <> NoFuel.
Proof.
  intros L. rewrite parse_chunk_ok by exact L. destruct (tscan chunk off st) as [st' l]. clear.
  assert (G : forall a, pushes a l <> NoFuel).
  { induction l as [|[[ks ke] p] l IH]; intros a; cbn [pushes]; [discriminate|].
    pose proof (make_pair_fuel ks ke p) as M.
    destruct (make_pair ks ke p); cbn [bind]; try congruence.
    unfold array_push. destruct (_ <? _); cbn [bind]; [apply IH|discriminate]. }
  specialize (G tags). destruct (pushes tags l); cbn [bind]; congruence.
Qed.

Lemma chunks_end (v : backend) (rem : list byte) (k : nat) : forall o st tags,
  k <> 0 -> length rem - o <= k * vsize v -> simd_chunks k v rem o st tags <> NoFuel.
Proof.
  pose proof (vsize_pos v) as P.
  induction k as [|k IH]; intros o st tags Z L; [lia|]. cbn [simd_chunks].
  destruct (o + vsize v <? length rem) eqn:E; [|discriminate].
  unfold load_unaligned. replace (o + vsize v <=? length rem) with true by lia. cbn [bind].
  destruct (sub_split rem o (vsize v)) as (_ & LS & _); [lia|].
  pose proof (parse_chunk_fuel v o _ st tags LS).
  destruct (parse_chunk v o _ st tags) as [[st' tags']| | |]; cbn [bind]; try congruence. apply IH; nia.
Qed.

(** C96. The loop over the tag section goes round once for each vector. *)
Lemma p_c96_chunks :
  forall (v : backend) (rem : list byte) (st : tstate) (tags : array),
    ends_within (fun f => simd_chunks f v rem 0 st tags) (1 + (length rem - 1) / vsize v).
Proof.
  intros v rem st tags. pose proof (vsize_pos v) as P. apply more_same; [intros; now apply chunks_more|].
  apply chunks_end; [lia|]. pose proof (Nat.div_mod_eq (length rem - 1) (vsize v)).
  pose proof (Nat.mod_upper_bound (length rem - 1) (vsize v)). nia.
Qed.

Lemma separators_app (x y : str) : separators (x ++ y) = separators x + separators y.
Proof. unfold separators. rewrite filter_app. apply app_length. Qed.

Lemma chunk_loop_ends (v : backend) (off : nat) (chunk : list byte) (k : nat) : forall p eqm semim st tags,
  length chunk = vsize v -> separators (skipn p chunk) < k ->
  rep v eqm (lanes_from p "=" chunk) -> rep v semim (lanes_from p ";" chunk) ->
  parse_chunk_loop k v off eqm semim st tags <> NoFuel.
Proof.
  induction k as [|k IH]; intros p eqm semim st tags L F R1 R2; [lia|].
  assert (STEP : forall c m, has_match m = true -> rep v m (lanes_from p c chunk) -> c = "="%byte \/ c = ";"%byte ->
    exists m1 m2 j, clear_to v eqm (first_match v m) = Ret m1 /\ clear_to v semim (first_match v m) = Ret m2 /\
      rep v m1 (lanes_from (j + 1) "=" chunk) /\ rep v m2 (lanes_from (j + 1) ";" chunk) /\
      separators (skipn (j + 1) chunk) < k).
  { intros c m H R C. destruct (has_match_true v _ _ R H) as (j & M & I & T & B). rewrite M.
    assert (Hj : j < vsize v).
    { apply andb_prop in T. now apply (lane_eq_bounded v c chunk). }
    destruct (lanes_from_first p c chunk j T B) as (l & S & NI & EJ).
    destruct (lanes_from_clear v eqm p j "=" chunk) as (m1 & E1 & Q1); auto; [lia|].
    destruct (lanes_from_clear v semim p j ";" chunk) as (m2 & E2 & Q2); auto; [lia|].
    exists m1, m2, j. repeat (split; [assumption|]).
    rewrite S in F. change (c :: skipn (j + 1) chunk) with ([c] ++ skipn (j + 1) chunk) in F.
    rewrite !separators_app in F. assert (K : separators [c] = 1) by (destruct C as [-> | ->]; reflexivity). lia. }
  cbn [parse_chunk_loop]. destruct st as [ks|ks ke].
  - destruct (has_match eqm) eqn:H; cbn [negb]; [|discriminate].
    destruct (STEP _ _ H R1 (or_introl eq_refl)) as (m1 & m2 & j & E1 & E2 & Q1 & Q2 & S). rewrite E1, E2. cbn [bind].
    now apply (IH (j + 1)).
  - destruct (has_match semim) eqn:H; cbn [negb]; [|discriminate].
    destruct (STEP _ _ H R2 (or_intror eq_refl)) as (m1 & m2 & j & E1 & E2 & Q1 & Q2 & S). rewrite E1, E2. cbn [bind].
    pose proof (make_pair_fuel ks ke (off + as_index v (first_match v semim))) as MP.
    destruct (make_pair ks ke _) as [p'| | |]; cbn [bind]; try congruence.
    unfold array_push. destruct (_ <? _); cbn [bind]; [now apply (IH (j + 1))|discriminate].
Qed.

(** C96. Within a vector, the loop goes round once for each [=] or [;]. *)
Lemma p_c96_separators :
  forall (v : backend) (off : nat) (chunk : vector) (st : tstate) (tags : array),
    length chunk = vsize v ->
    ends_within (fun f => parse_chunk_loop f v off (movemask v (veq v chunk "=")) (movemask v (veq v chunk ";")) st tags)
      (1 + separators chunk).
Proof.
  intros v off chunk st tags L. apply more_same; [intros; now apply loop_more|].
  apply (chunk_loop_ends v off chunk _ 0); [exact L|cbn [skipn]; lia| |]; now apply movemask_rep.
Qed.

Lemma sub_misses (c : byte) (l r : list byte) (o n : nat) :
  o <= length l -> o + n <= length (l ++ c :: r) -> find_byte c (sub (l ++ c :: r) o (o + n)) = None -> o + n <= length l.
Proof.
  intros O L F. destruct (Nat.le_gt_cases (o + n) (length l)) as [|G]; [assumption|exfalso].
  apply find_byte_none in F. apply F. unfold sub. replace (o + n - o) with n by lia.
  rewrite skipn_app. replace (o - length l) with 0 by lia. cbn [skipn].
  rewrite firstn_app, skipn_length. apply in_or_app. right.
  replace (n - (length l - o)) with (S (n - (length l - o) - 1)) by lia. now left.
Qed.

Lemma unrolled_stops (v : backend) (addr : nat) (l r : list byte) (c : byte) (k : nat) : forall o,
  (addr + o) mod vsize v = 0 -> o <= length l -> length l - o < k * (4 * vsize v) ->
  find_unrolled k v addr (l ++ c :: r) c o <> NoFuel.
Proof.
  pose proof (vsize_pos v) as P.
  induction k as [|k IH]; intros o A O L; [lia|]. cbn [find_unrolled].
  destruct (o + 4 * vsize v <? length (l ++ c :: r)) eqn:E; [|discriminate].
  rewrite !scan_aligned_ok by (try (apply aligned_step; assumption); lia). cbn [bind].
  destruct (find_byte c (sub _ (o + vsize v * 0) _)) eqn:F0; [discriminate|].
  destruct (find_byte c (sub _ (o + vsize v * 1) _)) eqn:F1; [discriminate|].
  destruct (find_byte c (sub _ (o + vsize v * 2) _)) eqn:F2; [discriminate|].
  destruct (find_byte c (sub _ (o + vsize v * 3) _)) eqn:F3; [discriminate|].
  apply sub_misses in F0; [|lia|lia]. apply sub_misses in F1; [|lia|lia].
  apply sub_misses in F2; [|lia|lia]. apply sub_misses in F3; [|lia|lia].
  apply IH; [now apply aligned_step|lia|nia].
Qed.

(** C96. The search goes no further than the byte it looks for: how long the line is
    behind it does not count. *)
Lemma p_c96_stops :
  forall (v : backend) (addr : nat) (l r : list byte) (c : byte) (o : nat),
    (addr + o) mod vsize v = 0 -> o <= length l ->
    ends_within (fun f => find_unrolled f v addr (l ++ c :: r) c o) (1 + (length l - o) / (4 * vsize v)).
Proof.
  intros v addr l r c o A O. pose proof (vsize_pos v) as P. apply more_same; [intros; now apply unrolled_more|].
  apply unrolled_stops; [exact A|exact O|]. pose proof (Nat.div_mod_eq (length l - o) (4 * vsize v)).
  pose proof (Nat.mod_upper_bound (length l - o) (4 * vsize v)). nia.
Qed.

(** C96. These numbers are reached. *)
Example ex_c96 :
  let data := repeat "x"%byte 200 ++ b " " ++ repeat "y"%byte 400 in
  (4 + 12) mod vsize Sse2 = 0 /\
  find_unrolled 3 Sse2 4 data " " 12 = Ret (Found 200) /\
  find_unrolled 2 Sse2 4 data " " 12 = NoFuel /\
  find_unrolled 9 Sse2 4 data "=" 12 = NoFuel /\ find_unrolled 10 Sse2 4 data "=" 12 = Ret (More 588) /\
  (let four := repeat "x"%byte 76 in find_unrolled 1 Sse2 4 four " " 12 = Ret (More 12) /\
     find_single 5 Sse2 4 four " " 12 = Ret (More 76) /\ find_single 4 Sse2 4 four " " 12 = NoFuel) /\
  simd_chunks 5 Avx2 (firstn 129 data) 0 (Key 0) array_new <> NoFuel /\
  simd_chunks 4 Avx2 (firstn 129 data) 0 (Key 0) array_new = NoFuel /\
  (let chunk := b "a=b;c=d;e=f;gggg" in let loop f :=
     parse_chunk_loop f Neon 0 (movemask Neon (veq Neon chunk "=")) (movemask Neon (veq Neon chunk ";")) (Key 0) array_new in
   length chunk = vsize Neon /\ separators chunk = 6 /\ loop 6 = NoFuel /\ loop 7 <> NoFuel).
Proof. vm_compute. repeat split; discriminate. Qed.
