(** * SimdFacts: the vector search and the chunked tag loop equal byte-wise scans. *)

From Coq Require Import Lia ZifyBool ZifyNat ZifyN.
From Verif Require Import Base BaseFacts Wide WideFacts Tags.

(** ** [find_first] *)

Lemma nth_error_skipn {A : Type} (l : list A) (p i : nat) :
  nth_error (skipn p l) i = nth_error l (p + i).
Proof.
  revert l; induction p as [|p IH]; intros l; [reflexivity|].
  destruct l; cbn; [now destruct i|apply IH].
Qed.

Lemma skipn_skipn {A : Type} (l : list A) (m n : nat) :
  skipn n (skipn m l) = skipn (m + n) l.
Proof.
  revert l; induction m as [|m IH]; intros l; [reflexivity|].
  destruct l; cbn; [now destruct n|apply IH].
Qed.

Lemma sub_split (data : list byte) (off n : nat) :
  off + n <= length data ->
  data = firstn off data ++ sub data off (off + n) ++ skipn (off + n) data
  /\ length (sub data off (off + n)) = n /\ length (firstn off data) = off.
Proof.
  intros H. unfold sub. replace (off + n - off) with n by lia. split; [|split].
  - replace (skipn (off + n) data) with (skipn n (skipn off data)).
    + now rewrite firstn_skipn, firstn_skipn.
    + apply skipn_skipn.
  - rewrite firstn_length, skipn_length. lia.
  - rewrite firstn_length. lia.
Qed.

Definition clear (c : byte) (data : list byte) (off : nat) : Prop := ~ In c (firstn off data).

Lemma clear_le (c : byte) (data : list byte) (i j : nat) :
  i <= j -> clear c data j -> clear c data i.
Proof.
  intros H C K. apply C. replace i with (Nat.min i j) in K by lia.
  rewrite <- firstn_firstn in K. rewrite <- (firstn_skipn i (firstn j data)).
  apply in_or_app. now left.
Qed.

Lemma clear_all (c : byte) (data : list byte) (off : nat) :
  length data <= off -> clear c data off -> find_byte c data = None.
Proof.
  intros H C. unfold clear in C. rewrite firstn_all2 in C by assumption.
  now apply find_byte_none.
Qed.

Lemma find_chunk_some (c : byte) (data : list byte) (off n j : nat) :
  off + n <= length data -> clear c data off ->
  find_byte c (sub data off (off + n)) = Some j -> find_byte c data = Some (off + j).
Proof.
  intros H C F. destruct (sub_split data off n H) as (E & _ & L).
  apply find_byte_some in F. destruct F as (l & r & F & <- & K).
  rewrite F in E. rewrite E, <- app_assoc. cbn [app]. rewrite app_assoc.
  rewrite find_byte_app; [rewrite app_length; f_equal; lia|].
  intros I. apply in_app_or in I. destruct I; [now apply C|now apply K].
Qed.

Lemma find_chunk_none (c : byte) (data : list byte) (off n : nat) :
  off + n <= length data -> clear c data off ->
  find_byte c (sub data off (off + n)) = None -> clear c data (off + n).
Proof.
  intros H C F. destruct (sub_split data off n H) as (E & L1 & L2).
  apply find_byte_none in F. unfold clear. rewrite E, app_assoc, firstn_app.
  rewrite app_length, L1, L2, Nat.sub_diag. cbn [firstn]. rewrite app_nil_r.
  rewrite firstn_all2 by (rewrite app_length; lia).
  intros I. apply in_app_or in I. destruct I; [now apply C|now apply F].
Qed.

Lemma scan_aligned_ok (v : backend) (addr : nat) (data : list byte) (c : byte) (off : nat) :
  off + vsize v <= length data -> (addr + off) mod vsize v = 0 ->
  scan_aligned v addr data c off = Ret (find_byte c (sub data off (off + vsize v))).
Proof.
  intros H A. unfold scan_aligned, load_aligned.
  replace (off + vsize v <=? length data) with true by lia.
  rewrite A, Nat.eqb_refl. cbn [bind].
  rewrite <- (chunk_search v) by (apply sub_split; assumption).
  destruct (has_match _); reflexivity.
Qed.

Definition scan_ok (c : byte) (data : list byte) (lim : nat -> Prop) (r : res scan) : Prop :=
  match r with
  | Ret (Found i) => find_byte c data = Some i
  | Ret (More off) => clear c data off /\ lim off
  | _ => False
  end.

Lemma aligned_step (v : backend) (addr off k : nat) :
  (addr + off) mod vsize v = 0 -> (addr + (off + vsize v * k)) mod vsize v = 0.
Proof.
  intros H. replace (addr + (off + vsize v * k)) with (addr + off + k * vsize v) by lia.
  rewrite Nat.mod_add; [exact H|]. pose proof (vsize_pos v); lia.
Qed.

Lemma find_unrolled_ok (fuel : nat) (v : backend) (addr : nat) (data : list byte) (c : byte) (off : nat) :
  length data < off + fuel -> fuel <> 0 -> (addr + off) mod vsize v = 0 -> clear c data off ->
  scan_ok c data (fun o => (addr + o) mod vsize v = 0 /\ off <= o) (find_unrolled fuel v addr data c off).
Proof.
  pose proof (vsize_pos v) as P.
  revert off; induction fuel as [|fuel IH]; intros off F NZ A C; [lia|].
  cbn [find_unrolled].
  destruct (off + 4 * vsize v <? length data) eqn:E; [|cbn; split; [exact C|split; [exact A|lia]]].
  rewrite !scan_aligned_ok by (try (apply aligned_step; assumption); lia).
  cbn [bind].
  assert (C0 : clear c data (off + vsize v * 0)) by (replace (off + vsize v * 0) with off by lia; exact C).
  destruct (find_byte c (sub data (off + vsize v * 0) _)) eqn:F0.
  { apply find_chunk_some in F0; [|lia|exact C0]. cbn. rewrite F0. f_equal. lia. }
  apply find_chunk_none in F0; [|lia|exact C0].
  replace (off + vsize v * 0 + vsize v) with (off + vsize v * 1) in F0 by lia.
  destruct (find_byte c (sub data (off + vsize v * 1) _)) eqn:F1.
  { apply find_chunk_some in F1; [|lia|exact F0]. cbn. rewrite F1. f_equal. lia. }
  apply find_chunk_none in F1; [|lia|exact F0].
  replace (off + vsize v * 1 + vsize v) with (off + vsize v * 2) in F1 by lia.
  destruct (find_byte c (sub data (off + vsize v * 2) _)) eqn:F2.
  { apply find_chunk_some in F2; [|lia|exact F1]. cbn. rewrite F2. f_equal. lia. }
  apply find_chunk_none in F2; [|lia|exact F1].
  replace (off + vsize v * 2 + vsize v) with (off + vsize v * 3) in F2 by lia.
  destruct (find_byte c (sub data (off + vsize v * 3) _)) eqn:F3.
  { apply find_chunk_some in F3; [|lia|exact F2]. cbn. rewrite F3. f_equal. lia. }
  apply find_chunk_none in F3; [|lia|exact F2].
  replace (off + vsize v * 3 + vsize v) with (off + vsize v * 4) in F3 by lia.
  pose proof (IH (off + vsize v * 4)) as K.
  destruct (find_unrolled fuel v addr data c (off + vsize v * 4)) as [[i|o]| | |];
    cbn [scan_ok] in *; try (apply K; auto using aligned_step; lia).
  destruct K as (K1 & K2 & K3); auto using aligned_step; try lia.
  split; [exact K1|split; [exact K2|lia]].
Qed.

Lemma find_single_ok (fuel : nat) (v : backend) (addr : nat) (data : list byte) (c : byte) (off : nat) :
  length data < off + fuel -> fuel <> 0 -> (addr + off) mod vsize v = 0 -> clear c data off ->
  scan_ok c data (fun o => length data < o + vsize v) (find_single fuel v addr data c off).
Proof.
  pose proof (vsize_pos v) as P.
  revert off; induction fuel as [|fuel IH]; intros off F NZ A C; [lia|].
  cbn [find_single].
  destruct (off + vsize v <=? length data) eqn:E; [|cbn; split; [exact C|lia]].
  rewrite scan_aligned_ok by (auto; lia). cbn [bind].
  destruct (find_byte c (sub data off _)) eqn:F0.
  { apply find_chunk_some in F0; [|lia|exact C]. exact F0. }
  apply find_chunk_none in F0; [|lia|exact C].
  apply IH; auto; try lia.
  replace (off + vsize v) with (off + vsize v * 1) by lia. now apply aligned_step.
Qed.

(** The vector search never violates a load contract, never panics, does not
    run out of fuel, and is the plain search for the first occurrence, whatever
    the address of the data. *)
Lemma find_first_ok (v : backend) (addr : nat) (data : list byte) (c : byte) :
  find_first v addr data c = Ret (find_byte c data).
Proof.
  pose proof (vsize_pos v) as P. unfold find_first.
  destruct (length data <? vsize v) eqn:E0; [reflexivity|].
  assert (L0 : load_unaligned v data 0 = Ret (sub data 0 (0 + vsize v))).
  { unfold load_unaligned. now replace (0 + vsize v <=? length data) with true by lia. }
  rewrite L0. cbn [bind]. clear L0.
  assert (C0 : clear c data 0) by (intros []).
  pose proof (chunk_search v (sub data 0 (0 + vsize v)) c) as S0.
  destruct (has_match (movemask v (veq v (sub data 0 (0 + vsize v)) c))) eqn:H0.
  { f_equal. rewrite S0 by (apply sub_split; lia). symmetry.
    destruct (find_byte c (sub data 0 (0 + vsize v))) eqn:F0;
      [|discriminate S0; apply sub_split; lia].
    now apply find_chunk_some in F0; [|lia|exact C0]. }
  assert (C1 : clear c data (vsize v)).
  { apply (find_chunk_none c data 0 (vsize v)); [lia|exact C0|].
    symmetry. apply S0. apply sub_split; lia. }
  pose proof (Nat.mod_upper_bound addr (vsize v)) as U.
  rewrite usize_sub_ok by lia. cbn [bind].
  rewrite usize_sub_ok by lia. cbn [bind].
  set (st := addr + vsize v - addr mod vsize v - addr).
  assert (Hst : st <= vsize v) by (unfold st; lia).
  assert (Ast : (addr + st) mod vsize v = 0).
  { unfold st. pose proof (Nat.div_mod addr (vsize v)) as D.
    replace (addr + (addr + vsize v - addr mod vsize v - addr)) with ((S (addr / vsize v)) * vsize v) by nia.
    apply Nat.mod_mul. lia. }
  pose proof (find_unrolled_ok (S (length data)) v addr data c st) as R1.
  destruct (find_unrolled (S (length data)) v addr data c st) as [[i|o]| | |];
    cbn [bind] in *; cbn [scan_ok] in R1.
  2:{ destruct R1 as (K1 & K2 & K3); auto; try lia; [now apply (clear_le c data st (vsize v))|].
      pose proof (find_single_ok (S (length data)) v addr data c o) as R2.
      destruct (find_single (S (length data)) v addr data c o) as [[i|o2]| | |];
        cbn [bind] in *; cbn [scan_ok] in R2.
      2:{ destruct R2 as (J1 & J2); auto; try lia.
          destruct (o2 <? length data) eqn:E2.
          - rewrite usize_sub_ok by lia. cbn [bind].
            assert (L1 : load_unaligned v data (length data - vsize v)
                         = Ret (sub data (length data - vsize v) (length data - vsize v + vsize v))).
            { unfold load_unaligned.
              now replace (length data - vsize v + vsize v <=? length data) with true by lia. }
            rewrite L1. cbn [bind].
            assert (CL : clear c data (length data - vsize v)) by (apply (clear_le c data _ o2); [lia|exact J1]).
            pose proof (chunk_search v (sub data (length data - vsize v) (length data - vsize v + vsize v)) c) as S1.
            destruct (has_match (movemask v (veq v (sub data (length data - vsize v) (length data - vsize v + vsize v)) c))) eqn:H1.
            + assert (S2 := S1 ltac:(apply sub_split; lia)). symmetry in S2.
              apply find_chunk_some in S2; [|lia|exact CL]. now rewrite S2.
            + assert (S2 := S1 ltac:(apply sub_split; lia)). symmetry in S2.
              apply find_chunk_none in S2; [|lia|exact CL].
              f_equal. symmetry. apply (clear_all c data (length data - vsize v + vsize v)); [lia|exact S2].
          - f_equal. symmetry. apply (clear_all c data o2); [lia|exact J1]. }
      1:{ f_equal. symmetry. apply R2; auto; lia. }
      all: exfalso; apply R2; auto; lia. }
  1:{ f_equal. symmetry. apply R1; auto; try lia. now apply (clear_le c data st (vsize v)). }
  all: exfalso; apply R1; auto; try lia; now apply (clear_le c data st (vsize v)).
Qed.

(** ** Byte-wise scan of the tag section *)

Definition triple := (nat * nat * nat)%type.

(** Scan [s], whose first byte is at [off], from state [st]: final state and
    the completed tags as (key start, key end, value end). *)
Fixpoint tscan (s : list byte) (off : nat) (st : tstate) : tstate * list triple :=
  match s with
  | [] => (st, [])
  | c :: s' =>
    match st with
    | Key ks => if Byte.eqb c "=" then tscan s' (off + 1) (Value ks off) else tscan s' (off + 1) st
    | Value ks ke =>
      if Byte.eqb c ";" then
        let '(st', l) := tscan s' (off + 1) (Key (off + 1)) in (st', (ks, ke, off) :: l)
      else tscan s' (off + 1) st
    end
  end.

Fixpoint pushes (a : array) (l : list triple) : res array :=
  match l with
  | [] => Ret a
  | (ks, ke, pos) :: l' =>
    let! p := make_pair ks ke pos in
    let! a' := array_push a p in
    pushes a' l'
  end.

Lemma bind_assoc {A B C : Type} (m : res A) (f : A -> res B) (g : B -> res C) :
  bind (bind m f) g = bind m (fun x => bind (f x) g).
Proof. now destruct m. Qed.

Lemma bind_ext {A B : Type} (m : res A) (f g : A -> res B) :
  (forall x, f x = g x) -> bind m f = bind m g.
Proof. intros H. destruct m; cbn; auto. Qed.

Lemma pushes_app (a : array) (l1 l2 : list triple) :
  pushes a (l1 ++ l2) = let! a' := pushes a l1 in pushes a' l2.
Proof.
  revert a; induction l1 as [|[[ks ke] p] l1 IH]; intros a; cbn; [reflexivity|].
  rewrite !bind_assoc. apply bind_ext; intros x. rewrite bind_assoc. apply bind_ext; intros y. apply IH.
Qed.

Lemma tscan_app (s1 s2 : list byte) (off : nat) (st : tstate) :
  tscan (s1 ++ s2) off st =
  let '(st1, l1) := tscan s1 off st in
  let '(st2, l2) := tscan s2 (off + length s1) st1 in
  (st2, l1 ++ l2).
Proof.
  revert off st; induction s1 as [|c s1 IH]; intros off st; cbn [app tscan length].
  - replace (off + 0) with off by lia. now destruct (tscan s2 off st).
  - replace (off + S (length s1)) with (off + 1 + length s1) by lia.
    destruct st as [ks|ks ke].
    + destruct (Byte.eqb c "="); apply IH.
    + destruct (Byte.eqb c ";"); [|apply IH].
      rewrite IH. destruct (tscan s1 (off + 1) (Key (off + 1))) as [st1 l1].
      now destruct (tscan s2 (off + 1 + length s1) st1).
Qed.

Lemma tscan_no_eq (s : list byte) (off ks : nat) :
  ~ In "="%byte s -> tscan s off (Key ks) = (Key ks, []).
Proof.
  revert off; induction s as [|c s IH]; intros off H; cbn; [reflexivity|].
  rewrite byte_eqb_neq by (intros ->; apply H; now left). apply IH. intros K; apply H; now right.
Qed.

Lemma tscan_no_semi (s : list byte) (off ks ke : nat) :
  ~ In ";"%byte s -> tscan s off (Value ks ke) = (Value ks ke, []).
Proof.
  revert off; induction s as [|c s IH]; intros off H; cbn; [reflexivity|].
  rewrite byte_eqb_neq by (intros ->; apply H; now left). apply IH. intros K; apply H; now right.
Qed.

(** ** [parse_chunk] *)

Definition lanes_from (p : nat) (c : byte) (chunk : list byte) (i : nat) : bool :=
  (p <=? i) && lane_eq c chunk i.

Lemma lanes_from_none (p : nat) (c : byte) (chunk : list byte) :
  (forall i, lanes_from p c chunk i = false) -> ~ In c (skipn p chunk).
Proof.
  intros H K. apply In_nth_error in K. destruct K as [i K].
  rewrite nth_error_skipn in K.
  specialize (H (p + i)). unfold lanes_from, lane_eq in H.
  rewrite K, byte_eqb_refl in H. lia.
Qed.

Lemma lanes_from_first (p : nat) (c : byte) (chunk : list byte) (j : nat) :
  lanes_from p c chunk j = true -> (forall i, i < j -> lanes_from p c chunk i = false) ->
  exists l, skipn p chunk = l ++ c :: skipn (j + 1) chunk /\ ~ In c l /\ j = p + length l.
Proof.
  intros H F. unfold lanes_from, lane_eq in H.
  destruct (nth_error chunk j) as [x|] eqn:E; [|lia].
  apply andb_prop in H. destruct H as [Hp Hx].
  destruct (byte_eqb_spec x c) as [->|]; [|discriminate].
  exists (firstn (j - p) (skipn p chunk)).
  assert (LJ : j < length chunk) by (apply nth_error_Some; congruence).
  assert (L : length (firstn (j - p) (skipn p chunk)) = j - p)
    by (rewrite firstn_length, skipn_length; lia).
  split; [|split].
  - rewrite <- (firstn_skipn (j - p) (skipn p chunk)) at 1. f_equal.
    rewrite skipn_skipn. replace (p + (j - p)) with j by lia.
    destruct (skipn j chunk) as [|y r] eqn:S.
    + apply (f_equal (@length byte)) in S. rewrite skipn_length in S. cbn in S. lia.
    + assert (N : nth_error (skipn j chunk) 0 = Some c) by (rewrite nth_error_skipn, Nat.add_0_r; exact E).
      rewrite S in N. cbn in N. injection N as ->.
      f_equal. rewrite <- skipn_skipn, S. reflexivity.
  - intros K. apply In_nth_error in K. destruct K as [i K].
    assert (Hi : i < j - p) by (rewrite <- L; apply nth_error_Some; congruence).
    assert (K' : nth_error (skipn p chunk) i = Some c).
    { rewrite <- (firstn_skipn (j - p) (skipn p chunk)). rewrite nth_error_app1 by lia. exact K. }
    rewrite nth_error_skipn in K'. specialize (F (p + i) ltac:(lia)).
    unfold lanes_from, lane_eq in F. rewrite K', byte_eqb_refl in F. lia.
  - lia.
Qed.

Lemma rep_ext (v : backend) (m : N) (f g : nat -> bool) :
  (forall i, f i = g i) -> rep v m f -> rep v m g.
Proof. intros E R k. now rewrite R, E. Qed.

Lemma lanes_from_clear (v : backend) (m : N) (p j : nat) (c : byte) (chunk : list byte) :
  length chunk = vsize v -> rep v m (lanes_from p c chunk) -> p <= j -> j < vsize v ->
  exists m', clear_to v m (stride v * j) = Ret m' /\ rep v m' (lanes_from (j + 1) c chunk).
Proof.
  intros L R Hp Hj. destruct (clear_to_rep v m (lanes_from p c chunk) j) as (m' & E & R'); auto.
  - intros i H. apply andb_prop in H. now apply (lane_eq_bounded v c chunk).
  - exists m'. split; [exact E|]. apply rep_ext with (2 := R').
    intros i. unfold lanes_from. destruct (lane_eq c chunk i); lia.
Qed.

Lemma parse_chunk_loop_ok (v : backend) (off : nat) (chunk : list byte) (fuel p : nat)
      (eqm semim : N) (st : tstate) (tags : array) :
  length chunk = vsize v -> vsize v < p + fuel ->
  rep v eqm (lanes_from p "=" chunk) -> rep v semim (lanes_from p ";" chunk) ->
  p <= vsize v ->
  parse_chunk_loop fuel v off eqm semim st tags =
  let '(st', l) := tscan (skipn p chunk) (off + p) st in
  let! tags' := pushes tags l in Ret (st', tags').
Proof.
  intros L. revert p eqm semim st tags.
  induction fuel as [|fuel IH]; intros p eqm semim st tags F R1 R2 Hp; [lia|].
  cbn [parse_chunk_loop]. destruct st as [ks|ks ke].
  - destruct (has_match eqm) eqn:H; cbn [negb].
    + destruct (has_match_true v _ _ R1 H) as (j & M & I & T & B).
      rewrite I, M.
      assert (Hj : j < vsize v).
      { apply andb_prop in T. now apply (lane_eq_bounded v "=" chunk). }
      destruct (lanes_from_first p "=" chunk j T B) as (l & S & NI & EJ).
      destruct (lanes_from_clear v eqm p j "=" chunk) as (m1 & E1 & Q1); auto; [lia|].
      destruct (lanes_from_clear v semim p j ";" chunk) as (m2 & E2 & Q2); auto; [lia|].
      rewrite E1, E2. cbn [bind].
      rewrite (IH (j + 1)); auto; try lia.
      rewrite S, tscan_app, tscan_no_eq by exact NI. cbn [app tscan].
      rewrite byte_eqb_refl.
      replace (off + p + length l + 1) with (off + (j + 1)) by lia.
      replace (off + p + length l) with (off + j) by lia.
      now destruct (tscan (skipn (j + 1) chunk) (off + (j + 1)) (Value ks (off + j))).
    + rewrite tscan_no_eq; [reflexivity|].
      apply lanes_from_none. exact (has_match_false v _ _ R1 H).
  - destruct (has_match semim) eqn:H; cbn [negb].
    + destruct (has_match_true v _ _ R2 H) as (j & M & I & T & B).
      rewrite I, M.
      assert (Hj : j < vsize v).
      { apply andb_prop in T. now apply (lane_eq_bounded v ";" chunk). }
      destruct (lanes_from_first p ";" chunk j T B) as (l & S & NI & EJ).
      destruct (lanes_from_clear v eqm p j "=" chunk) as (m1 & E1 & Q1); auto; [lia|].
      destruct (lanes_from_clear v semim p j ";" chunk) as (m2 & E2 & Q2); auto; [lia|].
      rewrite E1, E2. cbn [bind].
      rewrite S, tscan_app, tscan_no_semi by exact NI. cbn [app tscan].
      rewrite byte_eqb_refl.
      replace (off + p + length l) with (off + j) by lia.
      replace (off + (j + 1)) with (off + j + 1) by lia.
      destruct (tscan (skipn (j + 1) chunk) (off + j + 1) (Key (off + j + 1))) as [st' l'] eqn:T'.
      cbn [pushes]. rewrite bind_assoc. apply bind_ext; intros pr.
      rewrite bind_assoc. apply bind_ext; intros a'.
      rewrite (IH (j + 1)); auto; try lia.
      replace (off + (j + 1)) with (off + j + 1) by lia. now rewrite T'.
    + rewrite tscan_no_semi; [reflexivity|].
      apply lanes_from_none. exact (has_match_false v _ _ R2 H).
Qed.

Lemma parse_chunk_ok (v : backend) (off : nat) (chunk : list byte) (st : tstate) (tags : array) :
  length chunk = vsize v ->
  parse_chunk v off chunk st tags =
  let '(st', l) := tscan chunk off st in
  let! tags' := pushes tags l in Ret (st', tags').
Proof.
  intros L. unfold parse_chunk.
  rewrite (parse_chunk_loop_ok v off chunk (S (vsize v)) 0); auto; try lia.
  - cbn [skipn]. now replace (off + 0) with off by lia.
  - now apply movemask_rep.
  - now apply movemask_rep.
Qed.

(** ** [simd_chunks] and [simd_parse] *)

Definition scan_from (rem : list byte) (off : nat) (st : tstate) (tags : array)
  : res (tstate * array) :=
  let '(st', l) := tscan (skipn off rem) off st in
  let! tags' := pushes tags l in Ret (st', tags').

Lemma tscan_pad (n off : nat) (st : tstate) : tscan (repeat x00 n) off st = (st, []).
Proof.
  revert off; induction n as [|n IH]; intros off; cbn; [reflexivity|].
  destruct st; apply IH.
Qed.

Lemma simd_chunks_ok {B : Type} (fuel : nat) (v : backend) (rem : list byte) (off : nat)
      (st : tstate) (tags : array) (k k0 : tstate -> array -> res B) :
  length rem < off + fuel -> fuel <> 0 -> off < length rem ->
  (let! (off', st', tags') := simd_chunks fuel v rem off st tags in
   let! remaining := usize_sub (length rem) off' in
   if 0 <? remaining then
     let! chunk := load_unaligned_remainder v rem off' in
     let! (st2, tags2) := parse_chunk v off' chunk st' tags' in
     k st2 tags2
   else k0 st' tags')
  = let! (st', tags') := scan_from rem off st tags in k st' tags'.
Proof.
  pose proof (vsize_pos v) as P.
  revert off st tags; induction fuel as [|fuel IH]; intros off st tags F NZ H; [lia|].
  cbn [simd_chunks]. destruct (off + vsize v <? length rem) eqn:E.
  - assert (L1 : load_unaligned v rem off = Ret (sub rem off (off + vsize v))).
    { unfold load_unaligned. now replace (off + vsize v <=? length rem) with true by lia. }
    rewrite L1. cbn [bind].
    assert (SK : skipn off rem = sub rem off (off + vsize v) ++ skipn (off + vsize v) rem).
    { unfold sub. rewrite <- skipn_skipn. replace (off + vsize v - off) with (vsize v) by lia.
      now rewrite firstn_skipn. }
    destruct (sub_split rem off (vsize v)) as (_ & LS & _); [lia|].
    rewrite parse_chunk_ok by exact LS.
    unfold scan_from. rewrite SK, tscan_app, LS.
    destruct (tscan (sub rem off (off + vsize v)) off st) as [st1 l1].
    rewrite !bind_assoc.
    transitivity (let! tags' := pushes tags l1 in
                  let! (st', tags'') := scan_from rem (off + vsize v) st1 tags' in k st' tags'').
    + apply bind_ext; intros a. cbn [bind]. rewrite <- IH; [reflexivity|lia|lia|lia].
    + unfold scan_from.
      destruct (tscan (skipn (off + vsize v) rem) (off + vsize v) st1) as [st2 l2].
      rewrite pushes_app, !bind_assoc. apply bind_ext; intros a.
      now rewrite !bind_assoc.
  - cbn [bind]. unfold scan_from.
    rewrite usize_sub_ok by lia. cbn [bind].
    replace (0 <? length rem - off) with true by lia.
    unfold load_unaligned_remainder. rewrite usize_sub_ok by lia. cbn [bind].
    replace (length rem - off <=? vsize v) with true by lia. cbn [bind].
    rewrite parse_chunk_ok by (rewrite app_length, skipn_length, repeat_length; lia).
    rewrite tscan_app.
    destruct (tscan (skipn off rem) off st) as [st1 l1]. rewrite tscan_pad, app_nil_r.
    reflexivity.
Qed.

(** The completed tags of a whole section, including the last one. *)
Definition section_triples (rem : list byte) : list triple :=
  let '(st, l) := tscan rem 0 (Key 0) in
  l ++ match st with Value ks ke => [(ks, ke, length rem)] | Key _ => [] end.

Definition section_pairs (rem : list byte) : res (list tag_pair) :=
  let! a := pushes array_new (section_triples rem) in array_to_vec a.

Lemma simd_parse_ok (v : backend) (addr : nat) (src : str) :
  simd_parse v addr src 0 =
  match strip_prefix (b "@") src with
  | None => Ret (None, 0)
  | Some s =>
    match find_byte " " s with
    | None => Ret (None, 0)
    | Some e => let! ts := section_pairs (firstn e s) in Ret (Some ts, e + 2)
    end
  end.
Proof.
  unfold simd_parse.
  rewrite (slice_from_ok [] src src 0) by (auto; apply boundary_start). cbn [bind].
  destruct (strip_prefix (b "@") src) as [s|]; [|reflexivity].
  rewrite find_first_ok. cbn [bind].
  destruct (find_byte " " s) as [e|] eqn:E; [|reflexivity].
  apply find_byte_some in E. destruct E as (l & r & -> & <- & _).
  unfold bytes_to. rewrite app_length.
  replace (length l <=? length l + _) with true by (cbn; lia). cbn [bind].
  set (rem := firstn (length l) (l ++ " "%byte :: r)).
  unfold section_pairs, section_triples.
  destruct (Nat.eq_dec (length rem) 0) as [Z|NZ].
  { assert (rem = []) as -> by (destruct rem; [reflexivity|discriminate]).
    cbn [length simd_chunks]. rewrite Nat.add_0_l.
    replace (vsize v <? 0) with false by lia. reflexivity. }
  set (k := fun (st' : tstate) (tags' : array) =>
    let! tags0 := match st' with
                  | Key _ => Ret tags'
                  | Value ks ke => let! p := make_pair ks ke (length rem) in array_push tags' p
                  end in
    let! ts := array_to_vec tags0 in Ret (Some ts, 0 + (length l + 2))).
  transitivity (let! (st', tags') := scan_from rem 0 (Key 0) array_new in k st' tags').
  - rewrite <- (simd_chunks_ok (S (length rem)) v rem 0 (Key 0) array_new k
                  (fun _ tags' => let! ts := array_to_vec tags' in Ret (Some ts, 0 + (length l + 2))));
      [|lia|lia|lia].
    apply bind_ext; intros [[off st] tags]. apply bind_ext; intros remaining.
    destruct (0 <? remaining) eqn:ER.
    + rewrite !bind_assoc. apply bind_ext; intros chunk.
      rewrite !bind_assoc. apply bind_ext; intros [st2 tags2]. unfold k.
      destruct st2; reflexivity.
    + reflexivity.
  - unfold scan_from. cbn [skipn].
    destruct (tscan rem 0 (Key 0)) as [st l1]. rewrite pushes_app, !bind_assoc.
    apply bind_ext; intros a. cbn [bind]. unfold k.
    destruct st; cbn [pushes bind]; [reflexivity|].
    rewrite !bind_assoc. apply bind_ext; intros p. rewrite !bind_assoc.
    apply bind_ext; intros a'. reflexivity.
Qed.
