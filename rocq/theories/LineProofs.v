(** * LineProofs: the property lemmas about whole lines, C05-C18. *)

From Coq Require Import Lia ZifyBool ZifyNat ZifyN.
From Verif Require Import Base Wide Tags Irc SpecIrc Samples.
From Verif Require Import BaseFacts SimdFacts IrcFacts Utf8Facts IrcProofs.

(** ** C05 *)

Lemma too_many_iff (s : str) :
  128 < length (fst (spec_tags s)) <->
  exists sec rest l, has_section s sec rest /\ tag_section sec l /\ 128 < length l.
Proof.
  destruct (spec_tags s) as [l s1] eqn:E. cbn [fst]. split.
  - intros H. apply spec_tags_removed in E as [_ [(sec & A & B)|(_ & -> & _)]]; [eauto 6|cbn in H; lia].
  - intros (sec & rest & l' & A & B & C). rewrite (section_spec s sec rest l' A B) in E. now injection E as -> _.
Qed.

Lemma at_most_iff (s : str) : at_most_128 s <-> length (fst (spec_tags s)) <= 128.
Proof.
  pose proof (too_many_iff s) as T. unfold at_most_128. split.
  - intros H. apply Nat.nlt_ge. intros K. apply T in K as (sec & rest & l & A & B & C).
    specialize (H _ _ _ A B). lia.
  - intros H sec rest l A B. apply Nat.nlt_ge. intros K. cut (128 < length (fst (spec_tags s))); [lia|].
    apply T. eauto 6.
Qed.

(** C05. The SIMD build panics exactly on more than 128 tags. *)
Lemma p_c05_simd_panics_iff :
  forall (v : backend) (addr : nat) (s : str),
    utf8_valid s = true -> below_4gib s ->
    (ref_parse (Simd v addr) s = Panic <->
     exists sec rest l, has_section s sec rest /\ tag_section sec l /\ 128 < length l) /\
    (ref_parse (Simd v addr) s <> Panic -> exists r, ref_parse (Simd v addr) s = Ret r).
Proof.
  intros v addr s U S. split.
  - rewrite <- too_many_iff. split; [|intros; apply parse_panics; auto; discriminate].
    intros E. apply Nat.nle_gt. intros L.
    pose proof (parse_cases (Simd v addr) s U S ltac:(discriminate) L) as P.
    destruct (spec_view s); [destruct P as (m & P & _)|]; congruence.
  - intros H. destruct (p_c02_no_undefined_behaviour (Simd v addr) s); tauto.
Qed.

(** C05. The scalar build panics exactly on more than 128 tags or on an
    unterminated section. *)
Lemma p_c05_scalar_panics_iff :
  forall s : str,
    utf8_valid s = true -> below_4gib s ->
    (ref_parse Scalar s = Panic <->
     unterminated_tags s \/
     exists sec rest l, has_section s sec rest /\ tag_section sec l /\ 128 < length l) /\
    (ref_parse Scalar s <> Panic -> exists r, ref_parse Scalar s = Ret r).
Proof.
  intros s U S. split.
  - rewrite <- too_many_iff. split.
    + intros E. destruct (Nat.lt_ge_cases 128 (length (fst (spec_tags s)))) as [L|L]; [auto|]. left.
      assert (D : unterminated_tags s \/ ~ unterminated_tags s).
      { unfold unterminated_tags. destruct (strip_prefix (b "@") s) as [r|] eqn:P.
        - apply strip_prefix_spec in P. destruct (byte_in_dec " " s); [right; tauto|left; split; eauto].
        - right. intros [[r R] _]. rewrite strip_prefix_none in P. now apply (P r). }
      destruct D as [D|D]; [exact D|exfalso].
      pose proof (parse_cases Scalar s U S (fun _ => D) L) as P.
      destruct (spec_view s); [destruct P as (m & P & _)|]; congruence.
    + intros [T|T]; [now apply scalar_unterminated|].
      apply parse_panics; auto. intros _. apply too_many_iff in T as (sec & rest & l & A & _).
      now apply (has_section_terminated s sec rest).
  - intros H. destruct (p_c02_no_undefined_behaviour Scalar s); tauto.
Qed.

(** [n] copies of [a=1;]. *)
Definition many_tags (n : nat) : str := concat (repeat (b "a=1;") n).

Example ex_c05 :
  ref_parse (Simd Sse2 0) (b "@" ++ many_tags 129 ++ b " PING") = Panic /\
  exists r, ref_parse (Simd Sse2 0) (b "@" ++ many_tags 128 ++ b " PING") = Ret r.
Proof. split; [vm_compute; reflexivity|]. eexists. vm_compute. reflexivity. Qed.

(** ** C06 *)

(** C06. Every accessor returns. *)
Lemma p_c06_accessors_return :
  forall (bd : build) (s : str) (m : msg_ref),
    utf8_valid s = true -> below_4gib s -> all_short s ->
    ref_parse bd s = Ret (Some m) ->
    ref_raw m = s /\
    (exists r, ref_tags m = Ret r) /\
    (forall t, exists r, ref_tag m t = Ret r) /\
    (exists r, ref_prefix m = Ret r) /\ (exists r, ref_command m = Ret r) /\
    (exists r, ref_channel m = Ret r) /\ (exists r, ref_params m = Ret r) /\
    (exists r, ref_text m = Ret r).
Proof.
  intros bd s m U S F E. destruct (parse_reads bd s m U S E) as (v & V & R).
  destruct (parse_tags bd s m U S E F) as [T1 T2]. destruct R as [R1 R2 R3 R4 R5 R6].
  repeat split; eauto.
Qed.

Example ex_c06 :
  all_short sample /\ utf8_valid sample = true /\ below_4gib sample /\
  exists m, ref_parse (Simd Avx2 17) sample = Ret (Some m) /\ ref_text m = Ret (Some (b "hello there")).
Proof.
  split.
  { apply all_short_spec. vm_compute. repeat constructor. }
  split; [vm_compute; reflexivity|]. split; [vm_compute; reflexivity|].
  eexists. split; [vm_compute; reflexivity|]. vm_compute. reflexivity.
Qed.

(** ** C07 *)

Lemma truncated_short (v : str) : (N.of_nat (length v) < 65536)%N -> truncated v = v.
Proof.
  intros H. unfold truncated. rewrite N.mod_small by exact H. rewrite Nat2N.id. apply firstn_all.
Qed.

Lemma boundary_valid (v : str) (i : nat) :
  utf8_valid v = true -> i <= length v -> is_char_boundary v i = utf8_valid (firstn i v).
Proof.
  intros U L. destruct (is_char_boundary v i) eqn:B.
  - symmetry. now apply boundary_split.
  - destruct (utf8_valid (firstn i v)) eqn:V; [exfalso|reflexivity].
    rewrite <- (firstn_skipn i v) in U. rewrite utf8_app in U by exact V.
    unfold is_char_boundary in B. apply orb_false_iff in B as [B1 B2].
    destruct (nth_error v i) as [x|] eqn:N.
    + assert (E : exists q, skipn i v = x :: q).
      { clear -N. revert i N; induction v as [|y v IH]; intros [|i] N; cbn in *; try discriminate.
        - injection N as ->. eauto.
        - auto. }
      destruct E as [q E]. rewrite E in U. apply utf8_head in U. rewrite U in B2. discriminate.
    + apply nth_error_None in N. lia.
Qed.

(** Reading a part of [v] inside a longer text. *)
Lemma slice_inside (src l v r : str) (j : nat) :
  src = l ++ v ++ r -> utf8_valid v = true -> boundary_ok src (length l) ->
  boundary_ok src (length l + length v) -> j <= length v ->
  slice src (length l) (length l + j) =
  if utf8_valid (firstn j v) then Ret (firstn j v) else Panic.
Proof.
  intros E U B1 B2 L. unfold slice. unfold boundary_ok in *.
  rewrite B1. replace (length l <=? length l + j) with true by lia.
  replace (length l + j <=? length src) with true by (rewrite E, !app_length; lia). cbn [andb].
  assert (K : is_char_boundary src (length l + j) = utf8_valid (firstn j v)).
  { destruct (Nat.eq_dec j (length v)) as [->|N].
    - rewrite firstn_all. congruence.
    - rewrite <- boundary_valid by assumption.
      destruct (Nat.eq_dec j 0) as [->|NZ].
      + rewrite Nat.add_0_r. unfold is_char_boundary at 2. cbn. exact B1.
      + unfold is_char_boundary. replace (length l + j =? 0) with false by lia.
        replace (j =? 0) with false by lia. cbn [orb].
        rewrite E, nth_error_app2 by lia. rewrite nth_error_app1 by lia.
        replace (length l + j - length l) with j by lia.
        destruct (nth_error v j) eqn:Q; [reflexivity|]. apply nth_error_None in Q. lia. }
  rewrite K. destruct (utf8_valid (firstn j v)); [|reflexivity]. f_equal.
  unfold sub. rewrite E, skipn_app, skipn_all, Nat.sub_diag. cbn [app skipn].
  replace (length l + j - length l) with j by lia.
  rewrite firstn_app. replace (j - length v) with 0 by lia. cbn. apply app_nil_r.
Qed.

Lemma snoc_ok (src l r : str) (c : byte) (n : nat) :
  src = l ++ [c] ++ r -> utf8_valid src = true -> ascii c = true -> n = length l + 1 ->
  boundary_ok src n.
Proof.
  intros E U A ->.
  assert (B : left_edge (l ++ [c])) by now apply left_edge_snoc.
  rewrite E. rewrite app_assoc. apply boundary_app; [rewrite app_length; reflexivity|].
  apply utf8_head'. rewrite E in U. now apply utf8_right in U.
Qed.

Definition short_key (kv : str * str) : Prop := (N.of_nat (length (fst kv)) < 65536)%N.

Lemma pair_read_any (src t rest : str) (tr : triple) (kv : str * str) :
  utf8_valid src = true -> small (length src) -> src = b "@" ++ t ++ b " " ++ rest ->
  locates t tr kv -> short_key kv ->
  exists ks vs, pair_key (pair_of tr) = Ret ks /\ span_get src ks = Ret (fst kv) /\
    pair_value (pair_of tr) = Ret vs /\
    span_get src vs = if utf8_valid (truncated (snd kv)) then Ret (truncated (snd kv)) else Panic.
Proof.
  intros U S E (l & r & Et & -> & Hl & Hr) K. destruct kv as [k v]. unfold short_key in K. cbn [fst snd] in *.
  unfold pair_of, pair_key, pair_value. cbn [key_start key_end value_end].
  replace (length l + length k - length l) with (length k) by lia.
  replace (length l + length k + 1 + length v - (length l + length k + 1)) with (length v) by lia.
  rewrite (as_u16_id (length k)) by assumption. pose proof (as_u16_le (length v)) as TL.
  unfold small in S.
  assert (LE : length src = 1 + (length l + (length k + (1 + (length v + length r)))) + 1 + length rest).
  { rewrite E, Et, !app_length. cbn. lia. }
  rewrite !u32_add_ok by lia. cbn [bind]. rewrite !u32_add_ok by lia. cbn [bind].
  rewrite !u32_add_ok by lia. cbn [bind].
  do 2 eexists. split; [reflexivity|]. split; [|split; [reflexivity|]].
  - unfold span_get. cbn [sp_start sp_end].
    apply slice_between with (l := b "@" ++ l) (r := b "=" ++ v ++ r ++ b " " ++ rest).
    + rewrite E, Et, <- !app_assoc. reflexivity.
    + rewrite app_length. cbn. lia.
    + rewrite app_length. cbn. lia.
    + destruct Hl as [->|[l' ->]].
      * apply (snoc_boundary src [] (t ++ b " " ++ rest) "@"); auto.
      * rewrite app_assoc.
        apply (snoc_boundary src (b "@" ++ l') (k ++ b "=" ++ v ++ r ++ b " " ++ rest) ";"); auto.
        rewrite E, Et, <- !app_assoc. reflexivity.
    + now apply right_edge_cons.
  - unfold span_get. cbn [sp_start sp_end].
    assert (E2 : src = (b "@" ++ l ++ k ++ b "=") ++ v ++ r ++ b " " ++ rest).
    { rewrite E, Et, <- !app_assoc. reflexivity. }
    assert (R : exists c q, r ++ b " " ++ rest = c :: q /\ ascii c = true).
    { destruct Hr as [->|[r' ->]]; cbn; eexists; eexists; (split; [reflexivity|reflexivity]). }
    destruct R as (c & q & R & A).
    replace (length l + 1 + length k + 1) with (length (b "@" ++ l ++ k ++ b "=")).
    2:{ rewrite !app_length. cbn. lia. }
    apply (slice_inside src _ v (r ++ b " " ++ rest)); auto.
    + rewrite E2, R in U.
      replace ((b "@" ++ l ++ k ++ b "=") ++ v ++ c :: q)
        with ((b "@" ++ l ++ k) ++ "="%byte :: (v ++ c :: q)) in U by (rewrite <- !app_assoc; reflexivity).
      apply utf8_right in U; [|reflexivity]. now apply utf8_left in U.
    + apply (snoc_ok src (b "@" ++ l ++ k) (v ++ r ++ b " " ++ rest) "="); auto.
      * rewrite E2, <- !app_assoc. reflexivity.
      * rewrite !app_length. cbn. lia.
    + rewrite E2, R, app_assoc. rewrite <- app_length. now apply boundary_ascii.
Qed.

Definition stored (kv : str * str) : res (str * str) :=
  if utf8_valid (truncated (snd kv)) then Ret (fst kv, truncated (snd kv)) else Panic.

Lemma ref_tags_any (src : str) (m : msg_ref) :
  utf8_valid src = true -> small (length src) ->
  r_src m = src -> p_tags (r_parts m) = pairs_of src ->
  Forall short_key (fst (spec_tags src)) ->
  ref_tags m = mapM stored (fst (spec_tags src)) /\
  forall key, tag_find src (p_tags (r_parts m)) key =
    match lookup key (fst (spec_tags src)) with
    | Some v => if utf8_valid (truncated v) then Ret (Some (truncated v)) else Panic
    | None => Ret None
    end.
Proof.
  intros U S Es Ep F. unfold ref_tags. rewrite Es, Ep, tag_text_list in *. unfold pairs_of.
  pose proof (section_locates (tag_text src)) as L.
  destruct (list_eq_dec byte_eq_dec (tag_text src) []) as [Z|NZ].
  { rewrite Z in *. cbn. auto. }
  apply tag_text_split in NZ. destruct NZ as [rest E].
  revert F. induction L as [|tr kv trs kvs H L IH]; intros F; [cbn; auto|].
  apply Forall_cons_iff in F; destruct F as [Fh Ft].
  destruct (pair_read_any src (tag_text src) rest tr kv U S E H Fh) as (ks & vs & K1 & K2 & V1 & V2).
  destruct (IH Ft) as [A B]. clear IH. split.
  - cbn [map mapM]. unfold pair_get at 1. rewrite K1. cbn [bind]. rewrite K2. cbn [bind].
    rewrite V1. cbn [bind]. rewrite V2. unfold stored at 1.
    destruct (utf8_valid (truncated (snd kv))); [|reflexivity]. cbn [bind]. now rewrite A.
  - intros key. cbn [map tag_find]. rewrite K1. cbn [bind]. rewrite K2. cbn [bind].
    destruct kv as [k v]. cbn [fst snd lookup] in *. destruct (str_eqb k key); [|apply B].
    rewrite V1. cbn [bind]. rewrite V2. destruct (utf8_valid (truncated v)); reflexivity.
Qed.

Lemma lookup_first (k : str) (l : list (str * str)) (o : option str) :
  lookup k l = o <-> first_tag k l o.
Proof.
  assert (F : first_tag k l (lookup k l)).
  { induction l as [|[k' v] l IH]; cbn [lookup]; [cbn; tauto|].
    destruct (str_eqb_spec k' k) as [->|N].
    - exists [], l. cbn. tauto.
    - unfold first_tag in *. destruct (lookup k l) as [x|].
      + destruct IH as (l1 & l2 & -> & H). exists ((k', v) :: l1), l2. split; [reflexivity|].
        cbn. intuition congruence.
      + cbn. intuition congruence. }
  split; [now intros <-|]. intros G.
  destruct o as [v|], (lookup k l) as [w|]; cbn in *; auto.
  - f_equal. destruct F as (a1 & a2 & Ea & Ha). destruct G as (c1 & c2 & Ec & Hc).
    rewrite Ea in Ec. clear Ea. revert c1 Ec Hc Ha.
    induction a1 as [|[x y] a1 IH]; intros [|[x' y'] c1] E Hc Ha; cbn in *.
    + congruence.
    + injection E as E _ _. exfalso. apply Hc. now left.
    + injection E as E _ _. exfalso. apply Ha. now left.
    + injection E as -> -> E. apply (IH c1); auto.
  - exfalso. destruct G as (l1 & l2 & -> & _). apply F. rewrite map_app. apply in_or_app. right. now left.
  - exfalso. destruct F as (l1 & l2 & -> & _). apply G. rewrite map_app. apply in_or_app. right. now left.
Qed.

Lemma line_tags_spec (s : str) (l : list (str * str)) : line_tags s l <-> fst (spec_tags s) = l.
Proof.
  destruct (spec_tags s) as [l' s1] eqn:E. cbn [fst]. split.
  - intros [(sec & rest & A & B)|[A ->]].
    + rewrite (section_spec s sec rest l A B) in E. now injection E.
    + rewrite (no_section_spec s A) in E. now injection E.
  - intros ->. apply spec_tags_removed in E as [_ [(sec & A & B)|(A & B & C)]].
    + left. eauto.
    + right. auto.
Qed.

(** C07. What [tag] gives for a tag of any length, when the keys are shorter than
    65536 bytes: the value with its length taken modulo 65536, or a panic when
    that cuts a character. *)
Lemma p_c07_tag_value :
  forall (bd : build) (s : str) (m : msg_ref) (l : list (str * str)) (t : tag_name) (o : option str),
    utf8_valid s = true -> below_4gib s -> ref_parse bd s = Ret (Some m) ->
    line_tags s l -> Forall (fun kv => (N.of_nat (length (fst kv)) < 65536)%N) l ->
    first_tag (tag_as_str t) l o ->
    match o with
    | None => ref_tag m t = Ret None
    | Some v =>
      if utf8_valid (truncated v) then ref_tag m t = Ret (Some (truncated v))
      else ref_tag m t = Panic
    end.
Proof.
  intros bd s m l t o U S E T F FT. apply line_tags_spec in T. apply lookup_first in FT.
  destruct (parse_inv bd s m U S E) as (_ & _ & v & V & Q1 & Q2 & _).
  destruct (ref_tags_any s m U S Q1 Q2) as [A B]; [now rewrite T|].
  unfold ref_tag. rewrite Q1, B, T, FT. destruct o as [w|]; [|reflexivity].
  destruct (utf8_valid (truncated w)); reflexivity.
Qed.

(** C07. Below 65536 bytes nothing is lost. *)
Lemma p_c07_short_value_complete :
  forall (bd : build) (s : str) (m : msg_ref) (l : list (str * str)) (t : tag_name) (v : str),
    utf8_valid s = true -> below_4gib s -> ref_parse bd s = Ret (Some m) ->
    line_tags s l -> Forall (fun kv => (N.of_nat (length (fst kv)) < 65536)%N) l ->
    first_tag (tag_as_str t) l (Some v) -> (N.of_nat (length v) < 65536)%N ->
    ref_tag m t = Ret (Some v).
Proof.
  intros bd s m l t v U S E T F FT L.
  pose proof (p_c07_tag_value bd s m l t (Some v) U S E T F FT) as P. cbn in P.
  rewrite truncated_short in P by exact L.
  assert (UV : utf8_valid v = true).
  { apply line_tags_spec in T. destruct FT as (l1 & l2 & El & _).
    rewrite tag_text_list in T. pose proof (section_locates (tag_text s)) as K. rewrite T, El in K.
    apply Forall2_app_inv_r in K as (t1 & t2 & _ & K & _).
    inversion K as [|tr kv trs kvs H _ E1 E2]. subst kv.
    destruct H as (a & r & Et & _ & Ha & Hr). cbn [fst snd] in Et.
    assert (NZ : tag_text s <> []) by (rewrite Et; destruct a; [destruct (tag_as_str t)|]; discriminate).
    apply tag_text_split in NZ as [rest Es]. rewrite Et in Es.
    rewrite Es in U. replace (b "@" ++ (a ++ tag_as_str t ++ b "=" ++ v ++ r) ++ b " " ++ rest)
      with ((b "@" ++ a ++ tag_as_str t) ++ "="%byte :: (v ++ (r ++ b " " ++ rest))) in U
      by (rewrite <- !app_assoc; reflexivity).
    apply utf8_right in U; [|reflexivity].
    destruct Hr as [->|[r' ->]]; cbn [app b list_byte_of_string] in U; now apply utf8_left in U. }
  now rewrite UV in P.
Qed.

(** The line [@color=v PING]. *)
Definition color_line (v : str) : str := b "@color=" ++ v ++ b " PING".

Lemma color_line_facts (v : str) :
  utf8_valid v = true -> ~ In ";"%byte v -> ~ In " "%byte v -> below_4gib (color_line v) ->
  utf8_valid (color_line v) = true /\ line_tags (color_line v) [(b "color", v)] /\
  exists m, ref_parse (Simd Sse2 0) (color_line v) = Ret (Some m).
Proof.
  intros U H1 H2 S.
  assert (U' : utf8_valid (color_line v) = true).
  { unfold color_line. rewrite utf8_app by reflexivity. now rewrite utf8_app. }
  assert (HS : has_section (color_line v) (b "color=" ++ v) (b "PING")).
  { split; [unfold color_line; now rewrite <- !app_assoc|].
    intros I. apply in_app_or in I as [I|I]; [|tauto]. cbn in I. intuition discriminate. }
  assert (TS : tag_section (b "color=" ++ v) [(b "color", v)]).
  { apply (ts_last (b "color") v); [|exact H1]. cbn. intuition discriminate. }
  split; [exact U'|]. split; [left; eauto|].
  pose proof (section_spec _ _ _ _ HS TS) as E.
  pose proof (parse_cases (Simd Sse2 0) (color_line v) U' S ltac:(discriminate)) as P.
  rewrite E in P. specialize (P ltac:(cbn; lia)).
  unfold spec_view in P. rewrite E in P. cbn in P. destruct P as (m & P & _). eauto.
Qed.

Lemma repeat_plain (x c : byte) (n : nat) : x <> c -> ~ In c (repeat x n).
Proof. intros N I. apply repeat_spec in I. congruence. Qed.

Lemma concat_repeat_length (x : str) (n : nat) : length (concat (repeat x n)) = length x * n.
Proof. induction n as [|n IH]; cbn; [lia|]. rewrite app_length, IH. lia. Qed.

(** C07. The unlimited claim is false: a tag value of 65536 bytes is returned as
    the empty string. *)
Lemma p_c07_long_value_refuted :
  exists (s v : str) (m : msg_ref),
    utf8_valid s = true /\ below_4gib s /\ line_tags s [(b "color", v)] /\ v <> [] /\
    ref_parse (Simd Sse2 0) s = Ret (Some m) /\ ref_tag m TColor = Ret (Some []).
Proof.
  remember (N.to_nat 65536) as n eqn:N.
  assert (L : length (repeat "a"%byte n) = n) by apply repeat_length.
  assert (U : forall k, utf8_valid (repeat "a"%byte k) = true).
  { induction k as [|k IH]; [reflexivity|]. exact IH. }
  assert (S : below_4gib (color_line (repeat "a"%byte n))).
  { unfold below_4gib, color_line. rewrite !app_length, L.
    change (length (b "@color=")) with 7. change (length (b " PING")) with 5. lia. }
  destruct (color_line_facts (repeat "a"%byte n)) as (A & B & m & C); auto;
    try (apply repeat_plain; discriminate).
  exists (color_line (repeat "a"%byte n)), (repeat "a"%byte n), m. repeat split; auto.
  { intros K. apply (f_equal (@length byte)) in K. rewrite L in K. cbn in K. lia. }
  assert (T : truncated (repeat "a"%byte n) = []).
  { unfold truncated. rewrite L, N, N2Nat.id. reflexivity. }
  pose proof (p_c07_tag_value _ _ m _ TColor (Some (repeat "a"%byte n)) A S C B) as P.
  cbn iota beta in P. rewrite T in P. apply P.
  - repeat constructor.
  - exists [], []. split; [reflexivity|]. intros [].
Qed.

(** C06. Without the size limit an accessor can panic: a value of 65537 bytes
    that starts with a two-byte character. *)
Lemma p_c06_long_value_panics_refuted :
  exists (s : str) (m : msg_ref),
    utf8_valid s = true /\ below_4gib s /\
    ref_parse (Simd Sse2 0) s = Ret (Some m) /\ ref_tag m TColor = Panic /\ ref_tags m = Panic.
Proof.
  remember (N.to_nat 32767) as n eqn:N.
  set (v := b "é" ++ concat (repeat (b "é") n) ++ b "a").
  assert (L : length v = N.to_nat 65537).
  { unfold v. rewrite !app_length, concat_repeat_length.
    change (length (b "é")) with 2. change (length (b "a")) with 1. lia. }
  assert (U : utf8_valid v = true).
  { unfold v. rewrite utf8_app by reflexivity. rewrite utf8_app; [reflexivity|].
    apply utf8_concat. apply Forall_forall. intros x I. apply repeat_spec in I. now subst. }
  assert (NI : forall c, ascii c = true -> c <> "a"%byte -> ~ In c v).
  { intros c A NA I. unfold v in I. apply in_app_or in I as [I|I].
    - cbn in I. intuition (subst; discriminate).
    - apply in_app_or in I as [I|I].
      + apply in_concat in I as (x & I1 & I2). apply repeat_spec in I1. subst x.
        cbn in I2. intuition (subst; discriminate).
      + cbn in I. intuition congruence. }
  assert (S : below_4gib (color_line v)).
  { unfold below_4gib, color_line. rewrite !app_length, L.
    change (length (b "@color=")) with 7. change (length (b " PING")) with 5. lia. }
  destruct (color_line_facts v) as (A & B & m & C); auto; try (apply NI; [reflexivity|discriminate]).
  exists (color_line v), m. repeat split; auto.
  all: assert (T : truncated v = [xc3]) by (unfold truncated; replace (N.of_nat (length v) mod 65536)%N with 1%N;
      [reflexivity|]; replace (N.of_nat (length v)) with 65537%N by lia; reflexivity).
  - pose proof (p_c07_tag_value _ _ m _ TColor (Some v) A S C B) as P.
    cbn iota beta in P. rewrite T in P. apply P.
    + repeat constructor.
    + exists [], []. split; [reflexivity|]. intros [].
  - apply line_tags_spec in B. destruct (parse_inv _ _ m A S C) as (_ & _ & w & V & Q1 & Q2 & _).
    destruct (ref_tags_any _ m A S Q1 Q2) as [R _]; [rewrite B; repeat constructor|].
    rewrite R, B. cbn [mapM]. unfold stored. cbn [snd]. now rewrite T.
Qed.

(** ** C08 *)

Lemma body_unique (s x : str) :
  body s x -> x = snd (spec_split_prefix (snd (spec_tags s))).
Proof.
  intros (s1 & A & B). apply removed_tags in A. apply removed_prefix in B. now subst.
Qed.

Lemma body_exists (s : str) : body s (snd (spec_split_prefix (snd (spec_tags s)))).
Proof.
  destruct (spec_tags s) as [l s1] eqn:E. cbn [snd]. destruct (spec_split_prefix s1) as [p s2] eqn:F.
  cbn [snd]. exists s1. split; [now apply spec_tags_removed in E|now apply split_prefix_cases in F].
Qed.

Lemma view_none_iff (s : str) :
  spec_view s = None <-> exists s2, body s s2 /\ (s2 = [] \/ starts " " s2).
Proof.
  split.
  - intros V. apply view_none in V as (s1 & s2 & A & B & C). exists s2. split; [|exact C]. now exists s1.
  - intros (s2 & B & C). apply body_unique in B. unfold spec_view.
    destruct (spec_tags s) as [l s1]. cbn [snd] in B. destruct (spec_split_prefix s1) as [p x].
    cbn [snd] in B. subst x. destruct C as [->|[r ->]]; reflexivity.
Qed.

(** C08. A line within the tag limit is rejected exactly when nothing, or a
    space, stands where the command should be. *)
Lemma p_c08_rejected_iff_no_command :
  forall (bd : build) (s : str),
    utf8_valid s = true -> below_4gib s -> at_most_128 s -> (bd = Scalar -> ~ unterminated_tags s) ->
    (ref_parse bd s = Ret None <-> exists s2, body s s2 /\ (s2 = [] \/ starts " " s2)) /\
    (own_parse bd s = Ret None <-> exists s2, body s s2 /\ (s2 = [] \/ starts " " s2)).
Proof.
  intros bd s U S L T. apply at_most_iff in L. pose proof (parse_cases bd s U S T L) as P.
  rewrite <- view_none_iff. unfold own_parse.
  destruct (spec_view s) as [v|].
  - destruct P as (m & -> & _). cbn [bind]. repeat split; discriminate.
  - rewrite P. cbn [bind]. tauto.
Qed.

Example ex_c08 :
  ref_parse (Simd Neon 1) (b "@id=1 :tmi.twitch.tv ") = Ret None /\
  ref_parse (Simd Neon 1) (b "@id=1 :tmi.twitch.tv  PING") = Ret None /\
  ref_parse (Simd Neon 1) (b "") = Ret None /\
  body (b "@id=1 :tmi.twitch.tv ") [].
Proof.
  repeat (split; [vm_compute; reflexivity|]).
  exists (b ":tmi.twitch.tv "). split; left.
  - exists (b "id=1"). split; [reflexivity|]. cbn; intuition discriminate.
  - exists (b "tmi.twitch.tv"). split; [reflexivity|]. cbn; intuition discriminate.
Qed.

(** ** C09 *)

Lemma not_in_app (c : byte) (l r : str) : ~ In c l -> ~ In c r -> ~ In c (l ++ r).
Proof. intros A B I. apply in_app_or in I. tauto. Qed.

Ltac no_in := repeat (apply not_in_app); try assumption; try tauto; try (cbn; intuition discriminate).

Lemma render_tags_section (l : list (str * str)) :
  l <> [] -> Forall wf_tag l ->
  tag_section (render_tags l) l /\ ~ In " "%byte (render_tags l).
Proof.
  induction l as [|[k v] l IH]; [congruence|]. intros _ F. apply Forall_cons_iff in F as [(K1 & K2 & V1 & V2) F].
  cbn [fst snd] in *. destruct l as [|kv l].
  - cbn [render_tags]. split; [now constructor|].
    no_in.
  - destruct (IH ltac:(discriminate) F) as [A B].
    change (render_tags ((k, v) :: kv :: l)) with (k ++ b "=" ++ v ++ b ";" ++ render_tags (kv :: l)).
    split; [now constructor|].
    no_in.
Qed.

Lemma cut_last_here (c : byte) (l r : str) : ~ In c r -> cut_last c (l ++ [c] ++ r) = Some (l, r).
Proof. intros H. apply cut_last_some. now split. Qed.

Lemma spec_prefix_sender (p : sender) : wf_sender p -> spec_prefix (render_sender p) = sender_prefix p.
Proof.
  unfold spec_prefix. destruct p as [h|n h|n u h]; cbn [wf_sender render_sender sender_prefix]; unfold no_delim;
    change (b "@") with ["@"%byte]; change (b "!") with ["!"%byte].
  - intros (A & B & _). rewrite (proj2 (cut_last_none "@" h) B), (proj2 (cut_last_none "!" h) A). reflexivity.
  - intros ((A & _) & (C & D & _)). rewrite (cut_last_here "@" n h D).
    rewrite (proj2 (cut_last_none "!" (n ++ ["@"%byte] ++ h))).
    2:{ apply not_in_app; [exact A|]. cbn. intuition discriminate. }
    rewrite (proj2 (cut_last_none "!" n) A). reflexivity.
  - intros (_ & (C & _) & (E & F & _)).
    replace (n ++ ["!"%byte] ++ u ++ ["@"%byte] ++ h) with ((n ++ ["!"%byte] ++ u) ++ ["@"%byte] ++ h)
      by (rewrite <- !app_assoc; reflexivity).
    rewrite (cut_last_here "@" (n ++ ["!"%byte] ++ u) h F).
    replace ((n ++ ["!"%byte] ++ u) ++ ["@"%byte] ++ h) with (n ++ ["!"%byte] ++ (u ++ ["@"%byte] ++ h))
      by (rewrite <- !app_assoc; reflexivity).
    rewrite (cut_last_here "!" n (u ++ ["@"%byte] ++ h)).
    2:{ apply not_in_app; [exact C|]. cbn. intuition discriminate. }
    rewrite (cut_last_here "!" n u C). reflexivity.
Qed.

Lemma sender_no_space (p : sender) : wf_sender p -> ~ In " "%byte (render_sender p).
Proof.
  destruct p as [h|n h|n u h]; cbn [wf_sender render_sender]; unfold no_delim; intros H.
  - tauto.
  - apply not_in_app; [tauto|]. cbn. intuition discriminate.
  - apply not_in_app; [tauto|]. apply not_in_app; [cbn; intuition discriminate|].
    apply not_in_app; [tauto|]. cbn. intuition discriminate.
Qed.

Lemma spec_split_prefix_none (s : str) : ~ starts ":" s -> spec_split_prefix s = (None, s).
Proof.
  intros H. destruct s as [|c s]; [reflexivity|]. cbn.
  destruct (byte_eqb_spec c ":") as [->|N]; [|reflexivity]. destruct H. now exists s.
Qed.

Lemma render_view (m : message) :
  wf_message m ->
  spec_view (render m) =
  Some (mk_view (m_tags m) (option_map sender_prefix (m_sender m)) (m_command m) (m_channel m) (m_params m)).
Proof.
  intros (WT & WS & WA & WC & WSP & WH & WP). unfold spec_view, render.
  set (body_ := m_command m ++
    match m_channel m with None => [] | Some c => b " " ++ c end ++
    match m_params m with None => [] | Some p => b " " ++ p end).
  assert (NB : ~ starts ":" (m_command m) -> ~ starts ":" body_).
  { intros K [r E]. unfold body_ in E. destruct (m_command m) as [|c w]; [congruence|].
    injection E as -> _. apply K. now exists w. }
  assert (P : spec_split_prefix
    (match m_sender m with None => [] | Some p => b ":" ++ render_sender p ++ b " " end ++ body_)
    = (option_map sender_prefix (m_sender m), body_)).
  { destruct (m_sender m) as [p|].
    - cbn [option_map app]. pose proof (sender_no_space p WS) as NS.
      replace ((b ":" ++ render_sender p ++ b " ") ++ body_)
        with (":"%byte :: (render_sender p ++ " "%byte :: body_)).
      2:{ rewrite <- !app_assoc. reflexivity. }
      cbn. assert (C : cut " " (render_sender p ++ " "%byte :: body_) = (render_sender p, Some body_))
        by (apply cut_some; auto).
      rewrite C. now rewrite spec_prefix_sender.
    - cbn [app option_map]. apply spec_split_prefix_none. auto. }
  set (rest_ := match m_sender m with None => [] | Some p => b ":" ++ render_sender p ++ b " " end ++ body_) in *.
  assert (T : spec_tags (match m_tags m with [] => [] | l => b "@" ++ render_tags l ++ b " " end ++ rest_)
              = (m_tags m, rest_)).
  { destruct (m_tags m) as [|kv l] eqn:EL.
    - cbn [app]. apply no_section_spec. intros sec rest [E H].
      unfold rest_ in E. destruct (m_sender m) as [p|]; [discriminate|]. cbn [app] in E.
      unfold body_ in E. destruct (m_command m) as [|c w]; [congruence|].
      injection E as -> _. apply WA; auto. now exists w.
    - destruct (render_tags_section (kv :: l)) as [A B]; [discriminate|exact WT|].
      apply (section_spec _ (render_tags (kv :: l)) rest_); [|exact A]. split; [|exact B].
      rewrite <- !app_assoc. reflexivity. }
  rewrite T, P.
  (* the body *)
  unfold body_. clear T P. clear rest_.
  assert (W : cut " " (m_command m ++
    match m_channel m with None => [] | Some c => b " " ++ c end ++
    match m_params m with None => [] | Some p => b " " ++ p end)
    = (m_command m,
       match m_channel m, m_params m with
       | None, None => None
       | Some c, None => Some c
       | None, Some p => Some p
       | Some c, Some p => Some (c ++ b " " ++ p)
       end)).
  { destruct (m_channel m) as [c|], (m_params m) as [p|]; rewrite ?app_nil_r; cbn [app].
    - apply cut_some. split; [now rewrite <- ?app_assoc|exact WSP].
    - apply cut_some. split; [now rewrite ?app_nil_r|exact WSP].
    - apply cut_some. split; [reflexivity|exact WSP].
    - apply cut_none. split; [reflexivity|exact WSP]. }
  rewrite W. destruct (m_command m) as [|w0 w]; [congruence|].
  destruct (m_channel m) as [c|], (m_params m) as [p|]; cbn [or_empty].
  - destruct WH as [[q ->] NS]. cbn [app]. unfold spec_split_channel. cbn [Byte.eqb].
    rewrite byte_eqb_refl.
    assert (C : cut " " ("#"%byte :: q ++ b " " ++ p) = ("#"%byte :: q, Some p)) by (apply cut_some; auto).
    rewrite C. cbn [or_empty]. destruct p; [now destruct WP|reflexivity].
  - destruct WH as [[q ->] NS]. unfold spec_split_channel. rewrite byte_eqb_refl.
    assert (C : cut " " ("#"%byte :: q) = ("#"%byte :: q, None)) by (apply cut_none; auto).
    rewrite C. reflexivity.
  - destruct p as [|x p]; [now destruct WP|]. unfold spec_split_channel.
    destruct (byte_eqb_spec x "#") as [->|N]; [|reflexivity].
    exfalso. apply (WH ("#"%byte :: p)); [reflexivity|]. now exists p.
  - reflexivity.
Qed.

(** C09. Writing a well-formed message and parsing it gives its parts back, in
    every build. *)
Lemma p_c09_parse_render :
  forall (bd : build) (m : message),
    wf_message m -> utf8_valid (render m) = true -> below_4gib (render m) ->
    length (m_tags m) <= 128 -> Forall short_tag (m_tags m) ->
    exists r c, ref_parse bd (render m) = Ret (Some r) /\
      ref_tags r = Ret (m_tags m) /\
      ref_prefix r = Ret (option_map sender_prefix (m_sender m)) /\
      ref_command r = Ret c /\ command_as_str c = m_command m /\
      (m_command m <> b "353" -> m_command m <> b "366" -> ref_channel r = Ret (m_channel m)) /\
      ref_params r = Ret (m_params m).
Proof.
  intros bd m W U S L F. pose proof (render_view m W) as V.
  assert (ET : fst (spec_tags (render m)) = m_tags m).
  { apply view_inv in V as (s1 & s2 & rest & ET & _). now rewrite ET. }
  assert (T : bd = Scalar -> ~ unterminated_tags (render m)).
  { intros _ [[r E] K]. destruct W as (WT & WS & WA & WC & _).
    unfold render in E, K. destruct (m_tags m) as [|kv l].
    - cbn [app] in *. destruct (m_sender m) as [p|]; [discriminate|]. cbn [app] in E.
      destruct (m_command m) as [|c w]; [congruence|]. injection E as -> _. apply WA; auto. now exists w.
    - apply K. rewrite <- !app_assoc. apply in_or_app. right. apply in_or_app. right. apply in_or_app. left. now left. }
  pose proof (parse_cases bd (render m) U S T) as P. rewrite ET in P. specialize (P L).
  rewrite V in P. destruct P as (r & P & Q). exists r, (spec_command (m_command m)).
  pose proof (presents_reads _ r _ U V Q) as R. destruct R as [R1 R2 R3 R4 R5 R6]. cbn [v_prefix v_command v_channel v_params] in *.
  assert (FS : all_short (render m)) by (apply all_short_spec; now rewrite ET).
  destruct (parse_tags bd _ r U S P FS) as [A _]. rewrite ET in A.
  repeat split; auto.
  - apply spec_command_names.
  - intros N1 N2. rewrite R4. unfold spec_channel. cbn [v_command v_channel].
    now rewrite !str_eqb_neq by assumption.
Qed.

Definition sample_message : message :=
  {| m_tags := [(b "id", b "1"); (b "note", b "a=b"); (b "", b "é")];
     m_sender := Some (SFull (b "ni!ck") (b "us@er") (b "host"));
     m_command := b "PRIVMSG"; m_channel := Some (b "#chan"); m_params := Some (b ":hi  #there ") |}.

Example ex_c09 :
  wf_message sample_message /\ utf8_valid (render sample_message) = true /\
  render sample_message = b "@id=1;note=a=b;=é :ni!ck!us@er@host PRIVMSG #chan :hi  #there ".
Proof.
  split; [|split; vm_compute; reflexivity].
  unfold wf_message, sample_message; cbn [m_tags m_sender m_command m_channel m_params].
  split; [repeat constructor; cbn; intuition discriminate|].
  split; [cbn; unfold no_delim; cbn; intuition discriminate|].
  split; [discriminate|]. split; [discriminate|]. split; [cbn; intuition discriminate|].
  split; [split; [eexists; reflexivity|cbn; intuition discriminate]|discriminate].
Qed.

(** ** C10 *)

(** C10. The line is the concatenation of the parts handed out. *)
Lemma p_c10_recomposition :
  forall (bd : build) (s : str) (m : msg_ref),
    utf8_valid s = true -> below_4gib s -> ref_parse bd s = Ret (Some m) ->
    ref_raw m = s /\
    exists sec pt w ch ps c,
      composed s sec pt w ch ps /\ w <> [] /\ ~ In " "%byte w /\
      ref_command m = Ret c /\ command_as_str c = w /\
      ref_params m = Ret ps /\
      (w <> b "353" -> w <> b "366" -> ref_channel m = Ret ch) /\
      (pt = None <-> ref_prefix m = Ret None) /\
      (forall x, pt = Some x -> ref_prefix m = Ret (Some (spec_prefix x))) /\
      (all_short s ->
       match sec with
       | Some x => exists l, tag_section x l /\ ref_tags m = Ret l
       | None => ref_tags m = Ret []
       end).
Proof.
  intros bd s m U S E. destruct (parse_reads bd s m U S E) as (v & V & R).
  split; [apply R|]. pose proof (view_composed s v V) as (sec & pt & C & A & B & N1 & N2 & _).
  exists sec, pt, (v_command v), (v_channel v), (v_params v), (spec_command (v_command v)).
  destruct R as [R1 R2 R3 R4 R5 R6]. split; [exact C|]. split; [exact N1|]. split; [exact N2|]. split; [exact R3|].
  split; [apply spec_command_names|]. split; [exact R5|]. split.
  { intros X Y. rewrite R4. unfold spec_channel. now rewrite !str_eqb_neq by assumption. }
  split; [destruct pt as [x|]|split].
  - destruct B as [_ B]. rewrite R2, B. split; discriminate.
  - rewrite R2, B. tauto.
  - intros x ->. destruct B as [_ B]. now rewrite R2, B.
  - intros F. destruct (parse_tags bd s m U S E F) as [T _].
    apply view_inv in V as (s1 & s2 & rest & ET & _). rewrite ET in T. cbn [fst] in T.
    destruct sec as [x|]; [exists (v_tags v); tauto|]. now rewrite T, A.
Qed.

Lemma span_get_valid (s x : str) (sp : span) :
  utf8_valid s = true -> span_get s sp = Ret x -> infix x s /\ utf8_valid x = true.
Proof. apply slice_valid. Qed.

(** C10. Every string handed out is a valid part of the line (any message value,
    whatever its positions). *)
Lemma p_c10_parts_of_the_line :
  forall (m : msg_ref),
    utf8_valid (ref_raw m) = true ->
    (forall l k v, ref_tags m = Ret l -> In (k, v) l ->
       infix k (ref_raw m) /\ utf8_valid k = true /\ infix v (ref_raw m) /\ utf8_valid v = true) /\
    (forall t v, ref_tag m t = Ret (Some v) -> infix v (ref_raw m) /\ utf8_valid v = true) /\
    (forall p, ref_prefix m = Ret (Some p) ->
       (infix (host p) (ref_raw m) /\ utf8_valid (host p) = true) /\
       (forall x, nick p = Some x -> infix x (ref_raw m) /\ utf8_valid x = true) /\
       (forall x, user p = Some x -> infix x (ref_raw m) /\ utf8_valid x = true)) /\
    (forall w, ref_command m = Ret (Other w) -> infix w (ref_raw m) /\ utf8_valid w = true) /\
    (forall x, ref_channel m = Ret (Some x) -> infix x (ref_raw m) /\ utf8_valid x = true) /\
    (forall x, ref_params m = Ret (Some x) -> infix x (ref_raw m) /\ utf8_valid x = true) /\
    (forall x, ref_text m = Ret (Some x) -> infix x (ref_raw m) /\ utf8_valid x = true).
Proof.
  intros [s [tags pfx cmd ch ps]] U. unfold ref_raw in *. cbn [r_src] in *.
  unfold ref_channel, ref_tags, ref_tag, ref_prefix, ref_command, ref_params, ref_text.
  cbn [r_src r_parts p_tags p_prefix p_command p_channel p_params].
  assert (OG : forall o x, opt_span_get s o = Ret (Some x) -> infix x s /\ utf8_valid x = true).
  { intros [sp|] x; cbn; [|discriminate]. unfold rmap. destruct (span_get s sp) eqn:G; cbn; try discriminate.
    intros [= <-]. now apply span_get_valid in G. }
  split; [|split; [|split; [|split; [|split; [|split]]]]].
  - induction tags as [|p tags IH]; cbn [mapM]; intros l k v E I; [injection E as <-; destruct I|].
    destruct (pair_get s p) as [[k' v']| | |] eqn:G; cbn [bind] in E; try discriminate.
    destruct (mapM (pair_get s) tags) as [ys| | |]; cbn [bind] in E; try discriminate.
    injection E as <-. destruct I as [I|I]; [|now apply (IH ys)]. injection I as -> ->.
    unfold pair_get in G. destruct (pair_key p); cbn [bind] in G; try discriminate.
    destruct (span_get s a) eqn:G1; cbn [bind] in G; try discriminate.
    destruct (pair_value p); cbn [bind] in G; try discriminate.
    destruct (span_get s a1) eqn:G2; cbn [bind] in G; try discriminate. injection G as -> ->.
    apply span_get_valid in G1; auto. apply span_get_valid in G2; auto. tauto.
  - intros t v. induction tags as [|p tags IH]; cbn [tag_find]; [discriminate|].
    destruct (pair_key p); cbn [bind]; try discriminate.
    destruct (span_get s a) eqn:G1; cbn [bind]; try discriminate.
    destruct (str_eqb a0 (tag_as_str t)); [|exact IH].
    destruct (pair_value p); cbn [bind]; try discriminate. unfold rmap.
    destruct (span_get s a1) eqn:G2; cbn [bind]; try discriminate. intros [= ->].
    now apply span_get_valid in G2.
  - intros p. destruct pfx as [rp|]; [|discriminate]. unfold rmap, raw_prefix_get.
    destruct (opt_span_get s (rp_nick rp)) as [n| | |] eqn:G1; cbn [bind]; try discriminate.
    destruct (opt_span_get s (rp_user rp)) as [u| | |] eqn:G2; cbn [bind]; try discriminate.
    destruct (span_get s (rp_host rp)) as [h| | |] eqn:G3; cbn [bind]; try discriminate.
    intros [= <-]. cbn. split; [now apply span_get_valid in G3|]. split; intros x ->; eapply OG; eassumption.
  - intros w E. destruct cmd; cbn in E; try discriminate. unfold rmap in E.
    destruct (span_get s sp) eqn:G; cbn in E; try discriminate. injection E as ->. now apply span_get_valid in G.
  - intros x. assert (NW : forall n, rmap (fun p => opt_bind p (fun p => nth_error (split_whitespace p) n)) (opt_span_get s ps) = Ret (Some x) ->
      infix x s /\ utf8_valid x = true).
    { intros n. unfold rmap. destruct (opt_span_get s ps) as [[p|]| | |] eqn:G; cbn; try discriminate.
      intros [= E]. apply OG in G as [G1 G2]. apply nth_error_In in E.
      apply split_whitespace_infix in E as (E1 & E2 & _); [|exact G2]. split; [|exact E2].
      eapply infix_trans; eassumption. }
    destruct (raw_command_get s cmd) as [c| | |]; cbn [bind]; try discriminate.
    destruct c; intros E; try (eapply OG; exact E); eapply NW; exact E.
  - intros x. apply OG.
  - intros x. destruct ps as [sp|]; [|discriminate].
    destruct (span_get s sp) as [p| | |] eqn:G; cbn [bind]; try discriminate.
    apply span_get_valid in G as [G1 G2]; [|exact U].
    destruct (find_byte ":" p) as [i|]; [|intros [= <-]; auto]. unfold rmap.
    destruct (slice_from p (i + 1)) as [t| | |] eqn:H; cbn [bind]; try discriminate. intros [= <-].
    apply slice_valid in H as [H1 H2]; [|exact G2]. split; [|exact H2]. eapply infix_trans; eassumption.
Qed.

Example ex_c10 :
  composed (b "@id=é :tmi 353 a = #c :x") (Some (b "id=é")) (Some (b "tmi")) (b "353") None (Some (b "a = #c :x")) /\
  composed (b "JOIN #c ") None None (b "JOIN") (Some (b "#c")) None.
Proof.
  split.
  - exists (b " "), []. split; [reflexivity|]. auto.
  - exists (b " "), (b " "). split; [reflexivity|]. split; [auto|]. left. split; [discriminate|auto].
Qed.
