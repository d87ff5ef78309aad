(** * DbgValues: printed numbers, durations and times (proofs). *)

From Coq Require Import Lia ZifyBool ZifyNat ZifyN DecimalN DecimalFacts.
From Verif Require Import Base Common Client SpecMsg SpecDbg SmallProofs Dbg DbgFacts.

Open Scope nat_scope.
Ltac Zify.zify_post_hook ::= Z.to_euclidean_division_equations.

(** ** Numbers *)

Definition digit_byte (c : byte) : bool := (48 <=? Byte.to_N c)%N && (Byte.to_N c <=? 57)%N.

Lemma digits_all (s : str) : Forall is_digit s <-> forallb digit_byte s = true.
Proof.
  rewrite forallb_forall, Forall_forall. unfold is_digit, digit_byte.
  split; intros H c I; apply H in I; lia.
Qed.

Lemma show_N_numeral (n : N) : numeral (show_N n) n.
Proof.
  unfold show_N. split; [|split; [apply show_digits|]].
  - intros E. assert (Hn : N.to_uint n = Decimal.Nil) by (destruct (N.to_uint n); easy).
    destruct n; [discriminate Hn|]. cbn in Hn. now apply DecimalPos.Unsigned.to_uint_nonnil in Hn.
  - now rewrite <- show_value, DecimalN.Unsigned.of_to.
Qed.

Lemma value_snoc (s : str) (c : byte) : value (s ++ [c]) = (10 * value s + (Byte.to_N c - 48))%N.
Proof. unfold value. now rewrite fold_left_app. Qed.

Lemma value_app (s t : str) : value (s ++ t) = (value s * 10 ^ N.of_nat (length t) + value t)%N.
Proof.
  induction t as [|c t IH] using rev_ind; [rewrite app_nil_r; cbn; lia|].
  rewrite app_assoc, !value_snoc, IH, app_length. cbn [length].
  replace (N.of_nat (length t + 1)) with (N.succ (N.of_nat (length t))) by lia. rewrite N.pow_succ_r'. lia.
Qed.

Lemma value_zeros (n : nat) (s : str) : value (repeat "0"%byte n ++ s) = value s.
Proof.
  rewrite value_app. assert (E : value (repeat "0"%byte n) = 0%N); [|rewrite E; lia].
  induction n as [|n IH]; [reflexivity|]. change (repeat "0"%byte (S n)) with (["0"%byte] ++ repeat "0"%byte n).
  rewrite value_app, IH. reflexivity.
Qed.

Lemma digits_numeral (w : nat) (n : N) : numeral (digits w n) n.
Proof.
  destruct (show_N_numeral n) as (NE & D & V). unfold digits. split; [|split].
  - intros E. apply app_eq_nil in E. tauto.
  - apply Forall_app. split; [|exact D]. apply Forall_forall. intros c I. apply repeat_spec in I. subst. unfold is_digit. cbn. lia.
  - now rewrite value_zeros.
Qed.

Lemma numeral_inj (s : str) (n m : N) : numeral s n -> numeral s m -> n = m.
Proof. intros (_ & _ & ->) (_ & _ & ->). reflexivity. Qed.

(** Two numerals before something else. *)
Lemma numeral_span (s t r r' : str) (n m : N) : numeral s n -> numeral t m -> ends digit_byte r -> ends digit_byte r' ->
  s ++ r = t ++ r' -> n = m /\ s = t /\ r = r'.
Proof.
  intros Hs Ht R R' E. destruct Hs as (_ & Ds & ->), Ht as (_ & Dt & ->).
  apply (span digit_byte) in E as [-> ->]; try apply digits_all; auto.
Qed.

Lemma show_N_inj (n m : N) : show_N n = show_N m -> n = m.
Proof. intros E. apply (numeral_inj (show_N n)); [apply show_N_numeral|]. rewrite E. apply show_N_numeral. Qed.

Lemma digit_plain (s : str) : forallb digit_byte s = true -> forallb plain_byte s = true.
Proof.
  rewrite !forallb_forall. intros H c I. apply H in I. destruct c; try discriminate I; reflexivity.
Qed.

Lemma digit_head (c : byte) : digit_byte c = true -> Byte.eqb c "." = false.
Proof. destruct c; intros E; try discriminate E; reflexivity. Qed.

Lemma numeral_word (s t : str) (n : N) : numeral s n -> forallb plain_byte t = true -> word (s ++ t) = true.
Proof.
  intros (NE & D & _) P. apply digits_all in D. destruct s as [|c s]; [easy|].
  change (negb (Byte.eqb c ".") && forallb plain_byte ((c :: s) ++ t) = true).
  rewrite forallb_app, digit_plain, P by exact D. cbn in D. apply andb_prop in D as [D _]. now rewrite digit_head.
Qed.

Lemma wf_u64 (n : N) : wf (dbg_u64 n).
Proof. constructor. rewrite <- (app_nil_r (show_N n)). eapply numeral_word; [apply show_N_numeral|reflexivity]. Qed.

Lemma wf_i64 (z : Z) : wf (dbg_i64 z).
Proof.
  constructor. destruct (z <? 0)%Z; [|rewrite <- (app_nil_r (show_N _)); eapply numeral_word; [apply show_N_numeral|reflexivity]].
  assert (P : forallb plain_byte (show_N (Z.to_N (- z))) = true)
    by (apply digit_plain, digits_all; apply show_N_numeral).
  change (true && (plain_byte "-" && forallb plain_byte (show_N (Z.to_N (- z)))) = true). now rewrite P.
Qed.

Lemma dbg_u64_inj (n m : N) : dbg_u64 n = dbg_u64 m -> n = m.
Proof. intros E. injection E. apply show_N_inj. Qed.

Lemma show_N_head (n : N) : exists c t, show_N n = c :: t /\ digit_byte c = true.
Proof.
  destruct (show_N_numeral n) as (NE & D & _). apply digits_all in D. destruct (show_N n) as [|c t]; [easy|].
  exists c, t. split; [reflexivity|]. cbn in D. now apply andb_prop in D.
Qed.

Lemma dbg_i64_inj (x y : Z) : dbg_i64 x = dbg_i64 y -> x = y.
Proof.
  unfold dbg_i64. intros E. injection E as E.
  destruct (Z.ltb_spec x 0), (Z.ltb_spec y 0).
  - apply (f_equal (@tl byte)) in E. cbn [tl] in E. apply show_N_inj in E. lia.
  - destruct (show_N_head (Z.to_N y)) as (c & t & Ey & D). rewrite Ey in E. injection E as <- _. discriminate D.
  - destruct (show_N_head (Z.to_N x)) as (c & t & Ex & D). rewrite Ex in E. injection E as -> _. discriminate D.
  - apply show_N_inj in E. lia.
Qed.

(** ** Widths *)

Lemma uint_lead (u : Decimal.uint) : (forall v, u <> Decimal.D0 v) -> u <> Decimal.Nil ->
  (10 ^ N.of_nat (length (show_uint u) - 1) <= value (show_uint u))%N.
Proof.
  intros NZ NN.
  assert (K : forall c t, (1 <= Byte.to_N c - 48)%N -> (10 ^ N.of_nat (length (c :: t) - 1) <= value (c :: t))%N).
  { intros c t H. change (c :: t) with ([c] ++ t) at 2. rewrite value_app. cbn [length].
    replace (S (length t) - 1) with (length t) by lia.
    assert (value [c] = Byte.to_N c - 48)%N by (cbn; lia). nia. }
  destruct u; [easy|now destruct (NZ u)|..]; cbn [show_uint]; apply K; cbn; lia.
Qed.

Lemma show_N_length (n : N) (w : nat) : 1 <= w -> (n < 10 ^ N.of_nat w)%N -> length (show_N n) <= w.
Proof.
  intros Hw Hn. destruct (show_N_numeral n) as (NE & _ & V).
  assert (U : N.to_uint n = Decimal.unorm (N.to_uint n)).
  { rewrite <- (DecimalN.Unsigned.of_to n) at 1. apply DecimalN.Unsigned.to_of. }
  destruct (Nat.le_gt_cases (length (show_N n)) w) as [L|L]; [exact L|exfalso].
  destruct (Decimal.nzhead (N.to_uint n)) eqn:Z.
  { unfold Decimal.unorm in U. rewrite Z in U. unfold show_N in L. rewrite U in L. cbn in L. lia. }
  1: now apply nzhead_nonzero in Z.
  all: assert (B : (10 ^ N.of_nat (length (show_N n) - 1) <= n)%N);
    [ unfold Decimal.unorm in U; rewrite Z in U; rewrite V at 2; unfold show_N; rewrite U;
      apply uint_lead; easy
    | assert (P : (10 ^ N.of_nat w <= 10 ^ N.of_nat (length (show_N n) - 1))%N) by (apply N.pow_le_mono_r; lia); lia ].
Qed.

Lemma digits_length (w : nat) (n : N) : 1 <= w -> (n < 10 ^ N.of_nat w)%N -> length (digits w n) = w.
Proof. intros Hw Hn. apply show_N_length in Hn; [|exact Hw]. unfold digits. rewrite app_length, repeat_length. lia. Qed.

Lemma digits_min (w : nat) (n : N) : w <= length (digits w n).
Proof. unfold digits. rewrite app_length, repeat_length. lia. Qed.

Lemma digits_padded (w : nat) (n : Z) : 1 <= w -> (0 <= n < 10 ^ Z.of_nat w)%Z -> padded w (digits w (Z.to_N n)) n.
Proof.
  intros Hw Hn. split; [|split; [apply digits_numeral|apply Hn]]. apply digits_length; [exact Hw|].
  apply N2Z.inj_lt. rewrite N2Z.inj_pow, nat_N_Z. cbn. rewrite Z2N.id; lia.
Qed.

(** ** Durations *)

Fixpoint strip (r : str) : str := match r with x30 :: r' => strip r' | _ => r end.

Lemma trim_strip (s : str) : trim_zeros s = rev (strip (rev s)).
Proof. reflexivity. Qed.

Lemma strip_spec (r : str) : exists k, r = repeat "0"%byte k ++ strip r.
Proof.
  induction r as [|c r [k IH]]; [exists 0; reflexivity|].
  destruct (Byte.eqb c "0") eqn:E.
  - apply Byte.byte_dec_bl in E. subst c. exists (S k). cbn. now f_equal.
  - exists 0. destruct c; try reflexivity. discriminate E.
Qed.

Lemma trim_spec (s : str) : exists k, s = trim_zeros s ++ repeat "0"%byte k.
Proof.
  rewrite trim_strip. destruct (strip_spec (rev s)) as [k E]. exists k.
  rewrite <- (rev_involutive s) at 1. rewrite E at 1. rewrite rev_app_distr. f_equal.
  clear E. induction k as [|k IH]; [reflexivity|]. cbn. rewrite IH. clear IH.
  induction k as [|k IH]; [reflexivity|]. cbn. now rewrite IH.
Qed.

Lemma trim_inj (s t : str) : length s = length t -> trim_zeros s = trim_zeros t -> s = t.
Proof.
  intros L E. destruct (trim_spec s) as [k Es], (trim_spec t) as [j Et]. rewrite E in Es.
  pose proof (f_equal (@length _) Es) as Ls. pose proof (f_equal (@length _) Et) as Lt.
  rewrite app_length, repeat_length in Ls, Lt. assert (k = j) by lia. congruence.
Qed.

Lemma trim_digits (s : str) : Forall is_digit s -> Forall is_digit (trim_zeros s).
Proof. destruct (trim_spec s) as [k E]. intros D. rewrite E in D. now apply Forall_app in D. Qed.

(** How a unit begins. *)
Definition unit_text (u : str) : Prop := In u [b "s"; b "ms"; b "µs"; b "ns"].

Lemma decimal_inj (i i' f f' : N) (w w' : nat) (u u' : str) : unit_text u -> unit_text u' ->
  (u = u' -> w = w') -> 1 <= w -> 1 <= w' -> (f < 10 ^ N.of_nat w)%N -> (f' < 10 ^ N.of_nat w')%N ->
  decimal i f w u = decimal i' f' w' u' -> i = i' /\ f = f' /\ u = u'.
Proof.
  intros U U' WW Hw Hw' F F' E. unfold decimal in E.
  assert (UE : forall v, unit_text v -> ends digit_byte v /\ forall r, v <> "."%byte :: r).
  { intros v I. unfold unit_text in I. cbn in I. repeat destruct I as [<-|I]; try easy; split; reflexivity || discriminate. }
  apply numeral_span with (n := i) (m := i') in E as (-> & _ & E); try apply show_N_numeral.
  2: destruct (f =? 0)%N; [now apply UE|reflexivity].
  2: destruct (f' =? 0)%N; [now apply UE|reflexivity].
  split; [reflexivity|].
  destruct (N.eqb_spec f 0) as [->|Nf], (N.eqb_spec f' 0) as [->|Nf']; cbn [app] in E.
  - auto.
  - now apply UE in E.
  - symmetry in E. now apply UE in E.
  - injection E as E. apply (span digit_byte) in E as [E ->];
      [|apply digits_all, trim_digits, digits_numeral|apply digits_all, trim_digits, digits_numeral|now apply UE|now apply UE].
    rewrite (WW eq_refl) in *. split; [|reflexivity]. apply trim_inj in E; [|rewrite !digits_length; auto].
    apply (numeral_inj (digits w' f)); [apply digits_numeral|]. rewrite E. apply digits_numeral.
Qed.

Lemma decimal_word (i f : N) (w : nat) (u : str) : unit_text u -> word (decimal i f w u) = true.
Proof.
  intros U. unfold decimal. eapply numeral_word; [apply show_N_numeral|]. rewrite forallb_app.
  assert (PU : forallb plain_byte u = true).
  { unfold unit_text in U. cbn in U. repeat destruct U as [<-|U]; easy. }
  rewrite PU, andb_true_r. destruct (f =? 0)%N; [reflexivity|]. rewrite forallb_app.
  cbn [forallb b list_byte_of_string]. apply digit_plain, digits_all, trim_digits, digits_numeral.
Qed.

Lemma duration_inj (a c x y : N) : (x < 1000000000)%N -> (y < 1000000000)%N ->
  duration_debug a x = duration_debug c y -> a = c /\ x = y.
Proof.
  intros Hx Hy E. unfold duration_debug in E.
  assert (U1 : unit_text (b "s")) by (unfold unit_text; cbn; auto).
  assert (U2 : unit_text (b "ms")) by (unfold unit_text; cbn; auto).
  assert (U3 : unit_text (b "µs")) by (unfold unit_text; cbn; auto).
  assert (U4 : unit_text (b "ns")) by (unfold unit_text; cbn; auto).
  assert (P : (10 ^ N.of_nat 9 = 1000000000 /\ 10 ^ N.of_nat 6 = 1000000 /\ 10 ^ N.of_nat 3 = 1000 /\ 10 ^ N.of_nat 1 = 10)%N)
    by (repeat split; reflexivity).
  destruct P as (P9 & P6 & P3 & P1).
  destruct (N.ltb_spec 0 a), (N.ltb_spec 0 c), (N.leb_spec 1000000 x), (N.leb_spec 1000000 y),
    (N.leb_spec 1000 x), (N.leb_spec 1000 y); try lia;
  (apply decimal_inj in E as (E1 & E2 & E3);
   [try discriminate E3; lia | auto | auto | (intros K; discriminate K) || reflexivity | lia | lia
    | first [rewrite P9 | rewrite P6 | rewrite P3 | rewrite P1]; lia
    | first [rewrite P9 | rewrite P6 | rewrite P3 | rewrite P1]; lia ]).
Qed.

Lemma duration_word (a x : N) : word (duration_debug a x) = true.
Proof.
  unfold duration_debug. repeat match goal with |- context [if ?c then _ else _] => destruct c end;
    apply decimal_word; unfold unit_text; cbn; auto.
Qed.

Lemma wf_secs (n : N) : wf (dbg_secs n).
Proof. constructor. apply duration_word. Qed.
Lemma wf_nanos (n : N) : wf (dbg_nanos n).
Proof. constructor. apply duration_word. Qed.
Lemma dbg_secs_inj (n m : N) : dbg_secs n = dbg_secs m -> n = m.
Proof. intros E. injection E as E. apply duration_inj in E; lia. Qed.
Lemma dbg_nanos_inj (n m : N) : dbg_nanos n = dbg_nanos m -> n = m.
Proof. intros E. injection E as E. apply duration_inj in E; lia. Qed.

(** ** Dates *)

Open Scope Z_scope.

Definition shift (e : Z) (x : date) : date := let '(y, m, d) := x in (y + 400 * e, m, d).

Lemma civil_era (e k : Z) : civil (k + 146097 * e) = shift e (civil k).
Proof.
  unfold civil. replace (k + 146097 * e + 719468) with (k + 719468 + e * 146097) by lia.
  rewrite Z.div_add, Z.mod_add by lia. cbn [shift]. f_equal. f_equal. lia.
Qed.

Lemma leap_era (e y : Z) : leap (y + 400 * e) = leap y.
Proof.
  unfold leap. replace (y + 400 * e) with (y + e * 400) by lia. rewrite Z.mod_add by lia.
  replace (y + e * 400) with (y + (100 * e) * 4) by lia. rewrite Z.mod_add by lia.
  replace (y + 100 * e * 4) with (y + (4 * e) * 100) by lia. rewrite Z.mod_add by lia. reflexivity.
Qed.

Lemma month_era (e y m : Z) : month_days (y + 400 * e) m = month_days y m.
Proof. unfold month_days. now rewrite leap_era. Qed.

Lemma next_era (e : Z) (x : date) : next_day (shift e x) = shift e (next_day x).
Proof.
  destruct x as [[y m] d]. unfold next_day, shift. rewrite month_era.
  destruct (d <? month_days y m); [reflexivity|]. destruct (m <? 12); [reflexivity|]. f_equal. f_equal. lia.
Qed.

Definition date_eqb (x y : date) : bool :=
  let '(a, c, d) := x in let '(a', c', d') := y in (a =? a') && (c =? c') && (d =? d').

(** [x] is the date of the day [k], and [x'] that of the next. *)
Definition good_day (x x' : date) : bool :=
  let '(y, m, d) := x in
  date_eqb x' (next_day x) && (1 <=? m) && (m <=? 12) && (1 <=? d) && (d <=? month_days y m).

Fixpoint good_days (fuel : nat) (k : Z) (x : date) : bool :=
  match fuel with
  | O => true
  | S f => let x' := civil (k + 1) in good_day x x' && good_days f (k + 1) x'
  end.

Lemma good_days_all (fuel : nat) : forall k, good_days fuel k (civil k) = true ->
  forall i, k <= i < k + Z.of_nat fuel -> good_day (civil i) (civil (i + 1)) = true.
Proof.
  induction fuel as [|f IH]; intros k G i R; [lia|]. cbn [good_days] in G. apply andb_prop in G as [G1 G2].
  destruct (Z.eq_dec i k) as [->|NE]; [exact G1|]. apply (IH (k + 1)); [exact G2|lia].
Qed.

(** The days of one period of the calendar. *)
Lemma one_era : good_days (Z.to_nat 146097) 0 (civil 0) = true.
Proof. vm_cast_no_check (eq_refl true). Qed.

Lemma civil_next (k : Z) : civil (k + 1) = next_day (civil k) /\ is_date (civil k).
Proof.
  set (i := k mod 146097). set (e := k / 146097).
  assert (Ek : k = i + 146097 * e) by (unfold i, e; pose proof (Z.div_mod k 146097); lia).
  assert (Ri : 0 <= i < 146097) by (unfold i; apply Z.mod_pos_bound; lia).
  pose proof (good_days_all _ _ one_era i) as G. rewrite Z2Nat.id in G by lia. specialize (G ltac:(lia)).
  unfold good_day in G.
  rewrite Ek. replace (i + 146097 * e + 1) with (i + 1 + 146097 * e) by lia. rewrite !civil_era, next_era.
  destruct (civil i) as [[y m] d] eqn:Ci. unfold date_eqb in G.
  destruct (civil (i + 1)) as [[y1 m1] d1]. destruct (next_day (y, m, d)) as [[y2 m2] d2].
  assert (R : y1 = y2 /\ m1 = m2 /\ d1 = d2 /\ 1 <= m <= 12 /\ 1 <= d <= month_days y m) by lia.
  destruct R as (-> & -> & -> & R1 & R2). split; [reflexivity|]. unfold shift, is_date. rewrite month_era. auto.
Qed.

Lemma civil_calendar (k : Z) : calendar k (civil k).
Proof.
  assert (P : forall n : nat, calendar (Z.of_nat n) (civil (Z.of_nat n))).
  { induction n as [|n IH]; [exact epoch|]. replace (Z.of_nat (S n)) with (Z.of_nat n + 1) by lia.
    rewrite (proj1 (civil_next _)). now constructor. }
  assert (N : forall n : nat, calendar (- Z.of_nat n) (civil (- Z.of_nat n))).
  { induction n as [|n IH]; [exact epoch|]. replace (- Z.of_nat (S n)) with (- Z.of_nat n - 1) by lia.
    destruct (civil_next (- Z.of_nat n - 1)) as [E D]. apply day_before; [exact D|]. rewrite <- E.
    now replace (- Z.of_nat n - 1 + 1) with (- Z.of_nat n) by lia. }
  destruct (Z.le_gt_cases 0 k) as [H|H].
  - rewrite <- (Z2Nat.id k H). apply P.
  - replace k with (- Z.of_nat (Z.to_nat (- k))) by lia. apply N.
Qed.

(** The dates go up. *)
Definition key (x : date) : Z := let '(y, m, d) := x in 372 * y + 31 * m + d.

Lemma month_max (y m : Z) : month_days y m <= 31.
Proof. unfold month_days. repeat match goal with |- context [if ?c then _ else _] => destruct c end; lia. Qed.

Lemma key_next (x : date) : is_date x -> key x < key (next_day x).
Proof.
  destruct x as [[y m] d]. cbn [is_date]. intros [M D]. pose proof (month_max y m). unfold next_day.
  destruct (Z.ltb_spec d (month_days y m)); [unfold key; lia|]. destruct (Z.ltb_spec m 12); unfold key; lia.
Qed.

Lemma key_civil (k : Z) (n : nat) : key (civil k) + Z.of_nat n <= key (civil (k + Z.of_nat n)).
Proof.
  induction n as [|n IH]; [rewrite !Z.add_0_r; lia|]. replace (k + Z.of_nat (S n)) with (k + Z.of_nat n + 1) by lia.
  destruct (civil_next (k + Z.of_nat n)) as [E D]. apply key_next in D. rewrite <- E in D. lia.
Qed.

Lemma civil_inj (i k : Z) : civil i = civil k -> i = k.
Proof.
  assert (K : forall a c, a < c -> civil a <> civil c).
  { intros a c H E. pose proof (key_civil a (Z.to_nat (c - a))) as Q. rewrite Z2Nat.id in Q by lia.
    replace (a + (c - a)) with c in Q by lia. rewrite E in Q. lia. }
  intros E. destruct (Z.lt_trichotomy i k) as [H|[H|H]]; [|exact H|]; apply K in H; congruence.
Qed.

(** ** Times *)

Lemma year_inj (y y' : Z) (r r' : str) : ends digit_byte r -> ends digit_byte r' ->
  year_debug y ++ r = year_debug y' ++ r' -> y = y' /\ r = r'.
Proof.
  intros R R' E. unfold year_debug in E.
  assert (H4 : forall n, exists c t, digits 4 n = c :: t /\ digit_byte c = true).
  { intros n. destruct (digits_numeral 4 n) as (NE & D & _). apply digits_all in D. destruct (digits 4 n) as [|c t]; [easy|].
    exists c, t. cbn in D. apply andb_prop in D as [D _]. auto. }
  assert (Sg : forall n t (z : bool) q, digits 4 n ++ t = (if z then b "-" else b "+") ++ q -> False).
  { intros n t z q Q. destruct (H4 n) as (c & s & En & D). rewrite En in Q. destruct z; injection Q as -> _; discriminate D. }
  destruct ((0 <=? y) && (y <=? 9999)) eqn:Y, ((0 <=? y') && (y' <=? 9999)) eqn:Y'.
  - apply numeral_span with (n := Z.to_N y) (m := Z.to_N y') in E as (E & _ & ->); auto using digits_numeral. split; [lia|reflexivity].
  - rewrite <- app_assoc in E. now apply Sg in E.
  - symmetry in E. rewrite <- app_assoc in E. now apply Sg in E.
  - rewrite <- !app_assoc in E. destruct (Z.ltb_spec y 0), (Z.ltb_spec y' 0); try discriminate E;
      apply app_inv_head in E;
      (apply numeral_span with (n := Z.to_N (Z.abs y)) (m := Z.to_N (Z.abs y')) in E as (E & _ & ->);
       auto using digits_numeral; split; [lia|reflexivity]).
Qed.

Lemma time_parts (t : N) :
  (t = t / 3600000 * 3600000 + t / 60000 mod 60 * 60000 + t / 1000 mod 60 * 1000 + t mod 1000)%N.
Proof.
  change 3600000%N with (1000 * 60 * 60)%N. change 60000%N with (1000 * 60)%N. rewrite <- !N.div_div by lia.
  generalize (N.div_mod' t 1000) (N.div_mod' (t / 1000) 60) (N.div_mod' (t / 1000 / 60) 60).
  clear. intros. lia.
Qed.

Lemma time_inj (i k : Z) : time_debug i = time_debug k -> i = k.
Proof.
  unfold time_debug. intros E.
  destruct (civil (i / 86400000)) as [[y m] d] eqn:Ci. destruct (civil (k / 86400000)) as [[y' m'] d'] eqn:Ck.
  assert (Di : is_date (civil (i / 86400000))) by apply civil_next.
  assert (Dk : is_date (civil (k / 86400000))) by apply civil_next.
  rewrite Ci in Di. rewrite Ck in Dk. cbn [is_date] in Di, Dk.
  set (t := Z.to_N (i mod 86400000)) in *. set (u := Z.to_N (k mod 86400000)) in *.
  assert (Ht : (t < 86400000)%N) by (unfold t; lia). assert (Hu : (u < 86400000)%N) by (unfold u; lia).
  apply year_inj in E as [-> E]; try reflexivity. apply app_inv_head in E.
  apply numeral_span with (n := Z.to_N m) (m := Z.to_N m') in E as (Em & _ & E); auto using digits_numeral; try reflexivity.
  apply app_inv_head in E.
  apply numeral_span with (n := Z.to_N d) (m := Z.to_N d') in E as (Ed & _ & E); auto using digits_numeral; try reflexivity.
  apply app_inv_head in E.
  apply numeral_span with (n := (t / 3600000)%N) (m := (u / 3600000)%N) in E as (E1 & _ & E); auto using digits_numeral; try reflexivity.
  apply app_inv_head in E.
  apply numeral_span with (n := (t / 60000 mod 60)%N) (m := (u / 60000 mod 60)%N) in E as (E2 & _ & E); auto using digits_numeral; try reflexivity.
  apply app_inv_head in E.
  apply numeral_span with (n := (t / 1000 mod 60)%N) (m := (u / 1000 mod 60)%N) in E as (E3 & _ & E); auto using digits_numeral.
  2: destruct (t mod 1000 =? 0)%N; reflexivity.
  2: destruct (u mod 1000 =? 0)%N; reflexivity.
  assert (E4 : (t mod 1000 = u mod 1000)%N).
  { destruct (N.eqb_spec (t mod 1000) 0) as [Z1|Z1], (N.eqb_spec (u mod 1000) 0) as [Z2|Z2].
    - congruence.
    - discriminate E.
    - discriminate E.
    - rewrite <- !app_assoc in E. apply app_inv_head in E.
      apply numeral_span with (n := (t mod 1000)%N) (m := (u mod 1000)%N) in E as (E4 & _ & E); auto using digits_numeral; reflexivity. }
  assert (Em' : m = m') by lia. assert (Ed' : d = d') by lia. subst m' d'.
  assert (EK : i / 86400000 = k / 86400000) by (apply civil_inj; congruence).
  assert (ET : t = u).
  { rewrite (time_parts t), (time_parts u). congruence. }
  unfold t, u in ET. clear - EK ET. lia.
Qed.

Lemma dbg_time_inj (i k : Z) : dbg_time i = dbg_time k -> i = k.
Proof. intros E. apply time_inj. exact (f_equal (fun d => match d with DPlain s => s | _ => [] end) E). Qed.

Lemma time_debug_text (ms : Z) : time_text ms (time_debug ms).
Proof.
  unfold time_debug. destruct (civil (ms / 86400000)) as [[y m] d] eqn:C.
  pose proof (civil_calendar (ms / 86400000)) as K. assert (D : is_date (civil (ms / 86400000))) by apply civil_next.
  rewrite C in K, D. cbn [is_date] in D. pose proof (month_max y m).
  set (t := ms mod 86400000). assert (Ht : 0 <= t < 86400000) by (unfold t; lia).
  exists y, m, d, (t / 3600000), (t / 60000 mod 60), (t / 1000 mod 60), (t mod 1000).
  do 7 eexists. split; [exact K|].
  split; [lia|]. split; [lia|]. split; [lia|]. split; [lia|]. split; [clear - Ht; lia|].
  split; [|split; [|split; [|split; [|split; [|split; [|split; [|reflexivity]]]]]]].
  - unfold year_text, year_debug. destruct ((0 <=? y) && (y <=? 9999)) eqn:Y.
    + left. split; [lia|]. apply digits_padded; cbn; lia.
    + right. destruct (Z.ltb_spec y 0).
      * eexists "-"%byte, _. split; [reflexivity|]. split; [apply digits_min|]. split; [apply digits_numeral|]. left. split; [lia|reflexivity].
      * eexists "+"%byte, _. split; [reflexivity|]. split; [apply digits_min|]. split; [apply digits_numeral|]. right. split; [lia|reflexivity].
  - apply digits_padded; cbn; lia.
  - apply digits_padded; cbn; lia.
  - replace (Z.to_N t / 3600000)%N with (Z.to_N (t / 3600000)) by lia. apply digits_padded; cbn; lia.
  - replace (Z.to_N t / 60000 mod 60)%N with (Z.to_N (t / 60000 mod 60)) by lia. apply digits_padded; cbn; lia.
  - replace (Z.to_N t / 1000 mod 60)%N with (Z.to_N (t / 1000 mod 60)) by lia. apply digits_padded; cbn; lia.
  - unfold millis_text. destruct (N.eqb_spec (Z.to_N t mod 1000) 0); [left; split; [lia|reflexivity]|].
    right. split; [lia|]. exists (digits 3 (Z.to_N t mod 1000)). split; [reflexivity|].
    replace (Z.to_N t mod 1000)%N with (Z.to_N (t mod 1000)) by lia. apply digits_padded; cbn; lia.
Qed.

Lemma time_word (ms : Z) : word (time_debug ms) = true.
Proof.
  unfold time_debug. destruct (civil (ms / 86400000)) as [[y m] d].
  set (q := (b "-" ++ _)).
  assert (DP : forall w n, forallb plain_byte (digits w n) = true).
  { intros w n. apply digit_plain, digits_all. apply digits_numeral. }
  assert (Q : forallb plain_byte q = true).
  { unfold q. rewrite !forallb_app, !DP. destruct (Z.to_N (ms mod 86400000) mod 1000 =? 0)%N; [reflexivity|].
    rewrite forallb_app, DP. reflexivity. }
  unfold year_debug. destruct ((0 <=? y) && (y <=? 9999)).
  - eapply numeral_word; [apply digits_numeral|exact Q].
  - assert (H : forall c : byte, plain_byte c = true -> Byte.eqb c "." = false -> word ((c :: digits 4 (Z.to_N (Z.abs y))) ++ q) = true).
    { intros c P N. cbn [word app]. rewrite N. cbn [forallb negb andb]. now rewrite P, forallb_app, DP, Q. }
    destruct (y <? 0); apply H; reflexivity.
Qed.

Lemma wf_time (ms : Z) : wf (dbg_time ms).
Proof. constructor. apply time_word. Qed.
