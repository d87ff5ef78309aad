(** * FieldFacts: the field parsers of src/msg.rs meet their specifications. *)

From Coq Require Import Lia ZifyBool ZifyNat ZifyN.
From Verif Require Import Base Tags Irc SpecIrc MsgBase MsgTypes MsgNotice SpecMsg.
From Verif Require Import BaseFacts SimdFacts IrcFacts Utf8Facts IrcProofs LineProofs.

(** ** Numbers *)

Definition value_from (acc : N) (ds : str) : N :=
  fold_left (fun acc c => 10 * acc + (Byte.to_N c - 48))%N ds acc.

Lemma value_from_ge (ds : str) : forall acc, (acc <= value_from acc ds)%N.
Proof.
  induction ds as [|c ds IH]; intros acc; cbn [value_from fold_left]; [lia|].
  specialize (IH (10 * acc + (Byte.to_N c - 48))%N). unfold value_from in IH. lia.
Qed.

Lemma digit_some (c : byte) (d : N) : digit c = Some d <-> is_digit c /\ d = (Byte.to_N c - 48)%N.
Proof.
  unfold digit, in_range, is_digit.
  destruct ((48 <=? Byte.to_N c)%N && (Byte.to_N c <=? 57)%N) eqn:E.
  - split; [intros [= <-]; split; [lia|reflexivity]|]. intros [_ ->]. reflexivity.
  - split; [discriminate|]. intros [H _]. lia.
Qed.

Lemma digits_u_spec (max : N) (s : str) : forall (acc n : N), (acc <= max)%N ->
  (digits_u max acc s = Some n <-> Forall is_digit s /\ n = value_from acc s /\ (n <= max)%N).
Proof.
  induction s as [|c s IH]; intros acc n H; cbn [digits_u].
  - split; [intros [= <-]; repeat split; auto|]. intros (_ & -> & _). reflexivity.
  - destruct (digit c) as [d|] eqn:E.
    + apply digit_some in E as [E ->]. pose proof (value_from_ge s (10 * acc + (Byte.to_N c - 48))%N) as G.
      destruct (N.ltb_spec max (acc * 10)) as [L|L].
      * split; [discriminate|]. intros (_ & -> & K). cbn [value_from fold_left] in *. unfold value_from in *. lia.
      * destruct (N.ltb_spec max (acc * 10 + (Byte.to_N c - 48))) as [L'|L'].
        -- split; [discriminate|]. intros (_ & -> & K). cbn [value_from fold_left] in *. unfold value_from in *. lia.
        -- rewrite IH by lia. cbn [value_from fold_left].
           replace (acc * 10 + (Byte.to_N c - 48))%N with (10 * acc + (Byte.to_N c - 48))%N by lia.
           split; [intros (A & B & C)|intros (A & B & C)]; repeat split; auto. now inversion A.
    + split; [discriminate|]. intros (A & _). inversion A as [|x l D]; subst.
      exfalso. assert (K : digit c = Some (Byte.to_N c - 48)%N) by now apply digit_some. congruence.
Qed.

Lemma not_digit_plus : ~ is_digit "+"%byte.
Proof. unfold is_digit. cbn. lia. Qed.
Lemma not_digit_minus : ~ is_digit "-"%byte.
Proof. unfold is_digit. cbn. lia. Qed.

Lemma parse_uint_spec (max : N) (s : str) (n : N) :
  parse_uint max s = Some n <-> unsigned max s n.
Proof.
  unfold parse_uint, unsigned, numeral. destruct s as [|c r].
  - split; [discriminate|]. intros (ds & [<-|E] & ([] & _) & _); [reflexivity|discriminate].
  - destruct (byte_eqb_spec c "+") as [->|NP]; [|destruct (byte_eqb_spec c "-") as [->|NM]].
    + destruct r as [|c' r].
      * split; [discriminate|]. intros (ds & [<-|E] & (A & B & _) & _).
        -- inversion B as [|x l D]. now destruct not_digit_plus.
        -- injection E as <-. now destruct A.
      * rewrite digits_u_spec by lia. split.
        -- intros (A & -> & B). exists (c' :: r). repeat split; auto. discriminate.
        -- intros (ds & [<-|E] & (A & B & ->) & C).
           ++ inversion B as [|x l D]. now destruct not_digit_plus.
           ++ injection E as <-. repeat split; auto.
    + split; [discriminate|]. intros (ds & [<-|E] & (A & B & ->) & C).
      * inversion B as [|x l D]. now destruct not_digit_minus.
      * discriminate.
    + rewrite digits_u_spec by lia. split.
      * intros (A & -> & B). exists (c :: r). repeat split; auto. discriminate.
      * intros (ds & [<-|E] & (A & B & ->) & C).
        -- repeat split; auto.
        -- injection E as -> _. congruence.
Qed.

Lemma parse_u8_spec (s : str) (n : N) : parse_u8 s = Some n <-> is_u8 s n.
Proof. apply parse_uint_spec. Qed.

Lemma parse_u64_spec (s : str) (n : N) : parse_u64 s = Some n <-> is_u64 s n.
Proof. apply parse_uint_spec. Qed.

Lemma digits_neg_spec (min : Z) (s : str) : forall (acc : N) (z : Z), (min <= - Z.of_N acc)%Z ->
  (digits_neg min (- Z.of_N acc) s = Some z <->
   Forall is_digit s /\ z = (- Z.of_N (value_from acc s))%Z /\ (min <= z)%Z).
Proof.
  induction s as [|c s IH]; intros acc n H; cbn [digits_neg].
  - split; [intros [= <-]; repeat split; auto|]. intros (_ & -> & _). reflexivity.
  - destruct (digit c) as [d|] eqn:E.
    + apply digit_some in E as [E ->]. pose proof (value_from_ge s (10 * acc + (Byte.to_N c - 48))%N) as G.
      destruct (Z.ltb_spec (- Z.of_N acc * 10) min) as [L|L].
      * split; [discriminate|]. intros (_ & -> & K). cbn [value_from fold_left] in *. unfold value_from in *. lia.
      * destruct (Z.ltb_spec (- Z.of_N acc * 10 - Z.of_N (Byte.to_N c - 48)) min) as [L'|L'].
        -- split; [discriminate|]. intros (_ & -> & K). cbn [value_from fold_left] in *. unfold value_from in *. lia.
        -- replace (- Z.of_N acc * 10 - Z.of_N (Byte.to_N c - 48))%Z
             with (- Z.of_N (10 * acc + (Byte.to_N c - 48)))%Z by lia.
           rewrite IH by lia. cbn [value_from fold_left].
           split; [intros (A & B & C)|intros (A & B & C)]; repeat split; auto. now inversion A.
    + split; [discriminate|]. intros (A & _). inversion A as [|x l D]; subst.
      exfalso. assert (K : digit c = Some (Byte.to_N c - 48)%N) by now apply digit_some. congruence.
Qed.

Lemma option_map_some {A B : Type} (f : A -> B) (o : option A) (y : B) :
  option_map f o = Some y <-> exists x, o = Some x /\ y = f x.
Proof.
  destruct o as [x|]; cbn; split.
  - intros [= <-]. eauto.
  - intros (z & [= ->] & ->). reflexivity.
  - discriminate.
  - intros (z & [=] & _).
Qed.

Lemma parse_i64_spec (s : str) (z : Z) : parse_i64 s = Some z <-> is_i64 s z.
Proof.
  unfold parse_i64, is_i64, signed, numeral. change (- 2 ^ 63)%Z with i64_min. change (2 ^ 63 - 1)%Z with i64_max.
  assert (M : forall r n, digits_u (Z.to_N i64_max) 0 r = Some n <->
              Forall is_digit r /\ n = value r /\ (Z.of_N n <= i64_max)%Z).
  { intros r n. rewrite digits_u_spec by lia. change (value_from 0 r) with (value r).
    unfold i64_max. split; intros (A & B & C); repeat split; auto; lia. }
  assert (LE : forall n, (i64_min <= Z.of_N n)%Z) by (unfold i64_min; lia).
  destruct s as [|c r].
  - split; [discriminate|].
    intros (ds & n & (A & B & _) & [[[<-|E] _]|[E _]] & _); [now destruct A|discriminate|discriminate].
  - destruct (byte_eqb_spec c "+") as [->|NP]; [|destruct (byte_eqb_spec c "-") as [->|NM]].
    + destruct r as [|c' r].
      * split; [discriminate|]. intros (ds & n & (A & B & _) & [[[<-|E] _]|[E _]] & _).
        -- inversion B as [|x l D]. now destruct not_digit_plus.
        -- injection E as <-. now destruct A.
        -- discriminate.
      * rewrite option_map_some. split.
        -- intros (n & K & ->). apply M in K as (A & B & C). exists (c' :: r), n.
           repeat split; auto. discriminate.
        -- intros (ds & n & (A & B & C) & [[[<-|E] ->]|[E _]] & K1 & K2).
           ++ inversion B as [|x l D]. now destruct not_digit_plus.
           ++ injection E as <-. exists n. split; [apply M|]; auto.
           ++ discriminate.
    + destruct r as [|c' r].
      * split; [discriminate|]. intros (ds & n & (A & B & _) & [[[<-|E] _]|[E _]] & _).
        -- inversion B as [|x l D]. now destruct not_digit_minus.
        -- discriminate.
        -- injection E as <-. now destruct A.
      * change 0%Z with (- Z.of_N 0)%Z. rewrite digits_neg_spec by (unfold i64_min; lia).
        change (value_from 0 (c' :: r)) with (value (c' :: r)). split.
        -- intros (A & B & C). exists (c' :: r), (value (c' :: r)).
           repeat split; auto; [discriminate|]. unfold i64_max. lia.
        -- intros (ds & n & (A & B & C) & [[[<-|E] _]|[E ->]] & K1 & K2).
           ++ inversion B as [|x l D]. now destruct not_digit_minus.
           ++ discriminate.
           ++ injection E as <-. subst n. repeat split; auto.
    + rewrite option_map_some. split.
      * intros (n & K & ->). apply M in K as (A & B & C). exists (c :: r), n.
        repeat split; auto. discriminate.
      * intros (ds & n & (A & B & C) & [[[<-|E] ->]|[E _]] & K1 & K2).
        -- exists n. split; [apply M|]; auto.
        -- injection E as -> _. congruence.
        -- injection E as -> _. congruence.
Qed.

Lemma timestamp_range (ms : Z) (r : Z) :
  timestamp_millis_opt ms = Some r <->
  r = ms /\ (-8334601228800000 <= ms <= 8210266876799999)%Z.
Proof.
  unfold timestamp_millis_opt.
  change (days_before_year 1970) with 719162%Z. change (days_before_year (-262143)) with (-95746130)%Z.
  change (days_before_year 262143) with 95745399%Z.
  rewrite Z.div_div by lia. change (1000 * 86400)%Z with 86400000%Z.
  pose proof (Z.div_mod ms 86400000 ltac:(lia)) as D. pose proof (Z.mod_pos_bound ms 86400000 ltac:(lia)) as B.
  set (q := (ms / 86400000)%Z) in *. set (k := (ms mod 86400000)%Z) in *. clearbody q k.
  destruct ((-95746130 <=? q + 719162) && (q + 719162 <? 95745399))%Z eqn:E.
  - split; [intros [= <-]; lia|]. intros [-> _]. reflexivity.
  - split; [discriminate|]. intros [_ H]. lia.
Qed.

Lemma parse_timestamp_spec (s : str) (ms : Z) : parse_timestamp s = Some ms <-> is_time s ms.
Proof.
  unfold parse_timestamp, is_time, opt_bind. destruct (parse_i64 s) as [z|] eqn:E.
  - rewrite timestamp_range. apply parse_i64_spec in E. split.
    + intros [-> H]. auto.
    + intros [K H]. apply parse_i64_spec in E, K. assert (z = ms) by congruence. subst z. auto.
  - split; [discriminate|]. intros [K _]. apply parse_i64_spec in K. congruence.
Qed.

Lemma parse_bool_spec (s : str) (f : bool) : parse_bool s = f <-> is_flag s f.
Proof.
  unfold parse_bool, is_flag. destruct (parse_u8 s) as [n|] eqn:E.
  - apply parse_u8_spec in E. split.
    + intros <-. split; [intros H; exists n; split; [exact E|lia]|].
      intros (k & K & P). apply parse_u8_spec in K, E. assert (k = n) by congruence. lia.
    + intros H. destruct f.
      * destruct (proj1 H eq_refl) as (k & K & P). apply parse_u8_spec in K, E. assert (k = n) by congruence. lia.
      * destruct (N.ltb_spec 0 n) as [L|L]; [|reflexivity]. symmetry. apply H. eauto.
  - split.
    + intros <-. split; [discriminate|]. intros (k & K & P). apply parse_u8_spec in K. congruence.
    + intros H. destruct f; [|reflexivity]. destruct (proj1 H eq_refl) as (k & K & P).
      apply parse_u8_spec in K. congruence.
Qed.

(** ** Texts *)

Lemma parse_message_text_spec (t body : str) (f : bool) :
  parse_message_text t = (body, f) <-> action_text t body f.
Proof.
  unfold parse_message_text. destruct (strip_prefix (x01 :: b "ACTION ") t) as [s|] eqn:E.
  - apply strip_prefix_spec in E. destruct (strip_suffix [x01] s) as [s'|] eqn:E2.
    + apply strip_suffix_spec in E2. subst s. split.
      * intros [= <- <-]. exact E.
      * destruct f; cbn [action_text].
        -- intros K. rewrite E in K. injection K as K. change (s' ++ [x01] = body ++ [x01]) in K.
           apply app_inv_tail in K. congruence.
        -- intros [_ K]. destruct (K s'). exact E.
    + assert (N : forall l, s <> l ++ [x01]).
      { intros l K. apply strip_suffix_spec in K. congruence. }
      destruct f; cbn [action_text]; split.
      * discriminate.
      * intros K. rewrite E in K. injection K as K. now destruct (N body).
      * intros [= <-]. split; [reflexivity|]. intros x K. rewrite E in K. injection K as K. now destruct (N x).
      * intros [-> _]. reflexivity.
  - rewrite strip_prefix_none in E. destruct f; cbn [action_text]; split.
    + discriminate.
    + intros ->. now destruct (E (body ++ [x01])).
    + intros [= <-]. split; [reflexivity|]. intros x K. now destruct (E (x ++ [x01])).
    + intros [-> _]. reflexivity.
Qed.

Lemma split_parts (c : byte) (s : str) : parts_by c s (split c s).
Proof.
  unfold parts_by. induction s as [|x s (A & B & C)]; cbn [split].
  - split; [discriminate|]. split; [reflexivity|]. constructor; [intros []|constructor].
  - destruct (byte_eqb_spec x c) as [->|N].
    + split; [discriminate|]. split.
      * destruct (split c s) as [|w ws]; [congruence|]. cbn [join_by app] in *. congruence.
      * constructor; [intros []|exact C].
    + destruct (split c s) as [|w ws]; [congruence|]. split; [discriminate|]. split.
      * destruct ws; cbn [join_by app] in *; now rewrite B.
      * inversion C; subst. constructor; [|assumption]. intros [<-|I]; auto.
Qed.

Lemma parts_unique (c : byte) (ws : list str) : forall s, parts_by c s ws -> ws = split c s.
Proof.
  induction ws as [|w ws IH]; intros s (A & -> & C); [now destruct A|].
  inversion C as [|x l W C']; subst. clear A C. destruct ws as [|w' ws].
  - cbn [join_by]. clear IH C'. induction w as [|x w IHw]; [reflexivity|]. cbn [split].
    rewrite byte_eqb_neq by (intros ->; apply W; now left). rewrite <- IHw; [reflexivity|].
    intros I. apply W. now right.
  - change (join_by c (w :: w' :: ws)) with (w ++ c :: join_by c (w' :: ws)).
    remember (join_by c (w' :: ws)) as t eqn:ET.
    assert (IH' : w' :: ws = split c t) by (apply IH; repeat split; [discriminate|exact ET|exact C']).
    clear IH C' ET. induction w as [|x w IHw]; cbn [app split].
    + now rewrite byte_eqb_refl, <- IH'.
    + rewrite byte_eqb_neq by (intros ->; apply W; now left). rewrite <- IHw; [reflexivity|].
      intros I. apply W. now right.
Qed.

Lemma parts_by_split (c : byte) (s : str) (ws : list str) : parts_by c s ws <-> split c s = ws.
Proof. split; [intros H; symmetry; now apply parts_unique|intros <-; apply split_parts]. Qed.

Lemma split_once_around (p s l r : str) : split_once p s = Some (l, r) <-> around_first p s l r.
Proof.
  revert l r. induction s as [|x s IH]; intros l r.
  - cbn [split_once]. destruct (strip_prefix p []) as [q|] eqn:E.
    + apply strip_prefix_spec in E. destruct p; [|discriminate]. cbn [app] in E. subst q. split.
      * intros [= <- <-]. split; [reflexivity|]. cbn. lia.
      * intros [A _]. destruct l; [|discriminate]. cbn in A. now rewrite <- A.
    + rewrite strip_prefix_none in E. split; [discriminate|]. intros [A _].
      destruct l; [|discriminate]. destruct p; [|discriminate]. now destruct (E []).
  - cbn [split_once]. destruct (strip_prefix p (x :: s)) as [q|] eqn:E.
    + apply strip_prefix_spec in E. split.
      * intros [= <- <-]. split; [exact E|]. cbn. lia.
      * intros [A K]. specialize (K [] q E). destruct l; [|cbn in K; lia].
        cbn [app] in A. rewrite E in A. apply app_inv_head in A. now rewrite A.
    + rewrite strip_prefix_none in E. destruct (split_once p s) as [[l' r']|] eqn:ES.
      * split.
        -- intros [= <- <-]. destruct (proj1 (IH l' r') eq_refl) as [A K]. split; [cbn; congruence|].
           intros l2 r2 A2. destruct l2 as [|y l2]; [now destruct (E r2)|]. injection A2 as -> A2.
           apply K in A2. cbn. lia.
        -- intros [A K]. destruct l as [|y l]; [now destruct (E r)|]. injection A as -> A.
           assert (H : Some (l', r') = Some (l, r)); [|injection H as -> ->; reflexivity].
           apply IH. split; [exact A|]. intros l2 r2 A2. specialize (K (y :: l2) r2). cbn in K.
           rewrite A2 in K. specialize (K eq_refl). lia.
      * split; [discriminate|]. intros [A K]. destruct l as [|y l]; [now destruct (E r)|].
        injection A as -> A. assert (H : None = Some (l, r)); [|discriminate]. apply IH. split; [exact A|].
        intros l2 r2 A2. specialize (K (y :: l2) r2). cbn in K. rewrite A2 in K. specialize (K eq_refl). lia.
Qed.

Lemma split_once_none (p s : str) : split_once p s = None <-> ~ infix p s.
Proof.
  unfold infix. induction s as [|x s IH]; cbn [split_once].
  - destruct (strip_prefix p []) as [q|] eqn:E.
    + apply strip_prefix_spec in E. split; [discriminate|]. intros N. exfalso. apply N. now exists [], q.
    + rewrite strip_prefix_none in E. split; [|reflexivity]. intros _ (l & r & A).
      destruct l; [now apply (E r)|discriminate].
  - destruct (strip_prefix p (x :: s)) as [q|] eqn:E.
    + apply strip_prefix_spec in E. split; [discriminate|]. intros N. exfalso. apply N. now exists [], q.
    + rewrite strip_prefix_none in E. destruct (split_once p s) as [[l' r']|].
      * split; [discriminate|]. intros N. exfalso. destruct IH as [_ IH].
        assert (H : Some (l', r') = None); [|discriminate]. apply IH. intros (l & r & A). apply N.
        exists (x :: l), r. cbn. now rewrite <- A.
      * split; [|reflexivity]. intros _ (l & r & A). destruct IH as [IH _]. apply (IH eq_refl).
        destruct l as [|y l]; [now destruct (E r)|]. injection A as -> A. eauto.
Qed.

Lemma around_slash (w n x : str) :
  around_first (b "/") w n x <-> w = n ++ b "/" ++ x /\ ~ In "/"%byte n.
Proof.
  split.
  - intros [A K]. split; [exact A|]. intros I. apply in_split_first in I as (l & r & -> & _).
    specialize (K l (r ++ b "/" ++ x)). rewrite A in K. rewrite !app_length in K. cbn in K.
    rewrite <- !app_assoc in K. specialize (K eq_refl). lia.
  - intros [-> H]. split; [reflexivity|]. intros l r E.
    destruct (Nat.le_gt_cases (length n) (length l)) as [L|L]; [exact L|]. exfalso. apply H.
    change (n ++ "/"%byte :: x = l ++ "/"%byte :: r) in E.
    revert n E L H. induction l as [|y l IH]; intros n E L H.
    + destruct n as [|z n]; [cbn in L; lia|]. injection E as -> _. now left.
    + destruct n as [|z n]; [cbn in L; lia|]. injection E as -> E. right. apply IH; [exact E|cbn in L; lia|].
      intros I. apply H. now right.
Qed.

Lemma split_slash_spec (ws : list str) : forall l, slash_items ws l <-> split_slash ws = l.
Proof.
  induction ws as [|w ws IH]; intros l; cbn [split_slash].
  - split; [inversion 1; reflexivity|intros <-; constructor].
  - destruct (split_once (b "/") w) as [[n x]|] eqn:E.
    + apply split_once_around, around_slash in E as [-> H]. split.
      * inversion 1 as [|? ? ? K I|n' x' ? l' K I]; subst.
        -- exfalso. apply K. apply in_or_app. right. now left.
        -- apply IH in I. subst l'. f_equal.
           match goal with e : _ ++ _ = _ ++ _ |- _ => change (n' ++ "/"%byte :: x' = n ++ "/"%byte :: x) in e;
             apply first_split_unique in e; [destruct e as [-> ->]; reflexivity|assumption|assumption] end.
      * intros <-. constructor; [exact H|]. now apply IH.
    + assert (N : ~ In "/"%byte w).
      { intros I. apply in_split_first in I as (n & x & -> & H).
        assert (K : split_once (b "/") (n ++ "/"%byte :: x) = Some (n, x)); [|congruence].
        apply split_once_around, around_slash. auto. }
      split.
      * inversion 1 as [|? ? ? K I|n' x' ? l' K I]; subst; [now apply IH|].
        exfalso. apply N. apply in_or_app. right. now left.
      * intros <-. constructor; [exact N|]. now apply IH.
Qed.

Lemma comma_items_spec (s : str) (l : list (str * str)) :
  comma_items s l <-> split_slash (split "," s) = l.
Proof.
  unfold comma_items. split.
  - intros (ws & P & I). apply parts_by_split in P. subst ws. now apply split_slash_spec.
  - intros H. exists (split "," s). split; [now apply parts_by_split|now apply split_slash_spec].
Qed.

(** ** Badges *)

Lemma find_lookup (k : str) (l : list (str * str)) :
  option_map snd (find (fun kv : str * str => str_eqb (fst kv) k) l) = lookup k l.
Proof.
  induction l as [|[k' v] l IH]; [reflexivity|]. cbn [find lookup fst]. destruct (str_eqb k' k); [reflexivity|exact IH].
Qed.

Definition badge_fun (name version : str) (extra : option str) : badge str :=
  if str_eqb name (b "staff") then Staff
  else if str_eqb name (b "turbo") then Turbo
  else if str_eqb name (b "broadcaster") then Broadcaster
  else if str_eqb name (b "moderator") then Moderator
  else if str_eqb name (b "subscriber") then
    BSubscriber (mk_subscriber version (opt_default (b "1") extra)
      (opt_default 1%N (opt_bind extra parse_u64)))
  else BOther (mk_badge_data name version extra).

Lemma badge_from_fun (name version : str) (extra : option str) :
  badge_from (mk_badge_data (Borrowed name) (Borrowed version) (option_map Borrowed extra)) =
  badge_map Borrowed (badge_fun name version extra).
Proof.
  unfold badge_from, badge_fun. cbn [bd_name bd_version bd_extra deref].
  repeat match goal with |- (if ?c then _ else _) = _ => destruct c; [try reflexivity|] end; [|reflexivity].
  cbn [badge_map]. unfold subscriber_map. destruct extra; reflexivity.
Qed.

Lemma is_badge_fun (name version : str) (extra : option str) (x : badge str) :
  is_badge name version extra x <-> x = badge_fun name version extra.
Proof.
  split.
  - unfold badge_fun. destruct x as [| | | |s|d]; cbn [is_badge].
    1-4: intros ->; reflexivity.
    + intros (-> & A & B). change (str_eqb (b "subscriber") (b "staff")) with false.
      change (str_eqb (b "subscriber") (b "turbo")) with false.
      change (str_eqb (b "subscriber") (b "broadcaster")) with false.
      change (str_eqb (b "subscriber") (b "moderator")) with false. rewrite str_eqb_refl.
      destruct s as [ve mo n]. cbn [sb_version sb_months sb_months_n] in *. subst ve.
      destruct extra as [e|]; cbn [opt_default opt_bind].
      * destruct B as [-> B]. do 2 f_equal. destruct (parse_u64 e) as [k|] eqn:E; cbn [opt_default].
        -- destruct B as [B|[B _]]; [apply parse_u64_spec in B; congruence|].
           apply parse_u64_spec in E. now destruct (B k).
        -- destruct B as [B|[_ B]]; [apply parse_u64_spec in B; congruence|exact B].
      * destruct B as [-> ->]. reflexivity.
    + intros [N ->]. unfold special_badges in N; cbn [In] in N. rewrite !str_eqb_neq by (intros E; apply N; rewrite E; tauto). reflexivity.
  - intros ->. unfold badge_fun.
    destruct (str_eqb_spec name (b "staff")) as [->|N1]; [reflexivity|].
    destruct (str_eqb_spec name (b "turbo")) as [->|N2]; [reflexivity|].
    destruct (str_eqb_spec name (b "broadcaster")) as [->|N3]; [reflexivity|].
    destruct (str_eqb_spec name (b "moderator")) as [->|N4]; [reflexivity|].
    destruct (str_eqb_spec name (b "subscriber")) as [->|N5]; cbn [is_badge].
    + split; [reflexivity|]. split; [reflexivity|]. cbn [sb_months sb_months_n].
      destruct extra as [e|]; cbn [opt_default opt_bind]; [|auto]. split; [reflexivity|].
      destruct (parse_u64 e) as [k|] eqn:E; cbn [opt_default].
      * left. now apply parse_u64_spec.
      * right. split; [|reflexivity]. intros n K. apply parse_u64_spec in K. congruence.
    + split; [|reflexivity]. unfold special_badges; cbn [In]. intuition congruence.
Qed.

Definition badges_fun (badges info : str) : list (badge str) :=
  map (fun nv => badge_fun (fst nv) (snd nv) (lookup (fst nv) (split_slash (split "," info))))
    (split_slash (split "," badges)).

Lemma parse_badges_fun (badges info : str) :
  parse_badges badges info = map (badge_map Borrowed) (badges_fun badges info).
Proof.
  unfold parse_badges, badges_fun. destruct badges as [|c r]; [reflexivity|].
  rewrite map_map. apply map_ext. intros [n x]. cbn [fst snd]. rewrite find_lookup. apply badge_from_fun.
Qed.

Lemma badges_in_fun (badges info : str) (l : list (badge str)) :
  badges_in badges info l <-> badges_fun badges info = l.
Proof.
  unfold badges_in, badges_fun. split.
  - intros (items & extras & A & B & F). apply comma_items_spec in A, B. rewrite A, B. clear A B.
    induction F as [|nv x items l (e & H & K) F IH]; [reflexivity|]. cbn [map]. f_equal; [|exact IH].
    apply lookup_first in H. rewrite H. symmetry. now apply is_badge_fun.
  - intros H. exists (split_slash (split "," badges)), (split_slash (split "," info)).
    split; [now apply comma_items_spec|]. split; [now apply comma_items_spec|].
    revert l H. induction (split_slash (split "," badges)) as [|nv items IH]; intros l <-; cbn [map]; constructor.
    + eexists. split; [now apply lookup_first|]. now apply is_badge_fun.
    + now apply IH.
Qed.

(** ** Parts of a line *)

Lemma opt_iff {A : Type} (P : A -> Prop) (f : option A) (o : option A) :
  (forall x, P x <-> f = Some x) -> (opt P o <-> f = o).
Proof.
  intros H. destruct o as [x|]; cbn [opt]; [apply H|]. split.
  - intros N. destruct f as [x|]; [|reflexivity]. destruct (N x). now apply H.
  - intros -> x K. apply H in K. discriminate.
Qed.

Lemma has_iff (v : view) (name : string) (x : str) :
  has v name x <-> lookup (b name) (v_tags v) = Some x.
Proof. unfold has. symmetry. apply lookup_first. Qed.

Lemma has_none (v : view) (name : string) :
  (forall x, ~ has v name x) <-> lookup (b name) (v_tags v) = None.
Proof.
  split.
  - intros H. destruct (lookup (b name) (v_tags v)) as [x|] eqn:E; [|reflexivity].
    destruct (H x). now apply has_iff.
  - intros H x K. apply has_iff in K. congruence.
Qed.

Lemma opt_bind_iff {A B : Type} (o : option A) (f : A -> option B) (y : B) :
  opt_bind o f = Some y <-> exists x, o = Some x /\ f x = Some y.
Proof.
  destruct o as [x|]; cbn [opt_bind]; split.
  - eauto.
  - intros (z & [= ->] & H). exact H.
  - discriminate.
  - intros (z & [=] & _).
Qed.

Lemma has_u64_iff (v : view) (name : string) (n : N) :
  has_u64 v name n <-> opt_bind (lookup (b name) (v_tags v)) parse_u64 = Some n.
Proof.
  unfold has_u64. rewrite opt_bind_iff.
  split; intros (x & A & B); exists x; (split; [now apply has_iff|now apply parse_u64_spec]).
Qed.

Lemma has_i64_iff (v : view) (name : string) (n : Z) :
  has_i64 v name n <-> opt_bind (lookup (b name) (v_tags v)) parse_i64 = Some n.
Proof.
  unfold has_i64. rewrite opt_bind_iff.
  split; intros (x & A & B); exists x; (split; [now apply has_iff|now apply parse_i64_spec]).
Qed.

Lemma has_time_iff (v : view) (n : Z) :
  has_time v n <-> opt_bind (lookup (b "tmi-sent-ts") (v_tags v)) parse_timestamp = Some n.
Proof.
  unfold has_time. rewrite opt_bind_iff.
  split; intros (x & A & B); exists x; (split; [now apply has_iff|now apply parse_timestamp_spec]).
Qed.

Lemma has_flag_iff (v : view) (name : string) (f : bool) :
  has_flag v name f <-> option_map parse_bool (lookup (b name) (v_tags v)) = Some f.
Proof.
  unfold has_flag. rewrite option_map_some.
  split; intros (x & A & B); exists x; (split; [now apply has_iff|]).
  - symmetry. now apply parse_bool_spec.
  - now apply parse_bool_spec.
Qed.

Lemma has_filled_iff (v : view) (name : string) (x : str) :
  has_filled v name x <-> opt_filter is_not_empty (lookup (b name) (v_tags v)) = Some x.
Proof.
  unfold has_filled. rewrite has_iff. destruct (lookup (b name) (v_tags v)) as [y|]; cbn [opt_filter].
  - unfold is_not_empty. destruct y as [|c y]; cbn [length Nat.eqb negb].
    + split; [intros [[= <-] H]; now destruct H|discriminate].
    + split; [intros [H _]; exact H|]. intros H. split; [exact H|]. injection H as <-. discriminate.
  - split; [intros [H _]; exact H|discriminate].
Qed.

Lemma has_or_iff (v : view) (name : string) (d x : str) :
  has_or v name d x <-> opt_default d (lookup (b name) (v_tags v)) = x.
Proof.
  unfold has_or. rewrite has_iff, has_none. destruct (lookup (b name) (v_tags v)) as [y|]; cbn [opt_default].
  - split; [intros [[= <-]|[[=] _]]; reflexivity|intros ->; now left].
  - split; [intros [[=]|[_ ->]]; reflexivity|intros ->; now right].
Qed.

Definition list_fun (o : option str) : list str :=
  match o with Some s => split "," s | None => [] end.

Lemma has_list_iff (v : view) (name : string) (ws : list str) :
  has_list v name ws <-> list_fun (lookup (b name) (v_tags v)) = ws.
Proof.
  unfold has_list. rewrite has_none. destruct (lookup (b name) (v_tags v)) as [y|] eqn:E; cbn [list_fun].
  - split.
    + intros [(x & A & B)|[[=] _]]. apply has_iff in A. apply parts_by_split in B. congruence.
    + intros H. left. exists y. split; [now apply has_iff|now apply parts_by_split].
  - split.
    + intros [(x & A & _)|[_ ->]]; [|reflexivity]. apply has_iff in A. congruence.
    + intros <-. now right.
Qed.

Definition badges_opt (x y : option str) : list (badge str) :=
  match opt_zip x y with Some (x, y) => badges_fun x y | None => [] end.

Lemma has_badges_iff (v : view) (l : list (badge str)) :
  has_badges v l <->
  badges_opt (lookup (b "badges") (v_tags v)) (lookup (b "badge-info") (v_tags v)) = l.
Proof.
  unfold has_badges, badges_opt. rewrite !has_none.
  destruct (lookup (b "badges") (v_tags v)) as [x|] eqn:EX;
    [destruct (lookup (b "badge-info") (v_tags v)) as [y|] eqn:EY|]; cbn [opt_zip].
  - split.
    + intros [(x' & y' & A & B & C)|[[[=]|[=]] _]]. apply has_iff in A, B. apply badges_in_fun in C. congruence.
    + intros H. left. exists x, y. rewrite !has_iff. repeat split; auto. now apply badges_in_fun.
  - split.
    + intros [(x' & y' & A & B & C)|[_ ->]]; [|reflexivity]. apply has_iff in B. congruence.
    + intros <-. right. auto.
  - split.
    + intros [(x' & y' & A & B & C)|[_ ->]]; [|reflexivity]. apply has_iff in A. congruence.
    + intros <-. right. auto.
Qed.

Lemma has_nick_iff (v : view) (x : str) : has_nick v x <-> opt_bind (v_prefix v) nick = Some x.
Proof. unfold has_nick. now rewrite opt_bind_iff. Qed.

Lemma has_text_iff (v : view) (t : str) : has_text v t <-> spec_text v = Some t.
Proof.
  unfold has_text, spec_text. destruct (v_params v) as [p|].
  2: { split; [intros (p & [=] & _)|discriminate]. }
  destruct (cut ":" p) as [l [r|]] eqn:E.
  - apply cut_some in E as [-> H]. split.
    + intros (q & [= <-] & [(l' & K & I)|[I _]]).
      * change (l ++ ":"%byte :: r = l' ++ ":"%byte :: t) in K.
        apply first_split_unique in K; [destruct K as [_ ->]; reflexivity|assumption|assumption].
      * exfalso. apply I. apply in_or_app. right. now left.
    + intros [= <-]. eexists. split; [reflexivity|]. left. exists l. split; [reflexivity|exact H].
  - apply cut_none in E as [<- H]. split.
    + intros (q & [= <-] & [(l' & K & I)|[_ ->]]); [|reflexivity].
      exfalso. apply H. rewrite K. apply in_or_app. right. now left.
    + intros [= <-]. eexists. split; [reflexivity|]. right. auto.
Qed.

Lemma spec_text_none (v : view) : spec_text v = None <-> v_params v = None.
Proof.
  unfold spec_text. destruct (v_params v) as [p|]; [|tauto].
  destruct (cut ":" p) as [l [r|]]; split; discriminate.
Qed.
