(** * IrcFacts: the base parser refines SpecIrc. *)

From Coq Require Import Lia ZifyBool ZifyNat ZifyN.
From Verif Require Import Base BaseFacts Wide Tags SimdFacts Irc SpecIrc.

(** ** Facts about the specification *)

Lemma cut_none (c : byte) (s l : str) : cut c s = (l, None) <-> l = s /\ ~ In c s.
Proof.
  revert l; induction s as [|x s IH]; intros l; cbn.
  - split; [intros [= <-]; tauto|intros [-> _]; reflexivity].
  - destruct (byte_eqb_spec x c) as [->|N].
    + split; [discriminate|]. intros [_ H]. exfalso; apply H; now left.
    + destruct (cut c s) as [l' o]. split.
      * intros [= <- ->]. destruct (IH l') as [A _]. destruct (A eq_refl) as [-> K].
        split; [reflexivity|]. intros [E|E]; tauto.
      * intros [-> H]. destruct (IH s) as [_ A].
        assert (E : (l', o) = (s, None)) by (apply A; split; [reflexivity|]; intros K; apply H; now right).
        injection E as -> ->. reflexivity.
Qed.

Lemma cut_some (c : byte) (s l r : str) :
  cut c s = (l, Some r) <-> s = l ++ c :: r /\ ~ In c l.
Proof.
  revert l; induction s as [|x s IH]; intros l; cbn.
  - split; [discriminate|]. intros [E _]. destruct l; discriminate.
  - destruct (byte_eqb_spec x c) as [->|N].
    + split.
      * intros [= <- <-]. cbn. tauto.
      * intros [E H]. destruct l as [|y l]; cbn in E.
        -- injection E as ->. reflexivity.
        -- injection E as -> _. exfalso; apply H; now left.
    + destruct (cut c s) as [l' o]. split.
      * intros [= <- ->]. destruct (IH l') as [A _]. destruct (A eq_refl) as [-> K].
        split; [reflexivity|]. intros [E|E]; tauto.
      * intros [E H]. destruct l as [|y l]; cbn in E; injection E as -> E; [tauto|].
        destruct (IH l) as [_ A].
        assert (F : (l', o) = (l, Some r)) by (apply A; split; [exact E|]; intros K; apply H; now right).
        injection F as -> ->. reflexivity.
Qed.

Lemma cut_find (c : byte) (s : str) :
  match find_byte c s with
  | Some i => exists l r, s = l ++ c :: r /\ length l = i /\ ~ In c l /\ cut c s = (l, Some r)
  | None => ~ In c s /\ cut c s = (s, None)
  end.
Proof.
  destruct (find_byte c s) as [i|] eqn:E.
  - apply find_byte_some in E. destruct E as (l & r & E & L & K).
    exists l, r. repeat split; auto. now apply cut_some.
  - apply find_byte_none in E. split; [exact E|]. now apply cut_none.
Qed.

Lemma cut_last_some (c : byte) (s l r : str) :
  cut_last c s = Some (l, r) <-> s = l ++ c :: r /\ ~ In c r.
Proof.
  revert l r; induction s as [|x s IH]; intros l r; cbn.
  - split; [discriminate|]. intros [E _]. destruct l; discriminate.
  - destruct (cut_last c s) as [[l' r']|].
    + split.
      * intros [= <- <-]. destruct (IH l' r') as [A _]. destruct (A eq_refl) as [-> K]. auto.
      * intros [E H]. destruct (IH l' r') as [A _]. destruct (A eq_refl) as [-> K].
        assert (E' : (x :: l') ++ c :: r' = l ++ c :: r) by exact E.
        apply last_split_unique in E'; auto. destruct E' as [<- <-]. reflexivity.
    + assert (NI : ~ In c s).
      { intros K. apply in_split_last in K. destruct K as (a & z & -> & K).
        destruct (IH a z) as [_ A]. discriminate A; auto. }
      destruct (byte_eqb_spec x c) as [->|N]; split.
      * intros [= <- <-]. auto.
      * intros [E H]. destruct l as [|y l]; cbn in E; injection E; intros; subst; [reflexivity|].
        exfalso; apply NI. apply in_or_app. right; now left.
      * discriminate.
      * intros [E H]. destruct l as [|y l]; cbn in E; injection E; intros; subst; [congruence|].
        exfalso; apply NI. apply in_or_app. right; now left.
Qed.

Lemma cut_last_none (c : byte) (s : str) : cut_last c s = None <-> ~ In c s.
Proof.
  destruct (cut_last c s) as [[l r]|] eqn:E.
  - apply cut_last_some in E. destruct E as [-> _]. split; [discriminate|].
    intros H; exfalso; apply H, in_or_app; right; now left.
  - split; [|reflexivity]. intros _ K. apply in_split_last in K. destruct K as (l & r & -> & K).
    assert (F : cut_last c (l ++ c :: r) = Some (l, r)) by now apply cut_last_some. congruence.
Qed.

Lemma cut_last_snoc (c x : byte) (s : str) :
  cut_last c (s ++ [x]) =
  if Byte.eqb x c then Some (s, [])
  else match cut_last c s with Some (l, r) => Some (l, r ++ [x]) | None => None end.
Proof.
  destruct (byte_eqb_spec x c) as [->|N].
  - apply cut_last_some. auto.
  - destruct (cut_last c s) as [[l r]|] eqn:E.
    + apply cut_last_some in E. destruct E as [-> K]. apply cut_last_some.
      rewrite <- app_assoc. split; [reflexivity|].
      intros I. apply in_app_or in I. destruct I as [I|[I|[]]]; tauto.
    + apply cut_last_none in E. apply cut_last_none.
      intros I. apply in_app_or in I. destruct I as [I|[I|[]]]; tauto.
Qed.

(** ** Tag sections *)

Lemma tag_walk_value (k v s : str) :
  tag_walk k (Some v) s =
  match cut ";" s with
  | (v', Some r) => (k, v ++ v') :: tag_list r
  | (v', None) => [(k, v ++ v')]
  end.
Proof.
  revert v; induction s as [|c s IH]; intros v; cbn.
  - now rewrite app_nil_r.
  - destruct (Byte.eqb c ";"); [now rewrite app_nil_r|].
    rewrite IH. destruct (cut ";" s) as [v' [r|]]; now rewrite <- app_assoc.
Qed.

Lemma tag_walk_key (k s : str) :
  tag_walk k None s =
  match cut "=" s with
  | (k', Some r) => tag_walk (k ++ k') (Some []) r
  | (_, None) => []
  end.
Proof.
  revert k; induction s as [|c s IH]; intros k; cbn; [reflexivity|].
  destruct (Byte.eqb c "="); [now rewrite app_nil_r|].
  rewrite IH. destruct (cut "=" s) as [k' [r|]]; [|reflexivity]. now rewrite <- app_assoc.
Qed.

Lemma tag_list_unfold (s : str) :
  tag_list s =
  match cut "=" s with
  | (k, Some r) =>
    match cut ";" r with
    | (v, Some r') => (k, v) :: tag_list r'
    | (v, None) => [(k, v)]
    end
  | (_, None) => []
  end.
Proof.
  unfold tag_list. rewrite tag_walk_key. destruct (cut "=" s) as [k [r|]]; [|reflexivity].
  rewrite tag_walk_value. cbn [app]. destruct (cut ";" r) as [v [r'|]]; reflexivity.
Qed.

(** The function and the relation agree: the relation is total and functional. *)
Lemma tag_list_section (s : str) (l : list (str * str)) :
  tag_section s l <-> l = tag_list s.
Proof.
  split.
  - induction 1 as [s H|k v Hk Hv|k v s l Hk Hv H IH]; rewrite tag_list_unfold.
    + assert (E : cut "=" s = (s, None)) by now apply cut_none. now rewrite E.
    + assert (E : cut "=" (k ++ b "=" ++ v) = (k, Some v)) by now apply cut_some.
      rewrite E. assert (F : cut ";" v = (v, None)) by now apply cut_none. now rewrite F.
    + assert (E : cut "=" (k ++ b "=" ++ v ++ b ";" ++ s) = (k, Some (v ++ b ";" ++ s)))
        by now apply cut_some.
      rewrite E. assert (F : cut ";" (v ++ b ";" ++ s) = (v, Some s)) by now apply cut_some.
      rewrite F. now rewrite <- IH.
  - intros ->. remember (length s) as n eqn:Hn. revert s Hn.
    induction n as [n IH] using lt_wf_ind; intros s ->.
    rewrite tag_list_unfold. destruct (cut "=" s) as [k [r|]] eqn:E.
    + apply cut_some in E. destruct E as [-> Hk].
      destruct (cut ";" r) as [v [r'|]] eqn:F.
      * apply cut_some in F. destruct F as [-> Hv].
        apply (ts_more k v r' (tag_list r')); auto.
        apply (IH (length r')); [|reflexivity]. rewrite !app_length. cbn. rewrite app_length. cbn. lia.
      * apply cut_none in F. destruct F as [-> Hv]. now apply (ts_last k r).
    + apply cut_none in E. destruct E as [-> Hk]. now apply ts_none.
Qed.

(** ** Positions of tags *)

(** [(ks, ke, pos)] delimits the tag [(k, v)] in [rem]. *)
Definition locates (rem : str) (t : triple) (kv : str * str) : Prop :=
  exists l r, rem = l ++ fst kv ++ b "=" ++ snd kv ++ r /\
    t = (length l, length l + length (fst kv), length l + length (fst kv) + 1 + length (snd kv)) /\
    (l = [] \/ exists l', l = l' ++ b ";") /\ (r = [] \/ exists r', r = b ";" ++ r').

Definition finish (rem : str) (st : tstate) : list triple :=
  match st with Value ks ke => [(ks, ke, length rem)] | Key _ => [] end.

Lemma tscan_walk (rem s : str) :
  (forall l k, rem = l ++ k ++ s -> (l = [] \/ exists l', l = l' ++ b ";") ->
     let '(st, ts) := tscan s (length l + length k) (Key (length l)) in
     Forall2 (locates rem) (ts ++ finish rem st) (tag_walk k None s)) /\
  (forall l k v, rem = l ++ k ++ b "=" ++ v ++ s -> (l = [] \/ exists l', l = l' ++ b ";") ->
     let '(st, ts) := tscan s (length l + length k + 1 + length v) (Value (length l) (length l + length k)) in
     Forall2 (locates rem) (ts ++ finish rem st) (tag_walk k (Some v) s)).
Proof.
  induction s as [|c s [IHk IHv]].
  - split.
    + intros l k E H. cbn. constructor.
    + intros l k v E H. cbn. constructor; [|constructor].
      exists l, []. cbn [fst snd]. repeat split; auto.
      rewrite E, !app_length. cbn. f_equal. lia.
  - split.
    + intros l k E H. cbn [tscan tag_walk].
      destruct (byte_eqb_spec c "=") as [->|N].
      * specialize (IHv l k []). cbn [length] in IHv. rewrite Nat.add_0_r in IHv.
        apply IHv; [exact E|exact H].
      * specialize (IHk l (k ++ [c])). rewrite app_length in IHk. cbn [length] in IHk.
        rewrite Nat.add_assoc in IHk. apply IHk; [|exact H].
        rewrite E, <- app_assoc. reflexivity.
    + intros l k v E H. cbn [tscan tag_walk].
      destruct (byte_eqb_spec c ";") as [->|N].
      * specialize (IHk (l ++ k ++ b "=" ++ v ++ b ";") []).
        cbn [length] in IHk. rewrite Nat.add_0_r in IHk.
        replace (length (l ++ k ++ b "=" ++ v ++ b ";"))
          with (length l + length k + 1 + length v + 1) in IHk
          by (rewrite !app_length; cbn; lia).
        destruct (tscan s (length l + length k + 1 + length v + 1)
                    (Key (length l + length k + 1 + length v + 1))) as [st ts].
        cbn [app]. constructor.
        -- exists l, (b ";" ++ s). cbn [fst snd]. repeat split; eauto.
        -- apply IHk.
           ++ rewrite E. rewrite <- !app_assoc. reflexivity.
           ++ right. exists (l ++ k ++ b "=" ++ v). now rewrite <- !app_assoc.
      * specialize (IHv l k (v ++ [c])). rewrite app_length in IHv. cbn [length] in IHv.
        rewrite Nat.add_assoc in IHv. apply IHv; [|exact H].
        rewrite E, <- app_assoc. reflexivity.
Qed.

Lemma section_locates (rem : str) : Forall2 (locates rem) (section_triples rem) (tag_list rem).
Proof.
  unfold section_triples, tag_list.
  destruct (tscan_walk rem rem) as [K _]. specialize (K [] [] eq_refl (or_introl eq_refl)).
  cbn in K. destruct (tscan rem 0 (Key 0)) as [st ts]. exact K.
Qed.

(** ** The fixed-capacity array *)

Lemma set_nth_app {A : Type} (l r : list A) (x y : A) :
  set_nth (l ++ x :: r) (length l) y = l ++ y :: r.
Proof. induction l as [|a l IH]; cbn; [reflexivity|now rewrite IH]. Qed.

Definition arr (ps : list tag_pair) : array :=
  mk_array (map Some ps ++ repeat None (capacity - length ps)) (length ps).

Lemma arr_push (ps : list tag_pair) (p : tag_pair) :
  length ps < capacity -> array_push (arr ps) p = Ret (arr (ps ++ [p])).
Proof.
  intros H. unfold array_push, arr. cbn [a_data a_len].
  rewrite app_length, map_length, repeat_length.
  replace (length ps <? length ps + (capacity - length ps)) with true by lia.
  f_equal. rewrite app_length. cbn [length]. f_equal; [|lia].
  replace (capacity - length ps) with (S (capacity - (length ps + 1))) by lia. cbn [repeat].
  pose proof (set_nth_app (map Some ps) (repeat None (capacity - (length ps + 1))) None (Some p)) as K.
  rewrite map_length in K. rewrite K, map_app, <- app_assoc. reflexivity.
Qed.

Lemma arr_full (ps : list tag_pair) (p : tag_pair) :
  length ps = capacity -> array_push (arr ps) p = Panic.
Proof.
  intros H. unfold array_push, arr. cbn [a_data a_len].
  rewrite app_length, map_length, repeat_length, H.
  now replace (capacity <? capacity + (capacity - capacity)) with false by lia.
Qed.

Lemma assume_init_some (ps : list tag_pair) : assume_init (map Some ps) = Ret ps.
Proof. induction ps as [|p ps IH]; cbn; [reflexivity|now rewrite IH]. Qed.

Lemma arr_to_vec (ps : list tag_pair) : length ps <= capacity -> array_to_vec (arr ps) = Ret ps.
Proof.
  intros H. unfold array_to_vec, arr. cbn [a_data a_len].
  rewrite app_length, map_length, repeat_length.
  replace (length ps <=? length ps + (capacity - length ps)) with true by lia.
  rewrite firstn_app, map_length, Nat.sub_diag. cbn [firstn].
  rewrite app_nil_r, firstn_all2 by (rewrite map_length; lia). apply assume_init_some.
Qed.

Definition pair_of (t : triple) : tag_pair :=
  let '(ks, ke, pos) := t in mk_pair (ks + 1) (as_u16 (ke - ks)) (as_u16 (pos - (ke + 1))).

Definition small (n : nat) : Prop := (N.of_nat n < 4294967296)%N.

Definition good_triple (t : triple) : Prop :=
  let '(ks, ke, pos) := t in ks <= ke /\ ke + 1 <= pos /\ small (ks + 1).

Lemma make_pair_ok (ks ke pos : nat) :
  good_triple (ks, ke, pos) -> make_pair ks ke pos = Ret (pair_of (ks, ke, pos)).
Proof.
  intros (A & B & C). unfold small in C. unfold make_pair.
  rewrite as_u32_id by lia. rewrite u32_add_ok by lia. cbn [bind].
  rewrite usize_sub_ok by lia. cbn [bind]. rewrite usize_sub_ok by lia. reflexivity.
Qed.

Lemma pushes_arr (ts : list triple) (ps : list tag_pair) :
  Forall good_triple ts -> length ps <= capacity ->
  pushes (arr ps) ts =
  if length ps + length ts <=? capacity then Ret (arr (ps ++ map pair_of ts)) else Panic.
Proof.
  intros G. revert ps; induction G as [|[[ks ke] pos] ts G1 G IH]; intros ps H.
  - cbn [pushes map length]. rewrite app_nil_r.
    now replace (length ps + 0 <=? capacity) with true by lia.
  - cbn [pushes]. rewrite make_pair_ok by exact G1. cbn [bind].
    destruct (Nat.eq_dec (length ps) capacity) as [E|E].
    + rewrite arr_full by exact E. cbn [bind length].
      now replace (length ps + S (length ts) <=? capacity) with false by lia.
    + rewrite arr_push by lia. cbn [bind]. rewrite IH by (rewrite app_length; cbn [length]; lia).
      rewrite app_length. cbn [length map].
      replace (length ps + 1 + length ts) with (length ps + S (length ts)) by lia.
      destruct (_ <=? capacity); [|reflexivity]. now rewrite <- app_assoc.
Qed.

Lemma array_new_arr : array_new = arr [].
Proof. reflexivity. Qed.

Lemma locates_good (rem : str) (t : triple) (kv : str * str) :
  small (length rem) -> locates rem t kv -> good_triple t.
Proof.
  intros S (l & r & E & -> & _). cbn. unfold small in *.
  apply (f_equal (@length byte)) in E. rewrite !app_length in E. cbn [length b] in E.
  change (length (b "=")) with 1 in E. lia.
Qed.

Lemma Forall2_left {A B : Type} (R : A -> B -> Prop) (P : A -> Prop) (l : list A) (l' : list B) :
  Forall2 R l l' -> (forall a c, R a c -> P a) -> Forall P l.
Proof. induction 1; constructor; eauto. Qed.

Lemma Forall2_len {A B : Type} (R : A -> B -> Prop) (l : list A) (l' : list B) :
  Forall2 R l l' -> length l = length l'.
Proof. induction 1; cbn; auto. Qed.

Lemma section_good (rem : str) : small (length rem) -> Forall good_triple (section_triples rem).
Proof.
  intros S. eapply Forall2_left; [apply section_locates|].
  intros a c. now apply locates_good.
Qed.

Lemma section_pairs_ok (rem : str) :
  small (length rem) ->
  section_pairs rem =
  if length (tag_list rem) <=? capacity then Ret (map pair_of (section_triples rem)) else Panic.
Proof.
  intros S. unfold section_pairs.
  rewrite array_new_arr, pushes_arr by (try apply section_good; auto; cbn; lia).
  rewrite (Forall2_len _ _ _ (section_locates rem)). cbn [length app]. rewrite Nat.add_0_l.
  destruct (_ <=? capacity) eqn:E; [|reflexivity]. cbn [bind].
  apply arr_to_vec. rewrite map_length, (Forall2_len _ _ _ (section_locates rem)). lia.
Qed.

(** ** The scalar parser *)

Lemma scalar_loop_ok (t r : str) (off : nat) (st : tstate) (tags : array) :
  ~ In " "%byte t ->
  scalar_loop (t ++ " "%byte :: r) off st tags =
  let '(st', ts) := tscan t off st in
  let! a := pushes tags ts in
  match st' with
  | Value ks ke =>
    let! p := make_pair ks ke (off + length t) in
    let! a' := array_push a p in Ret (off + length t, a')
  | Key _ => Ret (off + length t, a)
  end.
Proof.
  revert off st tags; induction t as [|c t IH]; intros off st tags H.
  - cbn [app scalar_loop tscan pushes bind length]. rewrite Nat.add_0_r.
    destruct st; reflexivity.
  - assert (N : c <> " "%byte) by (intros ->; apply H; now left).
    assert (H' : ~ In " "%byte t) by (intros K; apply H; now right).
    cbn [app scalar_loop tscan length].
    replace (off + S (length t)) with (off + 1 + length t) by lia.
    destruct (byte_eqb_spec c "=") as [->|N1].
    + destruct st as [ks|ks ke]; [now apply IH|].
      rewrite (byte_eqb_neq "=" ";") by discriminate. now apply IH.
    + destruct (byte_eqb_spec c ";") as [->|N2].
      * destruct st as [ks|ks ke]; [now apply IH|].
        transitivity (let! p := make_pair ks ke off in
                      let! tags' := array_push tags p in
                      let '(st', ts) := tscan t (off + 1) (Key (off + 1)) in
                      let! a := pushes tags' ts in
                      match st' with
                      | Value ks ke =>
                        let! p := make_pair ks ke (off + 1 + length t) in
                        let! a' := array_push a p in Ret (off + 1 + length t, a')
                      | Key _ => Ret (off + 1 + length t, a)
                      end).
        { apply bind_ext; intros p. apply bind_ext; intros a. now apply IH. }
        destruct (tscan t (off + 1) (Key (off + 1))) as [st' ts]. cbn [pushes].
        rewrite bind_assoc. apply bind_ext; intros p. rewrite bind_assoc. reflexivity.
      * rewrite (byte_eqb_neq c " ") by exact N.
        destruct st; now apply IH.
Qed.

Lemma scalar_parse_ok (src : str) :
  scalar_parse src 0 =
  match strip_prefix (b "@") src with
  | None => Ret (None, 0)
  | Some s =>
    match find_byte " " s with
    | None => scalar_parse src 0
    | Some e => let! ts := section_pairs (firstn e s) in Ret (Some ts, e + 2)
    end
  end.
Proof.
  unfold scalar_parse.
  rewrite (slice_from_ok [] src src 0) by (auto; apply boundary_start). cbn [bind].
  destruct (strip_prefix (b "@") src) as [s|]; [|reflexivity].
  destruct (find_byte " " s) as [e|] eqn:E; [|reflexivity].
  apply find_byte_some in E. destruct E as (l & r & -> & <- & H).
  rewrite scalar_loop_ok by exact H.
  rewrite firstn_app, firstn_all, Nat.sub_diag. cbn [firstn]. rewrite app_nil_r.
  unfold section_pairs, section_triples. rewrite Nat.add_0_l.
  destruct (tscan l 0 (Key 0)) as [st ts]. rewrite pushes_app, !bind_assoc.
  apply bind_ext; intros a. destruct st as [ks|ks ke]; cbn [pushes bind]; [reflexivity|].
  rewrite !bind_assoc. apply bind_ext; intros p. rewrite !bind_assoc. apply bind_ext; intros a'.
  reflexivity.
Qed.

(** Without a space the scalar parser leaves the position past the end, or
    panics earlier. *)
Lemma pushes_no_ub (a : list tag_pair) (ts : list triple) :
  Forall good_triple ts -> length a <= capacity ->
  (exists ps, length ps <= capacity /\ pushes (arr a) ts = Ret (arr ps)) \/ pushes (arr a) ts = Panic.
Proof.
  intros G H. rewrite pushes_arr by assumption.
  destruct (_ <=? capacity) eqn:E; [left|now right].
  exists (a ++ map pair_of ts). split; [|reflexivity]. rewrite app_length, map_length. lia.
Qed.

Lemma scalar_loop_nospace (t : str) (off : nat) (st : tstate) (tags : array) :
  ~ In " "%byte t ->
  scalar_loop t off st tags =
  let '(_, ts) := tscan t off st in
  let! a := pushes tags ts in Ret (off + length t, a).
Proof.
  revert off st tags; induction t as [|c t IH]; intros off st tags H.
  - cbn. now rewrite Nat.add_0_r.
  - assert (N : c <> " "%byte) by (intros ->; apply H; now left).
    assert (H' : ~ In " "%byte t) by (intros K; apply H; now right).
    cbn [app scalar_loop tscan length].
    replace (off + S (length t)) with (off + 1 + length t) by lia.
    destruct (byte_eqb_spec c "=") as [->|N1].
    + destruct st as [ks|ks ke]; [now apply IH|].
      rewrite (byte_eqb_neq "=" ";") by discriminate. now apply IH.
    + destruct (byte_eqb_spec c ";") as [->|N2].
      * destruct st as [ks|ks ke]; [now apply IH|].
        destruct (tscan t (off + 1) (Key (off + 1))) as [st' ts] eqn:T. cbn [pushes].
        rewrite bind_assoc. apply bind_ext; intros p. rewrite bind_assoc. apply bind_ext; intros a.
        rewrite IH, T by assumption. reflexivity.
      * rewrite (byte_eqb_neq c " ") by exact N.
        destruct st; now apply IH.
Qed.

Lemma scalar_parse_unterminated (s : str) :
  small (length s + 1) -> ~ In " "%byte s ->
  scalar_parse (b "@" ++ s) 0 = Panic \/
  exists ts, scalar_parse (b "@" ++ s) 0 = Ret (Some ts, length s + 2).
Proof.
  intros S H. unfold scalar_parse.
  rewrite (slice_from_ok [] (b "@" ++ s) (b "@" ++ s) 0) by (auto; apply boundary_start). cbn [bind].
  rewrite strip_prefix_app, scalar_loop_nospace by exact H.
  assert (G : Forall good_triple (snd (tscan s 0 (Key 0)))).
  { pose proof (section_good s) as G. unfold section_triples in G.
    destruct (tscan s 0 (Key 0)) as [st ts]. cbn. unfold small in *.
    eapply (proj1 (proj1 (Forall_app good_triple ts _) (G ltac:(lia)))). }
  destruct (tscan s 0 (Key 0)) as [st ts]. cbn [snd] in G. rewrite array_new_arr, bind_assoc.
  destruct (pushes_no_ub [] ts G) as [(ps & L & E)|E]; [cbn; lia| |]; rewrite E; cbn [bind].
  - right. rewrite arr_to_vec by exact L. cbn [bind]. eauto.
  - now left.
Qed.

(** ** Slices delimited by ASCII characters *)

Definition left_edge (l : str) : Prop := l = [] \/ exists l' c, l = l' ++ [c] /\ ascii c = true.
Definition right_edge (r : str) : Prop := r = [] \/ exists c r', r = c :: r' /\ ascii c = true.

Lemma left_edge_nil : left_edge [].
Proof. now left. Qed.
Lemma right_edge_nil : right_edge [].
Proof. now left. Qed.
Lemma left_edge_snoc (l : str) (c : byte) : ascii c = true -> left_edge (l ++ [c]).
Proof. right; eauto. Qed.
Lemma right_edge_cons (r : str) (c : byte) : ascii c = true -> right_edge (c :: r).
Proof. right; eauto. Qed.

Lemma left_edge_boundary (src l r : str) :
  utf8_valid src = true -> src = l ++ r -> left_edge l -> boundary_ok src (length l).
Proof.
  intros U -> [->|(l' & c & -> & A)]; [apply boundary_start|].
  apply boundary_app; [reflexivity|]. apply utf8_head'.
  rewrite <- app_assoc in U. cbn [app] in U. eapply utf8_right; eauto.
Qed.

Lemma right_edge_boundary (src l r : str) :
  src = l ++ r -> right_edge r -> boundary_ok src (length l).
Proof.
  intros -> [->|(c & r' & -> & A)].
  - apply boundary_end. now rewrite app_nil_r.
  - now apply boundary_ascii.
Qed.

Lemma slice_between (src l x r : str) (i j : nat) :
  src = l ++ x ++ r -> i = length l -> j = length l + length x ->
  boundary_ok src (length l) -> right_edge r -> slice src i j = Ret x.
Proof.
  intros E -> -> L R. apply slice_ok with (l := l) (r := r); auto.
  rewrite <- app_length. eapply right_edge_boundary; [|exact R]. now rewrite E, <- app_assoc.
Qed.

Lemma span_get_between (src l x r : str) (i j : nat) :
  small (length l + length x) -> src = l ++ x ++ r ->
  i = length l -> j = length l + length x ->
  boundary_ok src (length l) -> right_edge r -> span_get src (span_from i j) = Ret x.
Proof.
  intros S E -> -> L R. unfold span_get, span_from. cbn [sp_start sp_end].
  unfold small in S.
  rewrite !as_u32_id by lia. eapply slice_between; eauto.
Qed.

Ltac smaller :=
  unfold small in *; cbn [length] in *;
  repeat (progress rewrite ?app_length in *; cbn [length] in * ); lia.

Lemma snoc_boundary (src l r : str) (c : byte) :
  utf8_valid src = true -> src = (l ++ [c]) ++ r -> ascii c = true ->
  boundary_ok src (length (l ++ [c])).
Proof. intros U E A. eapply left_edge_boundary; eauto. now apply left_edge_snoc. Qed.

(** ** Prefix *)

Record pstate := mk_ps { ps_host : nat; ps_nick : option span; ps_ne : option nat; ps_user : option span }.

Definition pstep (start i : nat) (c : byte) (s : pstate) : pstate :=
  if Byte.eqb c "@" then
    match ps_ne s with
    | Some ne => mk_ps (i + 1) (ps_nick s) (ps_ne s) (Some (span_from (ne + 1) i))
    | None => mk_ps (i + 1) (Some (span_from start i)) (ps_ne s) (ps_user s)
    end
  else if Byte.eqb c "!" then mk_ps (ps_host s) (Some (span_from start i)) (Some i) (ps_user s)
  else s.

Fixpoint pfold (start i : nat) (p : str) (s : pstate) : pstate :=
  match p with
  | [] => s
  | c :: p' => pfold start (i + 1) p' (pstep start i c s)
  end.

Lemma pfold_snoc (start i : nat) (p : str) (c : byte) (s : pstate) :
  pfold start i (p ++ [c]) s = pstep start (i + length p) c (pfold start i p s).
Proof.
  revert i s; induction p as [|x p IH]; intros i s; cbn [app pfold length].
  - now rewrite Nat.add_0_r.
  - rewrite IH. f_equal. lia.
Qed.

Definition pinit (start : nat) : pstate := mk_ps start None None None.

Definition pspec (start : nat) (p : str) : pstate :=
  mk_ps (match cut_last "@" p with Some (a, _) => start + length a + 1 | None => start end)
        (match cut_last "!" p with
         | Some (a, _) => Some (span_from start (start + length a))
         | None => match cut_last "@" p with
                   | Some (a, _) => Some (span_from start (start + length a))
                   | None => None
                   end
         end)
        (match cut_last "!" p with Some (a, _) => Some (start + length a) | None => None end)
        (match cut_last "@" p with
         | Some (q, _) =>
           match cut_last "!" q with
           | Some (n, _) => Some (span_from (start + length n + 1) (start + length q))
           | None => None
           end
         | None => None
         end).

Lemma pfold_spec (start : nat) (p : str) : pfold start start p (pinit start) = pspec start p.
Proof.
  induction p as [|c p IH] using rev_ind; [reflexivity|].
  rewrite pfold_snoc, IH. unfold pstep, pspec. rewrite !cut_last_snoc.
  cbn [ps_host ps_nick ps_ne ps_user].
  destruct (byte_eqb_spec c "@") as [->|N1].
  - rewrite (byte_eqb_neq "@" "!") by discriminate.
    destruct (cut_last "!" p) as [[a r]|] eqn:E; [reflexivity|].
    f_equal.
    destruct (cut_last "@" p) as [[q r]|] eqn:F; [|reflexivity].
    apply cut_last_some in F. destruct F as [-> _].
    apply cut_last_none in E. destruct (cut_last "!" q) as [[n u]|] eqn:G; [|reflexivity].
    exfalso. apply cut_last_some in G. destruct G as [-> _]. apply E.
    apply in_or_app; left. apply in_or_app; right. now left.
  - destruct (byte_eqb_spec c "!") as [->|N2].
    + destruct (cut_last "@" p) as [[q r]|]; reflexivity.
    + destruct (cut_last "!" p) as [[a r]|], (cut_last "@" p) as [[q r']|]; reflexivity.
Qed.

Lemma prefix_loop_fold (p r src : str) (start i : nat) (s : pstate) (pre : str) :
  src = pre ++ p ++ " "%byte :: r -> i = length pre -> ~ In " "%byte p ->
  prefix_loop (length src - i) src start i (ps_host s) (ps_nick s) (ps_ne s) (ps_user s)
  = Ret (Some (mk_raw_prefix (ps_nick (pfold start i p s)) (ps_user (pfold start i p s))
                 (span_from (ps_host (pfold start i p s)) (i + length p)),
               i + length p + 1)).
Proof.
  revert pre i s; induction p as [|c p IH]; intros pre i s E -> H.
  - replace (length src - length pre) with (S (length r)) by (rewrite E, app_length; cbn; lia).
    cbn [prefix_loop pfold length]. rewrite E, nth_error_app2, Nat.sub_diag by lia. cbn.
    now rewrite Nat.add_0_r.
  - replace (length src - length pre) with (S (length src - (length pre + 1)))
      by (rewrite E, !app_length; cbn; lia).
    cbn [prefix_loop pfold length].
    assert (N : nth_error src (length pre) = Some c)
      by (rewrite E, nth_error_app2, Nat.sub_diag by lia; reflexivity).
    rewrite N. rewrite (byte_eqb_neq c " ") by (intros ->; apply H; now left).
    assert (H' : ~ In " "%byte p) by (intros K; apply H; now right).
    assert (E' : src = (pre ++ [c]) ++ p ++ " "%byte :: r) by (rewrite E, <- app_assoc; reflexivity).
    assert (L : length pre + 1 = length (pre ++ [c])) by (rewrite app_length; reflexivity).
    replace (length pre + S (length p)) with (length pre + 1 + length p) by lia.
    rewrite <- (IH (pre ++ [c]) (length pre + 1) (pstep start (length pre) c s) E' L H').
    unfold pstep. destruct (Byte.eqb c "@").
    + destruct (ps_ne s); reflexivity.
    + destruct (Byte.eqb c "!"); reflexivity.
Qed.

Lemma prefix_loop_none (p src pre : str) (start i hs : nat) (n : option span) (ne : option nat) (u : option span) :
  src = pre ++ p -> i = length pre -> ~ In " "%byte p ->
  prefix_loop (length src - i) src start i hs n ne u = Ret None.
Proof.
  revert pre i hs n ne u; induction p as [|c p IH]; intros pre i hs n ne u E -> H.
  - replace (length src - length pre) with 0 by (rewrite E, app_length; cbn; lia). reflexivity.
  - replace (length src - length pre) with (S (length src - (length pre + 1)))
      by (rewrite E, !app_length; cbn; lia).
    cbn [prefix_loop].
    assert (N : nth_error src (length pre) = Some c)
      by (rewrite E, nth_error_app2, Nat.sub_diag by lia; reflexivity).
    rewrite N. rewrite (byte_eqb_neq c " ") by (intros ->; apply H; now left).
    assert (H' : ~ In " "%byte p) by (intros K; apply H; now right).
    assert (E' : src = (pre ++ [c]) ++ p) by (rewrite E, <- app_assoc; reflexivity).
    assert (L : length pre + 1 = length (pre ++ [c])) by (rewrite app_length; reflexivity).
    destruct (Byte.eqb c "@"); [destruct ne|destruct (Byte.eqb c "!")];
      now apply (IH (pre ++ [c])).
Qed.

Definition opt_refines {A B : Type} (get : A -> res B) (o : option A) (o' : option B) : Prop :=
  match o, o' with
  | None, None => True
  | Some a, Some x => get a = Ret x
  | _, _ => False
  end.

Lemma prefix_get_spec (src pre p r : str) :
  utf8_valid src = true -> small (length pre + length p) ->
  src = pre ++ p ++ " "%byte :: r -> boundary_ok src (length pre) ->
  let s := pspec (length pre) p in
  raw_prefix_get src (mk_raw_prefix (ps_nick s) (ps_user s) (span_from (ps_host s) (length pre + length p)))
  = Ret (spec_prefix p).
Proof.
  intros U S E L. cbn zeta. unfold raw_prefix_get, spec_prefix, pspec.
  cbn [rp_nick rp_user rp_host ps_host ps_nick ps_user].
  assert (Hhost : span_get src (span_from
      match cut_last "@" p with Some (a, _) => length pre + length a + 1 | None => length pre end
      (length pre + length p)) = Ret match cut_last "@" p with Some (_, h) => h | None => p end).
  { destruct (cut_last "@" p) as [[q h]|] eqn:F.
    - apply cut_last_some in F. destruct F as [-> _].
      apply span_get_between with (l := (pre ++ q) ++ ["@"%byte]) (r := " "%byte :: r); auto.
      + smaller.
      + rewrite E, <- !app_assoc. reflexivity.
      + rewrite !app_length. cbn. lia.
      + rewrite !app_length. cbn. lia.
      + eapply snoc_boundary; auto. rewrite E, <- !app_assoc. reflexivity.
      + now apply right_edge_cons.
    - apply span_get_between with (l := pre) (r := " "%byte :: r); auto.
      now apply right_edge_cons. }
  rewrite Hhost. clear Hhost.
  assert (Hnick : forall c q z, ascii c = true -> cut_last c p = Some (q, z) ->
    span_get src (span_from (length pre) (length pre + length q)) = Ret q).
  { intros c q z A F. apply cut_last_some in F. destruct F as [-> _].
    apply span_get_between with (l := pre) (r := c :: z ++ " "%byte :: r); auto.
    - smaller.
    - rewrite E, <- !app_assoc. reflexivity.
    - now apply right_edge_cons. }
  assert (N : opt_span_get src
     match cut_last "!" p with
     | Some (a, _) => Some (span_from (length pre) (length pre + length a))
     | None => match cut_last "@" p with
               | Some (a, _) => Some (span_from (length pre) (length pre + length a))
               | None => None
               end
     end = Ret (match cut_last "!" p with
                | Some (n, _) => Some n
                | None => match cut_last "@" p with Some (n, _) => Some n | None => None end
                end)).
  { destruct (cut_last "!" p) as [[q z]|] eqn:F.
    - cbn [opt_span_get rmap]. unfold rmap. now rewrite (Hnick "!"%byte q z eq_refl F).
    - destruct (cut_last "@" p) as [[q z]|] eqn:G; [|reflexivity].
      cbn [opt_span_get]. unfold rmap. now rewrite (Hnick "@"%byte q z eq_refl G). }
  rewrite N. cbn [bind]. clear N.
  assert (Us : opt_span_get src
    match cut_last "@" p with
    | Some (q, _) =>
      match cut_last "!" q with
      | Some (n, _) => Some (span_from (length pre + length n + 1) (length pre + length q))
      | None => None
      end
    | None => None
    end = Ret (match cut_last "@" p with
               | Some (q, _) => match cut_last "!" q with Some (_, u) => Some u | None => None end
               | None => None
               end)).
  { destruct (cut_last "@" p) as [[q z]|] eqn:F; [|reflexivity].
    destruct (cut_last "!" q) as [[n u]|] eqn:G; [|reflexivity].
    apply cut_last_some in F. destruct F as [-> _]. apply cut_last_some in G. destruct G as [-> _].
    cbn [opt_span_get]. unfold rmap.
    rewrite (span_get_between src ((pre ++ n) ++ ["!"%byte]) u ("@"%byte :: z ++ " "%byte :: r)); auto.
    - smaller.
    - rewrite E, <- !app_assoc. cbn. rewrite <- ?app_assoc. reflexivity.
    - rewrite !app_length. cbn. lia.
    - rewrite !app_length. cbn. lia.
    - eapply snoc_boundary; auto. rewrite E, <- !app_assoc. reflexivity.
    - now apply right_edge_cons. }
  rewrite Us. reflexivity.
Qed.

(** Each sub-parser, at a position that splits the text as [pre ++ s]: what it
    finds and where it leaves the position. *)
Definition at_pos (src : str) (pos : nat) (s : str) : Prop :=
  exists pre, src = pre ++ s /\ pos = length pre /\ boundary_ok src (length pre).

Lemma at_pos_slice (src s : str) (pos : nat) :
  at_pos src pos s -> slice_from src pos = Ret s.
Proof. intros (pre & E & -> & L). eapply slice_from_ok; eauto. Qed.

Lemma at_pos_snoc (src pre s : str) (c : byte) (pos : nat) :
  utf8_valid src = true -> src = (pre ++ [c]) ++ s -> ascii c = true -> pos = length pre + 1 ->
  at_pos src pos s.
Proof.
  intros U E A ->. exists (pre ++ [c]). split; [exact E|]. split; [now rewrite app_length|].
  eapply snoc_boundary; eauto.
Qed.

Lemma at_pos_end (src : str) : at_pos src (length src) [].
Proof. exists src. rewrite app_nil_r. repeat split. now apply boundary_end. Qed.

Lemma starts_with_cons (c : byte) (x : byte) (s : str) : starts_with [c] (x :: s) = Byte.eqb x c.
Proof.
  unfold starts_with. cbn. destruct (byte_eqb_spec c x) as [->|N].
  - now rewrite byte_eqb_refl.
  - now rewrite byte_eqb_neq by congruence.
Qed.

Lemma prefix_parse_spec (src s : str) (pos : nat) :
  utf8_valid src = true -> small (length src - length (snd (spec_split_prefix s))) -> at_pos src pos s ->
  exists rp pos',
    prefix_parse src pos = Ret (rp, pos') /\ opt_refines (raw_prefix_get src) rp (fst (spec_split_prefix s)) /\ at_pos src pos' (snd (spec_split_prefix s)).
Proof.
  intros U S A. unfold prefix_parse. rewrite (at_pos_slice src s pos A). cbn [bind].
  destruct s as [|c s]; [exists None, pos; cbn; auto|].
  change (b ":") with [":"%byte]. rewrite starts_with_cons. cbn [spec_split_prefix] in *.
  destruct (byte_eqb_spec c ":") as [->|N]; cbn [negb]; [|exists None, pos; cbn; auto].
  destruct A as (pre & E & -> & L).
  pose proof (cut_find " " s) as C. destruct (find_byte " " s) as [i|].
  - destruct C as (p & r & -> & <- & NI & C). rewrite C in *. cbn [fst snd] in *.
    assert (E' : src = (pre ++ [":"%byte]) ++ p ++ " "%byte :: r) by (rewrite E, <- app_assoc; reflexivity).
    assert (L' : length pre + 1 = length (pre ++ [":"%byte])) by (rewrite app_length; reflexivity).
    rewrite L'.
    pose proof (prefix_loop_fold p r src (length (pre ++ [":"%byte])) _ (pinit (length (pre ++ [":"%byte])))
                  _ E' eq_refl NI) as F.
    cbn [pinit ps_host ps_nick ps_ne ps_user] in F. rewrite F. clear F. cbn [bind]. cbn zeta.
    do 2 eexists. split; [reflexivity|]. split.
    + cbn [opt_refines]. rewrite (pfold_spec (length (pre ++ [":"%byte])) p).
      apply prefix_get_spec with (r := r); auto.
      * rewrite E in S. smaller.
      * eapply snoc_boundary; eauto.
    + apply at_pos_snoc with (pre := (pre ++ [":"%byte]) ++ p) (c := " "%byte); auto.
      * rewrite E', <- !app_assoc. reflexivity.
      * rewrite !app_length. cbn. lia.
  - destruct C as [NI C]. rewrite C. cbn [fst snd].
    rewrite (prefix_loop_none s src (pre ++ [":"%byte])); auto.
    + exists None, (length pre). cbn. repeat split. exists pre; auto.
    + rewrite E, <- app_assoc. reflexivity.
    + rewrite app_length. reflexivity.
Qed.

(** ** Command, channel, params *)

Lemma assoc_commands (w : str) (src : str) :
  match assoc w command_table with
  | Some c => raw_command_get src c = Ret (spec_command w) /\ w <> []
  | None => spec_command w = Other w
  end.
Proof.
  unfold spec_command.
  assert (G : forall t k,
    map fst t = map fst k ->
    Forall2 (fun a c => raw_command_get src (snd a) = Ret (snd c)) t k ->
    match assoc w t with
    | Some c => exists d, assoc w k = Some d /\ raw_command_get src c = Ret d
    | None => assoc w k = None
    end).
  { intros t k M F. revert M. induction F as [|[x c] [y d] t k H F IH]; intros M; cbn in *; [reflexivity|].
    injection M as -> M. destruct (str_eqb w y); [eauto|]. now apply IH. }
  assert (NE : forall t, (forall x c, In (x, c) t -> x <> []) ->
     forall c, assoc w (t : list (str * raw_command)) = Some c -> w <> []).
  { intros t H c. induction t as [|[x d] t IH]; cbn; [discriminate|].
    destruct (str_eqb_spec w x) as [->|N].
    - intros _. apply (H x d). now left.
    - apply IH. intros y e K. apply (H y e). now right. }
  specialize (G command_table known_commands eq_refl).
  assert (F : Forall2 (fun a c => raw_command_get src (snd a) = Ret (snd c)) command_table known_commands)
    by (repeat constructor).
  specialize (G F). destruct (assoc w command_table) as [c|] eqn:E.
  - destruct G as (d & G1 & G2). rewrite G1. split; [exact G2|].
    apply (NE command_table) with (c := c); [|exact E].
    intros x e K. cbn in K. repeat (destruct K as [K|K]; [injection K as <- _; discriminate|]). destruct K.
  - now rewrite G.
Qed.

Lemma command_parse_spec (src s : str) (pos : nat) :
  utf8_valid src = true -> small (length src - length (or_empty (snd (cut " " s)))) -> at_pos src pos s ->
  let '(w, r) := cut " " s in
  match w with
  | [] => command_parse src pos = Ret (None, pos)
  | _ => exists c pos', command_parse src pos = Ret (Some c, pos') /\        raw_command_get src c = Ret (spec_command w) /\ at_pos src pos' (or_empty r)
  end.
Proof.
  intros U S A. unfold command_parse. rewrite (at_pos_slice src s pos A). cbn [bind].
  destruct A as (pre & E & -> & L).
  pose proof (cut_find " " s) as C. destruct (find_byte " " s) as [i|].
  - destruct C as (w & r & -> & <- & NI & C). rewrite C in *. cbn [snd or_empty] in *.
    assert (S' : small (length pre + length w)) by (rewrite E in S; smaller).
    rewrite (slice_between src pre w (" "%byte :: r)); auto; [|now apply right_edge_cons].
    cbn [bind]. pose proof (assoc_commands w src) as K.
    assert (AP : at_pos src (length pre + length w + 1) r).
    { apply at_pos_snoc with (pre := pre ++ w) (c := " "%byte); auto.
      - rewrite E, <- !app_assoc. reflexivity.
      - now rewrite app_length. }
    destruct (assoc w command_table) as [c|].
    + destruct K as [K1 K2]. destruct w; [congruence|].
      do 2 eexists. repeat split; eauto.
    + destruct w as [|x w]; [reflexivity|].
      do 2 eexists. split; [reflexivity|]. split; [|exact AP].
      cbn [raw_command_get]. unfold rmap.
      rewrite (span_get_between src pre (x :: w) (" "%byte :: r)); auto; [|now apply right_edge_cons].
      cbn [bind]. now rewrite K.
  - destruct C as [NI C]. rewrite C in *. cbn [snd or_empty length] in *.
    assert (S' : small (length pre + length s)) by (rewrite E in S; smaller).
    assert (LS : length src = length pre + length s) by (rewrite E, app_length; lia).
    rewrite (slice_between src pre s []); auto; [|now rewrite app_nil_r|apply right_edge_nil].
    cbn [bind]. pose proof (assoc_commands s src) as K.
    destruct (assoc s command_table) as [c|].
    + destruct K as [K1 K2]. destruct s; [congruence|].
      do 2 eexists. repeat split; eauto. apply at_pos_end.
    + destruct s as [|x s]; [reflexivity|].
      do 2 eexists. split; [reflexivity|]. split; [|apply at_pos_end].
      cbn [raw_command_get]. unfold rmap.
      rewrite (span_get_between src pre (x :: s) []); auto; [|now rewrite app_nil_r|apply right_edge_nil].
      cbn [bind]. now rewrite K.
Qed.

Lemma channel_parse_spec (src s : str) (pos : nat) :
  utf8_valid src = true -> small (length src - length (snd (spec_split_channel s))) -> at_pos src pos s ->
  exists o pos', channel_parse src pos = Ret (o, pos') /\ opt_refines (span_get src) o (fst (spec_split_channel s)) /\ at_pos src pos' (snd (spec_split_channel s)).
Proof.
  intros U S A. unfold channel_parse. rewrite (at_pos_slice src s pos A). cbn [bind].
  destruct s as [|c s]; [exists None, pos; cbn; auto|].
  change (b "#") with ["#"%byte]. rewrite starts_with_cons. cbn [spec_split_channel] in *.
  destruct (byte_eqb_spec c "#") as [->|N]; [|exists None, pos; cbn; auto].
  destruct A as (pre & E & -> & L).
  pose proof (cut_find " " ("#"%byte :: s)) as C.
  destruct (find_byte " " ("#"%byte :: s)) as [i|].
  - destruct C as (p & r & Es & <- & NI & C). rewrite C in *. cbn [fst snd or_empty] in *.
    rewrite Es in E.
    assert (S' : small (length pre + length p)) by (rewrite E in S; smaller).
    do 2 eexists. split; [reflexivity|]. split.
    + cbn [opt_refines].
      apply span_get_between with (l := pre) (r := " "%byte :: r); auto. now apply right_edge_cons.
    + apply at_pos_snoc with (pre := pre ++ p) (c := " "%byte); auto.
      * rewrite E, <- !app_assoc. reflexivity.
      * now rewrite app_length.
  - destruct C as [NI C]. rewrite C in *. cbn [fst snd or_empty] in *.
    assert (S' : small (length pre + length ("#"%byte :: s))) by (rewrite E in S; smaller).
    do 2 eexists. split; [reflexivity|]. split; [|apply at_pos_end].
    cbn [opt_refines]. apply span_get_between with (l := pre) (r := []); auto.
    + now rewrite app_nil_r.
    + now rewrite E, app_length.
    + apply right_edge_nil.
Qed.

Lemma params_parse_spec (src s : str) (pos : nat) :
  small (length src - length s) -> at_pos src pos s ->
  exists o, params_parse src pos = Ret o /\
    match o with None => Ret None | Some sp => rmap Some (span_get src sp) end =
    match s with
    | [] => Ret None
    | _ => rmap Some (slice src (length src - length s) (as_u32 (length src)))
    end.
Proof.
  intros S A. unfold params_parse. rewrite (at_pos_slice src s pos A). cbn [bind].
  destruct A as (pre & E & -> & L).
  assert (K : length src - length s = length pre) by (rewrite E, app_length; lia).
  destruct s as [|c s]; [exists None; cbn; auto|].
  eexists. split; [reflexivity|]. rewrite K in *.
  unfold span_get, span_from. cbn [sp_start sp_end]. unfold small in S.
  now rewrite (as_u32_id (length pre)) by lia.
Qed.

(** ** Tags *)

Definition too_many (s : str) : bool := capacity <? length (fst (spec_tags s)).

(** The text of the tag section. *)
Definition tag_text (s : str) : str :=
  match s with
  | c :: r => if Byte.eqb c "@" then
                match cut " " r with (t, Some _) => t | (_, None) => [] end
              else []
  | [] => []
  end.

Lemma tag_text_list (s : str) : fst (spec_tags s) = tag_list (tag_text s).
Proof.
  destruct s as [|c s]; [reflexivity|]. cbn. destruct (Byte.eqb c "@"); [|reflexivity].
  destruct (cut " " s) as [t [r|]]; reflexivity.
Qed.

Definition pairs_of (s : str) : list tag_pair := map pair_of (section_triples (tag_text s)).

Lemma tags_parse_spec (bd : build) (src : str) :
  utf8_valid src = true -> small (length src - length (snd (spec_tags src))) ->
  (bd = Scalar -> ~ unterminated_tags src) ->
  if too_many src then tags_parse bd src 0 = Panic
  else exists o pos', tags_parse bd src 0 = Ret (o, pos') /\ match o with Some ts => ts | None => [] end = pairs_of src /\ at_pos src pos' (snd (spec_tags src)).
Proof.
  intros U S T. unfold too_many. rewrite tag_text_list.
  assert (A0 : at_pos src 0 src) by (exists []; repeat split).
  assert (P : tags_parse bd src 0 =
    match strip_prefix (b "@") src with
    | None => Ret (None, 0)
    | Some s =>
      match find_byte " " s with
      | None => Ret (None, 0)
      | Some e => let! ts := section_pairs (firstn e s) in Ret (Some ts, e + 2)
      end
    end).
  { destruct bd as [v addr|]; cbn [tags_parse]; [apply simd_parse_ok|].
    rewrite scalar_parse_ok. destruct (strip_prefix (b "@") src) as [s|] eqn:E; [|reflexivity].
    destruct (find_byte " " s) eqn:F; [reflexivity|]. exfalso.
    apply strip_prefix_spec in E. apply find_byte_none in F. apply (T eq_refl).
    split; [eauto|]. rewrite E. intros [K|K]; [discriminate|tauto]. }
  rewrite P. clear P. destruct src as [|c s].
  { cbn. exists None, 0. auto. }
  unfold pairs_of. cbn [spec_tags tag_text] in *. change (b "@") with ["@"%byte]. cbn [strip_prefix].
  destruct (byte_eqb_spec c "@") as [->|N].
  2:{ rewrite (byte_eqb_neq "@" c) by congruence. cbn. exists None, 0. auto. }
  rewrite byte_eqb_refl in *. pose proof (cut_find " " s) as C.
  destruct (find_byte " " s) as [e|].
  2:{ destruct C as [_ C]. rewrite C. cbn. exists None, 0. auto. }
  destruct C as (t & r & -> & <- & NI & C). rewrite C in *. cbn [snd] in *.
  rewrite firstn_app, firstn_all, Nat.sub_diag. cbn [firstn]. rewrite app_nil_r.
  assert (St : small (length t)).
  { unfold small in *. cbn [length] in S. rewrite app_length in S. cbn [length] in S. lia. }
  rewrite section_pairs_ok by exact St.
  destruct (capacity <? length (tag_list t)) eqn:Q.
  - now replace (length (tag_list t) <=? capacity) with false by lia.
  - replace (length (tag_list t) <=? capacity) with true by lia. cbn [bind].
    do 2 eexists. split; [reflexivity|]. split; [reflexivity|].
    apply at_pos_snoc with (pre := "@"%byte :: t) (c := " "%byte); auto.
    + cbn. now rewrite <- app_assoc.
    + cbn [length]. lia.
Qed.

(** ** Whole messages *)

(** [m] presents the view [v]; its tags are the located pairs. *)
Definition presents (src : str) (m : msg_ref) (v : view) : Prop :=
  r_src m = src /\
  p_tags (r_parts m) = pairs_of src /\
  ref_prefix m = Ret (v_prefix v) /\
  ref_command m = Ret (spec_command (v_command v)) /\
  opt_span_get src (p_channel (r_parts m)) = Ret (v_channel v) /\
  ref_params m = Ret (v_params v).

Lemma opt_refines_get {A B : Type} (get : A -> res B) (o : option A) (o' : option B) :
  opt_refines get o o' ->
  match o with None => Ret None | Some a => rmap Some (get a) end = Ret o'.
Proof. destruct o, o'; cbn; try tauto. intros H. unfold rmap. now rewrite H. Qed.

(** The start of the parameters, whether or not there are any. *)
Definition params_pos (src : str) : nat :=
  let s2 := snd (spec_split_prefix (snd (spec_tags src))) in
  length src - length (snd (spec_split_channel (or_empty (snd (cut " " s2))))).

Lemma spec_tags_shorter (s : str) : length (snd (spec_tags s)) <= length s.
Proof.
  destruct s as [|c s]; cbn [spec_tags]; [cbn; lia|]. destruct (Byte.eqb c "@"); [|cbn; lia].
  pose proof (cut_find " " s) as C. destruct (find_byte " " s).
  - destruct C as (p & r & -> & _ & _ & ->). cbn [fst snd or_empty]. smaller.
  - destruct C as [_ ->]. cbn. lia.
Qed.

Lemma spec_split_prefix_shorter (s : str) : length (snd (spec_split_prefix s)) <= length s.
Proof.
  destruct s as [|c s]; cbn [spec_split_prefix]; [cbn; lia|]. destruct (Byte.eqb c ":"); [|cbn; lia].
  pose proof (cut_find " " s) as C. destruct (find_byte " " s).
  - destruct C as (p & r & -> & _ & _ & ->). cbn [fst snd or_empty]. smaller.
  - destruct C as [_ ->]. cbn. lia.
Qed.

Lemma cut_shorter (s : str) : length (or_empty (snd (cut " " s))) <= length s.
Proof.
  pose proof (cut_find " " s) as C. destruct (find_byte " " s).
  - destruct C as (p & r & -> & _ & _ & ->). cbn [fst snd or_empty]. smaller.
  - destruct C as [_ ->]. cbn. lia.
Qed.

Lemma spec_split_channel_shorter (s : str) : length (snd (spec_split_channel s)) <= length s.
Proof.
  destruct s as [|c s]; cbn [spec_split_channel]; [cbn; lia|]. destruct (Byte.eqb c "#"); [|cbn; lia].
  pose proof (cut_shorter (c :: s)) as C. destruct (cut " " (c :: s)) as [x y]. exact C.
Qed.

(** As [presents], apart from the parameters. *)
Definition presents_head (src : str) (m : msg_ref) (v : view) : Prop :=
  r_src m = src /\
  p_tags (r_parts m) = pairs_of src /\
  ref_prefix m = Ret (v_prefix v) /\
  ref_command m = Ret (spec_command (v_command v)) /\
  opt_span_get src (p_channel (r_parts m)) = Ret (v_channel v).

Lemma ref_parse_upto (bd : build) (src : str) :
  utf8_valid src = true -> small (params_pos src) ->
  (bd = Scalar -> ~ unterminated_tags src) ->
  if too_many src then ref_parse bd src = Panic
  else match spec_view src with
       | None => ref_parse bd src = Ret None
       | Some v => exists m, ref_parse bd src = Ret (Some m) /\ presents_head src m v /\
           (ref_params m =
            match v_params v with
            | None => Ret None
            | Some p => rmap Some (slice src (length src - length p) (as_u32 (length src)))
            end) /\
           (forall p, v_params v = Some p -> exists l, src = l ++ p /\ boundary_ok src (length l))
       end.
Proof.
  intros U S T. unfold params_pos in S.
  pose proof (spec_tags_shorter src) as Q1.
  pose proof (spec_split_prefix_shorter (snd (spec_tags src))) as Q2.
  pose proof (cut_shorter (snd (spec_split_prefix (snd (spec_tags src))))) as Q3.
  pose proof (spec_split_channel_shorter
                (or_empty (snd (cut " " (snd (spec_split_prefix (snd (spec_tags src)))))))) as Q4.
  assert (S1 : small (length src - length (snd (spec_tags src)))) by (unfold small in *; lia).
  pose proof (tags_parse_spec bd src U S1 T) as K. unfold ref_parse, spec_view.
  destruct (too_many src); [now rewrite K|].
  destruct K as (o & pos & E & Eo & A). rewrite E. cbn [bind]. rewrite Eo. clear E Eo.
  destruct (spec_tags src) as [tags s1]. cbn [snd] in *.
  assert (S2 : small (length src - length (snd (spec_split_prefix s1)))) by (unfold small in *; lia).
  destruct (prefix_parse_spec src s1 pos U S2 A) as (rp & pos2 & E2 & R2 & A2).
  rewrite E2. cbn [bind]. clear E2.
  destruct (spec_split_prefix s1) as [pfx s2]. cbn [fst snd] in *.
  assert (S3 : small (length src - length (or_empty (snd (cut " " s2))))) by (unfold small in *; lia).
  pose proof (command_parse_spec src s2 pos2 U S3 A2) as K3.
  destruct (cut " " s2) as [w r]. cbn [snd] in *. destruct w as [|x w]; [now rewrite K3|].
  destruct K3 as (c & pos3 & E3 & R3 & A3). rewrite E3. cbn [bind]. clear E3.
  destruct (channel_parse_spec src (or_empty r) pos3 U S A3) as (ch & pos4 & E4 & R4 & A4).
  rewrite E4. cbn [bind]. clear E4.
  destruct (spec_split_channel (or_empty r)) as [cho ps]. cbn [fst snd] in *.
  destruct (params_parse_spec src ps pos4 S A4) as (pa & E5 & R5).
  rewrite E5. cbn [bind].
  eexists. split; [reflexivity|]. split; [|split].
  - unfold presents_head. cbn. repeat split.
    + unfold ref_prefix. cbn. now apply opt_refines_get.
    + exact R3.
    + now apply (opt_refines_get (span_get src)).
  - unfold ref_params. cbn [r_src r_parts p_params v_params opt_span_get].
    transitivity (match pa with None => Ret None | Some sp => rmap Some (span_get src sp) end);
      [destruct pa; reflexivity|].
    rewrite R5. destruct ps; reflexivity.
  - cbn [v_params]. intros p Hp. destruct ps; [discriminate|]. injection Hp as <-.
    destruct A4 as (l & El & _ & Bl). eauto.
Qed.

Lemma spec_view_params (s : str) (v : view) (p : str) :
  spec_view s = Some v -> v_params v = Some p -> params_pos s = length s - length p.
Proof.
  unfold spec_view, params_pos. destruct (spec_tags s) as [tags s1].
  cbn [snd]. destruct (spec_split_prefix s1) as [pfx s2].
  cbn [snd]. destruct (cut " " s2) as [w r]. cbn [snd]. destruct w; [discriminate|].
  destruct (spec_split_channel (or_empty r)) as [cho ps]. intros [= <-]. cbn [v_params snd].
  destruct ps; [discriminate|]. now intros [= <-].
Qed.

Lemma ref_parse_spec (bd : build) (src : str) :
  utf8_valid src = true -> small (length src) ->
  (bd = Scalar -> ~ unterminated_tags src) ->
  if too_many src then ref_parse bd src = Panic
  else match spec_view src with
       | None => ref_parse bd src = Ret None
       | Some v => exists m, ref_parse bd src = Ret (Some m) /\ presents src m v
       end.
Proof.
  intros U S T. assert (S' : small (params_pos src)) by (unfold small, params_pos in *; lia).
  pose proof (ref_parse_upto bd src U S' T) as P.
  destruct (too_many src); [exact P|]. destruct (spec_view src) as [v|] eqn:V; [|exact P].
  destruct P as (m & E & (H1 & H2 & H3 & H4 & H5) & H6 & H7). exists m. split; [exact E|].
  unfold presents. repeat split; try assumption. rewrite H6.
  destruct (v_params v) as [p|] eqn:VP; [|reflexivity]. unfold small in S.
  destruct (H7 p eq_refl) as (l & Es & Lb).
  rewrite as_u32_id by lia. unfold rmap.
  rewrite (slice_between src l p []); auto.
  - now rewrite app_nil_r.
  - rewrite Es, app_length. lia.
  - now rewrite Es, app_length.
  - apply right_edge_nil.
Qed.

(** The scalar build panics on every text that starts with ['@'] and has no
    space. *)
Lemma scalar_unterminated (src : str) :
  small (length src) -> unterminated_tags src -> ref_parse Scalar src = Panic.
Proof.
  intros S [[r ->] H].
  assert (H' : ~ In " "%byte r) by (intros K; apply H; now right).
  unfold ref_parse. cbn [tags_parse].
  destruct (scalar_parse_unterminated r) as [E|[ts E]]; auto.
  - unfold small in *. cbn [length app b] in S. replace (length r + 1) with (length (b "@" ++ r)) by (cbn; lia). exact S.
  - rewrite E. reflexivity.
  - rewrite E. cbn [bind]. unfold prefix_parse, slice_from, slice.
    replace (length r + 2 <=? length (b "@" ++ r)) with false by (cbn; lia). reflexivity.
Qed.

(** ** Reading tags *)

Definition short (kv : str * str) : Prop :=
  (N.of_nat (length (fst kv)) < 65536)%N /\ (N.of_nat (length (snd kv)) < 65536)%N.

Lemma pair_read (src t rest : str) (tr : triple) (kv : str * str) :
  utf8_valid src = true -> small (length t + 1) -> src = b "@" ++ t ++ b " " ++ rest ->
  locates t tr kv -> short kv ->
  exists ks vs, pair_key (pair_of tr) = Ret ks /\ span_get src ks = Ret (fst kv) /\             pair_value (pair_of tr) = Ret vs /\ span_get src vs = Ret (snd kv).
Proof.
  intros U S E (l & r & Et & -> & Hl & Hr) [K V]. destruct kv as [k v]. cbn [fst snd] in *.
  unfold pair_of, pair_key, pair_value. cbn [key_start key_end value_end].
  replace (length l + length k - length l) with (length k) by lia.
  replace (length l + length k + 1 + length v - (length l + length k + 1)) with (length v) by lia.
  rewrite !as_u16_id by assumption.
  unfold small in S.
  assert (LE : length t = length l + (length k + (1 + (length v + length r)))).
  { rewrite Et, !app_length. cbn. lia. }
  rewrite !u32_add_ok by lia. cbn [bind]. rewrite !u32_add_ok by lia. cbn [bind].
  rewrite !u32_add_ok by lia. cbn [bind].
  do 2 eexists. split; [reflexivity|]. split; [|split; [reflexivity|]].
  - unfold span_get. cbn [sp_start sp_end].
    apply slice_between with (l := b "@" ++ l) (r := b "=" ++ v ++ r ++ b " " ++ rest).
    + rewrite E, Et, <- !app_assoc. reflexivity.
    + rewrite app_length. cbn. lia.
    + rewrite app_length. cbn. lia.
    + destruct Hl as [->|[l' ->]].
      * apply (snoc_boundary src [] (t ++ b " " ++ rest) "@"); auto.
      * rewrite app_assoc.
        apply (snoc_boundary src (b "@" ++ l') (k ++ b "=" ++ v ++ r ++ b " " ++ rest) ";"); auto.
        rewrite E, Et, <- !app_assoc. reflexivity.
    + now apply right_edge_cons.
  - unfold span_get. cbn [sp_start sp_end].
    apply slice_between with (l := (b "@" ++ l ++ k) ++ b "=") (r := r ++ b " " ++ rest).
    + rewrite E, Et, <- !app_assoc. reflexivity.
    + rewrite !app_length. cbn. lia.
    + rewrite !app_length. cbn. lia.
    + apply snoc_boundary with (r := v ++ r ++ b " " ++ rest); auto.
      rewrite E, Et, <- !app_assoc. reflexivity.
    + destruct Hr as [->|[r' ->]]; now apply right_edge_cons.
Qed.

Lemma tag_text_split (src : str) :
  tag_text src <> [] -> exists rest, src = b "@" ++ tag_text src ++ b " " ++ rest.
Proof.
  destruct src as [|c s]; cbn; [congruence|].
  destruct (byte_eqb_spec c "@") as [->|N]; [|congruence].
  destruct (cut " " s) as [t [r|]] eqn:C; [|congruence].
  intros _. apply cut_some in C. destruct C as [-> _]. eauto.
Qed.

Lemma ref_tags_upto (src : str) (m : msg_ref) :
  utf8_valid src = true -> small (length (tag_text src) + 1) ->
  r_src m = src -> p_tags (r_parts m) = pairs_of src ->
  Forall short (fst (spec_tags src)) ->
  ref_tags m = Ret (fst (spec_tags src)) /\
  forall key, tag_find src (p_tags (r_parts m)) key = Ret (lookup key (fst (spec_tags src))).
Proof.
  intros U S Es Ep F. unfold ref_tags. rewrite Es, Ep, tag_text_list in *. unfold pairs_of.
  pose proof (section_locates (tag_text src)) as L.
  destruct (list_eq_dec byte_eq_dec (tag_text src) []) as [Z|NZ].
  { rewrite Z in *. cbn. auto. }
  apply tag_text_split in NZ. destruct NZ as [rest E].
  revert F. induction L as [|tr kv trs kvs H L IH]; intros F; [cbn; auto|].
  apply Forall_cons_iff in F; destruct F as [Fh Ft].
  destruct (pair_read src (tag_text src) rest tr kv U S E H Fh) as (ks & vs & K1 & K2 & V1 & V2).
  destruct (IH Ft) as [I1 I2]. destruct kv as [k v]. cbn [fst snd] in *. split.
  - assert (G : pair_get src (pair_of tr) = Ret (k, v)).
    { unfold pair_get. rewrite K1. cbn [bind]. rewrite K2. cbn [bind].
      rewrite V1. cbn [bind]. rewrite V2. reflexivity. }
    cbn [map mapM]. rewrite G. cbn [bind]. rewrite I1. reflexivity.
  - intros key. cbn [map tag_find lookup]. rewrite K1. cbn [bind]. rewrite K2. cbn [bind].
    destruct (str_eqb k key); [|apply I2].
    rewrite V1. cbn [bind]. unfold rmap. now rewrite V2.
Qed.

Lemma ref_tags_spec (src : str) (m : msg_ref) :
  utf8_valid src = true -> small (length src) ->
  r_src m = src -> p_tags (r_parts m) = pairs_of src ->
  Forall short (fst (spec_tags src)) ->
  ref_tags m = Ret (fst (spec_tags src)) /\
  forall key, tag_find src (p_tags (r_parts m)) key = Ret (lookup key (fst (spec_tags src))).
Proof.
  intros U S Es Ep F.
  destruct (list_eq_dec byte_eq_dec (tag_text src) []) as [Z|NZ].
  - apply ref_tags_upto; auto. rewrite Z. unfold small in *. cbn. lia.
  - apply ref_tags_upto; auto. apply tag_text_split in NZ. destruct NZ as [rest E].
    unfold small in *. apply (f_equal (@length byte)) in E. rewrite !app_length in E. cbn in E. lia.
Qed.
