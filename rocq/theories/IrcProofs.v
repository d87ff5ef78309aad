(** * IrcProofs: the property lemmas about the base parser. *)

From Coq Require Import Lia ZifyBool ZifyNat ZifyN.
From Verif Require Import Base Wide Tags Irc SpecIrc Samples.
From Verif Require Import BaseFacts SimdFacts IrcFacts Utf8Facts.

(** ** C01 *)

(** C01. Same text, same result: the address and the vector backend are
    irrelevant (any bytes, no size limit). *)
Lemma p_c01_address_and_backend_independent :
  forall (v v' : backend) (addr addr' : nat) (s : str),
    ref_parse (Simd v addr) s = ref_parse (Simd v' addr') s /\
    own_parse (Simd v addr) s = own_parse (Simd v' addr') s.
Proof.
  intros v v' addr addr' s.
  assert (E : ref_parse (Simd v addr) s = ref_parse (Simd v' addr') s).
  { unfold ref_parse. cbn [tags_parse]. now rewrite !simd_parse_ok. }
  split; [exact E|]. unfold own_parse. now rewrite E.
Qed.

Example ex_c01 :
  exists m, ref_parse (Simd Sse2 3) sample = Ret (Some m) /\
            ref_parse (Simd Neon 8) sample = Ret (Some m) /\ length (p_tags (r_parts m)) = 4.
Proof. eexists. split; [vm_compute; reflexivity|]. split; vm_compute; reflexivity. Qed.

(** ** C02 *)

Lemma make_pair_cases (ks ke pos : nat) :
  (exists p, make_pair ks ke pos = Ret p) \/ make_pair ks ke pos = Panic.
Proof.
  unfold make_pair, u32_add, usize_sub.
  destruct (_ <? _)%N; cbn [bind]; [|auto].
  destruct (ks <=? ke); cbn [bind]; [|auto].
  destruct (ke + 1 <=? pos); cbn [bind]; eauto.
Qed.

Lemma pushes_cases (ts : list triple) (ps : list tag_pair) :
  length ps <= capacity ->
  (exists ps', length ps' <= capacity /\ pushes (arr ps) ts = Ret (arr ps')) \/
  pushes (arr ps) ts = Panic.
Proof.
  revert ps; induction ts as [|[[ks ke] pos] ts IH]; intros ps H; [left; exists ps; auto|].
  cbn [pushes]. destruct (make_pair_cases ks ke pos) as [[p ->]| ->]; cbn [bind]; [|auto].
  destruct (Nat.eq_dec (length ps) capacity) as [E|E].
  - rewrite arr_full by exact E. auto.
  - rewrite arr_push by lia. cbn [bind]. apply IH. rewrite app_length. cbn [length]. lia.
Qed.

Definition fine {A : Type} (r : res A) : Prop := (exists a, r = Ret a) \/ r = Panic.

Lemma section_pairs_fine (t : str) : fine (section_pairs t).
Proof.
  unfold section_pairs, fine. rewrite array_new_arr.
  destruct (pushes_cases (section_triples t) []) as [(ps & L & ->)| ->]; cbn [bind length]; [lia| |auto].
  rewrite arr_to_vec by exact L. eauto.
Qed.

Lemma fine_bind {A B : Type} (m : res A) (f : A -> res B) :
  fine m -> (forall a, fine (f a)) -> fine (bind m f).
Proof. intros [[a ->]| ->] H; cbn; [apply H|now right]. Qed.

Lemma fine_ret {A : Type} (a : A) : fine (Ret a).
Proof. left; eauto. Qed.

Lemma slice_fine (s : str) (i j : nat) : fine (slice s i j).
Proof. unfold slice. destruct (_ && _); [left; eauto|now right]. Qed.

Lemma tags_parse_fine (bd : build) (s : str) : fine (tags_parse bd s 0).
Proof.
  destruct bd as [v addr|]; cbn [tags_parse].
  - rewrite simd_parse_ok. destruct (strip_prefix _ s) as [r|]; [|apply fine_ret].
    destruct (find_byte " " r); [|apply fine_ret].
    apply fine_bind; [apply section_pairs_fine|intros; apply fine_ret].
  - rewrite scalar_parse_ok. destruct (strip_prefix (b "@") s) as [r|] eqn:E; [|apply fine_ret].
    destruct (find_byte " " r) eqn:F.
    + apply fine_bind; [apply section_pairs_fine|intros; apply fine_ret].
    + unfold scalar_parse. apply fine_bind; [apply slice_fine|]. intros a.
      clear E F r. destruct (strip_prefix (b "@") a) as [r|]; [|apply fine_ret].
      assert (K : forall t off st ps, length ps <= capacity ->
        (exists o ps', length ps' <= capacity /\ scalar_loop t off st (arr ps) = Ret (o, arr ps'))
        \/ scalar_loop t off st (arr ps) = Panic).
      { induction t as [|c t IH]; intros off st ps H; cbn [scalar_loop]; [eauto 6|].
        assert (P : forall (k : array -> res (nat * array)) ks ke,
          (forall ps', length ps' <= capacity ->
            (exists o q, length q <= capacity /\ k (arr ps') = Ret (o, arr q)) \/ k (arr ps') = Panic) ->
          let r := (let! p := make_pair ks ke off in let! a' := array_push (arr ps) p in k a') in
          (exists o q, length q <= capacity /\ r = Ret (o, arr q)) \/ r = Panic).
        { intros k ks ke Hk. cbn zeta.
          destruct (make_pair_cases ks ke off) as [[p ->]| ->]; cbn [bind]; [|auto].
          destruct (Nat.eq_dec (length ps) capacity) as [Q|Q].
          - rewrite arr_full by exact Q. auto.
          - rewrite arr_push by lia. cbn [bind]. apply Hk. rewrite app_length. cbn [length]. lia. }
        destruct (Byte.eqb c "="); [destruct st; now apply IH|].
        destruct (Byte.eqb c ";"); [destruct st; [now apply IH|]|].
        { apply (P (fun a' => scalar_loop t (off + 1) (Key (off + 1)) a')). intros; now apply IH. }
        destruct (Byte.eqb c " "); [|now apply IH].
        destruct st; [eauto 6|].
        apply (P (fun a' => Ret (off, a'))). eauto 6. }
      rewrite array_new_arr.
      destruct (K r 0 (Key 0) []) as [(o & ps & L & ->)| ->]; cbn [bind length]; [lia| |now right].
      rewrite arr_to_vec by exact L. apply fine_ret.
Qed.

Lemma prefix_loop_fine (n : nat) (src : str) (start i hs : nat) (nk : option span) (ne : option nat) (u : option span) :
  i + n <= length src -> fine (prefix_loop n src start i hs nk ne u).
Proof.
  revert i hs nk ne u; induction n as [|n IH]; intros i hs nk ne u H; cbn [prefix_loop]; [apply fine_ret|].
  destruct (nth_error src i) as [c|] eqn:E.
  2:{ apply nth_error_None in E. lia. }
  destruct (Byte.eqb c " "); [apply fine_ret|].
  destruct (Byte.eqb c "@"); [destruct ne; apply IH; lia|].
  destruct (Byte.eqb c "!"); apply IH; lia.
Qed.

(** C02. For any bytes, any address and any backend, parsing ends by returning
    or by a panic: no vector load leaves the text or is misaligned, no
    unchecked index is out of range, no uninitialised tag slot is read. *)
Lemma p_c02_no_undefined_behaviour :
  forall (bd : build) (s : str),
    (exists r, ref_parse bd s = Ret r) \/ ref_parse bd s = Panic.
Proof.
  intros bd s. change (fine (ref_parse bd s)). unfold ref_parse.
  apply fine_bind; [apply tags_parse_fine|]. intros [ts pos].
  apply fine_bind.
  { unfold prefix_parse. apply fine_bind; [apply slice_fine|]. intros a.
    destruct (negb _) eqn:E; [apply fine_ret|].
    apply fine_bind; [|intros [[p q]|]; apply fine_ret].
    destruct (Nat.le_gt_cases (pos + 1) (length s)) as [L|L].
    - apply prefix_loop_fine. lia.
    - replace (length s - (pos + 1)) with 0 by lia. apply fine_ret. }
  intros [p pos2]. apply fine_bind.
  { unfold command_parse. apply fine_bind; [apply slice_fine|]. intros a.
    destruct (find_byte " " a); (apply fine_bind; [apply slice_fine|]); intros w;
      destruct (assoc w command_table); try apply fine_ret; destruct w; apply fine_ret. }
  intros [c pos3]. destruct c as [c|]; [|apply fine_ret]. apply fine_bind.
  { unfold channel_parse. apply fine_bind; [apply slice_fine|]. intros a.
    destruct (starts_with _ a); [|apply fine_ret]. apply fine_bind; [apply slice_fine|]. intros a'.
    destruct (find_byte " " a'); apply fine_ret. }
  intros [ch pos4]. apply fine_bind.
  { unfold params_parse. apply fine_bind; [apply slice_fine|]. intros a. destruct a; apply fine_ret. }
  intros ps. apply fine_ret.
Qed.

(** A line whose tag section needs every stage of the vector search. *)
Example ex_c02 :
  exists r, ref_parse (Simd Avx2 7) (b "@" ++ repeat "a"%byte 300 ++ b "=1;x=2 PING") = Ret (Some r).
Proof. eexists. vm_compute. reflexivity. Qed.

(** C02. The vector search itself: for any bytes, address, backend and needle it
    returns the index of the first occurrence. *)
Lemma p_c02_vector_search_exact :
  forall (v : backend) (addr : nat) (data : list byte) (c : byte),
    match find_first v addr data c with
    | Ret (Some i) => exists l r, data = l ++ [c] ++ r /\ length l = i /\ ~ In c l
    | Ret None => ~ In c data
    | _ => False
    end.
Proof.
  intros v addr data c. rewrite find_first_ok. destruct (find_byte c data) as [i|] eqn:E.
  - apply find_byte_some in E. exact E.
  - now apply find_byte_none.
Qed.

Example ex_c02_search :
  find_first Neon 5 (repeat "."%byte 100 ++ b "x" ++ repeat "x"%byte 7) "x" = Ret (Some 100).
Proof. vm_compute. reflexivity. Qed.

(** ** C03 *)

Lemma small_below (s : str) : small (length s) <-> below_4gib s.
Proof. reflexivity. Qed.

Lemma section_spec (s sec rest : str) (l : list (str * str)) :
  has_section s sec rest -> tag_section sec l -> spec_tags s = (l, rest).
Proof.
  intros [-> H] T. apply tag_list_section in T. cbn.
  assert (C : cut " " (sec ++ " "%byte :: rest) = (sec, Some rest)) by now apply cut_some.
  rewrite C. now subst.
Qed.

Lemma has_section_terminated (s sec rest : str) : has_section s sec rest -> ~ unterminated_tags s.
Proof.
  intros [-> H] [_ K]. apply K. cbn. right. apply in_or_app. right. now left.
Qed.

Lemma no_section_spec (s : str) :
  (forall sec rest, ~ has_section s sec rest) -> spec_tags s = ([], s).
Proof.
  intros H. destruct s as [|c s]; [reflexivity|]. cbn.
  destruct (byte_eqb_spec c "@") as [->|N]; [|reflexivity].
  destruct (cut " " s) as [t [r|]] eqn:C; [|reflexivity].
  apply cut_some in C. destruct C as [-> C]. destruct (H t r). now split.
Qed.

Lemma section_cases (s : str) :
  (exists sec rest, has_section s sec rest) \/ (forall sec rest, ~ has_section s sec rest).
Proof.
  destruct s as [|c s].
  { right. intros sec rest [E _]. discriminate. }
  destruct (byte_eqb_spec c "@") as [->|N].
  - destruct (cut " " s) as [t [r|]] eqn:C.
    + apply cut_some in C. destruct C as [-> C]. left. exists t, r. now split.
    + apply cut_none in C. destruct C as [-> C]. right. intros sec rest [E _].
      injection E as ->. apply C. apply in_or_app. right. now left.
  - right. intros sec rest [E _]. injection E as -> _. congruence.
Qed.

Lemma parse_cases (bd : build) (s : str) :
  utf8_valid s = true -> below_4gib s -> (bd = Scalar -> ~ unterminated_tags s) ->
  length (fst (spec_tags s)) <= 128 ->
  match spec_view s with
  | None => ref_parse bd s = Ret None
  | Some v => exists m, ref_parse bd s = Ret (Some m) /\ presents s m v
  end.
Proof.
  intros U S T L. pose proof (ref_parse_spec bd s U S T) as P.
  unfold too_many in P. change capacity with 128 in P.
  now replace (128 <? length (fst (spec_tags s))) with false in P by lia.
Qed.

Lemma parse_panics (bd : build) (s : str) :
  utf8_valid s = true -> below_4gib s -> (bd = Scalar -> ~ unterminated_tags s) ->
  128 < length (fst (spec_tags s)) -> ref_parse bd s = Panic.
Proof.
  intros U S T L. pose proof (ref_parse_spec bd s U S T) as P.
  unfold too_many in P. change capacity with 128 in P.
  now replace (128 <? length (fst (spec_tags s))) with true in P by lia.
Qed.

(** What a successful parse tells. *)
Lemma parse_inv (bd : build) (s : str) (m : msg_ref) :
  utf8_valid s = true -> below_4gib s -> ref_parse bd s = Ret (Some m) ->
  (bd = Scalar -> ~ unterminated_tags s) /\ length (fst (spec_tags s)) <= 128 /\
  exists v, spec_view s = Some v /\ presents s m v.
Proof.
  intros U S E.
  assert (T : bd = Scalar -> ~ unterminated_tags s).
  { intros -> K. rewrite scalar_unterminated in E by assumption. discriminate. }
  split; [exact T|].
  destruct (Nat.le_gt_cases (length (fst (spec_tags s))) 128) as [L|L].
  - split; [exact L|]. pose proof (parse_cases bd s U S T L) as P.
    destruct (spec_view s) as [v|].
    + destruct P as (m' & P1 & P2). rewrite E in P1. injection P1 as <-. eauto.
    + rewrite E in P. discriminate.
  - rewrite parse_panics in E by assumption. discriminate.
Qed.

(** C03. A line with a tag section of at most 128 pairs, each shorter than
    65536 bytes: [tags()] is the list of its pairs, in both builds. *)
Lemma p_c03_tags_exact :
  forall (bd : build) (s sec rest : str) (l : list (str * str)),
    utf8_valid s = true -> below_4gib s ->
    has_section s sec rest -> tag_section sec l ->
    length l <= 128 -> Forall short_tag l ->
    ref_parse bd s = Ret None \/
    exists m, ref_parse bd s = Ret (Some m) /\ ref_tags m = Ret l.
Proof.
  intros bd s sec rest l U S H T L F.
  pose proof (section_spec s sec rest l H T) as E.
  pose proof (parse_cases bd s U S (fun _ => has_section_terminated s sec rest H)) as P.
  rewrite E in P. specialize (P L). destruct (spec_view s) as [v|]; [|now left].
  destruct P as (m & P & Q1 & Q2 & _). right. exists m. split; [exact P|].
  pose proof (ref_tags_spec s m U S Q1 Q2) as R. rewrite E in R. apply R. exact F.
Qed.

(** C03. Every section has exactly one reading. *)
Lemma p_c03_section_reading_unique :
  forall sec : str, exists! l, tag_section sec l.
Proof.
  intros sec. exists (tag_list sec). split.
  - now apply tag_list_section.
  - intros l H. symmetry. now apply tag_list_section.
Qed.

(** C03. Without a section there are no tags. *)
Lemma p_c03_no_section_no_tags :
  forall (bd : build) (s : str) (m : msg_ref),
    utf8_valid s = true -> below_4gib s ->
    (forall sec rest, ~ has_section s sec rest) ->
    ref_parse bd s = Ret (Some m) -> ref_tags m = Ret [].
Proof.
  intros bd s m U S H E. apply no_section_spec in H.
  destruct (parse_inv bd s m U S E) as (T & L & v & V & Q1 & Q2 & _).
  pose proof (ref_tags_spec s m U S Q1 Q2) as R. rewrite H in R. apply R. constructor.
Qed.

Definition odd_section : str := b "a;b=1;c=;d=x=y;=5;lone;e=;trailing".

Example ex_c03 :
  tag_section odd_section
    [(b "a;b", b "1"); (b "c", []); (b "d", b "x=y"); ([], b "5"); (b "lone;e", [])] /\
  exists m, ref_parse Scalar (b "@" ++ odd_section ++ b " PING") = Ret (Some m) /\
    ref_tags m = Ret [(b "a;b", b "1"); (b "c", []); (b "d", b "x=y"); ([], b "5"); (b "lone;e", [])].
Proof.
  split.
  - apply tag_list_section. vm_compute. reflexivity.
  - eexists. split; [vm_compute; reflexivity|]. vm_compute. reflexivity.
Qed.

(** ** C04 *)

(** C04. The two builds give the same result for every text (any bytes, no size
    limit) unless it starts with ['@'] and has no space. *)
Lemma p_c04_simd_equals_scalar :
  forall (v : backend) (addr : nat) (s : str),
    ~ unterminated_tags s ->
    ref_parse (Simd v addr) s = ref_parse Scalar s /\ own_parse (Simd v addr) s = own_parse Scalar s.
Proof.
  intros v addr s T.
  assert (E : ref_parse (Simd v addr) s = ref_parse Scalar s).
  { unfold ref_parse. cbn [tags_parse]. rewrite simd_parse_ok, scalar_parse_ok.
    destruct (strip_prefix (b "@") s) as [r|] eqn:P; [|reflexivity].
    destruct (find_byte " " r) eqn:F; [reflexivity|]. exfalso.
    apply strip_prefix_spec in P. apply find_byte_none in F. apply T. split; [eauto|].
    rewrite P. intros [K|K]; [discriminate|tauto]. }
  split; [exact E|]. unfold own_parse. now rewrite E.
Qed.

(** C04. In the exceptional case the scalar build panics and the SIMD build
    returns a bare message whose command is the whole text. *)
Lemma p_c04_unterminated_section :
  forall (v : backend) (addr : nat) (s : str),
    utf8_valid s = true -> below_4gib s -> unterminated_tags s ->
    ref_parse Scalar s = Panic /\
    exists m, ref_parse (Simd v addr) s = Ret (Some m) /\
      ref_command m = Ret (Other s) /\ ref_tags m = Ret [] /\ ref_prefix m = Ret None /\
      ref_channel m = Ret None /\ ref_params m = Ret None.
Proof.
  intros v addr s U S T. split; [now apply scalar_unterminated|].
  destruct T as [[r ->] H].
  assert (ST : spec_tags (b "@" ++ r) = ([], b "@" ++ r)).
  { cbn. assert (C : cut " " r = (r, None)) by (apply cut_none; split; [reflexivity|]; intros K; apply H; now right).
    now rewrite C. }
  pose proof (parse_cases (Simd v addr) (b "@" ++ r) U S ltac:(discriminate)) as P.
  rewrite ST in P. specialize (P ltac:(cbn; lia)).
  assert (C : cut " " (b "@" ++ r) = (b "@" ++ r, None)).
  { apply (proj2 (cut_none _ _ _)). split; [reflexivity|exact H]. }
  unfold spec_view in P. rewrite ST in P. cbn [spec_split_prefix b app list_byte_of_string] in P.
  change (cut " " ("@"%byte :: r)) with (cut " " (b "@" ++ r)) in P.
  replace (spec_split_prefix (b "@" ++ r)) with (@None prefix, b "@" ++ r) in P by reflexivity.
  rewrite C in P. cbn [b app or_empty spec_split_channel] in P.
  destruct P as (m & P & Q1 & Q2 & Q3 & Q4 & Q5 & Q6). exists m. split; [exact P|].
  assert (O : spec_command (b "@" ++ r) = Other (b "@" ++ r)) by reflexivity.
  cbn [v_command v_prefix v_channel v_params] in *.
  change ("@"%byte :: r) with (b "@" ++ r) in *. rewrite O in Q4.
  pose proof (ref_tags_spec _ m U S Q1 Q2) as R. rewrite ST in R.
  destruct R as [R _]; [constructor|].
  repeat split; auto. unfold ref_channel. rewrite Q4. cbn [bind]. now rewrite Q1.
Qed.

Example ex_c04 :
  unterminated_tags (b "@badges=") /\ utf8_valid (b "@badges=") = true /\
  ~ unterminated_tags sample.
Proof.
  split; [split; [exists (b "badges="); reflexivity|]|split; [reflexivity|]].
  - vm_compute. intuition discriminate.
  - intros [_ H]. apply H. vm_compute. tauto.
Qed.

(** ** Decomposition of a line *)

Lemma spec_tags_removed (s s1 : str) (l : list (str * str)) :
  spec_tags s = (l, s1) ->
  removed "@" s s1 /\
  ((exists sec, has_section s sec s1 /\ tag_section sec l) \/ ((forall sec rest, ~ has_section s sec rest) /\ l = [] /\ s1 = s)).
Proof.
  intros E. destruct (section_cases s) as [(sec & rest & H)|H].
  - pose proof (section_spec s sec rest (tag_list sec) H ltac:(now apply tag_list_section)) as E'.
    rewrite E in E'. injection E' as -> ->. split.
    + left. exists sec. exact H.
    + left. exists sec. split; [exact H|now apply tag_list_section].
  - rewrite (no_section_spec s H) in E. injection E as <- <-. split; [|right; auto].
    right. split; [|reflexivity]. destruct (byte_in_dec " " s) as [I|I]; [left|now right].
    intros r ->. apply in_split_first in I. destruct I as (x & y & E & I).
    destruct x as [|c x]; [discriminate|]. injection E as <- E. apply (H x y). split; [now rewrite E|].
    intros K. apply I. now right.
Qed.

Lemma removed_unique (c : byte) (s x y : str) :
  c <> " "%byte -> removed c s x -> removed c s y -> x = y.
Proof.
  intros N [(t & E & H)|[D ->]] [(t' & E' & H')|[D' ->]]; try reflexivity.
  - rewrite E in E'. injection E' as E'. now apply first_split_unique in E'.
  - exfalso. destruct D' as [D'|D']; [now apply (D' (t ++ b " " ++ x))|].
    apply D'. rewrite E. cbn [app In]. right. apply in_or_app. right. now left.
  - exfalso. destruct D as [D|D]; [now apply (D (t' ++ b " " ++ y))|].
    apply D. rewrite E'. cbn [app In]. right. apply in_or_app. right. now left.
Qed.

Lemma removed_tags (s s1 : str) : removed "@" s s1 -> s1 = snd (spec_tags s).
Proof.
  intros R. destruct (spec_tags s) as [l x] eqn:E. apply spec_tags_removed in E as [E _].
  apply (removed_unique "@" s); auto. discriminate.
Qed.

Lemma split_prefix_cases (s s2 : str) (p : option prefix) :
  spec_split_prefix s = (p, s2) ->
  removed ":" s s2 /\
  ((exists pt, s = b ":" ++ pt ++ b " " ++ s2 /\ ~ In " "%byte pt /\ p = Some (spec_prefix pt)) \/
   (p = None /\ s2 = s /\ forall pt r, s = b ":" ++ pt ++ b " " ++ r -> False)).
Proof.
  unfold spec_split_prefix. destruct s as [|c r].
  { intros [= <- <-]. split; [right; split; [|reflexivity]; left; discriminate|].
    right. repeat split; auto. discriminate. }
  destruct (byte_eqb_spec c ":") as [->|N].
  - destruct (cut " " r) as [pt [rest|]] eqn:C; intros [= <- <-].
    + apply cut_some in C as [-> C]. split; [left; exists pt; auto|]. left. exists pt. auto.
    + apply cut_none in C as [-> C]. split.
      * right. split; [|reflexivity]. right. intros [K|K]; [discriminate|tauto].
      * right. repeat split; auto. intros pt q E. injection E as ->. apply C. apply in_or_app. right. now left.
  - intros [= <- <-]. split.
    + right. split; [|reflexivity]. left. intros q E. injection E as -> _. congruence.
    + right. repeat split; auto. intros pt q E. injection E as -> _. congruence.
Qed.

Lemma removed_prefix (s s2 : str) : removed ":" s s2 -> s2 = snd (spec_split_prefix s).
Proof.
  intros R. destruct (spec_split_prefix s) as [p x] eqn:E. apply split_prefix_cases in E as [E _].
  apply (removed_unique ":" s); auto. discriminate.
Qed.

Lemma cut_word (s w : str) (r : option str) : cut " " s = (w, r) -> word_rest s w (or_empty r).
Proof.
  destruct r as [r|]; intros C.
  - apply cut_some in C as [-> C]. split; [exact C|now left].
  - apply cut_none in C as [-> C]. split; [exact C|now right].
Qed.

Lemma word_rest_unique (s w r w' r' : str) : word_rest s w r -> word_rest s w' r' -> w = w' /\ r = r'.
Proof.
  intros [H [->|[-> ->]]] [H' [E|[E ->]]].
  - now apply first_split_unique in E.
  - exfalso. subst w'. apply H'. apply in_or_app. right. now left.
  - exfalso. subst w. apply H. apply in_or_app. right. now left.
  - now subst.
Qed.

(** Everything about [spec_view]. *)
Lemma view_inv (s : str) (v : view) :
  spec_view s = Some v ->
  exists s1 s2 rest,
    spec_tags s = (v_tags v, s1) /\ spec_split_prefix s1 = (v_prefix v, s2) /\
    word_rest s2 (v_command v) rest /\ v_command v <> [] /\
    match rest with
    | x :: _ =>
      if Byte.eqb x "#" then
        exists ch r, v_channel v = Some ch /\ word_rest rest ch r /\
          v_params v = match r with [] => None | _ => Some r end
      else v_channel v = None /\ v_params v = Some rest
    | [] => v_channel v = None /\ v_params v = None
    end.
Proof.
  unfold spec_view. destruct (spec_tags s) as [l s1] eqn:ET.
  destruct (spec_split_prefix s1) as [p s2] eqn:EP. destruct (cut " " s2) as [w r] eqn:EC.
  destruct w as [|w0 w]; [discriminate|].
  destruct (spec_split_channel (or_empty r)) as [ch ps] eqn:EH. intros [= <-]. cbn.
  exists s1, s2, (or_empty r). split; [reflexivity|]. split; [exact EP|]. split; [|split; [discriminate|]].
  - now apply cut_word.
  - unfold spec_split_channel in EH. destruct (or_empty r) as [|x q]; [injection EH as <- <-; auto|].
    destruct (Byte.eqb x "#"); [|injection EH as <- <-; auto].
    destruct (cut " " (x :: q)) as [c r'] eqn:EC'. injection EH as <- <-.
    apply cut_word in EC'. exists c, (or_empty r'). auto.
Qed.

Lemma view_none (s : str) :
  spec_view s = None ->
  exists s1 s2, removed "@" s s1 /\ removed ":" s1 s2 /\ (s2 = [] \/ starts " " s2).
Proof.
  unfold spec_view. destruct (spec_tags s) as [l s1] eqn:ET.
  destruct (spec_split_prefix s1) as [p s2] eqn:EP. destruct (cut " " s2) as [w r] eqn:EC.
  destruct w as [|w0 w]; [|destruct (spec_split_channel (or_empty r)); discriminate]. intros _.
  exists s1, s2. apply spec_tags_removed in ET as [ET _]. apply split_prefix_cases in EP as [EP _].
  repeat split; auto. destruct r as [r|].
  - apply cut_some in EC as [-> _]. right. exists r. reflexivity.
  - apply cut_none in EC as [-> _]. now left.
Qed.

Lemma view_composed (s : str) (v : view) :
  spec_view s = Some v ->
  exists sec pt, composed s sec pt (v_command v) (v_channel v) (v_params v) /\
    match sec with Some x => ~ In " "%byte x /\ tag_section x (v_tags v) | None => v_tags v = [] end /\
    match pt with Some x => ~ In " "%byte x /\ v_prefix v = Some (spec_prefix x) | None => v_prefix v = None end /\
    v_command v <> [] /\ ~ In " "%byte (v_command v) /\
    (forall c, v_channel v = Some c -> starts "#" c /\ ~ In " "%byte c) /\
    (v_params v <> Some []) /\ (v_channel v = None -> forall p, v_params v = Some p -> ~ starts "#" p).
Proof.
  intros V. apply view_inv in V as (s1 & s2 & rest & ET & EP & W & NE & M).
  assert (A : exists sec, s = marked "@" sec ++ s1 /\
    match sec with Some x => ~ In " "%byte x /\ tag_section x (v_tags v) | None => v_tags v = [] end).
  { apply spec_tags_removed in ET as [_ [(sec & [-> H] & T)|(_ & -> & ->)]].
    - exists (Some sec). cbn [marked]. rewrite <- !app_assoc. auto.
    - now exists None. }
  assert (B : exists pt, s1 = marked ":" pt ++ s2 /\
    match pt with Some x => ~ In " "%byte x /\ v_prefix v = Some (spec_prefix x) | None => v_prefix v = None end).
  { apply split_prefix_cases in EP as [_ [(pt & -> & H & ->)|(-> & -> & _)]].
    - exists (Some pt). cbn [marked]. rewrite <- !app_assoc. auto.
    - now exists None. }
  destruct A as (sec & -> & A). destruct B as (pt & -> & B). exists sec, pt.
  destruct W as [W1 W2].
  split; [|repeat split; auto].
  - destruct rest as [|x rest].
    + destruct M as [-> ->]. destruct W2 as [->|[-> _]].
      * exists (b " "), []. cbn [or_empty app]. rewrite ?app_nil_r. repeat split; auto.
      * exists [], []. cbn [or_empty app]. rewrite ?app_nil_r. repeat split; auto.
    + destruct W2 as [->|[_ ?]]; [|discriminate]. destruct (Byte.eqb x "#").
      * destruct M as (ch & r & -> & [_ M] & ->). destruct M as [->|[-> ->]].
        -- exists (b " "), (b " "). destruct r; cbn [or_empty]; rewrite ?app_nil_r; repeat split; auto; left; split; auto; discriminate.
        -- exists (b " "), []. cbn [or_empty]. rewrite ?app_nil_r. repeat split; auto.
      * destruct M as [-> ->]. exists (b " "), []. cbn [or_empty app]. repeat split; auto.
  - destruct rest as [|x rest]; [destruct M as [M _]; congruence|].
    destruct (byte_eqb_spec x "#") as [->|]; [|destruct M as [M _]; congruence].
    destruct M as (ch & r & E & [_ M] & _). rewrite E in H. injection H as <-.
    destruct ch as [|c0 ch].
    + exfalso. destruct M as [M|[M _]]; discriminate.
    + destruct M as [M|[M _]]; injection M as <- _; eexists; reflexivity.
  - destruct rest as [|x rest]; [destruct M as [M _]; congruence|].
    destruct (Byte.eqb x "#"); [|destruct M as [M _]; congruence].
    destruct M as (ch & r & E & [M0 M] & _). rewrite E in H. now injection H as <-.
  - destruct rest as [|x rest]; [destruct M as [_ M]; congruence|].
    destruct (Byte.eqb x "#"); [|destruct M as [_ M]; congruence].
    destruct M as (ch & r & _ & _ & ->). destruct r; congruence.
  - intros HC p HP [q ->]. destruct rest as [|x rest]; [destruct M as [_ M]; congruence|].
    destruct (byte_eqb_spec x "#") as [->|N].
    + destruct M as (ch & r & M & _). congruence.
    + destruct M as [_ M]. congruence.
Qed.

(** Parts of a valid line are valid. *)
Lemma space_ascii : ascii " " = true. Proof. reflexivity. Qed.

Lemma utf8_app_inv (l r : str) : utf8_valid (l ++ r) = true -> utf8_valid l = true -> utf8_valid r = true.
Proof. intros H L. now rewrite utf8_app in H. Qed.

Lemma marked_valid (c : byte) (o : option str) (r : str) :
  ascii c = true -> utf8_valid (marked c o ++ r) = true -> utf8_valid r = true.
Proof.
  intros A H. destruct o as [t|]; [|exact H]. cbn [marked app] in H.
  apply utf8_tail in H; [|exact A]. rewrite <- app_assoc in H. now apply utf8_right in H.
Qed.

Lemma word_rest_valid (s w r : str) :
  word_rest s w r -> utf8_valid s = true -> utf8_valid w = true /\ utf8_valid r = true.
Proof.
  intros [_ [->|[-> ->]]] V; [|auto]. split.
  - apply utf8_left in V; auto.
  - apply utf8_right in V; auto.
Qed.

Lemma view_valid (s : str) (v : view) :
  spec_view s = Some v -> utf8_valid s = true ->
  utf8_valid (v_command v) = true /\
  (forall x, v_channel v = Some x -> utf8_valid x = true) /\
  (forall x, v_params v = Some x -> utf8_valid x = true).
Proof.
  intros V U. apply view_inv in V as (s1 & s2 & rest & ET & EP & W & NE & M).
  assert (U1 : utf8_valid s1 = true).
  { apply spec_tags_removed in ET as [[(t & -> & _)|[_ ->]] _]; [|exact U].
    apply (marked_valid "@" (Some t)); [reflexivity|]. cbn [marked]. now rewrite <- !app_assoc. }
  assert (U2 : utf8_valid s2 = true).
  { apply split_prefix_cases in EP as [[(t & -> & _)|[_ ->]] _]; [|exact U1].
    apply (marked_valid ":" (Some t)); [reflexivity|]. cbn [marked]. now rewrite <- !app_assoc. }
  destruct (word_rest_valid _ _ _ W U2) as [Uw Ur]. split; [exact Uw|].
  destruct rest as [|x rest]; [destruct M as [-> ->]; split; discriminate|].
  destruct (Byte.eqb x "#").
  - destruct M as (ch & r & -> & M & ->). destruct (word_rest_valid _ _ _ M Ur) as [Uc Up].
    split; [now intros ? [= <-]|]. destruct r; [discriminate|]. now intros ? [= <-].
  - destruct M as [-> ->]. split; [discriminate|]. now intros ? [= <-].
Qed.

(** All accessors of a parsed message that do not read tags. *)
Record reads (m : msg_ref) (s : str) (v : view) : Prop :=
  { rd_raw : ref_raw m = s;
    rd_prefix : ref_prefix m = Ret (v_prefix v);
    rd_command : ref_command m = Ret (spec_command (v_command v));
    rd_channel : ref_channel m = Ret (spec_channel v);
    rd_params : ref_params m = Ret (v_params v);
    rd_text : ref_text m = Ret (spec_text v) }.

Lemma assoc_in {A : Type} (w : str) (l : list (str * A)) (x : A) :
  assoc w l = Some x -> In (w, x) l.
Proof.
  induction l as [|[k y] l IH]; cbn [assoc]; [discriminate|].
  destruct (str_eqb_spec w k) as [->|N].
  - intros [= ->]. now left.
  - intros H. right. auto.
Qed.

Lemma assoc_not_in {A : Type} (w : str) (l : list (str * A)) :
  assoc w l = None <-> ~ In w (map fst l).
Proof.
  induction l as [|[k y] l IH]; cbn [assoc map fst In]; [tauto|].
  destruct (str_eqb_spec w k) as [->|N].
  - split; [discriminate|]. intros H. exfalso. auto.
  - rewrite IH. intuition congruence.
Qed.

Lemma known_table : Forall (fun nc => spec_command (fst nc) = snd nc /\ command_as_str (snd nc) = fst nc /\
   match snd nc with Other _ => False | _ => True end) known_commands.
Proof. repeat (constructor; [vm_compute; auto|]). constructor. Qed.

Lemma spec_command_names (w : str) :
  Forall (fun nc => spec_command w = snd nc <-> w = fst nc) known_commands /\
  (spec_command w = Other w <-> ~ In w (map fst known_commands)) /\
  command_as_str (spec_command w) = w.
Proof.
  pose proof known_table as T. rewrite Forall_forall in T.
  unfold spec_command at 1 2 3. destruct (assoc w known_commands) as [c|] eqn:E.
  - pose proof (assoc_in _ _ _ E) as I. pose proof (T _ I) as (T1 & T2 & T3). cbn [fst snd] in *.
    split; [|split; [|exact T2]].
    + apply Forall_forall. intros [n c'] I'. pose proof (T _ I') as (T1' & T2' & _). cbn [fst snd] in *.
      split; [congruence|]. intros ->. congruence.
    + split; [intros ->; tauto|]. intros H. exfalso. apply H. now apply (in_map fst) in I.
  - pose proof (proj1 (assoc_not_in _ _) E) as NI. split; [|split; [tauto|reflexivity]].
    apply Forall_forall. intros [n c'] I'. pose proof (T _ I') as (T1' & T2' & T3'). cbn [fst snd] in *.
    split; [intros <-; tauto|]. intros ->. exfalso. apply NI. now apply (in_map fst) in I'.
Qed.

Lemma presents_reads (s : str) (m : msg_ref) (v : view) :
  utf8_valid s = true -> spec_view s = Some v -> presents s m v -> reads m s v.
Proof.
  intros U V (Es & Et & Ep & Ec & Eh & Ea). pose proof (view_valid s v V U) as (_ & _ & Up).
  constructor; auto.
  - unfold ref_channel. rewrite Ec. cbn [bind]. unfold spec_channel.
    destruct (spec_command_names (v_command v)) as (F & _ & _).
    assert (K : forall n c, In (n, c) known_commands -> (spec_command (v_command v) = c <-> v_command v = n)).
    { intros n c I. rewrite Forall_forall in F. exact (F _ I). }
    pose proof (K (b "353") RplNames) as K1. pose proof (K (b "366") RplEndOfNames) as K2.
    specialize (K1 ltac:(cbn; tauto)). specialize (K2 ltac:(cbn; tauto)).
    destruct (str_eqb_spec (v_command v) (b "353")) as [E|N1].
    { rewrite (proj2 K1 E), Ea. reflexivity. }
    destruct (str_eqb_spec (v_command v) (b "366")) as [E|N2].
    { rewrite (proj2 K2 E), Ea. reflexivity. }
    rewrite Es. destruct (spec_command (v_command v)); try exact Eh; exfalso; tauto.
  - unfold ref_text, spec_text. unfold ref_params, opt_span_get in Ea.
    destruct (p_params (r_parts m)) as [sp|].
    + unfold rmap in Ea. destruct (span_get (r_src m) sp) as [ps| | |]; cbn [bind] in *; try discriminate.
      injection Ea as Ea. rewrite <- Ea.
      destruct (cut ":" ps) as [l [r|]] eqn:C.
      * apply cut_some in C as [-> C]. rewrite find_byte_app by exact C.
        rewrite (slice_from_ok (l ++ b ":") r).
        -- reflexivity.
        -- now rewrite <- app_assoc.
        -- rewrite app_length. reflexivity.
        -- change (l ++ ":"%byte :: r) with (l ++ b ":" ++ r). rewrite app_assoc. apply boundary_app.
           ++ rewrite app_length. reflexivity.
           ++ apply utf8_head'. apply (utf8_right l r ":"); [reflexivity|]. now apply Up.
      * apply cut_none in C as [-> C]. apply find_byte_none in C. now rewrite C.
    + injection Ea as <-. reflexivity.
Qed.

Lemma parse_reads (bd : build) (s : str) (m : msg_ref) :
  utf8_valid s = true -> below_4gib s -> ref_parse bd s = Ret (Some m) ->
  exists v, spec_view s = Some v /\ reads m s v.
Proof.
  intros U S E. destruct (parse_inv bd s m U S E) as (_ & _ & v & V & P).
  exists v. split; [exact V|]. now apply presents_reads.
Qed.

Lemma all_short_spec (s : str) : all_short s <-> Forall short (fst (spec_tags s)).
Proof.
  destruct (spec_tags s) as [l s1] eqn:E. cbn [fst]. split.
  - intros H. apply spec_tags_removed in E as [_ [(sec & A & B)|(_ & -> & _)]]; [|constructor].
    exact (H sec s1 l A B).
  - intros F sec rest l' A B. rewrite (section_spec s sec rest l' A B) in E. now injection E as -> _.
Qed.

Lemma parse_tags (bd : build) (s : str) (m : msg_ref) :
  utf8_valid s = true -> below_4gib s -> ref_parse bd s = Ret (Some m) -> all_short s ->
  ref_tags m = Ret (fst (spec_tags s)) /\
  forall key, tag_find (r_src m) (p_tags (r_parts m)) key = Ret (lookup key (fst (spec_tags s))).
Proof.
  intros U S E H. apply all_short_spec in H.
  destruct (parse_inv bd s m U S E) as (_ & _ & v & V & Q1 & Q2 & _).
  destruct (ref_tags_spec s m U S Q1 Q2 H) as [A B]. rewrite Q1. auto.
Qed.
