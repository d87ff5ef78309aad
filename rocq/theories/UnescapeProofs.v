(** * UnescapeProofs: property lemmas about tag unescaping, C19-C21. *)

From Coq Require Import Lia ZifyBool ZifyNat ZifyN.
From Verif Require Import Base Wide Tags Irc Unescape SpecIrc SpecText.
From Verif Require Import BaseFacts SimdFacts IrcFacts Utf8Facts IrcProofs LineProofs AccessProofs.

Lemma one_char_chars (c q : str) : one_char c -> chars (c ++ q) = c :: chars q.
Proof.
  intros O. rewrite chars_app by apply O. change (c :: chars q) with ([c] ++ chars q). f_equal.
  rewrite <- (app_nil_r c) at 1. apply (chars_of_concat [c]). now constructor.
Qed.

Lemma character_one (c : str) : character c <-> one_char c.
Proof.
  split.
  - intros (V & N & S). destruct (utf8_cases c V) as [->|(d & r & -> & O & _)]; [congruence|].
    destruct (S d r eq_refl (proj1 O)) as [-> | ->]; [now apply one_char_nonempty in O|].
    now rewrite app_nil_r in *.
  - intros O. pose proof O as (V & x & t & E & Hx & Ht). split; [exact V|]. split; [now rewrite E|].
    intros l r E' Vl. destruct l as [|y l]; [now left|]. destruct r as [|z r]; [now right|]. exfalso.
    rewrite E' in V. rewrite utf8_app in V by exact Vl. apply utf8_head in V.
    rewrite E in E'. cbn in E'. injection E' as _ E'. subst t.
    apply Forall_app in Ht as [_ Ht]. apply Forall_cons_iff in Ht as [Ht _]. congruence.
Qed.

Lemma ascii_one (x : byte) : ascii x = true -> one_char [x].
Proof.
  intros A. split.
  - cbn [utf8_valid]. unfold ascii in A. rewrite A. reflexivity.
  - exists x, []. split; [reflexivity|]. split; [now apply ascii_not_cont|constructor].
Qed.

Lemma one_char_ascii (x : byte) (t : str) : one_char (x :: t) -> ascii x = true -> t = [].
Proof.
  intros (V & y & u & E & _ & F) A. injection E as <- <-. destruct t as [|z t]; [reflexivity|].
  change (x :: z :: t) with ([x] ++ z :: t) in V.
  rewrite utf8_app in V by (apply ascii_one, A). apply utf8_head in V.
  apply Forall_cons_iff in F as [F _]. congruence.
Qed.

Lemma one_char_split (c : str) : one_char c ->
  (exists x, c = [x] /\ ascii x = true) \/ Forall (fun x => ascii x = false) c.
Proof.
  intros O. pose proof O as (V & x & t & -> & Hx & Ht). destruct (ascii x) eqn:A.
  - left. exists x. split; [|exact A]. now rewrite (one_char_ascii x t O A).
  - right. constructor; [exact A|]. revert Ht. apply Forall_impl. intros y Hy.
    destruct (ascii y) eqn:B; [|reflexivity]. apply ascii_not_cont in B. congruence.
Qed.

(** ** The comma mark *)

Lemma mark_infix (s : str) : utf8_valid s = true -> (infix comma_mark s <-> In comma_mark (chars s)).
Proof.
  intros V. split.
  - intros (l & r & E). assert (B : boundary_ok s (length l)).
    { rewrite E. exact (boundary_at l (xb8 :: x9d :: r) xe2 (length l) eq_refl eq_refl). }
    destruct (boundary_split s V (length l)) as [V1 V2]; [rewrite E, app_length; lia|exact B|].
    rewrite E, firstn_app, Nat.sub_diag, firstn_all, app_nil_r in V1.
    rewrite E, chars_app by exact V1. apply in_or_app. right. left. reflexivity.
  - intros I. apply in_split in I as (l & r & E). exists (concat l), (concat r).
    rewrite <- (concat_chars s), E, concat_app. reflexivity.
Qed.

(** ** One step of the loops *)

Definition specials : list str := [b ":"; b "s"; b "\"; b "r"; b "n"; comma_mark].

Lemma not_special (c : str) (t : string) : ~ In c specials -> In (b t) specials -> is_char t c = false.
Proof. intros N I. unfold is_char. apply str_eqb_neq. intros ->. contradiction. Qed.

Lemma loop_plain (e : bool) (c : uchar) (cs : list uchar) :
  ~ In c specials -> unescape_loop e (c :: cs) = c ++ unescape_loop e cs.
Proof.
  intros N. cbn [unescape_loop]. rewrite !(not_special c) by (auto; cbn; tauto). reflexivity.
Qed.

Lemma loops_agree (e : bool) (cs : list uchar) : actually_loop e cs = unescape_loop e cs.
Proof.
  revert e. induction cs as [|c cs IH]; intros e; [reflexivity|].
  destruct (in_dec (list_eq_dec byte_eq_dec) c specials) as [I|N].
  - destruct I as [<-|[<-|[<-|[<-|[<-|[<-|[]]]]]]]; destruct e; cbn [actually_loop unescape_loop];
      rewrite !IH; reflexivity.
  - rewrite loop_plain by exact N. cbn [actually_loop].
    rewrite !(not_special c) by (auto; cbn; tauto). cbn [andb]. now rewrite IH.
Qed.

Lemma loop_idle (c : uchar) (cs : list uchar) :
  c <> b "\" -> c <> comma_mark -> unescape_loop false (c :: cs) = c ++ unescape_loop false cs.
Proof.
  intros N1 N2. cbn [unescape_loop]. rewrite !andb_false_r.
  unfold is_char. rewrite !str_eqb_neq by assumption. reflexivity.
Qed.

(** ** Escaping *)

Lemma escape_app (l r : str) : escape (l ++ r) = escape l ++ escape r.
Proof. unfold escape. now rewrite flat_map_app. Qed.

Lemma escape_byte_cases (x : byte) :
  In x [";"%byte; " "%byte; "\"%byte; x0d; x0a] \/ (escape_byte x = [x] /\ x <> "\"%byte).
Proof. destruct x; ((right; split; [reflexivity|discriminate]) || (left; cbn; tauto)). Qed.

Lemma escape_nonascii (c : str) : Forall (fun x => ascii x = false) c -> escape c = c.
Proof.
  induction 1 as [|x c A _ IH]; [reflexivity|]. unfold escape in *. cbn [flat_map]. rewrite IH.
  destruct (escape_byte_cases x) as [I|[-> _]]; [|reflexivity].
  destruct I as [<-|[<-|[<-|[<-|[<-|[]]]]]]; discriminate A.
Qed.

Lemma escape_step (c r : str) : one_char c -> c <> comma_mark ->
  exists d, escape (c ++ r) = d ++ escape r /\ utf8_valid d = true /\
    unescape_loop false (chars (d ++ escape r)) = c ++ unescape_loop false (chars (escape r)).
Proof.
  intros O N. rewrite escape_app. exists (escape c). split; [reflexivity|].
  destruct (one_char_split c O) as [(x & -> & A)|F].
  - destruct (escape_byte_cases x) as [I|[E NB]].
    + destruct I as [<-|[<-|[<-|[<-|[<-|[]]]]]]; split; reflexivity.
    + change (escape [x]) with (escape_byte x ++ []). rewrite E. split; [apply O|].
      cbn [app]. change (x :: escape r) with ([x] ++ escape r). rewrite one_char_chars by exact O.
      apply loop_idle; [intros K; apply NB; now injection K|exact N].
  - rewrite escape_nonascii by exact F. split; [apply O|]. rewrite one_char_chars by exact O.
    apply loop_idle; [|exact N]. intros ->. apply Forall_cons_iff in F as [F _]. discriminate F.
Qed.

Lemma escape_valid (s : str) : utf8_valid s = true -> utf8_valid (escape s) = true.
Proof.
  revert s. apply (utf8_ind (fun s => utf8_valid (escape s) = true)); [reflexivity|].
  intros c r O V Q1 Q2 IH. rewrite escape_app. rewrite utf8_app; [exact IH|].
  destruct (one_char_split c O) as [(x & -> & A)|F].
  - change (escape [x]) with (escape_byte x ++ []).
    destruct (escape_byte_cases x) as [I|[E NB]].
    + destruct I as [<-|[<-|[<-|[<-|[<-|[]]]]]]; reflexivity.
    + rewrite E. apply O.
  - rewrite escape_nonascii by exact F. apply O.
Qed.

Lemma unescape_escape (s : str) :
  utf8_valid s = true -> ~ infix comma_mark s -> unescape (escape s) = s.
Proof.
  intros V N. rewrite mark_infix in N by exact V. unfold unescape. revert s V N.
  apply (utf8_ind (fun s => ~ In comma_mark (chars s) -> unescape_loop false (chars (escape s)) = s)).
  - reflexivity.
  - intros c r O V Q1 Q2 IH N. rewrite Q2 in N. cbn [In] in N.
    destruct (escape_step c r O) as (d & -> & _ & ->); [intuition congruence|].
    rewrite IH by tauto. reflexivity.
Qed.

Lemma escape_clean (s : str) (x : byte) :
  In x (escape s) -> x <> ";"%byte /\ x <> " "%byte /\ x <> x0d /\ x <> x0a.
Proof.
  unfold escape. intros I. apply in_flat_map in I as (y & _ & I).
  destruct (escape_byte_cases y) as [J|[E _]].
  - destruct J as [<-|[<-|[<-|[<-|[<-|[]]]]]]; cbn in I; repeat split; intuition congruence.
  - destruct y; cbn in E; try discriminate E; cbn in I; destruct I as [<-|[]]; repeat split; discriminate.
Qed.

(** ** [maybe_unescape] *)

Lemma slice_ascii_split (l r : str) (x : byte) :
  ascii x = true ->
  slice (l ++ x :: r) 0 (length l) = Ret l /\ slice_from (l ++ x :: r) (length l) = Ret (x :: r).
Proof.
  intros A. unfold slice_from, slice.
  pose proof (boundary_ascii l r x (length l) eq_refl A) as B1. unfold boundary_ok in B1.
  pose proof (boundary_start (l ++ x :: r)) as B0. unfold boundary_ok in B0.
  pose proof (boundary_end (l ++ x :: r) (length (l ++ x :: r)) eq_refl) as B2. unfold boundary_ok in B2.
  rewrite B0, B1, B2. rewrite app_length. cbn [length].
  replace (0 <=? length l) with true by lia.
  replace (length l <=? length l + S (length r)) with true by lia. rewrite Nat.leb_refl. cbn [andb].
  unfold sub. split; f_equal.
  - rewrite Nat.sub_0_r. cbn [skipn]. rewrite firstn_app, Nat.sub_diag, firstn_all. apply app_nil_r.
  - rewrite skipn_app, Nat.sub_diag, skipn_all. cbn [skipn app].
    replace (length l + S (length r) - length l) with (length (x :: r)) by (cbn; lia). apply firstn_all.
Qed.

Lemma maybe_some (c : cow) (l r : str) :
  deref c = l ++ "\"%byte :: r -> ~ In "\"%byte l ->
  maybe_unescape c = Ret (Owned (l ++ unescape_loop false (chars ("\"%byte :: r)))).
Proof.
  intros E N. unfold maybe_unescape. rewrite E, find_byte_app by exact N.
  unfold actually_unescape. destruct (slice_ascii_split l r "\" eq_refl) as [-> ->].
  cbn [bind rmap]. now rewrite loops_agree.
Qed.

Lemma maybe_none (c : cow) : ~ In "\"%byte (deref c) -> maybe_unescape c = Ret c.
Proof. intros N. unfold maybe_unescape. now rewrite (proj2 (find_byte_none _ _) N). Qed.


(** ** Lengths, validity and agreement *)

Lemma loop_length (e : bool) (cs : list uchar) : length (unescape_loop e cs) <= length (concat cs).
Proof.
  revert e. induction cs as [|c cs IH]; intros e; [cbn; lia|]. cbn [concat]. rewrite app_length.
  destruct (in_dec (list_eq_dec byte_eq_dec) c specials) as [I|N].
  - pose proof (IH true). pose proof (IH false).
    destruct I as [<-|[<-|[<-|[<-|[<-|[<-|[]]]]]]]; destruct e; cbn in *; lia.
  - rewrite loop_plain by exact N. rewrite app_length. specialize (IH e). lia.
Qed.

Lemma loop_mark_length (e : bool) (cs : list uchar) :
  In comma_mark cs -> length (unescape_loop e cs) < length (concat cs).
Proof.
  revert e. induction cs as [|c cs IH]; intros e; [intros []|]. intros M. cbn [concat]. rewrite app_length.
  destruct M as [->|M].
  - pose proof (loop_length e cs). destruct e; cbn in *; lia.
  - destruct (in_dec (list_eq_dec byte_eq_dec) c specials) as [I|N].
    + pose proof (IH true M). pose proof (IH false M).
      destruct I as [<-|[<-|[<-|[<-|[<-|[<-|[]]]]]]]; destruct e; cbn in *; lia.
    + rewrite loop_plain by exact N. rewrite app_length. specialize (IH e M). lia.
Qed.

Lemma loop_valid (e : bool) (cs : list uchar) :
  Forall (fun c => utf8_valid c = true) cs -> utf8_valid (unescape_loop e cs) = true.
Proof.
  intros F. revert e. induction F as [|c cs H F IH]; intros e; [reflexivity|].
  destruct (in_dec (list_eq_dec byte_eq_dec) c specials) as [I|N].
  - destruct I as [<-|[<-|[<-|[<-|[<-|[<-|[]]]]]]]; destruct e;
      solve [exact (IH true)|exact (IH false)].
  - rewrite loop_plain by exact N. now rewrite utf8_app.
Qed.

Lemma loop_before (l r : list uchar) :
  ~ In (b "\") l -> unescape_loop false (l ++ r) = unescape_loop false l ++ unescape_loop false r.
Proof.
  induction l as [|c l IH]; intros N; [reflexivity|]. cbn [In] in N. cbn [app].
  destruct (str_eqb_spec c comma_mark) as [->|M].
  - cbn [unescape_loop]. change (is_char "\" comma_mark) with false. cbn -[unescape_loop].
    rewrite IH by tauto. reflexivity.
  - rewrite !loop_idle by (try assumption; intuition congruence). rewrite IH by tauto. now rewrite app_assoc.
Qed.

Lemma loop_none (l : list uchar) :
  ~ In (b "\") l -> ~ In comma_mark l -> unescape_loop false l = concat l.
Proof.
  induction l as [|c l IH]; intros N M; [reflexivity|]. cbn [In] in N, M. cbn [concat].
  rewrite loop_idle by intuition congruence. rewrite IH; tauto.
Qed.

Lemma no_backslash_chars (s : str) : ~ In "\"%byte s -> ~ In (b "\") (chars s).
Proof.
  intros N D. apply N. rewrite <- (concat_chars s). apply in_concat. exists (b "\"). split; [exact D|now left].
Qed.

Lemma prefix_valid (l r : str) : utf8_valid (l ++ "\"%byte :: r) = true -> utf8_valid l = true.
Proof.
  intros EV. destruct (boundary_split _ EV (length l)) as [V1 _];
    [rewrite app_length; lia|exact (boundary_ascii l r "\"%byte (length l) eq_refl eq_refl)|].
  now rewrite firstn_app, Nat.sub_diag, firstn_all, app_nil_r in V1.
Qed.

Lemma idle_iff (s : str) : utf8_valid s = true -> ~ In "\"%byte s ->
  (unescape_loop false (chars s) = s <-> ~ infix comma_mark s).
Proof.
  intros V N. rewrite mark_infix by exact V. split.
  - intros E I. apply (loop_mark_length false) in I. rewrite E, concat_chars in I. lia.
  - intros I. rewrite loop_none by (auto using no_backslash_chars). apply concat_chars.
Qed.

Lemma agree_iff (c : cow) (pre : str) :
  utf8_valid (deref c) = true -> before_backslash (deref c) pre ->
  exists c', maybe_unescape c = Ret c' /\
    (deref c' = unescape (deref c) <-> ~ infix comma_mark pre) /\
    (In "\"%byte (deref c) -> deref c' <> deref c).
Proof.
  intros V (N & [E|(post & E)]).
  - rewrite <- E in N. rewrite maybe_none by exact N. exists c. split; [reflexivity|]. split; [|tauto].
    rewrite <- E. rewrite <- (idle_iff (deref c) V N). unfold unescape. split; congruence.
  - change (b "\" ++ post) with ("\"%byte :: post) in E. rewrite (maybe_some c pre post E N).
    eexists. split; [reflexivity|]. cbn [deref]. rewrite E in V. pose proof (prefix_valid pre post V) as VP.
    split.
    + rewrite <- (idle_iff pre VP N). rewrite E. unfold unescape. rewrite chars_app by exact VP.
      rewrite loop_before by (apply no_backslash_chars, N). split.
      * intros K. apply app_inv_tail in K. congruence.
      * intros ->. reflexivity.
    + intros _ K. rewrite E in K. apply app_inv_head in K.
      assert (L : length ("\"%byte :: post) <= length post).
      { rewrite <- K. change (chars ("\"%byte :: post)) with (b "\" :: chars post).
        change (unescape_loop false (b "\" :: chars post)) with (unescape_loop true (chars post)).
        etransitivity; [apply loop_length|]. now rewrite concat_chars. }
      cbn in L. lia.
Qed.

Lemma before_exists (s : str) : exists pre, before_backslash s pre.
Proof.
  destruct (in_dec byte_eq_dec "\"%byte s) as [I|N].
  - apply in_split_first in I as (l & r & -> & N). exists l. split; [exact N|]. right. now exists r.
  - exists s. split; [exact N|now left].
Qed.

Lemma escape_unmarked (s : str) : utf8_valid s = true -> ~ infix comma_mark s -> ~ infix comma_mark (escape s).
Proof.
  intros V N. rewrite mark_infix in * by auto using escape_valid. revert s V N.
  apply (utf8_ind (fun s => ~ In comma_mark (chars s) -> ~ In comma_mark (chars (escape s)))); [auto|].
  intros c r O V Q1 Q2 IH N. rewrite Q2 in N. cbn [In] in N.
  assert (M : In comma_mark (chars (escape c)) -> c = comma_mark).
  { destruct (one_char_split c O) as [(x & -> & A)|F].
    - change (escape [x]) with (escape_byte x ++ []).
      destruct (escape_byte_cases x) as [I|[E NB]].
      + destruct I as [<-|[<-|[<-|[<-|[<-|[]]]]]]; cbn; intuition discriminate.
      + rewrite E. rewrite one_char_chars by exact O. cbn. intuition.
    - rewrite escape_nonascii by exact F. rewrite <- (app_nil_r c) at 1. rewrite one_char_chars by exact O.
      cbn. intuition. }
  rewrite escape_app. assert (VC : utf8_valid (escape c) = true) by (apply escape_valid, O).
  rewrite chars_app by exact VC. intros I. apply in_app_or in I as [I|I]; [tauto|]. apply IH in I; tauto.
Qed.

(** ** Readings *)

Lemma reading_sound (p : bool) (s t : str) : reading p s t -> t = unescape_loop p (chars s).
Proof.
  induction 1 as [p|p s t _ IH|c s t C N1 N2 _ IH|s t _ IH|k v s t I _ IH|c s t C N1 N2 _ IH].
  - reflexivity.
  - subst t. destruct p; reflexivity.
  - subst t. apply character_one in C. rewrite one_char_chars by exact C. now rewrite loop_idle.
  - subst t. reflexivity.
  - subst t. destruct I as [E|[E|[E|[E|[E|[]]]]]]; injection E as <- <-; reflexivity.
  - subst t. apply character_one in C. rewrite one_char_chars by exact C. rewrite loop_plain; [reflexivity|].
    cbn [map fst escape_pairs In specials] in *. intuition congruence.
Qed.

Lemma reading_total (s : str) : utf8_valid s = true -> forall p, reading p s (unescape_loop p (chars s)).
Proof.
  revert s. apply (utf8_ind (fun s => forall p, reading p s (unescape_loop p (chars s)))).
  - intros p. apply rd_end.
  - intros c r O V Q1 Q2 IH p. rewrite Q2. pose proof (proj2 (character_one c) O) as C.
    destruct (str_eqb_spec c comma_mark) as [->|M].
    { destruct p; exact (rd_comma _ _ _ (IH _)). }
    destruct p.
    + destruct (in_dec (list_eq_dec byte_eq_dec) c (map fst escape_pairs)) as [I|N].
      * cbn in I. destruct I as [<-|[<-|[<-|[<-|[<-|[]]]]]].
        -- exact (rd_escape (b ":") (b ";") _ _ ltac:(cbn; tauto) (IH false)).
        -- exact (rd_escape (b "s") (b " ") _ _ ltac:(cbn; tauto) (IH false)).
        -- exact (rd_escape (b "\") (b "\") _ _ ltac:(cbn; tauto) (IH false)).
        -- exact (rd_escape (b "r") [x0d] _ _ ltac:(cbn; tauto) (IH false)).
        -- exact (rd_escape (b "n") [x0a] _ _ ltac:(cbn; tauto) (IH false)).
      * rewrite loop_plain; [exact (rd_other _ _ _ C M N (IH true))|].
        cbn [map fst escape_pairs In specials] in *. intuition congruence.
    + destruct (str_eqb_spec c (b "\")) as [->|B].
      * exact (rd_backslash _ _ (IH true)).
      * rewrite loop_idle by assumption. exact (rd_plain _ _ _ C B M (IH false)).
Qed.

Lemma shown_iff (c : cow) (y : str) : utf8_valid (deref c) = true ->
  (shown (deref c) y <-> exists c', maybe_unescape c = Ret c' /\ deref c' = y).
Proof.
  intros V. split.
  - intros (pre & (N & _) & [(E & ->)|(post & t & E & R & ->)]).
    + exists c. split; [apply maybe_none; now rewrite E|exact E].
    + change (b "\" ++ post) with ("\"%byte :: post) in E. rewrite (maybe_some c pre post E N).
      eexists. split; [reflexivity|]. cbn [deref]. f_equal. apply reading_sound in R. now rewrite R.
  - intros (c' & M & <-). destruct (before_exists (deref c)) as (pre & N & B). exists pre. split; [split; [exact N|exact B]|].
    destruct B as [E|(post & E)].
    + left. split; [exact E|]. rewrite <- E in N. rewrite (maybe_none c N) in M. injection M as <-. exact E.
    + right. pose proof E as E'. change (b "\" ++ post) with ("\"%byte :: post) in E'.
      rewrite (maybe_some c pre post E' N) in M. injection M as <-. exists post. eexists. split; [exact E|].
      split; [|reflexivity]. apply reading_total. rewrite E' in V. pose proof (prefix_valid pre post V) as VP.
      rewrite utf8_app in V by exact VP. exact V.
Qed.

Lemma shown_escape (t : str) : unmarked t -> shown (escape t) t.
Proof.
  intros [V N]. apply (shown_iff (Borrowed (escape t))); [cbn; now apply escape_valid|].
  pose proof (unescape_escape t V N) as U. destruct (before_exists (escape t)) as (pre & B).
  destruct (agree_iff (Borrowed (escape t)) pre (escape_valid t V) B) as (c' & M & A & _). exists c'. split; [exact M|].
  cbn [deref] in A. rewrite <- U. apply A. intros (l & r & ->). apply (escape_unmarked t V N).
  destruct B as (_ & [-> | (post & ->)]); [now exists l, r|]. exists l, (r ++ b "\" ++ post). now rewrite <- !app_assoc.
Qed.

(** ** C19 *)

(** C19. Unescaping inverts escaping. *)
Lemma p_c19_unescape_escape :
  forall s : str, utf8_valid s = true -> ~ infix comma_mark s ->
    unescape (escape s) = s /\
    forall c, deref c = escape s -> exists c', maybe_unescape c = Ret c' /\ deref c' = s.
Proof.
  intros s V N. pose proof (unescape_escape s V N) as U. split; [exact U|]. intros c E.
  destruct (before_exists (deref c)) as (pre & B).
  assert (VC : utf8_valid (deref c) = true) by (rewrite E; now apply escape_valid).
  destruct (agree_iff c pre VC B) as (c' & M & A & _). exists c'. split; [exact M|].
  rewrite <- U, <- E. apply A. intros (l & r & ->). apply (escape_unmarked s V N). rewrite <- E.
  destruct B as (_ & [-> | (post & ->)]); [now exists l, r|]. exists l, (r ++ b "\" ++ post).
  now rewrite <- !app_assoc.
Qed.

(** C19. The escaped text has no separator or line break. *)
Lemma p_c19_escaped_text_is_a_tag_value :
  forall (s : str) (x : byte), In x (escape s) ->
    x <> ";"%byte /\ x <> " "%byte /\ x <> x0d /\ x <> x0a.
Proof. exact escape_clean. Qed.

(** C19. Any texts written as escaped tag values come back through [tags] and
    [tag] with either unescape function. *)
Lemma p_c19_tag_values_survive :
  forall (bd : build) (m : message),
    wf_message (blank_values m) -> Forall unmarked (map snd (m_tags m)) ->
    utf8_valid (render (escape_tags m)) = true -> below_4gib (render (escape_tags m)) ->
    length (m_tags m) <= 128 -> Forall short_tag (m_tags (escape_tags m)) ->
    exists r l, ref_parse bd (render (escape_tags m)) = Ret (Some r) /\ ref_tags r = Ret l /\
      map (fun kv => (fst kv, unescape (snd kv))) l = m_tags m /\
      forall t v, first_tag (tag_as_str t) (m_tags m) (Some v) ->
        exists w, ref_tag r t = Ret (Some w) /\ unescape w = v /\
          exists c, maybe_unescape (Borrowed w) = Ret c /\ deref c = v.
Proof.
  intros bd m W F U S L SH.
  assert (WE : wf_message (escape_tags m)).
  { destruct W as (WT & WS & WA & WR). unfold blank_values, escape_tags in *.
    cbn [m_tags m_sender m_command m_channel m_params] in *.
    split; [|split; [exact WS|split; [|exact WR]]].
    - rewrite Forall_map in WT. cbn [m_tags]. rewrite Forall_map. revert WT. apply Forall_impl. intros [k v] (A & B & _). cbn [fst snd] in *.
      unfold wf_tag. cbn [escape_tag fst snd]. split; [exact A|]. split; [exact B|].
      split; intros I; apply escape_clean in I; intuition congruence.
    - intros E. apply WA. cbn [m_tags] in *. destruct (m_tags m); [reflexivity|discriminate]. }
  assert (LE : length (m_tags (escape_tags m)) <= 128) by (cbn; now rewrite map_length).
  destruct (p_c09_parse_render bd (escape_tags m) WE U S LE SH) as (r & _ & P & T & _).
  exists r, (m_tags (escape_tags m)). split; [exact P|]. split; [exact T|]. cbn [escape_tags m_tags]. split.
  - rewrite map_map. rewrite Forall_map in F. rewrite <- (map_id (m_tags m)) at 2. apply map_ext_in.
    intros [k v] I. rewrite Forall_forall in F. destruct (F _ I) as [A B]. cbn [escape_tag fst snd] in *.
    now rewrite unescape_escape.
  - intros t v (l1 & l2 & E & NI). exists (escape v).
    assert (UV : unmarked v).
    { rewrite Forall_map, Forall_forall in F. apply (F (tag_as_str t, v)). rewrite E. apply in_elt. }
    destruct UV as [V N]. destruct (p_c19_unescape_escape v V N) as [A B].
    split; [|split; [exact A|exact (B (Borrowed (escape v)) eq_refl)]].
    assert (FS : all_short (render (escape_tags m))).
    { apply all_short_spec. pose proof (render_view _ WE) as RV.
      apply view_inv in RV as (s1 & s2 & rest & ET & _). now rewrite ET. }
    apply (p_c16_tag_is_first_match bd _ r (m_tags (escape_tags m)) t (Some (escape v)) U S FS P T).
    exists (map escape_tag l1), (map escape_tag l2). split.
    + cbn [escape_tags m_tags]. rewrite E, map_app. reflexivity.
    + intros I. apply NI. rewrite map_map in I. exact I.
Qed.

Example ex_c19 :
  escape (b "a; b\c" ++ [x0d; x0a]) = b "a\:\sb\\c\r\n" /\ unmarked (b "a; b\c" ++ [x0d; x0a]) /\
  unescape (b "a\:\sb\\c\r\n") = b "a; b\c" ++ [x0d; x0a].
Proof.
  split; [reflexivity|]. split; [|vm_compute; reflexivity]. split; [reflexivity|].
  rewrite mark_infix by reflexivity. vm_compute. intuition discriminate.
Qed.

(** ** C20 *)

(** C20. [maybe_unescape] always returns, and hands its argument back exactly
    when there is no backslash. *)
Lemma p_c20_unchanged_iff_no_backslash :
  forall c : cow, utf8_valid (deref c) = true ->
    exists c', maybe_unescape c = Ret c' /\
      (c' = c <-> ~ In "\"%byte (deref c)) /\ (deref c' = deref c <-> ~ In "\"%byte (deref c)).
Proof.
  intros c V. destruct (in_dec byte_eq_dec "\"%byte (deref c)) as [I|N].
  - destruct (before_exists (deref c)) as (pre & B). destruct (agree_iff c pre V B) as (c' & M & _ & D).
    exists c'. split; [exact M|]. specialize (D I). split; split; try tauto. congruence.
  - exists c. rewrite maybe_none by exact N. tauto.
Qed.

(** C20. The second function returns, for every text, exactly what is to be shown for it:
    there is one such text, and for an escaped text it is the text. *)
Lemma p_c20_shown :
  forall c : cow, utf8_valid (deref c) = true ->
    exists c', maybe_unescape c = Ret c' /\ (forall y, shown (deref c) y <-> y = deref c').
Proof.
  intros c V. destruct (p_c20_unchanged_iff_no_backslash c V) as (c' & E & _). exists c'. split; [exact E|].
  intros y. rewrite (shown_iff c y V). split; [intros (d & D & <-); congruence|intros ->; eauto].
Qed.

Lemma p_c20_shown_escape :
  forall t : str, unmarked t -> shown (escape t) t.
Proof. exact shown_escape. Qed.

(** C20. The two functions agree exactly when no comma mark comes before the
    first backslash. *)
Lemma p_c20_agree_iff :
  forall (c c' : cow) (pre : str),
    utf8_valid (deref c) = true -> before_backslash (deref c) pre -> maybe_unescape c = Ret c' ->
    (deref c' = unescape (deref c) <-> ~ infix comma_mark pre).
Proof.
  intros c c' pre V B M. destruct (agree_iff c pre V B) as (c1 & M1 & A & _). congruence.
Qed.

(** C20. They do not agree in general. *)
Lemma p_c20_agree_refuted :
  exists (s : str) (c' : cow), utf8_valid s = true /\ maybe_unescape (Borrowed s) = Ret c' /\
    deref c' <> unescape s.
Proof.
  exists (b "a⸝b\sc"). eexists. split; [reflexivity|]. split; [vm_compute; reflexivity|].
  vm_compute. discriminate.
Qed.

Example ex_c20 :
  before_backslash (b "a b\sc⸝") (b "a b") /\ ~ infix comma_mark (b "a b") /\
  maybe_unescape (Borrowed (b "a b\sc⸝")) = Ret (Owned (b "a b c,")) /\ unescape (b "a b\sc⸝") = b "a b c," /\
  shown (b "a⸝\x⸝sy") (b "a⸝x, y").
Proof.
  split; [split; [cbn; intuition discriminate|right; exists (b "sc⸝"); reflexivity]|].
  split; [rewrite mark_infix by reflexivity; vm_compute; intuition discriminate|].
  split; [vm_compute; reflexivity|]. split; [vm_compute; reflexivity|].
  apply (shown_iff (Borrowed (b "a⸝\x⸝sy"))); [reflexivity|]. eexists. split; vm_compute; reflexivity.
Qed.

(** ** C21 *)

(** C21. [unescape] never grows a text and keeps it valid. *)
Lemma p_c21_valid_and_not_longer :
  forall s : str, utf8_valid s = true -> utf8_valid (unescape s) = true /\ length (unescape s) <= length s.
Proof.
  intros s V. split.
  - apply loop_valid, one_char_valid, chars_one, V.
  - unfold unescape. etransitivity; [apply loop_length|]. now rewrite concat_chars.
Qed.

(** C21. A text without backslash is left alone exactly when it has no comma
    mark either. *)
Lemma p_c21_plain_text_unchanged :
  forall s : str, utf8_valid s = true -> ~ In "\"%byte s -> (unescape s = s <-> ~ infix comma_mark s).
Proof. intros s V N. exact (idle_iff s V N). Qed.

(** C21. Equations that determine [unescape] on every text: characters outside
    an escape, the end of the text after a backslash, the five escapes, and a
    backslash that stays pending over any other character. *)
Lemma p_c21_equations :
  unescape [] = [] /\
  (forall c s, character c -> c <> b "\" -> c <> comma_mark -> unescape (c ++ s) = c ++ unescape s) /\
  (forall s, unescape (comma_mark ++ s) = b "," ++ unescape s) /\
  unescape (b "\") = [] /\
  (forall k v s, In (k, v) escape_pairs -> unescape (b "\" ++ k ++ s) = v ++ unescape s) /\
  (forall s, unescape (b "\" ++ comma_mark ++ s) = b "," ++ unescape (b "\" ++ s)) /\
  (forall c s, character c -> c <> comma_mark -> ~ In c (map fst escape_pairs) ->
     unescape (b "\" ++ c ++ s) = c ++ unescape (b "\" ++ s)).
Proof.
  split; [reflexivity|]. split; [|split; [|split; [|split; [|split]]]].
  - intros c s O N1 N2. apply character_one in O. unfold unescape. rewrite one_char_chars by exact O.
    now apply loop_idle.
  - reflexivity.
  - reflexivity.
  - intros k v s I. destruct I as [E|[E|[E|[E|[E|[]]]]]]; injection E as <- <-; reflexivity.
  - reflexivity.
  - intros c s O N1 N2. apply character_one in O. unfold unescape.
    change (chars (b "\" ++ c ++ s)) with (b "\" :: chars (c ++ s)). rewrite one_char_chars by exact O.
    change (chars (b "\" ++ s)) with (b "\" :: chars s).
    change (unescape_loop true (c :: chars s) = c ++ unescape_loop true (chars s)).
    apply loop_plain. cbn [map fst escape_pairs In specials] in *. intuition congruence.
Qed.

(** C21. What a text is unescaped to is exactly what it reads as. *)
Lemma p_c21_reading :
  forall s t : str, utf8_valid s = true -> (reading false s t <-> unescape s = t).
Proof.
  intros s t V. split; [intros R; symmetry; now apply (reading_sound false)|]. intros <-. now apply reading_total.
Qed.

(** C21. A backslash at the end adds nothing, unless one is already pending. *)
Lemma p_c21_trailing_backslash_dropped :
  forall s : str, utf8_valid s = true -> ~ In "\"%byte s -> unescape (s ++ b "\") = unescape s.
Proof.
  intros s V N. unfold unescape. rewrite chars_app by exact V.
  rewrite loop_before by (apply no_backslash_chars, N). apply app_nil_r.
Qed.

Example ex_c21 :
  unescape (b "\xs") = b "x " /\ unescape (b "a\") = b "a" /\ character (b "é") /\ unescape (b "\é⸝:") = b "é,;".
Proof.
  split; [vm_compute; reflexivity|]. split; [vm_compute; reflexivity|]. split; [|vm_compute; reflexivity].
  apply character_one. split; [reflexivity|]. exists xc3, [xa9]. split; [reflexivity|].
  split; [reflexivity|]. repeat constructor.
Qed.
