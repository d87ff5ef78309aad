(** * HugeProofs: the property lemmas about lines of 4 GiB and more, C83. *)

From Coq Require Import Lia ZifyBool ZifyNat ZifyN.
From Verif Require Import Base Wide Tags Irc SpecIrc.
From Verif Require Import BaseFacts IrcFacts Utf8Facts IrcProofs LineProofs.

Open Scope nat_scope.

(** ** Character boundaries *)

Lemma valid_front (q : str) : forall r : str,
  utf8_valid (q ++ r) = true -> match r with [] => True | x :: _ => is_cont x = false end ->
  utf8_valid q = true.
Proof.
  remember (length q) as n eqn:E. revert q E.
  induction n as [n IH] using lt_wf_ind. intros q -> r U B.
  destruct q as [|a q]; [reflexivity|].
  destruct (utf8_cases _ U) as [E|(c & t & E & O & V & _ & Q & _)]; [discriminate|].
  destruct O as (_ & x & k & -> & N & F). cbn [app] in E. injection E as -> E.
  assert (D : (exists q', q = k ++ q' /\ t = q' ++ r) \/ (exists y k', r = y :: k' /\ In y k)).
  { clear - E. revert q E. induction k as [|z k IH]; intros q E.
    - left. exists q. auto.
    - destruct q as [|w q].
      + right. cbn in E. subst r. exists z, (k ++ t). split; [reflexivity|]. now left.
      + cbn in E. injection E as -> E. destruct (IH q E) as [(q' & -> & ->)|(y & k' & -> & I)].
        * left. exists q'. auto.
        * right. exists y, k'. split; [reflexivity|]. now right. }
  destruct D as [(q' & -> & ->)|(y & k' & -> & I)].
  - change (x :: k ++ q') with ((x :: k) ++ q'). rewrite Q.
    apply (IH (length q')) with (r := r); auto. cbn [length]. rewrite app_length. lia.
  - rewrite Forall_forall in F. rewrite (F y I) in B. discriminate.
Qed.

Lemma boundary_front (l q r : str) :
  utf8_valid l = true -> utf8_valid (l ++ q ++ r) = true ->
  is_char_boundary (l ++ q ++ r) (length l + length q) = utf8_valid q.
Proof.
  intros Ul U. rewrite utf8_app in U by exact Ul.
  assert (B : is_char_boundary (l ++ q ++ r) (length l + length q) = true <->
              match r with [] => True | x :: _ => is_cont x = false end \/ q = [] /\ l = []).
  { unfold is_char_boundary. rewrite app_assoc, nth_error_app2 by (rewrite app_length; lia).
    rewrite app_length, Nat.sub_diag. destruct r as [|x r]; cbn [nth_error].
    - rewrite app_nil_r, app_length, Nat.eqb_refl, orb_true_r. tauto.
    - destruct q, l, (is_cont x); cbn; intuition (try discriminate; try lia; auto). }
  destruct (utf8_valid q) eqn:Uq.
  - apply B. left. rewrite utf8_app in U by exact Uq. now apply utf8_head'.
  - destruct (is_char_boundary (l ++ q ++ r) (length l + length q)); [|reflexivity].
    destruct (proj1 B eq_refl) as [K|[-> _]]; [|discriminate].
    rewrite (valid_front q r U K) in Uq. discriminate.
Qed.

(** ** Lines whose parameters start below 4 GiB *)

Lemma tag_text_small (s : str) :
  small (length s - length (snd (spec_tags s))) -> small (length (tag_text s) + 1).
Proof.
  destruct s as [|c s]; [intros _; unfold small; cbn; lia|].
  cbn [spec_tags tag_text]. destruct (Byte.eqb c "@"); [|intros _; unfold small; cbn; lia].
  destruct (cut " " s) as [t [r|]] eqn:C; [|intros _; unfold small; cbn; lia].
  apply cut_some in C as [-> _]. cbn [snd length]. rewrite app_length. cbn [length].
  unfold small. lia.
Qed.

Lemma params_pos_tags (s : str) :
  small (params_pos s) -> small (length s - length (snd (spec_tags s))).
Proof.
  unfold params_pos, small.
  pose proof (spec_split_prefix_shorter (snd (spec_tags s))) as Q2.
  pose proof (cut_shorter (snd (spec_split_prefix (snd (spec_tags s))))) as Q3.
  pose proof (spec_split_channel_shorter
                (or_empty (snd (cut " " (snd (spec_split_prefix (snd (spec_tags s)))))))) as Q4.
  lia.
Qed.

(** C83. Only the part [h] of the line in front of the parameters has to be
    shorter than 4 GiB for the tags, the prefix, the command and the channel to
    be read as they are written.  The parameters end at the length of the line
    modulo 2^32, if that is behind their start and between two characters, and
    otherwise cannot be read. *)
Lemma p_c83_lines_of_any_size :
  forall (bd : build) (s h p : str) (v : view),
    utf8_valid s = true -> at_most_128 s -> (bd = Scalar -> ~ unterminated_tags s) ->
    spec_view s = Some v -> v_params v = Some p -> s = h ++ p -> below_4gib h ->
    exists m, ref_parse bd s = Ret (Some m) /\
      ref_prefix m = Ret (v_prefix v) /\
      ref_command m = Ret (spec_command (v_command v)) /\
      (v_command v <> b "353" -> v_command v <> b "366" -> ref_channel m = Ret (v_channel v)) /\
      (all_short s -> ref_tags m = Ret (v_tags v)) /\
      let n := (N.of_nat (length s) mod 4294967296)%N in
      ((n < N.of_nat (length h))%N -> ref_params m = Panic /\ ref_text m = Panic) /\
      (forall q r, p = q ++ r -> N.of_nat (length h + length q) = n ->
         (utf8_valid q = true ->
            ref_params m = Ret (Some q) /\
            (forall a t, q = a ++ b ":" ++ t -> ~ In ":"%byte a -> ref_text m = Ret (Some t)) /\
            (~ In ":"%byte q -> ref_text m = Ret (Some q))) /\
         (utf8_valid q = false -> ref_params m = Panic /\ ref_text m = Panic)).
Proof.
  intros bd s h p v U L T V VP Es S.
  assert (PP : params_pos s = length h).
  { rewrite (spec_view_params s v p V VP), Es, app_length. lia. }
  assert (S' : small (params_pos s)) by (rewrite PP; exact S).
  apply at_most_iff in L. pose proof (ref_parse_upto bd s U S' T) as P. rewrite V in P.
  unfold too_many in P. change capacity with 128 in P.
  replace (128 <? length (fst (spec_tags s))) with false in P by lia.
  destruct P as (m & E & (H1 & H2 & H3 & H4 & H5) & H6 & H7).
  destruct (H7 p VP) as (l & El & Bl).
  assert (l = h) as -> by (rewrite Es in El; now apply app_inv_tail in El).
  exists m. split; [exact E|]. split; [exact H3|]. split; [exact H4|]. split; [|split].
  - intros N1 N2. unfold ref_channel. rewrite H4. cbn [bind].
    destruct (spec_command_names (v_command v)) as (F & _ & _). rewrite Forall_forall in F.
    pose proof (F (b "353", RplNames) ltac:(cbn; tauto)) as K1. cbn [fst snd] in K1.
    pose proof (F (b "366", RplEndOfNames) ltac:(cbn; tauto)) as K2. cbn [fst snd] in K2.
    rewrite H1. destruct (spec_command (v_command v)); try exact H5; exfalso; tauto.
  - intros F. apply all_short_spec in F.
    assert (VT : v_tags v = fst (spec_tags s)).
    { clear - V. unfold spec_view in V. destruct (spec_tags s) as [tags s1].
      destruct (spec_split_prefix s1) as [pfx s2]. destruct (cut " " s2) as [w r].
      destruct w; [discriminate|]. destruct (spec_split_channel (or_empty r)). injection V as <-. reflexivity. }
    rewrite VT. apply ref_tags_upto; auto. apply tag_text_small. now apply params_pos_tags.
  - cbn zeta. rewrite VP in H6.
    assert (Uh : utf8_valid h = true).
    { apply (valid_front h p); [now rewrite <- Es|].
      destruct p as [|x p]; [trivial|].
      unfold boundary_ok, is_char_boundary in Bl. rewrite Es, nth_error_app2, Nat.sub_diag in Bl by lia.
      cbn [nth_error] in Bl. destruct (is_cont x) eqn:X; [|reflexivity]. cbn in Bl.
      destruct h; [|discriminate Bl]. cbn [app] in Es. rewrite Es in U. apply utf8_head in U. congruence. }
    replace (length s - length p) with (length h) in H6 by (rewrite Es, app_length; lia).
    assert (TX : ref_params m = Panic -> ref_text m = Panic).
    { unfold ref_params, ref_text, opt_span_get. destruct (p_params (r_parts m)) as [sp|]; [|discriminate].
      unfold rmap. destruct (span_get (r_src m) sp); cbn [bind]; try discriminate. auto. }
    split.
    + intros K. assert (X : ref_params m = Panic); [|split; auto].
      rewrite H6. unfold slice. replace (length h <=? as_u32 (length s)) with false; [reflexivity|].
      unfold as_u32. lia.
    + intros q r Ep K.
      assert (A : as_u32 (length s) = length h + length q) by (unfold as_u32; lia).
      rewrite A in H6.
      pose proof (boundary_front h q r Uh) as BF. rewrite <- Ep, <- Es in BF. specialize (BF U).
      assert (LS : length s = length h + length q + length r) by (rewrite Es, Ep, !app_length; lia).
      split.
      * intros Uq. rewrite Uq in BF.
        assert (X : ref_params m = Ret (Some q)).
        { rewrite H6. unfold rmap. rewrite (slice_ok h q r s); auto. now rewrite Es, Ep. }
        split; [exact X|].
        unfold ref_params, opt_span_get in X. unfold ref_text.
        destruct (p_params (r_parts m)) as [sp|]; [|discriminate].
        unfold rmap in X. destruct (span_get (r_src m) sp) as [ps| | |]; cbn [bind] in *; try discriminate.
        injection X as ->. split.
        -- intros a t Eq Na. rewrite Eq. change (b ":" ++ t) with (":"%byte :: t).
           rewrite find_byte_app by exact Na. unfold rmap.
           rewrite (slice_from_ok (a ++ b ":") t); [reflexivity| | |].
           ++ now rewrite <- app_assoc.
           ++ rewrite app_length. reflexivity.
           ++ change (a ++ ":"%byte :: t) with (a ++ b ":" ++ t). rewrite app_assoc. apply boundary_app.
              ** rewrite app_length. reflexivity.
              ** apply utf8_head'. apply (utf8_right a t ":"); [reflexivity|]. now rewrite Eq in Uq.
        -- intros Nq. apply find_byte_none in Nq. now rewrite Nq.
      * intros Uq. rewrite Uq in BF. assert (X : ref_params m = Panic); [|split; auto].
        rewrite H6. unfold slice. rewrite BF, andb_false_r. reflexivity.
Qed.

(** C83. The parameters of such a line are read as written exactly when the
    whole line is shorter than 4 GiB. *)
Lemma p_c83_parameters_need_4gib :
  forall (bd : build) (s h p : str) (v : view) (m : msg_ref),
    utf8_valid s = true -> at_most_128 s -> (bd = Scalar -> ~ unterminated_tags s) ->
    spec_view s = Some v -> v_params v = Some p -> s = h ++ p -> below_4gib h ->
    ref_parse bd s = Ret (Some m) ->
    (ref_params m = Ret (Some p) <-> below_4gib s).
Proof.
  intros bd s h p v m U L T V VP Es S E.
  destruct (p_c83_lines_of_any_size bd s h p v U L T V VP Es S) as (m' & E' & _ & _ & _ & _ & K1 & K2).
  rewrite E in E'. injection E' as <-.
  assert (LS : length s = length h + length p) by (rewrite Es, app_length; lia).
  pose proof (N.mod_le (N.of_nat (length s)) 4294967296 ltac:(lia)) as M.
  pose proof (N.mod_lt (N.of_nat (length s)) 4294967296 ltac:(lia)) as M'.
  set (n := (N.of_nat (length s) mod 4294967296)%N) in *. unfold below_4gib.
  split.
  - intros R. destruct (N.ltb_spec n (N.of_nat (length h))) as [C|C].
    { rewrite (proj1 (K1 C)) in R. discriminate. }
    set (i := N.to_nat n - length h).
    assert (Ep : p = firstn i p ++ skipn i p) by (symmetry; apply firstn_skipn).
    assert (Li : length (firstn i p) = i) by (rewrite firstn_length; unfold i; lia).
    specialize (K2 _ _ Ep). rewrite Li in K2. specialize (K2 ltac:(unfold i; lia)).
    destruct (utf8_valid (firstn i p)) eqn:Ui.
    + destruct (proj1 K2 eq_refl) as [R' _]. rewrite R in R'. injection R' as R'.
      rewrite <- R' in Li. lia.
    + rewrite (proj1 (proj2 K2 eq_refl)) in R. discriminate.
  - intros B. assert (Hn : n = N.of_nat (length s)) by (apply N.mod_small; exact B).
    assert (Ep : p = p ++ []) by now rewrite app_nil_r.
    specialize (K2 _ _ Ep ltac:(lia)). apply K2.
    assert (Uh : utf8_valid p = true) by (exact (proj2 (proj2 (view_valid s v V U)) p VP)).
    exact Uh.
Qed.

(** ** Such lines exist *)

Definition xs (n : nat) : str := repeat "x"%byte n.

Lemma xs_valid (n : nat) : utf8_valid (xs n) = true.
Proof. induction n as [|n IH]; [reflexivity|]. exact IH. Qed.

Lemma ping_xs (bd : build) (n : nat) :
  let s := b "PING " ++ xs (S n) in
  utf8_valid s = true /\ at_most_128 s /\ all_short s /\ (bd = Scalar -> ~ unterminated_tags s) /\
  spec_view s = Some (mk_view [] None (b "PING") None (Some (xs (S n)))).
Proof.
  cbn zeta.
  assert (NS : forall sec rest, ~ has_section (b "PING " ++ xs (S n)) sec rest).
  { intros sec rest [E _]. discriminate E. }
  split; [exact (xs_valid (S n))|]. split; [intros sec rest l K; destruct (NS _ _ K)|].
  split; [intros sec rest l K; destruct (NS _ _ K)|]. split; [|reflexivity].
  intros _ [[r E] _]. discriminate E.
Qed.

Lemma ping_xs_reads (bd : build) (n : nat) :
  exists m, ref_parse bd (b "PING " ++ xs (S n)) = Ret (Some m) /\
    let k := ((5 + N.of_nat (S n)) mod 4294967296)%N in
    ((k < 5)%N -> ref_params m = Panic /\ ref_text m = Panic) /\
    (forall i, (N.of_nat i + 5)%N = k -> i <= S n -> ref_params m = Ret (Some (xs i))).
Proof.
  destruct (ping_xs bd n) as (U & L & _ & T & V).
  destruct (p_c83_lines_of_any_size bd _ (b "PING ") (xs (S n)) _ U L T V eq_refl eq_refl) as
    (m & E & _ & _ & _ & _ & K1 & K2); [reflexivity|].
  exists m. split; [exact E|]. cbn zeta.
  replace (N.of_nat (length (b "PING " ++ xs (S n)))) with (5 + N.of_nat (S n))%N in *
    by (rewrite app_length; unfold xs; rewrite repeat_length; cbn [length b]; change (length (b "PING ")) with 5; lia).
  split; [exact K1|]. intros i Hi Li.
  assert (Ex : xs (S n) = xs i ++ xs (S n - i)).
  { unfold xs. rewrite <- repeat_app. f_equal. lia. }
  apply (K2 _ _ Ex); [|apply xs_valid].
  unfold xs. rewrite repeat_length. change (length (b "PING ")) with 5. lia.
Qed.

(** C83. A line of exactly 4 GiB is accepted, and then its parameters and its
    text cannot be read. *)
Lemma p_c83_params_panic_refuted :
  exists (s p : str) (v : view), utf8_valid s = true /\ at_most_128 s /\ all_short s /\
    spec_view s = Some v /\ v_params v = Some p /\ N.of_nat (length s) = 4294967296%N /\
    forall bd, exists m, ref_parse bd s = Ret (Some m) /\ ref_params m = Panic /\ ref_text m = Panic.
Proof.
  remember (N.to_nat 4294967290) as n eqn:En.
  assert (Hn : N.of_nat n = 4294967290%N) by (rewrite En; apply N2Nat.id). clear En.
  exists (b "PING " ++ xs (S n)), (xs (S n)). eexists.
  destruct (ping_xs Scalar n) as (U & L & A & _ & V).
  split; [exact U|]. split; [exact L|]. split; [exact A|]. split; [exact V|]. split; [reflexivity|].
  split.
  - rewrite app_length. unfold xs. rewrite repeat_length. change (length (b "PING ")) with 5. lia.
  - intros bd. destruct (ping_xs_reads bd n) as (m & E & K & _). exists m. split; [exact E|].
    apply K. rewrite Nat2N.inj_succ, Hn. reflexivity.
Qed.

(** C83. A longer one is accepted, and then has other parameters than were
    written: here one character of 4 GiB. *)
Lemma p_c83_params_lost_refuted :
  exists (s p : str) (v : view), utf8_valid s = true /\ at_most_128 s /\ all_short s /\
    spec_view s = Some v /\ v_params v = Some p /\ N.of_nat (length p) = 4294967297%N /\
    forall bd, exists m, ref_parse bd s = Ret (Some m) /\ ref_params m = Ret (Some (b "x")).
Proof.
  remember (N.to_nat 4294967296) as n eqn:En.
  assert (Hn : N.of_nat n = 4294967296%N) by (rewrite En; apply N2Nat.id). clear En.
  exists (b "PING " ++ xs (S n)), (xs (S n)). eexists.
  destruct (ping_xs Scalar n) as (U & L & A & _ & V).
  split; [exact U|]. split; [exact L|]. split; [exact A|]. split; [exact V|]. split; [reflexivity|].
  split.
  - unfold xs. rewrite repeat_length. lia.
  - intros bd. destruct (ping_xs_reads bd n) as (m & E & _ & K). exists m. split; [exact E|].
    apply (K 1); [|lia]. replace (N.of_nat (S n)) with 4294967297%N by lia. reflexivity.
Qed.

(** A message with every part, of any number of characters of text: the
    hypotheses hold for a text beyond 4 GiB. *)
Definition huge_head : str := b "@id=7 :a!u@h PRIVMSG #c ".

Example ex_c83 (n : nat) :
  let s := huge_head ++ b ":" ++ xs n in
  utf8_valid s = true /\ at_most_128 s /\ all_short s /\ ~ unterminated_tags s /\ below_4gib huge_head /\
  spec_view s = Some (mk_view [(b "id", b "7")] (Some (mk_prefix (Some (b "a")) (Some (b "u")) (b "h")))
                        (b "PRIVMSG") (Some (b "#c")) (Some (b ":" ++ xs n))).
Proof.
  cbn zeta.
  assert (V : spec_view (huge_head ++ b ":" ++ xs n) =
    Some (mk_view [(b "id", b "7")] (Some (mk_prefix (Some (b "a")) (Some (b "u")) (b "h")))
                        (b "PRIVMSG") (Some (b "#c")) (Some (b ":" ++ xs n)))) by reflexivity.
  assert (TG : fst (spec_tags (huge_head ++ b ":" ++ xs n)) = [(b "id", b "7")]) by reflexivity.
  split; [exact (xs_valid n)|]. split; [apply at_most_iff; rewrite TG; cbn; lia|].
  split; [apply all_short_spec; rewrite TG; repeat constructor|].
  split; [|split; [reflexivity|exact V]].
  intros [_ K]. apply K. cbn. tauto.
Qed.
