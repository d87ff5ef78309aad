(** * LongProofs: the property lemmas about typed messages of lines with long tag values, C94. *)

From Verif Require Import Base Wide Tags Irc MsgBase MsgTypes MsgNotice Message SpecIrc SpecText SpecMsg SpecQuote SpecFree SpecParts SpecLong LineProofs.
From Coq Require Import Lia ZifyBool ZifyNat ZifyN.
From Verif Require Import BaseFacts Utf8Facts UnescapeProofs IrcFacts IrcProofs AccessProofs FieldFacts TypedFacts NoticeFacts TypedProofs PartsProofs QuoteProofs CutProofs FreeProofs.

Lemma lookup_kept (k : str) (l : list (str * str)) :
  lookup k (map kept_tag l) = option_map truncated (lookup k l).
Proof.
  induction l as [|[k' x] l IH]; [reflexivity|]. cbn [map kept_tag fst snd lookup].
  destruct (str_eqb k' k); [reflexivity|exact IH].
Qed.

Lemma lookup_well (k x : str) (l : list (str * str)) :
  cut_well l -> lookup k l = Some x -> utf8_valid (truncated x) = true.
Proof.
  intros W L. apply lookup_first in L as (l1 & l2 & -> & _). apply Forall_app in W as [_ W]. now inversion W.
Qed.

(** A line that parses is seen with its tags as they are kept. *)
Lemma kept_seen (bd : build) (s : str) (v : view) (m : msg_ref) :
  utf8_valid s = true -> below_4gib s -> spec_view s = Some v -> ref_parse bd s = Ret (Some m) ->
  short_keys (v_tags v) -> cut_well (v_tags v) -> seen (with_tags v (map kept_tag (v_tags v))) m.
Proof.
  intros U S V E K W. destruct (parse_reads bd s m U S E) as (v' & V' & [R1 R2 R3 R4 R5 R6]).
  assert (v' = v) by congruence. subst v'. split; auto.
  destruct (parse_inv bd s m U S E) as (_ & _ & v' & V2 & Q1 & Q2 & _). rewrite (view_tags s v V) in *.
  destruct (ref_tags_any s m U S Q1 Q2) as [_ B]; [exact K|].
  intros t. unfold ref_tag. rewrite Q1, B. cbn [with_tags v_tags]. rewrite lookup_kept.
  destruct (lookup (tag_as_str t) (fst (spec_tags s))) as [x|] eqn:L; [|reflexivity].
  now rewrite (lookup_well _ _ _ W L).
Qed.

Lemma section_all (l : list (str * str)) : Forall good_pair l -> tag_section (written l) l.
Proof.
  induction 1 as [|[k x] l [A B] F IH]; [constructor; intros []|].
  cbn [written map concat fst snd] in *. rewrite <- !app_assoc. now constructor.
Qed.

Lemma in_truncated (c : byte) (x : str) : In c (truncated x) -> In c x.
Proof. unfold truncated. intros I. rewrite <- (firstn_skipn (N.to_nat (N.of_nat (length x) mod 65536)) x). apply in_or_app. now left. Qed.

Lemma truncated_size (x : str) : (N.of_nat (length (truncated x)) < 65536)%N.
Proof.
  unfold truncated. rewrite firstn_length.
  pose proof (N.mod_upper_bound (N.of_nat (length x)) 65536 ltac:(discriminate)). lia.
Qed.

(** The pairs of a section are made of its bytes, and good. *)
Lemma section_pairs (sec : str) (l : list (str * str)) : tag_section sec l ->
  Forall good_pair l /\ forall c k x, In (k, x) l -> In c k \/ In c x -> In c sec.
Proof.
  induction 1 as [s N|k x A B|k x s l A B T [F IH]].
  - split; [constructor|]. intros c k x [].
  - split; [repeat constructor; auto|]. intros c k' x' [[= <- <-]|[]] I. rewrite !in_app_iff. tauto.
  - split; [constructor; [split; auto|exact F]|]. intros c k' x' [[= <- <-]|J] I; rewrite !in_app_iff; [tauto|].
    do 4 right. exact (IH c k' x' J I).
Qed.

Lemma section_keys_valid (sec : str) (l : list (str * str)) : tag_section sec l -> utf8_valid sec = true ->
  Forall (fun kv => utf8_valid (fst kv) = true) l.
Proof.
  induction 1 as [s N|k x A B|k x s l A B T IH]; intros U; constructor; cbn [fst].
  - change (utf8_valid (k ++ "="%byte :: x) = true) in U. now apply utf8_left in U.
  - constructor.
  - change (utf8_valid (k ++ "="%byte :: (x ++ b ";" ++ s)) = true) in U. now apply utf8_left in U.
  - apply IH. change (utf8_valid (k ++ "="%byte :: (x ++ ";"%byte :: s)) = true) in U.
    apply utf8_right in U; [|reflexivity]. now apply utf8_right in U.
Qed.

Lemma written_valid (l : list (str * str)) :
  Forall (fun kv => utf8_valid (fst kv) = true /\ utf8_valid (snd kv) = true) l -> utf8_valid (written l) = true.
Proof.
  induction 1 as [|[k x] l [A B] F IH]; [reflexivity|]. cbn [written map concat fst snd] in *.
  rewrite <- !app_assoc. rewrite utf8_app by exact A. rewrite utf8_app by reflexivity.
  rewrite utf8_app by exact B. rewrite utf8_app by reflexivity. exact IH.
Qed.

Lemma in_written (c : byte) (l : list (str * str)) : In c (written l) ->
  c = "="%byte \/ c = ";"%byte \/ exists k x, In (k, x) l /\ (In c k \/ In c x).
Proof.
  unfold written. intros I. apply in_concat in I as (y & I & J). apply in_map_iff in I as ([k x] & <- & I).
  cbn [fst snd] in J. rewrite !in_app_iff in J. cbn [b list_byte_of_string In] in J.
  destruct J as [J|[[J|[]]|[J|[J|[]]]]]; auto; right; right; exists k, x; auto.
Qed.

(** C94. A line with tag values of any length is read as the line with every value
    cut to its length modulo 65536, if no value is cut within a character: that
    line parses, it has the same other parts, and the typed messages are equal. *)
Lemma p_c94_as_if_shortened :
  forall (bd : build) (sec rest : str) (l : list (str * str)) (m : msg_ref),
    let s := b "@" ++ sec ++ b " " ++ rest in
    utf8_valid s = true -> below_4gib s -> ~ In " "%byte sec -> tag_section sec l -> short_keys l -> cut_well l ->
    ref_parse bd s = Ret (Some m) -> below_4gib (shortened l rest) ->
    exists v m', spec_view s = Some v /\ v_tags v = l /\
      parsed bd (shortened l rest) (with_tags v (map kept_tag l)) m' /\
      forall pf, In (v_command v) typed_words -> from_irc pf m = from_irc pf m'.
Proof.
  intros bd sec rest l m s U S N T K W E S'.
  pose proof (line_tags sec rest l N T) as T1. change (spec_tags s = (l, rest)) in T1.
  destruct (section_pairs sec l T) as [G I].
  assert (G' : Forall good_pair (map kept_tag l)).
  { apply Forall_map. eapply Forall_impl; [|exact G]. intros [k x] [A B]. split; [exact A|].
    intros J. apply B. now apply in_truncated in J. }
  assert (N' : ~ In " "%byte (written (map kept_tag l))).
  { intros J. apply in_written in J as [J|[J|(k & x & J & J')]]; try discriminate.
    apply in_map_iff in J as ([k' x'] & [= <- <-] & J). apply N, (I _ k' x' J).
    destruct J' as [J'|J']; [now left|right]. now apply in_truncated in J'. }
  pose proof (line_tags _ rest _ N' (section_all _ G')) as T2.
  change (spec_tags (shortened l rest) = (map kept_tag l, rest)) in T2.
  destruct (parse_inv bd s m U S E) as (_ & L & v & V & _). rewrite T1 in L. cbn [fst] in L.
  destruct (view_of_tags s _ _ _ rest v T1 T2 V) as [TG V'].
  assert (US : utf8_valid sec = true /\ utf8_valid rest = true).
  { subst s. change (utf8_valid (b "@" ++ (sec ++ " "%byte :: rest)) = true) in U.
    rewrite utf8_app in U by reflexivity. rewrite utf8_split in U by reflexivity. now apply andb_prop in U. }
  destruct US as [U1 U2].
  assert (U' : utf8_valid (shortened l rest) = true).
  { unfold shortened. rewrite utf8_app by reflexivity. rewrite utf8_app; [rewrite utf8_app; auto|].
    apply written_valid, Forall_map. pose proof (section_keys_valid sec l T U1) as F.
    unfold cut_well in W. rewrite Forall_forall in *. intros kv J. split; [exact (F kv J)|exact (W kv J)]. }
  assert (NT : ~ unterminated_tags (shortened l rest)).
  { intros [_ X]. apply X. unfold shortened. rewrite !in_app_iff. right. right. left. now left. }
  pose proof (parse_cases bd _ U' S' (fun _ => NT)) as P. rewrite T2, V' in P. cbn [fst] in P.
  destruct P as (m' & P & _); [now rewrite map_length|].
  assert (PD : parsed bd (shortened l rest) (with_tags v (map kept_tag l)) m').
  { split; auto. apply (short_line _ (map kept_tag l)); [now rewrite T2|].
    apply Forall_map. eapply Forall_impl; [|exact K]. intros kv J. split; [exact J|apply truncated_size]. }
  exists v, m'. split; [exact V|]. split; [exact TG|]. split; [exact PD|].
  intros pf C. destruct (needs_listed _ C) as [nd ND]. subst l.
  apply (from_irc_reads pf (with_tags v (map kept_tag (v_tags v))) (with_tags v (map kept_tag (v_tags v))) m m' nd).
  - exact (kept_seen bd s v m U S V E K W).
  - exact (parsed_seen _ _ _ _ PD).
  - reflexivity.
  - exact ND.
  - unfold agree. repeat split; auto.
Qed.

(** ** What a long value does *)

(** The line [@user-id=1;display-name=x GLOBALUSERSTATE]. *)
Definition named_line (x : str) : str := b "@" ++ (b "user-id=1;display-name=" ++ x) ++ b " " ++ b "GLOBALUSERSTATE".

Lemma named_section (x : str) : ~ In ";"%byte x ->
  tag_section (b "user-id=1;display-name=" ++ x) [(b "user-id", b "1"); (b "display-name", x)].
Proof.
  intros N. apply (ts_more (b "user-id") (b "1") (b "display-name=" ++ x)); try (cbn; intuition discriminate).
  apply (ts_last (b "display-name") x); [|exact N]. cbn. intuition discriminate.
Qed.

Lemma named_parses (x : str) : utf8_valid x = true -> ~ In ";"%byte x -> ~ In " "%byte x -> below_4gib (named_line x) ->
  utf8_valid (named_line x) = true /\ ~ In " "%byte (b "user-id=1;display-name=" ++ x) /\
  forall bd, exists m, ref_parse bd (named_line x) = Ret (Some m).
Proof.
  intros U H1 H2 S.
  assert (U' : utf8_valid (named_line x) = true).
  { unfold named_line. rewrite <- app_assoc. rewrite utf8_app by reflexivity. rewrite utf8_app by reflexivity. now rewrite utf8_app. }
  assert (N : ~ In " "%byte (b "user-id=1;display-name=" ++ x)).
  { intros I. apply in_app_or in I as [I|I]; [|tauto]. cbn in I. intuition discriminate. }
  split; [exact U'|]. split; [exact N|]. intros bd.
  pose proof (line_tags _ (b "GLOBALUSERSTATE") _ N (named_section x H1)) as E.
  change (spec_tags (named_line x) = ([(b "user-id", b "1"); (b "display-name", x)], b "GLOBALUSERSTATE")) in E.
  assert (NT : ~ unterminated_tags (named_line x)).
  { intros [_ X]. apply X. unfold named_line. rewrite !in_app_iff. right. right. left. now left. }
  pose proof (parse_cases bd (named_line x) U' S (fun _ => NT)) as P.
  rewrite E in P. specialize (P ltac:(cbn; lia)).
  unfold spec_view in P. rewrite E in P. cbn in P. destruct P as (m & P & _). eauto.
Qed.

Lemma long_a (n : nat) : length (repeat "a"%byte n) = n /\ utf8_valid (repeat "a"%byte n) = true.
Proof.
  split; [apply repeat_length|]. induction n as [|n IH]; [reflexivity|exact IH].
Qed.

(** A number of which nothing else is known (so that nothing computes with it in unary). *)
Lemma some_nat (k : N) : exists n, N.of_nat n = k.
Proof. exists (N.to_nat k). apply N2Nat.id. Qed.

Lemma firstn_same (x : byte) (j k : nat) : j <= k -> firstn j (repeat x k) = repeat x j.
Proof.
  revert k. induction j as [|j IH]; intros [|k] L; cbn; try reflexivity; try lia. f_equal. apply IH. lia.
Qed.

(** A line to which [p_c94_as_if_shortened] applies, with a name of 65539 bytes. *)
Example ex_c94_long_name :
  exists (sec rest : str) (l : list (str * str)) (m : msg_ref) (name : str),
    let s := b "@" ++ sec ++ b " " ++ rest in
    utf8_valid s = true /\ below_4gib s /\ ~ In " "%byte sec /\ tag_section sec l /\ short_keys l /\ cut_well l /\
    ref_parse (Simd Sse2 0) s = Ret (Some m) /\ below_4gib (shortened l rest) /\
    l = [(b "user-id", b "1"); (b "display-name", name)] /\ N.of_nat (length name) = 65539%N /\
    shortened l rest = b "@user-id=1;display-name=aaa; GLOBALUSERSTATE".
Proof.
  destruct (some_nat 65539) as [n Hn].
  destruct (long_a n) as [L U]. remember (repeat "a"%byte n) as name eqn:EN.
  assert (H1 : ~ In ";"%byte name) by (subst name; apply repeat_plain; discriminate).
  assert (H2 : ~ In " "%byte name) by (subst name; apply repeat_plain; discriminate).
  assert (S : below_4gib (named_line name)).
  { unfold below_4gib, named_line. rewrite !app_length, L.
    change (length (b "@")) with 1. change (length (b "user-id=1;display-name=")) with 23.
    change (length (b " ")) with 1. change (length (b "GLOBALUSERSTATE")) with 15. lia. }
  assert (T : truncated name = b "aaa").
  { unfold truncated. rewrite L, Hn. rewrite EN. change (N.to_nat (65539 mod 65536)) with 3.
    apply (firstn_same "a" 3). lia. }
  destruct (named_parses name U H1 H2 S) as (U' & N & P). destruct (P (Simd Sse2 0)) as (m & E). clear P.
  assert (SL : shortened [(b "user-id", b "1"); (b "display-name", name)] (b "GLOBALUSERSTATE") =
    b "@user-id=1;display-name=aaa; GLOBALUSERSTATE").
  { unfold shortened, kept_tag. cbn [map fst snd]. rewrite T. vm_compute. reflexivity. }
  exists (b "user-id=1;display-name=" ++ name), (b "GLOBALUSERSTATE"), [(b "user-id", b "1"); (b "display-name", name)], m, name.
  cbn zeta. split; [exact U'|]. split; [exact S|]. split; [exact N|]. split; [now apply named_section|].
  split; [repeat constructor|].
  split. { constructor; [reflexivity|]. constructor; [|constructor]. cbn [snd]. now rewrite T. }
  split; [exact E|]. split; [now rewrite SL|]. split; [reflexivity|]. split; [now rewrite L|exact SL].
Qed.

(** C94. That a typed message has the whole name is false: one of 65539 bytes is
    one of three bytes afterwards, without any sign of it. *)
Lemma p_c94_whole_name_refuted :
  exists (s : str) (v : view) (m : msg_ref) (x : global_user_state cow) (name : str),
    utf8_valid s = true /\ below_4gib s /\ spec_view s = Some v /\ ref_parse (Simd Sse2 0) s = Ret (Some m) /\
    has v "display-name" name /\ from_irc Release m = Ret (Some (MGlobalUserState x)) /\
    N.of_nat (length name) = 65539%N /\ deref (gus_name x) = b "aaa".
Proof.
  destruct ex_c94_long_name as (sec & rest & l & m & name & U' & S & N & TS & SK & CW & E & SS & I & L & SL).
  destruct (p_c94_as_if_shortened (Simd Sse2 0) sec rest l m U' S N TS SK CW E SS) as (v & m' & V & TG & PD & C).
  assert (W : v_command v = b "GLOBALUSERSTATE").
    { pose proof (pd_view _ _ _ _ PD) as Q. rewrite SL in Q.
      assert (QC : option_map v_command (spec_view (b "@user-id=1;display-name=aaa; GLOBALUSERSTATE")) = Some (b "GLOBALUSERSTATE"))
        by (vm_compute; reflexivity).
      rewrite Q in QC. injection QC as QC. exact QC. }
    assert (F : exists x, from_irc Release m' = Ret (Some (MGlobalUserState x)) /\ deref (gus_name x) = b "aaa").
    { pose proof (pd_parse _ _ _ _ PD) as Q. rewrite SL in Q.
      assert (QF : bind (ref_parse (Simd Sse2 0) (b "@user-id=1;display-name=aaa; GLOBALUSERSTATE"))
        (fun o => match o with Some q => from_irc Release q | None => Ret None end) =
        Ret (Some (MGlobalUserState (mk_gus (Borrowed (b "1")) (Borrowed (b "aaa")) [] [] None)))) by (vm_compute; reflexivity).
      rewrite Q in QF. cbn [bind] in QF. eexists. split; [exact QF|reflexivity]. }
    destruct F as (x & F & FX). exists (b "@" ++ sec ++ b " " ++ rest), v, m, x, name.
    split; [exact U'|]. split; [exact S|]. split; [exact V|]. split; [exact E|].
    split. { apply has_iff. rewrite TG, I. reflexivity. }
    split. { rewrite C; [exact F|]. rewrite W. vm_compute. tauto. }
    split; [exact L|exact FX].
Qed.

(** C94. A value that is cut within a character makes the typed message panic: here
    the user id of a GLOBALUSERSTATE, in any build. *)
Lemma p_c94_cut_in_character :
  forall (bd : build) (pf : profile) (s : str) (v : view) (m : msg_ref) (x : str),
    utf8_valid s = true -> below_4gib s -> spec_view s = Some v -> ref_parse bd s = Ret (Some m) ->
    short_keys (v_tags v) -> v_command v = b "GLOBALUSERSTATE" -> has v "user-id" x ->
    utf8_valid (truncated x) = false -> from_irc pf m = Panic.
Proof.
  intros bd pf s v m x U S V E K C H X. destruct (parse_reads bd s m U S E) as (v' & V' & [R1 R2 R3 R4 R5 R6]).
  assert (v' = v) by congruence. subst v'.
  destruct (parse_inv bd s m U S E) as (_ & _ & v' & V2 & Q1 & Q2 & _). rewrite (view_tags s v V) in *.
  destruct (ref_tags_any s m U S Q1 Q2) as [_ B]; [exact K|].
  apply has_iff in H. rewrite (view_tags s v V) in H.
  assert (T : ref_tag m TUserId = Panic).
  { unfold ref_tag. rewrite Q1, B. change (tag_as_str TUserId) with (b "user-id"). now rewrite H, X. }
  unfold from_irc. rewrite R3, C.
  change (spec_command (b "GLOBALUSERSTATE")) with GlobalUserState. cbn [bind].
  unfold global_user_state_parse, tag_into, tag_borrowed. rewrite R3, C.
  change (spec_command (b "GLOBALUSERSTATE")) with GlobalUserState. cbn [bind]. now rewrite T.
Qed.

(** A line to which [p_c94_cut_in_character] applies: the id is [é] 32768 times and
    one more byte. *)
Definition id_line (x : str) : str := b "@" ++ (b "user-id=" ++ x) ++ b " " ++ b "GLOBALUSERSTATE".

Example ex_c94_panics :
  exists (s : str) (v : view) (m : msg_ref) (x : str),
    utf8_valid s = true /\ below_4gib s /\ spec_view s = Some v /\ ref_parse Scalar s = Ret (Some m) /\
    short_keys (v_tags v) /\ v_command v = b "GLOBALUSERSTATE" /\ has v "user-id" x /\
    utf8_valid (truncated x) = false.
Proof.
  destruct (some_nat 32767) as [n N].
  set (x := b "é" ++ concat (repeat (b "é") n) ++ b "a").
  assert (L : N.of_nat (length x) = 65537%N).
  { unfold x. rewrite !app_length, concat_repeat_length.
    change (length (b "é")) with 2. change (length (b "a")) with 1. lia. }
  assert (U : utf8_valid x = true).
  { unfold x. rewrite utf8_app by reflexivity. rewrite utf8_app; [reflexivity|].
    apply utf8_concat. apply Forall_forall. intros y I. apply repeat_spec in I. now subst. }
  assert (NI : forall c, ascii c = true -> c <> "a"%byte -> ~ In c x).
  { intros c A NA I. unfold x in I. apply in_app_or in I as [I|I].
    - cbn in I. intuition (subst; discriminate).
    - apply in_app_or in I as [I|I].
      + apply in_concat in I as (y & I1 & I2). apply repeat_spec in I1. subst y.
        cbn in I2. intuition (subst; discriminate).
      + cbn in I. intuition congruence. }
  assert (T : truncated x = [xc3]).
  { unfold truncated. replace (N.of_nat (length x) mod 65536)%N with 1%N; [reflexivity|]. now rewrite L. }
  assert (H1 : ~ In ";"%byte x) by (apply NI; [reflexivity|discriminate]).
  assert (H2 : ~ In " "%byte x) by (apply NI; [reflexivity|discriminate]).
  clearbody x.
  assert (S : below_4gib (id_line x)).
  { unfold below_4gib, id_line. rewrite !app_length.
    change (length (b "@")) with 1. change (length (b "user-id=")) with 8.
    change (length (b " ")) with 1. change (length (b "GLOBALUSERSTATE")) with 15. lia. }
  assert (U' : utf8_valid (id_line x) = true).
  { unfold id_line. rewrite <- app_assoc. rewrite utf8_app by reflexivity. rewrite utf8_app by reflexivity. now rewrite utf8_app. }
  assert (NS : ~ In " "%byte (b "user-id=" ++ x)).
  { intros I. apply in_app_or in I as [I|I]; [|tauto]. cbn in I. intuition discriminate. }
  assert (TS : tag_section (b "user-id=" ++ x) [(b "user-id", x)]).
  { apply (ts_last (b "user-id") x); [|exact H1]. cbn. intuition discriminate. }
  pose proof (line_tags _ (b "GLOBALUSERSTATE") _ NS TS) as E.
  change (spec_tags (id_line x) = ([(b "user-id", x)], b "GLOBALUSERSTATE")) in E.
  assert (NT : ~ unterminated_tags (id_line x)).
  { intros [_ X]. apply X. unfold id_line. rewrite !in_app_iff. right. right. left. now left. }
  assert (V : spec_view (id_line x) = Some (mk_view [(b "user-id", x)] None (b "GLOBALUSERSTATE") None None)).
  { unfold spec_view. rewrite E. reflexivity. }
  pose proof (parse_cases Scalar (id_line x) U' S (fun _ => NT)) as P.
  rewrite E, V in P. destruct P as (m & P & _); [cbn; lia|].
  exists (id_line x), (mk_view [(b "user-id", x)] None (b "GLOBALUSERSTATE") None None), m, x.
  split; [exact U'|]. split; [exact S|]. split; [exact V|]. split; [exact P|].
  split; [repeat constructor|]. split; [reflexivity|]. split; [apply has_iff; reflexivity|]. now rewrite T.
Qed.
