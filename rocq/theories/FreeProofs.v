(** * FreeProofs: the property lemmas about tag values chosen by others, C88. *)

From Coq Require Import Lia ZifyBool ZifyNat ZifyN.
From Verif Require Import Base Wide Tags Irc MsgBase MsgTypes MsgNotice Message SpecIrc SpecText SpecMsg SpecQuote SpecFree.
From Verif Require Import BaseFacts Utf8Facts UnescapeProofs IrcFacts IrcProofs LineProofs AccessProofs FieldFacts TypedFacts NoticeFacts TypedProofs PartsProofs QuoteProofs CutProofs.

(** ** The value of a tag *)

Lemma section_written (l1 l2 : list (str * str)) (k x z : str) :
  Forall good_pair l1 -> ~ In "="%byte k -> ~ In ";"%byte x ->
  (z = [] /\ l2 = [] \/ exists z', z = b ";" ++ z' /\ tag_section z' l2) ->
  tag_section (written l1 ++ k ++ b "=" ++ x ++ z) (l1 ++ (k, x) :: l2).
Proof.
  intros F K X Z. induction F as [|[k1 x1] l1 [A B] F IH]; cbn [written map concat app] in *.
  - destruct Z as [[-> ->]|(z' & -> & T)]; [rewrite app_nil_r|]; now constructor.
  - cbn [fst snd] in *. rewrite <- !app_assoc. now constructor.
Qed.

Lemma line_tags (sec rest : str) (l : list (str * str)) :
  ~ In " "%byte sec -> tag_section sec l -> spec_tags (b "@" ++ sec ++ b " " ++ rest) = (l, rest).
Proof. intros N T. apply (section_spec _ sec); [now split|exact T]. Qed.

Lemma view_of_tags (s s' : str) (l l' : list (str * str)) (rest : str) (v : view) :
  spec_tags s = (l, rest) -> spec_tags s' = (l', rest) -> spec_view s = Some v ->
  v_tags v = l /\ spec_view s' = Some (with_tags v l').
Proof.
  intros E E' V. unfold spec_view in *. rewrite E in V. rewrite E'. destruct (spec_split_prefix rest) as [o s2].
  destruct (cut " " s2) as [[|w0 w] r]; [discriminate|]. destruct (spec_split_channel (or_empty r)) as [ch ps].
  injection V as <-. split; reflexivity.
Qed.

(** C88. The value of a tag may be any text without space and semicolon: the line
    still parses, and nothing else of it changes. *)
Lemma p_c88_value_is_only_value :
  forall (bd : build) (l1 : list (str * str)) (k x x' z rest : str) (v : view) (m : msg_ref),
    let old := b "@" ++ (written l1 ++ k ++ b "=" ++ x ++ z) ++ b " " ++ rest in
    let new := b "@" ++ (written l1 ++ k ++ b "=" ++ x' ++ z) ++ b " " ++ rest in
    parsed bd old v m ->
    Forall good_pair l1 -> ~ In "="%byte k -> ~ In ";"%byte x -> (z = [] \/ starts ";" z) ->
    ~ In " "%byte (written l1 ++ k ++ b "=" ++ x ++ z) ->
    ~ In " "%byte x' -> ~ In ";"%byte x' -> short_tag (k, x') -> utf8_valid x' = true -> below_4gib new ->
    exists l2 m', v_tags v = l1 ++ (k, x) :: l2 /\ parsed bd new (with_tags v (l1 ++ (k, x') :: l2)) m'.
Proof.
  intros bd l1 k x x' z rest v m old new P F K X Z SP SP' X' SH U' S'.
  assert (T : exists l2, z = [] /\ l2 = [] \/ exists z', z = b ";" ++ z' /\ tag_section z' l2).
  { destruct Z as [->|[z' ->]]; [exists []; auto|]. exists (tag_list z'). right. exists z'. split; [reflexivity|].
    now apply tag_list_section. }
  destruct T as [l2 T].
  pose proof (section_written l1 l2 k x z F K X T) as S1. pose proof (section_written l1 l2 k x' z F K X' T) as S2.
  assert (N' : ~ In " "%byte (written l1 ++ k ++ b "=" ++ x' ++ z)).
  { rewrite !in_app_iff in *. tauto. }
  pose proof (line_tags _ rest _ SP S1) as T1. pose proof (line_tags _ rest _ N' S2) as T2.
  change (spec_tags old = (l1 ++ (k, x) :: l2, rest)) in T1.
  change (spec_tags new = (l1 ++ (k, x') :: l2, rest)) in T2.
  destruct P as [U S A V E].
  destruct (view_of_tags old new _ _ rest v T1 T2 V) as [TG V'].
  destruct (parse_inv bd old m U S E) as (_ & L & _). rewrite T1 in L. cbn [fst] in L.
  assert (U2 : utf8_valid new = true).
  { assert (D : forall y, (b "@" ++ (written l1 ++ k ++ b "=" ++ y ++ z) ++ b " " ++ rest) =
             (b "@" ++ written l1 ++ k) ++ "="%byte :: (y ++ z ++ b " " ++ rest)).
    { intros y. rewrite <- !app_assoc. reflexivity. }
    subst old new. rewrite D in U |- *. rewrite utf8_split in * by reflexivity.
    apply andb_prop in U as [-> U]. cbn [andb].
    assert (TL : utf8_valid (z ++ b " " ++ rest) = true).
    { destruct Z as [->|[z' ->]]; cbn [app] in U |- *.
      - change (x ++ b " " ++ rest) with (x ++ " "%byte :: rest) in U.
        change (utf8_valid ([] ++ " "%byte :: rest) = true). rewrite utf8_split in * by reflexivity.
        now apply andb_prop in U as [_ ->].
      - change (utf8_valid ([] ++ ";"%byte :: (z' ++ b " " ++ rest)) = true).
        rewrite utf8_split in * by reflexivity. now apply andb_prop in U as [_ ->]. }
    rewrite utf8_app by exact U'. exact TL. }
  assert (NT : ~ unterminated_tags new).
  { intros [_ N]. apply N. unfold new. rewrite !in_app_iff. right. right. left. now left. }
  pose proof (parse_cases bd new U2 S' (fun _ => NT)) as P'. rewrite T2, V' in P'. cbn [fst] in P'.
  destruct P' as (m' & P' & _).
  { rewrite app_length in *. cbn [length] in *. exact L. }
  exists l2, m'. split; [exact TG|]. split; auto.
  assert (FS : Forall short_tag (l1 ++ (k, x) :: l2)).
  { apply (A (written l1 ++ k ++ b "=" ++ x ++ z) rest); [now split|exact S1]. }
  intros sec rest' l HS TS. pose proof (section_spec _ _ _ _ HS TS) as Q. rewrite T2 in Q. injection Q as <- _.
  apply Forall_app in FS as [FS1 FS2]. apply Forall_app. split; [exact FS1|].
  inversion FS2; subst. now constructor.
Qed.

(** ** The typed message *)

Lemma other_lookup (l l' : list (str * str)) (k : str) :
  other_values l l' ->
  (~ In k (map b free_tags) -> lookup k l' = lookup k l) /\
  (lookup k l = None /\ lookup k l' = None \/ exists x x', lookup k l = Some x /\ lookup k l' = Some x').
Proof.
  induction 1 as [|[k1 x1] [k2 x2] l l' [A B] _ IH]; cbn [lookup fst snd] in *; [auto|]. subst k2.
  destruct (str_eqb_spec k1 k) as [<-|_]; [|exact IH].
  split; [|right; eauto]. intros N. destruct B as [->|B]; [reflexivity|contradiction].
Qed.

Definition free_tag (t : tag_name) : bool := existsb (str_eqb (tag_as_str t)) (map b free_tags).

Section Two.
Context (pf : profile) {v : view} {l' : list (str * str)} {m m' : msg_ref}.
Context (H : seen v m) (H' : seen (with_tags v l') m') (O : other_values (v_tags v) l').

Lemma fr_same (t : tag_name) : free_tag t = false -> ref_tag m' t = ref_tag m t.
Proof.
  intros N. rewrite (sn_tag _ _ H), (sn_tag _ _ H'). cbn [with_tags v_tags]. f_equal.
  apply (proj1 (other_lookup _ _ (tag_as_str t) O)). intros I. unfold free_tag in N.
  assert (K : existsb (str_eqb (tag_as_str t)) (map b free_tags) = true)
    by (apply existsb_exists; eexists; split; [exact I|apply str_eqb_refl]).
  rewrite K in N. discriminate.
Qed.

Lemma fr_both (t : tag_name) :
  ref_tag m t = Ret None /\ ref_tag m' t = Ret None \/
  exists x x', ref_tag m t = Ret (Some x) /\ ref_tag m' t = Ret (Some x').
Proof.
  rewrite (sn_tag _ _ H), (sn_tag _ _ H'). cbn [with_tags v_tags].
  destruct (proj2 (other_lookup _ _ (tag_as_str t) O)) as [[-> ->]|(x & x' & -> & ->)]; eauto.
Qed.

Ltac same_tags :=
  unfold tag_into, tag_non_empty, tag_u64, tag_borrowed;
  repeat match goal with
  | |- context [ref_tag m' ?t] => rewrite (fr_same t) by reflexivity
  end.

Ltac both :=
  repeat match goal with
  | |- context [ref_tag m' ?t] =>
    destruct (fr_both t) as [[-> ->]|(? & ? & -> & ->)]; cbn [bind bindo option_map]
  end.

Ltac go :=
  repeat match goal with
  | |- alike _ (bind _ _) (bind _ _) => apply alike_bind; intros ?
  | |- alike _ (bindo _ _) (bindo _ _) => apply alike_bindo; intros ?
  | z : (_ * _)%type |- _ => destruct z
  end.

Lemma fr_reply :
  alike (fun r r' => plain_reply r = plain_reply r') (privmsg_reply_to m) (privmsg_reply_to m').
Proof.
  unfold privmsg_reply_to. same_tags. both; go; try (now left).
  all: right; eexists _, _; split; [reflexivity|]; split; reflexivity.
Qed.

Definition same_event (e e' : event cow) : Prop := plain_event e = plain_event e'.

Lemma fr_event (a : option str) (c : str) :
  alike (fun x y => same_event (fst x) (fst y) /\ snd x = snd y) (parse_event m a c) (parse_event m' a c).
Proof.
  assert (K : forall r r' (z : bool), alike same_event r r' ->
    alike (fun x y => same_event (fst x) (fst y) /\ snd x = snd y)
      (let? e := r in Ret (Some (e, z))) (let? e := r' in Ret (Some (e, z)))).
  { intros r r' z [->|(x & x' & -> & -> & Q)]; [now left|]. right. eexists _, _. split; [reflexivity|].
    split; [reflexivity|]. now split. }
  unfold parse_event. repeat match goal with |- context [if ?c then _ else _] => destruct c end; try apply K.
  all: unfold event_sub, event_raid, event_sub_gift, event_sub_mystery_gift, event_anon_sub_mystery_gift,
    event_gift_paid_upgrade, event_anon_gift_paid_upgrade, event_ritual, event_bits_badge_tier,
    event_announcement, parse_promotion.
  all: same_tags; both.
  all: try (now left).
  all: go.
  all: try (now left).
  all: try (right; eexists _, _; split; [reflexivity|]; split; reflexivity).
  all: rewrite !(sn_tag _ _ H); cbn [bind]; destruct (opt_bind _ parse_u64).
  all: try (now left).
  all: right; eexists _, _; split; [reflexivity|]; split; reflexivity.
Qed.

Lemma fr_sender (a : bool) :
  alike (fun x y => option_map nameless x = option_map nameless y) (parse_sender m a) (parse_sender m' a).
Proof.
  unfold parse_sender. destruct a; cbn [negb]; [now left|]. same_tags. both; go; try (now left).
  all: right; eexists _, _; split; [reflexivity|]; split; reflexivity.
Qed.

Context (W : In (v_command v) typed_words).

Definition same_but_free (y y' : typed) : Prop := without_free y = without_free y'.

Lemma into_free {A : Type} (R : A -> A -> Prop) (C : A -> typed) (r r' : res (option A)) :
  (forall x x', R x x' -> without_free (C x) = without_free (C x')) -> alike R r r' ->
  alike same_but_free (into C r) (into C r').
Proof.
  intros I [->|(x & x' & -> & -> & K)]; [now left|]. right. exists (C x), (C x'). repeat split. now apply I.
Qed.

Lemma from_irc_free : alike same_but_free (from_irc pf m) (from_irc pf m').
Proof.
  pose proof (sn_command _ _ H) as SC. pose proof (sn_command _ _ H') as SC'. cbn [with_tags v_command] in SC'.
  assert (X : ref_text m' = ref_text m) by (now rewrite (sn_text _ _ H), (sn_text _ _ H')).
  assert (P : ref_params m' = ref_params m) by (now rewrite (sn_params _ _ H), (sn_params _ _ H')).
  assert (N : prefix_nick m' = prefix_nick m) by (now rewrite (seen_nick H), (seen_nick H')).
  assert (CH : ref_channel m' = ref_channel m) by (now rewrite (sn_channel _ _ H), (sn_channel _ _ H')).
  assert (T5 : tag_timestamp m' = tag_timestamp m) by (unfold tag_timestamp; same_tags; reflexivity).
  assert (T6 : tag_badges m' = tag_badges m) by (unfold tag_badges; same_tags; reflexivity).
  assert (T7 : tag_emotes m' = tag_emotes m) by (unfold tag_emotes; same_tags; reflexivity).
  assert (T8 : tag_emote_sets m' = tag_emote_sets m) by (unfold tag_emote_sets; same_tags; reflexivity).
  assert (T9 : channel_into m' = channel_into m) by (unfold channel_into; now rewrite CH).
  assert (R2 : privmsg_pinned_chat m' = privmsg_pinned_chat m)
    by (unfold privmsg_pinned_chat; same_tags; reflexivity).
  unfold from_irc. rewrite SC, SC'. cbn [bind]. pose proof W as J. cbn [typed_words In] in J.
  repeat (destruct J as [J|J];
    [rewrite <- J in SC, SC' |- *;
     match goal with |- context [spec_command ?w] =>
       let c := eval vm_compute in (spec_command w) in change (spec_command w) with c in SC, SC' |- * end;
     cbn [bind]|]); [..|destruct J].
  all: try (now left).
  all: try (left; f_equal; unfold clear_chat_parse, clear_msg_parse, join_parse, notice_parse, part_parse, ping_parse,
    pong_parse, room_state_parse; rewrite SC, SC'; cbn [bind]; same_tags;
    now rewrite ?X, ?P, ?N, ?CH, ?T5, ?T9).
  all: eapply into_free; [intros x x' R; exact R|].
  all: unfold global_user_state_parse, user_state_parse, whisper_parse, privmsg_parse, user_notice_parse.
  all: rewrite SC, SC'; cbn [bind]; rewrite ?X, ?P, ?N, ?CH, ?T5, ?T6, ?T7, ?T8, ?T9, ?R2.
  all: same_tags.
  all: repeat (go; match goal with
    | |- context [parse_message_text ?a] => is_var a; destruct (parse_message_text a)
    | |- alike _ (bind (privmsg_reply_to m) _) _ =>
      destruct fr_reply as [->|(? & ? & -> & -> & ?)]; cbn [bind]
    | |- alike _ (bindo (parse_event m ?a ?c) _) _ =>
      destruct (fr_event a c) as [->|([? ?] & [? ?] & -> & -> & [? ?])]; cbn [bind bindo fst snd] in *; subst
    | |- alike _ (bindo (parse_sender m ?a) _) _ =>
      destruct (fr_sender a) as [->|(? & ? & -> & -> & ?)]; cbn [bind bindo]
    | |- context [ref_tag m' ?t] =>
      destruct (fr_both t) as [[-> ->]|(? & ? & -> & ->)]; cbn [bind bindo option_map]
    end).
  all: go; try (now left).
  all: right; eexists _, _; split; [reflexivity|]; split; [reflexivity|].
  all: unfold same_event in *; cbn -[plain_reply plain_event nameless]; f_equal; f_equal; (reflexivity || congruence).
Qed.
End Two.

(** C88. Two lines that differ only in the values of tags someone may choose are
    the same typed message, but for the fields with these values. *)
Lemma p_c88_free_values :
  forall (bd bd' : build) (pf : profile) (s s' : str) (v : view) (l' : list (str * str)) (m m' : msg_ref),
    parsed bd s v m -> parsed bd' s' (with_tags v l') m' -> other_values (v_tags v) l' ->
    In (v_command v) typed_words ->
    from_irc pf m' = from_irc pf m \/
    exists y y', from_irc pf m = Ret (Some y) /\ from_irc pf m' = Ret (Some y') /\
      without_free y = without_free y'.
Proof.
  intros bd bd' pf s s' v l' m m' P P' O W.
  destruct (from_irc_free pf (parsed_seen _ _ _ _ P) (parsed_seen _ _ _ _ P') O W) as [E|K]; [now left|now right].
Qed.

Lemma other_refl (l : list (str * str)) : other_values l l.
Proof. induction l; constructor; auto. Qed.

(** C88. So for one of these tags in a line any text could be written, escaped:
    the line still parses, and its typed message is the same but for the fields with
    these values. *)
Lemma p_c88_any_text_escaped :
  forall (bd : build) (pf : profile) (l1 : list (str * str)) (k x t z rest : str) (v : view) (m : msg_ref),
    let old := b "@" ++ (written l1 ++ k ++ b "=" ++ x ++ z) ++ b " " ++ rest in
    let new := b "@" ++ (written l1 ++ k ++ b "=" ++ escape t ++ z) ++ b " " ++ rest in
    parsed bd old v m -> In (v_command v) typed_words ->
    Forall good_pair l1 -> In k (map b free_tags) -> ~ In ";"%byte x -> (z = [] \/ starts ";" z) ->
    ~ In " "%byte (written l1 ++ k ++ b "=" ++ x ++ z) ->
    utf8_valid t = true -> short_tag (k, escape t) -> below_4gib new ->
    exists m', ref_parse bd new = Ret (Some m') /\
      ref_command m' = ref_command m /\ ref_prefix m' = ref_prefix m /\ ref_channel m' = ref_channel m /\
      ref_params m' = ref_params m /\ ref_text m' = ref_text m /\
      (forall tag, tag_as_str tag <> k -> ref_tag m' tag = ref_tag m tag) /\
      (from_irc pf m' = from_irc pf m \/
       exists y y', from_irc pf m = Ret (Some y) /\ from_irc pf m' = Ret (Some y') /\
         without_free y = without_free y').
Proof.
  intros bd pf l1 k x t z rest v m old new P W F K X Z SP U SH S'.
  assert (KE : ~ In "="%byte k).
  { intros I. cbn [free_tags map In] in K. repeat (destruct K as [<-|K]; [vm_compute in I; intuition discriminate|]).
    destruct K. }
  destruct (p_c88_value_is_only_value bd l1 k x (escape t) z rest v m P F KE X Z SP) as (l2 & m' & TG & P'); auto.
  - intros I. now apply p_c19_escaped_text_is_a_tag_value in I as (_ & N & _).
  - intros I. now apply p_c19_escaped_text_is_a_tag_value in I as (N & _).
  - now apply escape_valid.
  - exists m'. split; [exact (pd_parse _ _ _ _ P')|].
    pose proof (parsed_seen _ _ _ _ P) as Q. pose proof (parsed_seen _ _ _ _ P') as Q'.
    split; [now rewrite (sn_command _ _ Q), (sn_command _ _ Q')|].
    split; [now rewrite (sn_prefix _ _ Q), (sn_prefix _ _ Q')|].
    split; [now rewrite (sn_channel _ _ Q), (sn_channel _ _ Q')|].
    split; [now rewrite (sn_params _ _ Q), (sn_params _ _ Q')|].
    split; [now rewrite (sn_text _ _ Q), (sn_text _ _ Q')|].
    split.
    + intros tag N. rewrite (sn_tag _ _ Q), (sn_tag _ _ Q'). cbn [with_tags v_tags]. rewrite TG. f_equal.
      clear - N. induction l1 as [|[k1 x1] l1 IH]; cbn [app lookup]; [now rewrite str_eqb_neq by congruence|].
      now rewrite IH.
    + eapply p_c88_free_values; [exact P|exact P'| |exact W]. rewrite TG.
      apply Forall2_app; [apply other_refl|]. constructor; [now split; [|right]|apply other_refl].
Qed.

(** C88. Without the escapes it is wrong: a semicolon in a display name brings in
    another user id, a space another sender and channel. *)
Lemma p_c88_semicolon_refuted :
  exists (l1 : list (str * str)) (x x' z rest : str) (v v' : view) (m m' : msg_ref) (y y' : privmsg cow),
    parsed Scalar (b "@" ++ (written l1 ++ b "display-name" ++ b "=" ++ x ++ z) ++ b " " ++ rest) v m /\
    Forall good_pair l1 /\ ~ In ";"%byte x /\ starts ";" z /\ ~ In " "%byte x' /\
    parsed Scalar (b "@" ++ (written l1 ++ b "display-name" ++ b "=" ++ x' ++ z) ++ b " " ++ rest) v' m' /\
    (forall pf, from_irc pf m = Ret (Some (MPrivmsg y)) /\ from_irc pf m' = Ret (Some (MPrivmsg y'))) /\
    deref (u_id (pm_sender y)) = b "2" /\ deref (u_id (pm_sender y')) = b "1".
Proof.
  exists [(b "room-id", b "1"); (b "id", b "9")], (b "D"), (b "D;user-id=1"), (b ";user-id=2;tmi-sent-ts=5"),
    (b ":d!d@d PRIVMSG #c :hi").
  eexists _, _, _, _, _, _. split; [parsed_line|].
  split; [repeat constructor; vm_compute; intuition discriminate|].
  split; [vm_compute; intuition discriminate|]. split; [now eexists|].
  split; [vm_compute; intuition discriminate|]. split; [parsed_line|].
  split; [intros pf; split; vm_compute; reflexivity|]. split; reflexivity.
Qed.

Lemma p_c88_space_refuted :
  exists (l1 : list (str * str)) (x x' rest : str) (v v' : view) (m m' : msg_ref) (y y' : privmsg cow),
    parsed Scalar (b "@" ++ (written l1 ++ b "display-name" ++ b "=" ++ x) ++ b " " ++ rest) v m /\
    Forall good_pair l1 /\ ~ In ";"%byte x /\ ~ In ";"%byte x' /\
    parsed Scalar (b "@" ++ (written l1 ++ b "display-name" ++ b "=" ++ x') ++ b " " ++ rest) v' m' /\
    (forall pf, from_irc pf m = Ret (Some (MPrivmsg y)) /\ from_irc pf m' = Ret (Some (MPrivmsg y'))) /\
    deref (u_login (pm_sender y)) = b "d" /\ deref (u_login (pm_sender y')) = b "boss" /\
    deref (pm_channel y) = b "#c" /\ deref (pm_channel y') = b "#other".
Proof.
  exists [(b "room-id", b "1"); (b "id", b "9"); (b "user-id", b "2"); (b "tmi-sent-ts", b "5")], (b "D"),
    (b "D :boss!boss@boss PRIVMSG #other :hey"), (b ":d!d@d PRIVMSG #c :hi").
  eexists _, _, _, _, _, _. split; [parsed_line|].
  split; [repeat constructor; vm_compute; intuition discriminate|].
  split; [vm_compute; intuition discriminate|].
  split; [vm_compute; intuition discriminate|]. split; [parsed_line|].
  split; [intros pf; split; vm_compute; reflexivity|]. repeat split.
Qed.

(** The same texts, escaped. *)
Example ex_c88 :
  let l1 := [(b "room-id", b "1"); (b "id", b "9")] in
  let t := b "D;user-id=1 :boss!boss@boss PRIVMSG #other :hey" in
  let z := b ";user-id=2;tmi-sent-ts=5" in
  let rest := b ":d!d@d PRIVMSG #c :hi" in
  let line x := b "@" ++ (written l1 ++ b "display-name" ++ b "=" ++ x ++ z) ++ b " " ++ rest in
  exists v m m' y',
    parsed Scalar (line (b "D")) v m /\ In (v_command v) typed_words /\ Forall good_pair l1 /\
    In (b "display-name") (map b free_tags) /\ starts ";" z /\
    ~ In " "%byte (written l1 ++ b "display-name" ++ b "=" ++ b "D" ++ z) /\
    utf8_valid t = true /\ short_tag (b "display-name", escape t) /\ below_4gib (line (escape t)) /\
    ref_parse Scalar (line (escape t)) = Ret (Some m') /\ from_irc Debug m' = Ret (Some (MPrivmsg y')) /\
    user_name (pm_sender y') = Ret (Owned t) /\
    deref (u_id (pm_sender y')) = b "2" /\ deref (u_login (pm_sender y')) = b "d" /\ deref (pm_channel y') = b "#c".
Proof.
  cbn zeta. eexists _, _, _, _. split; [parsed_line|]. split; [vm_compute; tauto|].
  split; [repeat constructor; vm_compute; intuition discriminate|]. split; [vm_compute; tauto|].
  split; [now eexists|]. split; [vm_compute; intuition discriminate|]. split; [reflexivity|].
  split; [repeat constructor|]. split; [vm_compute; reflexivity|]. split; [vm_compute; reflexivity|].
  split; [vm_compute; reflexivity|]. repeat split.
Qed.
