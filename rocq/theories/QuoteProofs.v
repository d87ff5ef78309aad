(** * QuoteProofs: the property lemmas about texts written by others, C86. *)

From Coq Require Import Lia ZifyBool ZifyNat ZifyN.
From Verif Require Import Base Wide Tags Irc MsgBase MsgTypes MsgNotice Message SpecIrc SpecMsg SpecParts SpecQuote.
From Verif Require Import BaseFacts IrcFacts IrcProofs LineProofs AccessProofs FieldFacts TypedFacts NoticeFacts TypedProofs PartsProofs.

(** ** Other parameters *)

Lemma cut_front (p p' h : str) : forall t rest, cut " " (h ++ p) = (t, Some rest) -> length p <= length rest ->
  exists h', rest = h' ++ p /\ cut " " (h ++ p') = (t, Some (h' ++ p')).
Proof.
  induction h as [|x h IH]; intros t rest E L.
  - exfalso. cbn [app] in E. assert (K : length rest < length p); [|lia]. clear L. revert t rest E.
    induction p as [|y p IHp]; intros t rest E; cbn [cut] in E; [discriminate|].
    destruct (Byte.eqb y " "); [injection E as _ <-; cbn [length]; lia|].
    destruct (cut " " p) as [l r]. injection E as <- ->. specialize (IHp l rest eq_refl). cbn [length]. lia.
  - cbn [app cut] in *. destruct (Byte.eqb x " ").
    + injection E as <- <-. now exists h.
    + destruct (cut " " (h ++ p)) as [l r]. injection E as <- ->.
      destruct (IH l rest eq_refl L) as (h' & -> & ->). now exists h'.
Qed.

Lemma cut_length (s t rest : str) : cut " " s = (t, Some rest) -> length rest < length s.
Proof.
  revert t. induction s as [|x s IH]; intros t E; cbn [cut] in E; [discriminate|].
  destruct (Byte.eqb x " "); [injection E as _ <-; cbn [length]; lia|].
  destruct (cut " " s) as [l r]. injection E as <- ->. specialize (IH l eq_refl). cbn [length]. lia.
Qed.

(** [c t rest], if there is a space. *)
Definition mark_split (c : byte) (s : str) : option str * str :=
  match s with
  | x :: r =>
    if Byte.eqb x c then
      match cut " " r with (t, Some rest) => (Some t, rest) | (_, None) => (None, s) end
    else (None, s)
  | [] => (None, s)
  end.

Lemma tags_split (s : str) :
  spec_tags s = (match fst (mark_split "@" s) with Some t => tag_list t | None => [] end, snd (mark_split "@" s)).
Proof.
  unfold spec_tags, mark_split. destruct s as [|x r]; [reflexivity|]. destruct (Byte.eqb x "@"); [|reflexivity].
  now destruct (cut " " r) as [t [rest|]].
Qed.

Lemma prefix_split (s : str) :
  spec_split_prefix s = (option_map spec_prefix (fst (mark_split ":" s)), snd (mark_split ":" s)).
Proof.
  unfold spec_split_prefix, mark_split. destruct s as [|x r]; [reflexivity|]. destruct (Byte.eqb x ":"); [|reflexivity].
  now destruct (cut " " r) as [t [rest|]].
Qed.

Lemma split_front (c : byte) (h p p' rest : str) (o : option str) :
  c <> " "%byte -> mark_split c (h ++ p) = (o, rest) -> length p < length rest -> In " "%byte rest ->
  exists h', rest = h' ++ p /\ mark_split c (h ++ p') = (o, h' ++ p').
Proof.
  intros N E L I. destruct h as [|x h].
  { exfalso. cbn [app] in E. assert (length rest <= length p); [|lia]. unfold mark_split in E.
    destruct p as [|x p]; [injection E as _ <-; auto|]. destruct (Byte.eqb x c); [|injection E as _ <-; auto].
    destruct (cut " " p) as [t [q|]] eqn:K; injection E as _ <-; [|auto]. apply cut_length in K. cbn [length]. lia. }
  cbn [app mark_split] in *. destruct (byte_eqb_spec x c) as [->|Nx].
  - destruct (cut " " (h ++ p)) as [t [q|]] eqn:K.
    + injection E as <- <-. destruct (cut_front p p' h t q K ltac:(lia)) as (h' & -> & ->). now exists h'.
    + injection E as <- <-. apply cut_none in K as [_ K]. destruct I as [I|I]; [now destruct N|now destruct K].
  - injection E as <- <-. now exists (x :: h).
Qed.

Lemma view_with_params (h p p' : str) (v : view) :
  spec_view (h ++ p) = Some v -> v_params v = Some p -> p' <> [] -> (starts "#" p' -> starts "#" p) ->
  spec_view (h ++ p') = Some (with_params v p').
Proof.
  intros V EP NE NH. unfold spec_view in *. rewrite tags_split in *.
  destruct (mark_split "@" (h ++ p)) as [o1 s1] eqn:E1. cbn [fst snd] in V. rewrite prefix_split in V.
  destruct (mark_split ":" s1) as [o2 s2] eqn:E2. cbn [fst snd] in V.
  destruct (cut " " s2) as [w r] eqn:E3. destruct w as [|w0 w]; [discriminate|].
  destruct (spec_split_channel (or_empty r)) as [ch ps] eqn:E4. injection V as <-.
  unfold with_params. cbn [v_params v_channel v_tags v_prefix v_command] in *.
  assert (PS : ps = p /\ p <> []).
  { destruct ps; [discriminate|]. injection EP as <-. split; [reflexivity|discriminate]. }
  destruct PS as [-> NP]. clear EP.
  destruct r as [r|]; [|cbn [or_empty spec_split_channel] in E4; injection E4 as _ <-; now destruct NP].
  cbn [or_empty] in E4.
  assert (L4 : length p <= length r).
  { unfold spec_split_channel in E4. destruct r as [|x r]; [injection E4 as _ <-; auto|].
    destruct (Byte.eqb x "#"); [|injection E4 as _ <-; auto].
    destruct (cut " " (x :: r)) as [c q] eqn:K. injection E4 as _ <-.
    destruct q as [q|]; [|now destruct NP]. apply cut_length in K. cbn [or_empty]. lia. }
  pose proof (cut_length _ _ _ E3) as L3.
  assert (S2 : In " "%byte s2).
  { apply cut_some in E3 as [-> _]. apply in_app_iff. right. now left. }
  assert (S1 : In " "%byte s1 /\ length s2 <= length s1).
  { unfold mark_split in E2. destruct s1 as [|x s1]; [injection E2 as _ <-; auto|].
    destruct (Byte.eqb x ":"); [|injection E2 as _ <-; auto].
    destruct (cut " " s1) as [t [q|]] eqn:K; injection E2 as _ <-; [|auto].
    split; [|apply cut_length in K; cbn [length]; lia].
    apply cut_some in K as [-> _]. right. apply in_app_iff. right. now left. }
  destruct S1 as [S1 L2].
  destruct (split_front "@" h p p' s1 o1 ltac:(discriminate) E1 ltac:(lia) S1) as (h1 & -> & ->). cbn [fst snd].
  rewrite prefix_split.
  destruct (split_front ":" h1 p p' s2 o2 ltac:(discriminate) E2 ltac:(lia) S2) as (h2 & -> & ->). cbn [fst snd].
  destruct (cut_front p p' h2 _ _ E3 L4) as (h3 & -> & ->). cbn [or_empty].
  assert (E5 : spec_split_channel (h3 ++ p') = (ch, p')).
  { unfold spec_split_channel in E4 |- *. destruct h3 as [|x h3]; cbn [app] in *.
    - destruct p as [|y p]; [now destruct NP|]. destruct (byte_eqb_spec y "#") as [Ey|Ny].
      + exfalso. destruct (cut " " (y :: p)) as [c q] eqn:K. injection E4 as _ E4. destruct q as [q|]; [|discriminate].
        cbn [or_empty] in E4. subst q. apply cut_length in K. lia.
      + injection E4 as <-. destruct p' as [|z p']; [now destruct NE|].
        destruct (byte_eqb_spec z "#") as [->|]; [|reflexivity].
        destruct (NH ltac:(now exists p')) as [q Q]. cbn [app] in Q. congruence.
    - destruct (Byte.eqb x "#").
      + destruct (cut " " (x :: h3 ++ p)) as [c q] eqn:K. injection E4 as <- E4. destruct q as [q|]; [|now destruct NP].
        cbn [or_empty] in E4. subst q.
        destruct (cut_front p p' (x :: h3) c p K ltac:(lia)) as (h4 & Q & Q'). cbn [app] in Q'. rewrite Q'.
        apply (f_equal (@length byte)) in Q. rewrite app_length in Q. destruct h4; [|cbn [length] in Q; lia]. reflexivity.
      + injection E4 as _ E4. apply (f_equal (@length byte)) in E4. cbn [length] in E4. rewrite app_length in E4. lia. }
  rewrite E5. destruct p'; [now destruct NE|]. reflexivity.
Qed.

(** A line with parameters has a space. *)
Lemma params_space (s : str) (v : view) (p : str) : spec_view s = Some v -> v_params v = Some p -> In " "%byte s.
Proof.
  intros V E. destruct (in_dec Byte.byte_eq_dec " "%byte s) as [I|N]; [exact I|exfalso].
  assert (K : forall c, mark_split c s = (None, s)).
  { intros c. unfold mark_split. destruct s as [|x r]; [reflexivity|]. destruct (Byte.eqb x c); [|reflexivity].
    rewrite (proj2 (cut_none " " r r)); [reflexivity|]. split; [reflexivity|]. intros J. apply N. now right. }
  unfold spec_view in V. rewrite tags_split, K in V. cbn [fst snd] in V. rewrite prefix_split, K in V.
  cbn [fst snd] in V. rewrite (proj2 (cut_none " " s s)) in V by auto.
  destruct s; [discriminate|]. cbn [or_empty spec_split_channel] in V. injection V as <-. discriminate.
Qed.

Lemma view_tags (s : str) (v : view) : spec_view s = Some v -> v_tags v = fst (spec_tags s).
Proof.
  unfold spec_view. destruct (spec_tags s) as [l s1]. destruct (spec_split_prefix s1) as [o s2].
  destruct (cut " " s2) as [[|w0 w] r]; [discriminate|]. destruct (spec_split_channel (or_empty r)) as [ch ps].
  now intros [= <-].
Qed.

Lemma parsed_with_params (bd : build) (h p p' : str) (v : view) (m : msg_ref) :
  parsed bd (h ++ p) v m -> v_params v = Some p -> p' <> [] -> (starts "#" p' -> starts "#" p) ->
  utf8_valid (h ++ p') = true -> below_4gib (h ++ p') ->
  exists m', parsed bd (h ++ p') (with_params v p') m'.
Proof.
  intros [U S F V E] EP NE NH U' S'.
  pose proof (view_with_params h p p' v V EP NE NH) as V'.
  destruct (parse_inv bd (h ++ p) m U S E) as (T & L & _).
  pose proof (view_tags _ _ V) as TG. pose proof (view_tags _ _ V') as TG'. cbn [with_params v_tags] in TG'.
  assert (T' : ~ unterminated_tags (h ++ p')).
  { intros [_ N]. destruct N. exact (params_space _ _ p' V' eq_refl). }
  pose proof (parse_cases bd (h ++ p') U' S' (fun _ => T')) as P. rewrite <- TG', TG in P. specialize (P L).
  rewrite V' in P. destruct P as (m' & P & _). exists m'. split; auto.
  intros sec rest l A B. pose proof (section_spec _ _ _ _ A B) as K. rewrite K in TG'. cbn [fst] in TG'. subst l.
  destruct (section_cases (h ++ p)) as [(sec1 & rest1 & A1)|N].
  - pose proof (proj2 (tag_list_section sec1 _) eq_refl) as B1. pose proof (section_spec _ _ _ _ A1 B1) as K1.
    rewrite K1 in TG. cbn [fst] in TG. rewrite TG. exact (F _ _ _ A1 B1).
  - rewrite TG, (no_section_spec _ N). constructor.
Qed.

(** ** The typed message *)

Definition alike {A : Type} (R : A -> A -> Prop) (r r' : res (option A)) : Prop :=
  r = r' \/ exists x x', r = Ret (Some x) /\ r' = Ret (Some x') /\ R x x'.

Lemma alike_bind {A B : Type} (R : B -> B -> Prop) (m : res A) (k k' : A -> res (option B)) :
  (forall a, alike R (k a) (k' a)) -> alike R (bind m k) (bind m k').
Proof. intros H. destruct m; cbn [bind]; [apply H|now left..]. Qed.

Lemma alike_bindo {A B : Type} (R : B -> B -> Prop) (m : res (option A)) (k k' : A -> res (option B)) :
  (forall a, alike R (k a) (k' a)) -> alike R (bindo m k) (bindo m k').
Proof. intros H. destruct m as [[a|]| | |]; cbn [bindo]; [apply H|now left..]. Qed.

Lemma alike_into {A : Type} (R : A -> A -> Prop) (C : A -> typed) (r r' : res (option A)) :
  (forall x x', R x x' -> without_text (C x) = without_text (C x')) -> alike R r r' ->
  alike (fun t t' => without_text t = without_text t') (into C r) (into C r').
Proof.
  intros I [->|(x & x' & -> & -> & K)]; [now left|]. right. exists (C x), (C x'). repeat split; auto.
Qed.

Section Two.
Context (pf : profile) {v : view} {m m' : msg_ref} (q t t' : str).
Context (H : seen v m) (H' : seen (with_params v (q ++ b ":" ++ t')) m').
Context (E : v_params v = Some (q ++ b ":" ++ t)) (NC : ~ In ":"%byte q).
Context (W : In (v_command v) typed_words).
Context (WS : v_command v = b "WHISPER" -> exists q0, q = q0 ++ b " ").

Lemma qt_command : ref_command m' = ref_command m.
Proof. now rewrite (sn_command _ _ H), (sn_command _ _ H'). Qed.

Lemma qt_tag (k : tag_name) : ref_tag m' k = ref_tag m k.
Proof. now rewrite (sn_tag _ _ H), (sn_tag _ _ H'). Qed.

Lemma qt_nick : prefix_nick m' = prefix_nick m.
Proof. now rewrite (seen_nick H), (seen_nick H'). Qed.

Lemma qt_channel : ref_channel m' = ref_channel m.
Proof.
  symmetry. apply (two_channel H H'); [reflexivity| | |reflexivity];
    intros K; pose proof W as J; rewrite K in J; cbn [typed_words In] in J;
    repeat (destruct J as [J|J]; [discriminate J|]); exact J.
Qed.

Lemma text_of (x : str) : spec_text (with_params v (q ++ b ":" ++ x)) = Some x.
Proof.
  unfold spec_text. cbn [with_params v_params].
  rewrite (proj2 (cut_some ":" (q ++ b ":" ++ x) q x)); [reflexivity|]. auto.
Qed.

Lemma qt_text : ref_text m = Ret (Some t) /\ ref_text m' = Ret (Some t').
Proof.
  split; [|now rewrite (sn_text _ _ H'), text_of]. rewrite (sn_text _ _ H). f_equal. rewrite <- (text_of t).
  unfold spec_text, with_params. cbn [v_params]. now rewrite E.
Qed.

Lemma whisper_cut (x : str) : v_command v = b "WHISPER" ->
  exists q0, split_once (b " :") (q ++ b ":" ++ x) = Some (q0, x) /\ q = q0 ++ b " ".
Proof.
  intros C. destruct (WS C) as [q0 Q]. exists q0. split; [|exact Q].
  apply split_once_around. split; [now rewrite Q, <- app_assoc|].
  intros l' r' K. destruct (Nat.le_gt_cases (length q0) (length l')) as [L|L]; [exact L|destruct NC].
  apply (nth_error_In q (S (length l'))).
  assert (Lq : S (length l') < length q) by (rewrite Q, app_length; change (length (b " ")) with 1; lia).
  rewrite <- (nth_error_app1 q (b ":" ++ x) Lq), K, nth_error_app2 by lia.
  now replace (S (length l') - length l') with 1 by lia.
Qed.

Definition same_text (y y' : typed) : Prop := without_text y = without_text y'.

Lemma from_irc_alike : alike same_text (from_irc pf m) (from_irc pf m').
Proof.
  destruct qt_text as [X X']. pose proof qt_command as C. pose proof qt_nick as N. pose proof qt_channel as CH.
  assert (T1 : forall k, tag_into m' k = tag_into m k) by (intros k; unfold tag_into, tag_borrowed; now rewrite qt_tag).
  assert (T2 : forall k, tag_borrowed m' k = tag_borrowed m k) by (intros k; unfold tag_borrowed; now rewrite qt_tag).
  assert (T3 : forall k, tag_non_empty m' k = tag_non_empty m k) by (intros k; unfold tag_non_empty; now rewrite qt_tag).
  assert (T4 : forall k, tag_u64 m' k = tag_u64 m k) by (intros k; unfold tag_u64; now rewrite qt_tag).
  assert (T5 : tag_timestamp m' = tag_timestamp m) by (unfold tag_timestamp; now rewrite qt_tag).
  assert (T6 : tag_badges m' = tag_badges m) by (unfold tag_badges; now rewrite !qt_tag).
  assert (T7 : tag_emotes m' = tag_emotes m) by (unfold tag_emotes; now rewrite ?T1, ?T2, ?T3, ?qt_tag).
  assert (T8 : tag_emote_sets m' = tag_emote_sets m) by (unfold tag_emote_sets; now rewrite ?T1, ?T2, ?T3, ?qt_tag).
  assert (T9 : channel_into m' = channel_into m) by (unfold channel_into; now rewrite CH).
  assert (R1 : privmsg_reply_to m' = privmsg_reply_to m)
    by (unfold privmsg_reply_to; now rewrite ?T1, ?T2, ?T3, ?qt_tag).
  assert (R2 : privmsg_pinned_chat m' = privmsg_pinned_chat m)
    by (unfold privmsg_pinned_chat; now rewrite ?T1, ?T2, ?T3, ?qt_tag).
  assert (R3 : forall a c, parse_event m' a c = parse_event m a c).
  { intros a c. unfold parse_event, event_sub, event_raid, event_sub_gift,
      event_sub_mystery_gift, event_anon_sub_mystery_gift, event_gift_paid_upgrade, event_anon_gift_paid_upgrade,
      event_ritual, event_bits_badge_tier, event_announcement, parse_promotion.
    now rewrite ?T1, ?T2, ?T3, ?T4, ?qt_tag. }
  assert (R4 : forall a, parse_sender m' a = parse_sender m a)
    by (intros a; unfold parse_sender; now rewrite ?T1, ?T2, ?T3, ?qt_tag).
  assert (WP : v_command v = b "WHISPER" -> exists q0, ref_params m = Ret (Some (q ++ b ":" ++ t)) /\
    ref_params m' = Ret (Some (q ++ b ":" ++ t')) /\ forall x, split_once (b " :") (q ++ b ":" ++ x) = Some (q0, x)).
  { intros K. destruct (WS K) as [q0 Q]. exists q0. rewrite (sn_params _ _ H), (sn_params _ _ H'), E.
    repeat split. intros x. destruct (whisper_cut x K) as (q1 & A & B). rewrite A.
    rewrite Q in B. apply app_inv_tail in B. now subst. }
  unfold from_irc. rewrite C, (sn_command _ _ H). pose proof W as J. pose proof (sn_command _ _ H) as SC.
  cbn [typed_words In] in J.
  repeat (destruct J as [J|J];
    [rewrite <- J in SC, WP |- *;
     match goal with |- context [spec_command ?w] =>
       let c := eval vm_compute in (spec_command w) in change (spec_command w) with c in SC |- * end;
     cbn [bind]|]); [..|destruct J].
  all: try (now left).
  all: try (left; unfold into, global_user_state_parse, join_parse, part_parse, room_state_parse, user_state_parse;
    now rewrite ?C, ?N, ?T5, ?T6, ?T7, ?T8, ?T9, ?T1, ?T2, ?T3, ?T4, ?qt_tag).
  all: try specialize (WP eq_refl).
  all: eapply alike_into; [intros x x' R; exact R|].
  all: unfold clear_chat_parse, clear_msg_parse, notice_parse, ping_parse, pong_parse, privmsg_parse,
     user_notice_parse, whisper_parse.
  all: rewrite ?C, ?N, ?T5, ?T6, ?T7, ?T8, ?T9, ?T1, ?T2, ?T3, ?T4, ?R1, ?R2, ?X, ?X', ?SC, ?qt_tag; cbn [bind bindo].
  all: try (destruct WP as (q0 & P1 & P2 & P3); rewrite P1, P2; cbn [bindo]; rewrite !P3; cbn [bindo]).
  all: try (destruct (parse_message_text t) as [x1 x2], (parse_message_text t') as [y1 y2]).
  all: repeat (rewrite ?R3, ?R4;
    match goal with
    | |- context [match opt_bind ?d parse_duration with _ => _ end] =>
      is_var d; destruct (opt_bind d parse_duration), (tag_into m TTargetUserId) as [[?|]| | |]; cbn [bindo]; try (now left)
    | |- alike _ (bind _ _) _ => apply alike_bind; intros ?
    | |- alike _ (bindo _ _) _ => apply alike_bindo; intros ?
    | z : (_ * _)%type |- _ => destruct z
    end).
  all: right; eexists _, _; split; [reflexivity|]; split; reflexivity.
Qed.
End Two.

(** C86. In a message with a text (the text is what follows the first colon of
    the parameters; for a whisper this colon follows a space) any other text
    could be written: the line still parses, the text is the new one, and
    everything else is as before, the parts of the line as well as the typed
    message. *)
Lemma p_c86_text_is_only_text :
  forall (bd : build) (pf : profile) (h q t t' : str) (v : view) (m : msg_ref),
    parsed bd (h ++ q ++ b ":" ++ t) v m -> v_params v = Some (q ++ b ":" ++ t) -> ~ In ":"%byte q ->
    In (v_command v) typed_words -> (v_command v = b "WHISPER" -> exists q0, q = q0 ++ b " ") ->
    utf8_valid t' = true -> below_4gib (h ++ q ++ b ":" ++ t') ->
    exists m',
      parsed bd (h ++ q ++ b ":" ++ t') (with_params v (q ++ b ":" ++ t')) m' /\
      ref_text m = Ret (Some t) /\ ref_text m' = Ret (Some t') /\
      (from_irc pf m = from_irc pf m' \/
       exists x x', from_irc pf m = Ret (Some x) /\ from_irc pf m' = Ret (Some x') /\
         without_text x = without_text x').
Proof.
  intros bd pf h q t t' v m P E N W WS U S.
  destruct (parsed_with_params bd h (q ++ b ":" ++ t) (q ++ b ":" ++ t') v m) as [m' P']; auto.
  - now destruct q.
  - destruct q as [|x q]; [now intros [r K]|]. intros [r K]. cbn [app] in K. injection K as -> _.
    exists (q ++ b ":" ++ t). reflexivity.
  - pose proof (pd_utf8 _ _ _ _ P) as K. change (b ":" ++ t) with (":"%byte :: t) in K.
    change (b ":" ++ t') with (":"%byte :: t'). rewrite app_assoc, utf8_split in * by reflexivity.
    apply andb_prop in K as [-> _]. exact U.
  - exists m'. split; [exact P'|].
    pose proof (parsed_seen _ _ _ _ P) as Q. pose proof (parsed_seen _ _ _ _ P') as Q'.
    destruct (qt_text q t t' Q Q' E N) as [X X']. split; [exact X|]. split; [exact X'|].
    exact (from_irc_alike pf q t t' Q Q' E N W WS).
Qed.

(** C86. The same of the parts of the line, for every command. *)
Lemma p_c86_any_command :
  forall (bd : build) (h q t t' : str) (v : view) (m : msg_ref),
    parsed bd (h ++ q ++ b ":" ++ t) v m -> v_params v = Some (q ++ b ":" ++ t) -> ~ In ":"%byte q ->
    utf8_valid t' = true -> below_4gib (h ++ q ++ b ":" ++ t') ->
    exists m',
      ref_parse bd (h ++ q ++ b ":" ++ t') = Ret (Some m') /\
      ref_text m = Ret (Some t) /\ ref_text m' = Ret (Some t') /\
      ref_params m' = Ret (Some (q ++ b ":" ++ t')) /\
      ref_command m' = ref_command m /\ ref_prefix m' = ref_prefix m /\ ref_tags m' = ref_tags m /\
      (forall k, ref_tag m' k = ref_tag m k) /\
      (v_command v <> b "353" -> v_command v <> b "366" -> ref_channel m' = ref_channel m).
Proof.
  intros bd h q t t' v m P E N U S.
  destruct (parsed_with_params bd h (q ++ b ":" ++ t) (q ++ b ":" ++ t') v m) as [m' P']; auto.
  - now destruct q.
  - destruct q as [|x q]; [now intros [r K]|]. intros [r K]. cbn [app] in K. injection K as -> _.
    exists (q ++ b ":" ++ t). reflexivity.
  - pose proof (pd_utf8 _ _ _ _ P) as K. change (b ":" ++ t) with (":"%byte :: t) in K.
    change (b ":" ++ t') with (":"%byte :: t'). rewrite app_assoc, utf8_split in * by reflexivity.
    apply andb_prop in K as [-> _]. exact U.
  - pose proof (parsed_seen _ _ _ _ P) as Q. pose proof (parsed_seen _ _ _ _ P') as Q'.
    exists m'. split; [exact (pd_parse _ _ _ _ P')|].
    destruct (qt_text q t t' Q Q' E N) as [X X']. split; [exact X|]. split; [exact X'|].
    split; [now rewrite (sn_params _ _ Q')|].
    split; [exact (qt_command q t' Q Q')|].
    split; [now rewrite (sn_prefix _ _ Q), (sn_prefix _ _ Q')|].
    split; [|split; [exact (qt_tag q t' Q Q')|]].
    + destruct P as [P1 P2 P3 P4 P5], P' as [P1' P2' P3' P4' P5'].
      destruct (p_c10_accessors_view bd _ m v P1 P2 P5 P4) as [A _]. destruct (A P3) as [-> _].
      destruct (p_c10_accessors_view bd _ m' _ P1' P2' P5' P4') as [A' _]. now destruct (A' P3') as [-> _].
    + intros N1 N2. symmetry. exact (two_channel Q Q' eq_refl N1 N2 eq_refl).
Qed.

(** C86. The space before the colon of a whisper is needed: without it the text
    can bring in a recipient. *)
Lemma p_c86_whisper_without_space_refuted :
  exists (h t t' : str) (v v' : view) (m m' : msg_ref),
    parsed Scalar (h ++ b ":" ++ t) v m /\ v_params v = Some (b ":" ++ t) /\ v_command v = b "WHISPER" /\
    parsed Scalar (h ++ b ":" ++ t') v' m' /\ v' = with_params v (b ":" ++ t') /\
    forall pf, from_irc pf m = Ret None /\ exists x, from_irc pf m' = Ret (Some x).
Proof.
  exists (b "@user-id=1;display-name=A :a!a@a WHISPER "), (b "hi"), (b "hi :there").
  eexists _, _, _, _.
  split; [split; [vm_compute; reflexivity|vm_compute; reflexivity| |vm_compute; reflexivity|vm_compute; reflexivity]|].
  { intros sec rest l A B. pose proof (section_spec _ _ _ _ A B) as K. vm_compute in K. injection K as <- _.
    repeat constructor. }
  split; [reflexivity|]. split; [reflexivity|].
  split; [split; [vm_compute; reflexivity|vm_compute; reflexivity| |vm_compute; reflexivity|vm_compute; reflexivity]|].
  { intros sec rest l A B. pose proof (section_spec _ _ _ _ A B) as K. vm_compute in K. injection K as <- _.
    repeat constructor. }
  split; [reflexivity|]. intros pf. split; [vm_compute; reflexivity|]. eexists. vm_compute. reflexivity.
Qed.

(** A text that looks like a line of its own. *)
Example ex_c86 :
  let h := b "@room-id=1;id=9;user-id=2;display-name=D;tmi-sent-ts=5 :d!d@d PRIVMSG #c " in
  let t := b "hi" in
  let t' := b "@room-id=3 :boss!boss@boss CLEARCHAT #other :victim" in
  exists v m m' x x',
    parsed Scalar (h ++ [] ++ b ":" ++ t) v m /\ v_params v = Some ([] ++ b ":" ++ t) /\ ~ In ":"%byte [] /\
    In (v_command v) typed_words /\ v_command v <> b "WHISPER" /\
    utf8_valid t' = true /\ below_4gib (h ++ [] ++ b ":" ++ t') /\
    ref_parse Scalar (h ++ [] ++ b ":" ++ t') = Ret (Some m') /\
    from_irc Debug m = Ret (Some (MPrivmsg x)) /\ from_irc Debug m' = Ret (Some (MPrivmsg x')) /\
    pm_text x = Borrowed t /\ pm_text x' = Borrowed t' /\ pm_channel x' = Borrowed (b "#c").
Proof.
  cbn zeta. eexists _, _, _, _, _.
  split; [split; [vm_compute; reflexivity|vm_compute; reflexivity| |vm_compute; reflexivity|vm_compute; reflexivity]|].
  { intros sec rest l A B. pose proof (section_spec _ _ _ _ A B) as K. vm_compute in K. injection K as <- _.
    repeat constructor. }
  split; [reflexivity|]. split; [intros []|]. split; [vm_compute; tauto|]. split; [discriminate|].
  split; [reflexivity|]. split; [reflexivity|]. split; [vm_compute; reflexivity|].
  split; [vm_compute; reflexivity|]. split; [vm_compute; reflexivity|]. repeat split.
Qed.

Example ex_c86_whisper :
  let h := b "@user-id=1;display-name=A :a!a@a WHISPER " in
  exists v m m' x x',
    parsed Scalar (h ++ b "me " ++ b ":" ++ b "hi") v m /\ v_params v = Some (b "me " ++ b ":" ++ b "hi") /\
    ~ In ":"%byte (b "me ") /\ (exists q0, b "me " = q0 ++ b " ") /\
    ref_parse Scalar (h ++ b "me " ++ b ":" ++ b "you :there") = Ret (Some m') /\
    from_irc Debug m = Ret (Some (MWhisper x)) /\ from_irc Debug m' = Ret (Some (MWhisper x')) /\
    w_recipient x' = Borrowed (b "me") /\ w_text x' = Borrowed (b "you :there").
Proof.
  cbn zeta. eexists _, _, _, _, _.
  split; [split; [vm_compute; reflexivity|vm_compute; reflexivity| |vm_compute; reflexivity|vm_compute; reflexivity]|].
  { intros sec rest l A B. pose proof (section_spec _ _ _ _ A B) as K. vm_compute in K. injection K as <- _.
    repeat constructor. }
  split; [reflexivity|]. split; [vm_compute; intuition discriminate|]. split; [exists (b "me"); reflexivity|].
  split; [vm_compute; reflexivity|].
  split; [vm_compute; reflexivity|]. split; [vm_compute; reflexivity|]. repeat split.
Qed.
