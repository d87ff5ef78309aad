(** * MoreProofs: the property lemmas about lines with more tags, C89. *)

From Coq Require Import Lia ZifyBool ZifyNat ZifyN.
From Verif Require Import Base Wide Tags Irc MsgBase MsgTypes MsgNotice Message SpecIrc SpecMsg SpecFree SpecMore.
From Verif Require Import BaseFacts IrcFacts IrcProofs LineProofs AccessProofs FieldFacts TypedFacts NoticeFacts TypedProofs PartsProofs CutProofs.

Lemma kept_refl {A : Type} (o : option A) : kept o o.
Proof. now right. Qed.

Lemma more_event_refl (e : event cow) : more_event e e.
Proof. destruct e; cbn; repeat split; auto using kept_refl. Qed.

Lemma more_refl (t : typed) : more t t.
Proof.
  destruct t; cbn; repeat split; try (now right); try (now left); auto using kept_refl, more_event_refl.
Qed.

Section Two.
Context (pf : profile) {v : view} {l' : list (str * str)} {m m' : msg_ref}.
Context (H : seen v m) (H' : seen (with_tags v l') m') (O : more_tags (v_tags v) l').
Let v' : view := with_tags v l'.

Lemma mr_look (k x : str) : lookup k (v_tags v) = Some x -> lookup k l' = Some x.
Proof. intros K. apply lookup_first. apply O. now apply lookup_first. Qed.

Lemma mr_kept (k : str) : kept (lookup k (v_tags v)) (lookup k l').
Proof. destruct (lookup k (v_tags v)) as [x|] eqn:E; [right; now apply mr_look|now left]. Qed.

Lemma kept_map {A B : Type} (f : A -> B) (o o' : option A) : kept o o' -> kept (option_map f o) (option_map f o').
Proof. intros [-> | ->]; [now left|now right]. Qed.

Lemma kept_bind {A B : Type} (f : A -> option B) (o o' : option A) : kept o o' -> kept (opt_bind o f) (opt_bind o' f).
Proof. intros [-> | ->]; [now left|now right]. Qed.

Lemma kept_bind2 {A B : Type} (f f' : A -> option B) (o o' : option A) :
  kept o o' -> (forall a, kept (f a) (f' a)) -> kept (opt_bind o f) (opt_bind o' f').
Proof. intros [-> | ->] K; [now left|]. destruct o; [apply K|now left]. Qed.

Lemma kept_filter {A : Type} (p : A -> bool) (o o' : option A) : kept o o' -> kept (opt_filter p o) (opt_filter p o').
Proof. intros [-> | ->]; [now left|now right]. Qed.

Lemma mr_badges : kept_list (map (badge_map Borrowed) (badges_opt (lookup (b "badges") (v_tags v)) (lookup (b "badge-info") (v_tags v))))
  (map (badge_map Borrowed) (badges_opt (lookup (b "badges") l') (lookup (b "badge-info") l'))).
Proof.
  destruct (mr_kept (b "badges")) as [-> | ->]; [now left|]. destruct (mr_kept (b "badge-info")) as [-> | ->]; [|now right].
  left. now destruct (lookup _ _).
Qed.

Lemma mr_emotes : kept_text (Borrowed (opt_default [] (lookup (b "emotes") (v_tags v))))
  (Borrowed (opt_default [] (lookup (b "emotes") l'))).
Proof. destruct (mr_kept (b "emotes")) as [-> | ->]; [now left|now right]. Qed.

Lemma mr_sets : kept_list (map Borrowed (list_fun (lookup (b "emote-sets") (v_tags v))))
  (map Borrowed (list_fun (lookup (b "emote-sets") l'))).
Proof. destruct (mr_kept (b "emote-sets")) as [-> | ->]; [now left|now right]. Qed.

Ltac kp :=
  repeat first [apply mr_kept | apply kept_refl | apply mr_badges | apply mr_emotes | apply mr_sets
    | apply kept_map | apply kept_filter | apply kept_bind | apply kept_bind2; [|intros ?]].

Lemma mr_reply : kept (reply_fun v) (reply_fun v').
Proof. unfold reply_fun, v'. cbn [with_tags v_tags]. kp. Qed.

Lemma mr_pinned : kept (pinned_fun v) (pinned_fun v').
Proof. unfold pinned_fun, v'. cbn [with_tags v_tags]. kp. Qed.

Lemma mr_promo : kept (option_map (promo_map Borrowed) (promo_fun v)) (option_map (promo_map Borrowed) (promo_fun v')).
Proof. apply kept_map. unfold promo_fun, v'. cbn [with_tags v_tags]. kp. Qed.

Lemma kept_some {A : Type} (o o' : option A) (a : A) : kept o o' -> o = Some a -> o' = Some a.
Proof. intros [-> | ->] E; [discriminate|exact E]. Qed.

Lemma mr_user (i l n : string) (u : user_info str) : user_fun v i l n = Some u -> user_fun v' i l n = Some u.
Proof. apply kept_some. unfold user_fun, v'. cbn [with_tags v_tags]. kp. Qed.

Lemma mr_anon (id : str) (s : option (user_info str)) : sender_fun v id = Some s -> anon_fun v' id = anon_fun v id.
Proof.
  unfold sender_fun, anon_fun. intros E.
  assert (K : from_anon v' = from_anon v \/ from_anon v = false /\ lookup (b "user-id") (v_tags v) = None).
  { unfold from_anon, v'. cbn [with_tags v_tags]. destruct (mr_kept (b "user-id")) as [E1|E1]; rewrite E1; auto. }
  destruct (kind_of id) as [[]|]; try reflexivity; destruct K as [K|[K1 K2]]; try exact K;
    rewrite K1 in E; unfold user_fun in E; rewrite K2 in E; discriminate.
Qed.

Lemma mr_sender (id : str) (s : option (user_info str)) : sender_fun v id = Some s -> sender_fun v' id = Some s.
Proof.
  intros E. unfold sender_fun. rewrite (mr_anon _ _ E). unfold sender_fun in E. destruct (anon_fun v id); [exact E|].
  destruct (user_fun v _ _ _) as [u|] eqn:U; [|discriminate]. now rewrite (mr_user _ _ _ _ U).
Qed.

Lemma mr_event (id : str) (e : event str) (s : option (user_info str)) :
  event_fun v id = Some e -> sender_fun v id = Some s ->
  exists e', event_fun v' id = Some e' /\ more_event (event_map Borrowed e) (event_map Borrowed e').
Proof.
  intros E S. pose proof (mr_anon _ _ S) as AN. unfold anon_fun in AN. unfold event_fun in *.
  destruct (kind_of id) as [k|]; [|injection E as <-; now exists UnknownEvent].
  destruct k; try rewrite AN; try destruct (from_anon v).
  all: try (exists e; split; [revert E; apply kept_some; unfold sub_gift_fun, anon_mystery_fun, user_fun, v';
    cbn [with_tags v_tags]; kp|apply more_event_refl]; fail).
  all: try unfold sub_fun in *.
  all: repeat match goal with
    | K : opt_bind ?o _ = Some _ |- _ => apply opt_bind_iff in K as (? & ? & K)
    end.
  all: injection E as <-.
  all: unfold v'; cbn [with_tags v_tags].
  all: repeat match goal with
    | K : lookup ?k (v_tags v) = Some _ |- _ => apply mr_look in K; rewrite K; cbn [opt_bind]
    | K : parse_u64 _ = Some _ |- _ => rewrite K; cbn [opt_bind]; clear K
    end.
  all: eexists; split; [reflexivity|].
  all: cbn [event_map more_event]; repeat split; auto.
  all: try apply mr_promo.
  all: try (kp; fail).
  all: destruct (mr_kept (b "msg-param-color")) as [-> | ->]; auto.
Qed.

Definition grows (r r' : res (option typed)) : Prop :=
  forall y, r = Ret (Some y) -> exists y', r' = Ret (Some y') /\ more y y'.

Lemma grows_into {A : Type} (C : A -> typed) (r r' : res (option A)) :
  (forall x, r = Ret (Some x) -> exists x', r' = Ret (Some x') /\ more (C x) (C x')) -> grows (into C r) (into C r').
Proof.
  intros K y E. destruct r as [[x|]| | |]; try discriminate. injection E as <-.
  destruct (K x eq_refl) as (x' & -> & M). now exists (C x').
Qed.

Ltac fwd :=
  cbn [with_tags v_tags v_channel v_prefix v_params v_command];
  repeat match goal with
    | K : lookup ?k (v_tags v) = Some _ |- _ => apply mr_look in K; rewrite ?K; cbn [option_map opt_bind bind bindo]
    | K : opt_bind ?o _ = Some _ |- _ => apply opt_bind_iff in K as (? & ? & K)
    | K : ?x = Some _ |- context [?x] => rewrite K; cbn [option_map opt_bind bind bindo]
    end.

Ltac fields := eexists; split; [reflexivity|]; cbn; repeat split; auto; try (now left); try (kp; fail).

Context (W : In (v_command v) typed_words).

Ltac both w :=
  match goal with C : v_command v = _ |- _ =>
    let C' := fresh "C'" in
    assert (C' : v_command (with_tags v l') = w) by exact C;
    apply grows_into; intros x; look H C; revert x; look H' C'; intros x
  end;
  change (spec_text (with_tags v l')) with (spec_text v); cbn [with_tags v_tags v_channel v_prefix v_params].

Lemma clear_chat_grows : v_command v = b "CLEARCHAT" ->
  grows (into MClearChat (clear_chat_parse m)) (into MClearChat (clear_chat_parse m')).
Proof.
  intros C. unfold clear_chat_parse. both (b "CLEARCHAT"). steps; try discriminate.
  destruct (spec_text v) as [t|]; [|steps; try discriminate; intros [= <-]; fwd; fields].
  destruct (lookup (b "target-user-id") (v_tags v)) as [i|] eqn:T;
    [|destruct (opt_bind (lookup (b "ban-duration") (v_tags v)) parse_duration); discriminate].
  apply mr_look in T. rewrite T. cbn [option_map].
  destruct (mr_kept (b "ban-duration")) as [-> | ->]; cbn [opt_bind bindo].
  - steps; try discriminate. intros [= <-]. fwd.
    destruct (opt_bind (lookup (b "ban-duration") l') parse_duration); cbn [bindo]; fwd; fields.
    right. eauto.
  - destruct (opt_bind (lookup (b "ban-duration") (v_tags v)) parse_duration) eqn:D;
      (steps; try discriminate; intros [= <-]; fwd; fields).
Qed.

Lemma clear_msg_grows : v_command v = b "CLEARMSG" ->
  grows (into MClearMsg (clear_msg_parse m)) (into MClearMsg (clear_msg_parse m')).
Proof.
  intros C. unfold clear_msg_parse. both (b "CLEARMSG"). steps; try discriminate.
  destruct (parse_message_text _) as [t f]. steps; try discriminate. intros [= <-]. fwd. fields.
Qed.

Lemma states_grow :
  (v_command v = b "GLOBALUSERSTATE" ->
   grows (into MGlobalUserState (global_user_state_parse m)) (into MGlobalUserState (global_user_state_parse m'))) /\
  (v_command v = b "USERSTATE" ->
   grows (into MUserState (user_state_parse m)) (into MUserState (user_state_parse m'))).
Proof.
  split; intros C.
  - unfold global_user_state_parse. both (b "GLOBALUSERSTATE"). steps; try discriminate. intros [= <-]. fwd. fields.
  - unfold user_state_parse. both (b "USERSTATE"). steps; try discriminate. intros [= <-]. fwd. fields.
Qed.

Lemma notice_grows : v_command v = b "NOTICE" ->
  grows (into MNotice (notice_parse m)) (into MNotice (notice_parse m')).
Proof. intros C. unfold notice_parse. both (b "NOTICE"). steps; try discriminate. intros [= <-]. fwd. fields. Qed.

Lemma whisper_grows : v_command v = b "WHISPER" ->
  grows (into MWhisper (whisper_parse m)) (into MWhisper (whisper_parse m')).
Proof.
  intros C. unfold whisper_parse. both (b "WHISPER"). steps; try discriminate.
  match goal with p : (str * str)%type |- _ => destruct p as [q t] end.
  steps; try discriminate. intros [= <-]. fwd. fields.
Qed.

Lemma privmsg_grows : v_command v = b "PRIVMSG" ->
  grows (into MPrivmsg (privmsg_parse m)) (into MPrivmsg (privmsg_parse m')).
Proof.
  intros C. unfold privmsg_parse. both (b "PRIVMSG"). steps; try discriminate.
  destruct (parse_message_text _) as [t f]. rewrite (reply_read _ _ H), (pinned_read _ _ H), (reply_read _ _ H'), (pinned_read _ _ H').
  steps; try discriminate. intros [= <-]. fwd. fields.
Qed.

Lemma user_notice_grows : v_command v = b "USERNOTICE" ->
  grows (into MUserNotice (user_notice_parse m)) (into MUserNotice (user_notice_parse m')).
Proof.
  intros C. unfold user_notice_parse. both (b "USERNOTICE"). steps; try discriminate.
  rewrite (event_read H). destruct (event_fun v s) as [e|] eqn:EV; [|discriminate]. cbn [option_map bindo].
  rewrite (sender_read H). destruct (sender_fun v s) as [u|] eqn:ES; [|discriminate].
  destruct (mr_event _ _ _ EV ES) as (e' & EV' & M). pose proof (mr_sender _ _ ES) as ES'.
  steps; try discriminate. intros [= <-].
  fwd. rewrite (event_read H'). fold v'. rewrite EV'. cbn [option_map bindo]. rewrite (sender_read H').
  fold v'. rewrite ES'. cbn [option_map bindo]. fwd. fields.
Qed.

Lemma room_state_grows : v_command v = b "ROOMSTATE" ->
  forall y, into MRoomState (room_state_parse pf m) = Ret (Some y) ->
  (exists y', into MRoomState (room_state_parse pf m') = Ret (Some y') /\ more y y') \/
  pf = Debug /\ into MRoomState (room_state_parse pf m') = Panic.
Proof.
  intros C. assert (C' : v_command (with_tags v l') = b "ROOMSTATE") by exact C.
  unfold room_state_parse. intros y. look H C. revert y. look H' C'. cbn [with_tags v_tags v_channel]. intros y.
  unfold into. destruct (v_channel v) as [ch|]; [|discriminate]. cbn [option_map bindo].
  destruct (lookup (b "room-id") (v_tags v)) as [i|] eqn:R; [|discriminate]. apply mr_look in R. rewrite R.
  cbn [option_map bindo].
  destruct (mr_kept (b "followers-only")) as [-> | ->]; cbn [opt_bind bind].
  - intros [= <-]. destruct (opt_bind (lookup (b "followers-only") l') parse_i64) as [n|]; [|left; fields].
    unfold followers_only_from, i64_mul. destruct (0 <? n)%Z; [|destruct (n =? 0)%Z; left; cbn [rmap bind]; fields].
    destruct (_ && _); [left; cbn [rmap bind]; fields|].
    destruct pf; [right; now split|left; cbn [rmap bind]; fields].
  - destruct (match opt_bind (lookup (b "followers-only") (v_tags v)) parse_i64 with Some _ => _ | None => _ end)
      as [f| | |]; try discriminate. cbn [bind]. intros [= <-]. left. fields.
Qed.

Lemma from_irc_grows (y : typed) : from_irc pf m = Ret (Some y) ->
  (exists y', from_irc pf m' = Ret (Some y') /\ more y y') \/
  pf = Debug /\ v_command v = b "ROOMSTATE" /\ from_irc pf m' = Panic.
Proof.
  pose proof (sn_command _ _ H) as SC. pose proof (sn_command _ _ H') as SC'. cbn [with_tags v_command] in SC'.
  unfold from_irc. rewrite SC, SC'. cbn [bind]. pose proof W as J. cbn [typed_words In] in J.
  assert (SM : forall r r', r' = r -> r = Ret (Some y) -> (more y y) ->
    exists y', r' = Ret (Some y') /\ more y y') by (intros r r' -> E M; eauto).
  assert (N : prefix_nick m' = prefix_nick m) by (now rewrite (seen_nick H), (seen_nick H')).
  assert (CH : channel_into m' = channel_into m)
    by (unfold channel_into; now rewrite (sn_channel _ _ H), (sn_channel _ _ H')).
  assert (X : ref_text m' = ref_text m) by (now rewrite (sn_text _ _ H), (sn_text _ _ H')).
  repeat (destruct J as [J|J];
    [match goal with |- context [spec_command (v_command v)] =>
       rewrite <- J in SC, SC' |- *; symmetry in J end;
     match goal with |- context [spec_command ?w] =>
       let c := eval vm_compute in (spec_command w) in change (spec_command w) with c in SC, SC' |- * end;
     cbn [bind]|]); [..|destruct J].
  all: try (intros E; left; revert E;
    first [now apply clear_chat_grows | now apply clear_msg_grows | now apply (proj1 states_grow)
          | now apply (proj2 states_grow) | now apply notice_grows | now apply whisper_grows
          | now apply privmsg_grows | now apply user_notice_grows]).
  all: try (intros E; destruct (room_state_grows J y E) as [K|[K1 K2]]; [now left|right; auto]).
  all: intros E; left; eapply SM; [|exact E|].
  all: try reflexivity.
  all: try (unfold join_parse, part_parse, ping_parse, pong_parse; now rewrite SC, SC', ?N, ?CH, ?X).
  all: apply more_refl.
Qed.
End Two.

(** C89. If tags are added to a line (those found before are still found), a typed
    message stays one, with the parts it had. Only an optional part that was not
    there may be there now. The one exception is a ROOMSTATE in a debug build. *)
Lemma p_c89_more_tags :
  forall (bd bd' : build) (pf : profile) (s s' : str) (v : view) (l' : list (str * str)) (m m' : msg_ref) (y : typed),
    parsed bd s v m -> parsed bd' s' (with_tags v l') m' -> more_tags (v_tags v) l' ->
    In (v_command v) typed_words -> from_irc pf m = Ret (Some y) ->
    (exists y', from_irc pf m' = Ret (Some y') /\ more y y') \/
    pf = Debug /\ v_command v = b "ROOMSTATE" /\ from_irc pf m' = Panic.
Proof.
  intros bd bd' pf s s' v l' m m' y P P' O W.
  exact (from_irc_grows pf (parsed_seen _ _ _ _ P) (parsed_seen _ _ _ _ P') O W y).
Qed.

(** C89. In particular tags with new keys can be put anywhere. *)
Lemma p_c89_new_keys :
  forall (l1 l2 more : list (str * str)),
    (forall k, In k (map fst more) -> ~ In k (map fst (l1 ++ l2))) \/ l2 = [] ->
    more_tags (l1 ++ l2) (l1 ++ more ++ l2).
Proof.
  intros l1 l2 n K k x F. apply lookup_first in F. apply lookup_first.
  assert (A : forall l l', lookup k (l ++ l') = match lookup k l with Some y => Some y | None => lookup k l' end).
  { intros l l'. induction l as [|[k1 x1] l IH]; cbn [app lookup]; [reflexivity|]. now destruct (str_eqb k1 k). }
  rewrite A in F |- *. destruct (lookup k l1); [exact F|]. rewrite A.
  destruct K as [K| ->]; [|discriminate F].
  destruct (lookup k n) as [y|] eqn:E; [|exact F]. exfalso.
  assert (I : forall l z, lookup k l = Some z -> In k (map fst l)).
  { clear. intros l z. induction l as [|[k1 x1] l IH]; cbn [lookup map In fst]; [discriminate|].
    destruct (str_eqb_spec k1 k); auto. }
  apply (K k (I _ _ E)). rewrite map_app. apply in_or_app. right. now apply I in F.
Qed.

(** C89. The exception is needed: a ROOMSTATE that is read well makes a debug build
    panic with one tag more. *)
Lemma p_c89_room_state_refuted :
  exists (s s' : str) (v : view) (l' : list (str * str)) (m m' : msg_ref) (y : typed),
    parsed Scalar s v m /\ parsed Scalar s' (with_tags v l') m' /\ more_tags (v_tags v) l' /\
    from_irc Debug m = Ret (Some y) /\ from_irc Debug m' = Panic.
Proof.
  exists (b "@room-id=1 :tmi.twitch.tv ROOMSTATE #c"),
    (b "@room-id=1;followers-only=9223372036854775807 :tmi.twitch.tv ROOMSTATE #c").
  eexists _, [(b "room-id", b "1"); (b "followers-only", b "9223372036854775807")], _, _, _.
  split; [parsed_line|]. split; [parsed_line|].
  split; [|split; vm_compute; reflexivity].
  exact (p_c89_new_keys [(b "room-id", b "1")] [] [(b "followers-only", b "9223372036854775807")] (or_intror eq_refl)).
Qed.

(** C89. And optional parts do change what a message means: a ban becomes a timeout. *)
Lemma p_c89_ban_refuted :
  exists (s s' : str) (v : view) (l' : list (str * str)) (m m' : msg_ref) (y y' : clear_chat cow),
    parsed Scalar s v m /\ parsed Scalar s' (with_tags v l') m' /\ more_tags (v_tags v) l' /\
    (forall pf, from_irc pf m = Ret (Some (MClearChat y)) /\ from_irc pf m' = Ret (Some (MClearChat y'))) /\
    is_ban (cc_action y) = true /\ is_ban (cc_action y') = false.
Proof.
  exists (b "@room-id=1;target-user-id=7;tmi-sent-ts=5 :tmi.twitch.tv CLEARCHAT #c :bob"),
    (b "@ban-duration=9;room-id=1;target-user-id=7;tmi-sent-ts=5 :tmi.twitch.tv CLEARCHAT #c :bob").
  eexists _, ((b "ban-duration", b "9") :: [(b "room-id", b "1"); (b "target-user-id", b "7"); (b "tmi-sent-ts", b "5")]),
    _, _, _, _.
  split; [parsed_line|]. split; [parsed_line|].
  split; [|split; [intros pf; split; vm_compute; reflexivity|split; reflexivity]].
  apply (p_c89_new_keys [] [(b "room-id", b "1"); (b "target-user-id", b "7"); (b "tmi-sent-ts", b "5")]
    [(b "ban-duration", b "9")]). left.
  intros k K I. vm_compute in K, I. intuition congruence.
Qed.

Example ex_c89 :
  let s := b "@badges=a/1;badge-info=;room-id=1;id=9;user-id=2;display-name=D;tmi-sent-ts=5 :d!d@d PRIVMSG #c :hi" in
  let s' := b "@new=x;badges=a/1;badge-info=;room-id=1;id=9;user-id=2;display-name=D;tmi-sent-ts=5;bits=3;badges=b/2 :d!d@d PRIVMSG #c :hi" in
  exists v l' m m' y y',
    parsed Scalar s v m /\ parsed Scalar s' (with_tags v l') m' /\ more_tags (v_tags v) l' /\
    In (v_command v) typed_words /\
    from_irc Debug m = Ret (Some (MPrivmsg y)) /\ from_irc Debug m' = Ret (Some (MPrivmsg y')) /\
    pm_bits y = None /\ pm_bits y' = Some 3%N /\ pm_badges y' = pm_badges y /\ pm_badges y <> [].
Proof.
  cbn zeta. eexists _, ([(b "new", b "x")] ++ ([(b "badges", b "a/1"); (b "badge-info", []); (b "room-id", b "1"); (b "id", b "9");
    (b "user-id", b "2"); (b "display-name", b "D"); (b "tmi-sent-ts", b "5")] ++ [(b "bits", b "3"); (b "badges", b "b/2")])), _, _, _, _.
  split; [parsed_line|]. split; [parsed_line|]. split.
  { intros k x F. match type of F with first_tag _ ?l _ => set (l0 := v_tags _) in F; vm_compute in l0; subst l0 end.
    match goal with |- first_tag _ (_ ++ ?l ++ ?n) _ =>
      apply (p_c89_new_keys [] (l ++ n) [(b "new", b "x")]);
        [left; intros k1 K I; vm_compute in K, I; intuition congruence|];
      cbn [app]; apply (p_c89_new_keys l [] n (or_intror eq_refl)) end.
    exact F. }
  split; [vm_compute; tauto|]. split; [vm_compute; reflexivity|]. split; [vm_compute; reflexivity|].
  repeat split. discriminate.
Qed.
