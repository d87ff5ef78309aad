(** * TypedFacts: the typed message parsers meet the predicates of SpecMsg. *)

From Coq Require Import Lia ZifyBool ZifyNat ZifyN.
From Verif Require Import Base Tags Irc SpecIrc MsgBase MsgTypes MsgNotice Message SpecMsg.
From Verif Require Import BaseFacts SimdFacts IrcFacts Utf8Facts IrcProofs LineProofs AccessProofs FieldFacts.

(** ** What the accessors read on a parsed line *)

Lemma view_tags (s : str) (v : view) : spec_view s = Some v -> v_tags v = fst (spec_tags s).
Proof.
  unfold spec_view. destruct (spec_tags s) as [l s1]. destruct (spec_split_prefix s1) as [p s2].
  destruct (cut " " s2) as [w r]. destruct w as [|c w]; [discriminate|].
  destruct (spec_split_channel (or_empty r)) as [ch ps]. intros [= <-]. reflexivity.
Qed.

Record seen (v : view) (m : msg_ref) : Prop :=
  { sn_tag : forall t, ref_tag m t = Ret (lookup (tag_as_str t) (v_tags v));
    sn_command : ref_command m = Ret (spec_command (v_command v));
    sn_prefix : ref_prefix m = Ret (v_prefix v);
    sn_channel : ref_channel m = Ret (spec_channel v);
    sn_params : ref_params m = Ret (v_params v);
    sn_text : ref_text m = Ret (spec_text v) }.

Lemma parsed_seen (bd : build) (s : str) (v : view) (m : msg_ref) : parsed bd s v m -> seen v m.
Proof.
  intros [U S F V E]. destruct (parse_reads bd s m U S E) as (v' & V' & [R1 R2 R3 R4 R5 R6]).
  assert (v' = v) by congruence. subst v'.
  destruct (parse_tags bd s m U S E F) as [_ T]. split; auto.
  intros t. unfold ref_tag. now rewrite T, (view_tags s v V).
Qed.

Section Seen.
Context {v : view} {m : msg_ref} (H : seen v m).

Let tg (t : tag_name) := lookup (tag_as_str t) (v_tags v).

Lemma seen_tag_into (t : tag_name) : tag_into m t = Ret (option_map Borrowed (tg t)).
Proof. unfold tag_into, tag_borrowed. now rewrite (sn_tag _ _ H). Qed.

Lemma seen_tag_borrowed (t : tag_name) : tag_borrowed m t = Ret (option_map Borrowed (tg t)).
Proof. unfold tag_borrowed. now rewrite (sn_tag _ _ H). Qed.

Lemma seen_non_empty (t : tag_name) :
  tag_non_empty m t = Ret (option_map Borrowed (opt_filter is_not_empty (tg t))).
Proof. unfold tag_non_empty. now rewrite (sn_tag _ _ H). Qed.

Lemma seen_u64 (t : tag_name) : tag_u64 m t = Ret (opt_bind (tg t) parse_u64).
Proof. unfold tag_u64. now rewrite (sn_tag _ _ H). Qed.

Lemma seen_timestamp : tag_timestamp m = Ret (opt_bind (tg TTmiSentTs) parse_timestamp).
Proof. unfold tag_timestamp. now rewrite (sn_tag _ _ H). Qed.

Lemma seen_emotes : tag_emotes m = Ret (Borrowed (opt_default [] (tg TEmotes))).
Proof. unfold tag_emotes. now rewrite (sn_tag _ _ H). Qed.

Lemma seen_emote_sets : tag_emote_sets m = Ret (map Borrowed (list_fun (tg TEmoteSets))).
Proof. unfold tag_emote_sets. rewrite (sn_tag _ _ H). cbn [bind]. unfold tg. destruct (lookup _ _); reflexivity. Qed.

Lemma seen_badges : tag_badges m = Ret (map (badge_map Borrowed) (badges_opt (tg TBadges) (tg TBadgeInfo))).
Proof.
  unfold tag_badges. rewrite !(sn_tag _ _ H). cbn [bind]. unfold badges_opt, tg.
  destruct (opt_zip _ _) as [[x y]|]; [|reflexivity]. now rewrite parse_badges_fun.
Qed.

Lemma seen_nick : prefix_nick m = Ret (option_map Borrowed (opt_bind (v_prefix v) nick)).
Proof. unfold prefix_nick. now rewrite (sn_prefix _ _ H). Qed.

Lemma seen_channel : v_command v <> b "353" -> v_command v <> b "366" ->
  channel_into m = Ret (option_map Borrowed (v_channel v)).
Proof.
  intros N1 N2. unfold channel_into. rewrite (sn_channel _ _ H). unfold spec_channel.
  now rewrite !str_eqb_neq by assumption.
Qed.
End Seen.

(** ** Optional parts *)

Lemma opt_has_iff (v : view) (name : string) (o : option str) :
  opt (has v name) o <-> lookup (b name) (v_tags v) = o.
Proof. apply opt_iff. intros x. apply has_iff. Qed.

Lemma opt_filled_iff (v : view) (name : string) (o : option str) :
  opt (has_filled v name) o <-> opt_filter is_not_empty (lookup (b name) (v_tags v)) = o.
Proof. apply opt_iff. intros x. apply has_filled_iff. Qed.

Lemma opt_u64_iff (v : view) (name : string) (o : option N) :
  opt (has_u64 v name) o <-> opt_bind (lookup (b name) (v_tags v)) parse_u64 = o.
Proof. apply opt_iff. intros x. apply has_u64_iff. Qed.

Lemma opt_flag_iff (v : view) (name : string) (o : option bool) :
  opt (has_flag v name) o <-> option_map parse_bool (lookup (b name) (v_tags v)) = o.
Proof. apply opt_iff. intros x. apply has_flag_iff. Qed.

Lemma opt_text_iff (v : view) (o : option str) : opt (has_text v) o <-> spec_text v = o.
Proof. apply opt_iff. intros x. apply has_text_iff. Qed.

Lemma opt_channel_iff (v : view) (o : option str) : opt (has_channel v) o <-> v_channel v = o.
Proof. apply opt_iff. intros x. reflexivity. Qed.

Lemma action_iff (v : view) (body : str) (f : bool) :
  (exists t, has_text v t /\ action_text t body f) <->
  option_map parse_message_text (spec_text v) = Some (body, f).
Proof.
  rewrite option_map_some.
  split; intros (t & A & B); exists t; (split; [now apply has_text_iff|]).
  - symmetry. now apply parse_message_text_spec.
  - now apply parse_message_text_spec.
Qed.

Ltac eqs :=
  rewrite ?opt_has_iff, ?opt_filled_iff, ?opt_u64_iff, ?opt_flag_iff, ?opt_text_iff, ?opt_channel_iff,
    ?has_iff, ?has_u64_iff, ?has_i64_iff, ?has_flag_iff, ?has_time_iff, ?has_filled_iff, ?has_or_iff,
    ?has_list_iff, ?has_badges_iff, ?has_nick_iff, ?has_text_iff, ?action_iff.

Ltac eqs_in K :=
  rewrite ?opt_has_iff, ?opt_filled_iff, ?opt_u64_iff, ?opt_flag_iff, ?opt_text_iff, ?opt_channel_iff,
    ?has_iff, ?has_u64_iff, ?has_i64_iff, ?has_flag_iff, ?has_time_iff, ?has_filled_iff, ?has_or_iff,
    ?has_list_iff, ?has_badges_iff, ?has_nick_iff, ?has_text_iff, ?action_iff in K.

(** Rewrites the accessors of a typed parser to what they read. *)
Ltac look H C :=
  rewrite (sn_command _ _ H), C; cbn [bind];
  match goal with |- context [spec_command ?w] =>
    let c := eval vm_compute in (spec_command w) in change (spec_command w) with c end;
  cbn [bind];
  try rewrite (seen_channel H) by (rewrite C; discriminate);
  try rewrite (seen_nick H); try rewrite (sn_text _ _ H); try rewrite (sn_params _ _ H);
  rewrite ?(seen_tag_into H), ?(seen_tag_borrowed H), ?(seen_non_empty H), ?(seen_u64 H),
    ?(seen_timestamp H), ?(seen_emotes H), ?(seen_emote_sets H), ?(seen_badges H), ?(sn_tag _ _ H);
  cbn [tag_as_str bind].

(** Splits on the required parts in the order of the source. *)
Ltac steps :=
  repeat (cbn [bind bindo option_map];
    match goal with
    | |- match option_map _ ?o with Some _ => _ | None => _ end = _ -> _ => destruct o eqn:?
    | |- match ?o with Some _ => _ | None => _ end = _ -> _ => destruct o eqn:?
    end); cbn [bind bindo option_map].

(** From the predicate: all equations hold, so the parser returns the value. *)
Ltac back :=
  repeat match goal with K : _ /\ _ |- _ => destruct K end;
  repeat match goal with
         | K : ?x = _ |- context [?x] => rewrite K; cbn [bind bindo option_map]
         end; try reflexivity; try (subst; reflexivity).

Lemma join_iff (v : view) (m : msg_ref) (q : join_msg cow) :
  seen v m -> v_command v = b "JOIN" ->
  (join_parse m = Ret (Some q) <-> exists x, q = join_map Borrowed x /\ join_of v x).
Proof.
  intros H C. unfold join_parse. look H C. split.
  - steps; try discriminate. intros [= <-]. eexists (mk_join _ _). split; [reflexivity|].
    unfold join_of, has_channel. cbn [j_channel j_user]. eqs. auto.
  - intros ([a c] & -> & K). unfold join_of, has_channel in K. cbn [j_channel j_user] in K. eqs_in K. back.
Qed.

Lemma part_iff (v : view) (m : msg_ref) (q : part_msg cow) :
  seen v m -> v_command v = b "PART" ->
  (part_parse m = Ret (Some q) <-> exists x, q = part_map Borrowed x /\ part_of v x).
Proof.
  intros H C. unfold part_parse. look H C. split.
  - steps; try discriminate. intros [= <-]. eexists (mk_part _ _). split; [reflexivity|].
    unfold part_of, has_channel. cbn [pt_channel pt_user]. eqs. auto.
  - intros ([a c] & -> & K). unfold part_of, has_channel in K. cbn [pt_channel pt_user] in K. eqs_in K. back.
Qed.

Lemma ping_iff (v : view) (m : msg_ref) (q : ping_msg cow) :
  seen v m -> v_command v = b "PING" ->
  (ping_parse m = Ret (Some q) <-> exists x, q = ping_map Borrowed x /\ ping_of v x).
Proof.
  intros H C. unfold ping_parse. look H C. split.
  - intros [= <-]. eexists (mk_ping _). split; [reflexivity|].
    unfold ping_of. cbn [pi_nonce]. eqs. auto.
  - intros ([a] & -> & K). unfold ping_of in K. cbn [pi_nonce] in K. eqs_in K. back.
Qed.

Lemma pong_iff (v : view) (m : msg_ref) (q : pong_msg cow) :
  seen v m -> v_command v = b "PONG" ->
  (pong_parse m = Ret (Some q) <-> exists x, q = pong_map Borrowed x /\ pong_of v x).
Proof.
  intros H C. unfold pong_parse. look H C. split.
  - intros [= <-]. eexists (mk_pong _). split; [reflexivity|].
    unfold pong_of. cbn [po_nonce]. eqs. auto.
  - intros ([a] & -> & K). unfold pong_of in K. cbn [po_nonce] in K. eqs_in K. back.
Qed.

Lemma notice_iff (v : view) (m : msg_ref) (q : notice_msg cow) :
  seen v m -> v_command v = b "NOTICE" ->
  (notice_parse m = Ret (Some q) <-> exists x, q = notice_map Borrowed x /\ notice_of v x).
Proof.
  intros H C. unfold notice_parse. look H C. split.
  - steps; try discriminate. intros [= <-]. eexists (mk_notice _ _ _). split; [reflexivity|].
    unfold notice_of. cbn [n_channel n_text n_id]. eqs. auto.
  - intros ([a c d] & -> & K). unfold notice_of in K. cbn [n_channel n_text n_id] in K. eqs_in K. back.
Qed.

Lemma clear_msg_iff (v : view) (m : msg_ref) (q : clear_msg cow) :
  seen v m -> v_command v = b "CLEARMSG" ->
  (clear_msg_parse m = Ret (Some q) <-> exists x, q = clear_msg_map Borrowed x /\ clear_msg_of v x).
Proof.
  intros H C. unfold clear_msg_parse. look H C. split.
  - steps; try discriminate. destruct (parse_message_text _) as [t f] eqn:?.
    steps; try discriminate. intros [= <-].
    eexists (mk_clear_msg _ _ _ _ _ _ _). split; [reflexivity|].
    unfold clear_msg_of, has_channel. cbn [cm_channel cm_channel_id cm_sender cm_target_message_id cm_text cm_is_action cm_timestamp].
    eqs. repeat split; auto. back.
  - intros ([a c d e t f ts] & -> & K). unfold clear_msg_of, has_channel in K.
    cbn [cm_channel cm_channel_id cm_sender cm_target_message_id cm_text cm_is_action cm_timestamp] in K.
    eqs_in K. rewrite option_map_some in K. destruct K as (? & ? & ? & ? & (x & ? & E) & ?).
    symmetry in E. back.
Qed.

Lemma clear_chat_iff (v : view) (m : msg_ref) (q : clear_chat cow) :
  seen v m -> v_command v = b "CLEARCHAT" ->
  (clear_chat_parse m = Ret (Some q) <-> exists x, q = clear_chat_map Borrowed x /\ clear_chat_of v x).
Proof.
  intros H C. unfold clear_chat_parse. look H C. split.
  - steps; try discriminate.
    destruct (spec_text v) as [name|] eqn:ET;
      [destruct (opt_bind (lookup (b "ban-duration") (v_tags v)) parse_duration) as [d|] eqn:ED;
       destruct (lookup (b "target-user-id") (v_tags v)) as [id|] eqn:EI; try discriminate|];
      steps; try discriminate; intros [= <-].
    + eexists (mk_clear_chat _ _ (TimeOut _ _ _) _). split; [reflexivity|].
      unfold clear_chat_of, has_channel, action_of. cbn [cc_channel cc_channel_id cc_action cc_timestamp]. eqs. auto 8.
    + eexists (mk_clear_chat _ _ (Ban _ _) _). split; [reflexivity|].
      unfold clear_chat_of, has_channel, action_of. cbn [cc_channel cc_channel_id cc_action cc_timestamp]. eqs.
      repeat split; auto. intros d K. apply has_u64_iff in K. 
      change (opt_bind (lookup (b "ban-duration") (v_tags v)) parse_u64 = None) in ED. rewrite K in ED. discriminate.
    + eexists (mk_clear_chat _ _ Clear _). split; [reflexivity|].
      unfold clear_chat_of, has_channel, action_of. cbn [cc_channel cc_channel_id cc_action cc_timestamp]. eqs.
      repeat split; auto. now apply spec_text_none.
  - intros ([a c x ts] & -> & K). unfold clear_chat_of, has_channel, action_of in K.
    cbn [cc_channel cc_channel_id cc_action cc_timestamp] in K. destruct x as [|u i|u i d]; eqs_in K.
    + destruct K as (A & B & D & E). rewrite A, B. cbn [option_map bindo].
      apply spec_text_none in D. rewrite D. cbn [bindo]. rewrite E. reflexivity.
    + destruct K as (A & B & (D1 & D2 & D3) & E). rewrite A, B. cbn [option_map bindo]. rewrite D1, D2.
      destruct (opt_bind (lookup (b "ban-duration") (v_tags v)) parse_duration) as [d|] eqn:ED.
      * destruct (D3 d). now apply has_u64_iff.
      * cbn [option_map bindo]. rewrite E. reflexivity.
    + destruct K as (A & B & (D1 & D2 & D3) & E). rewrite A, B. cbn [option_map bindo]. rewrite D1, D2.
      
      change (opt_bind (lookup (b "ban-duration") (v_tags v)) parse_duration) with
        (opt_bind (lookup (b "ban-duration") (v_tags v)) parse_u64). rewrite D3. cbn [option_map bindo]. rewrite E. reflexivity.
Qed.

Lemma global_user_state_iff (v : view) (m : msg_ref) (q : global_user_state cow) :
  seen v m -> v_command v = b "GLOBALUSERSTATE" ->
  (global_user_state_parse m = Ret (Some q) <->
   exists x, q = global_user_state_map Borrowed x /\ global_user_state_of v x).
Proof.
  intros H C. unfold global_user_state_parse. look H C. split.
  - steps; try discriminate. intros [= <-]. eexists (mk_gus _ _ _ _ _). split; [reflexivity|].
    unfold global_user_state_of. cbn [gus_id gus_name gus_badges gus_emote_sets gus_color]. eqs.
    repeat split; auto.
  - intros ([a c d e f] & -> & K). unfold global_user_state_of in K.
    cbn [gus_id gus_name gus_badges gus_emote_sets gus_color] in K. eqs_in K. back.
Qed.

Lemma user_state_iff (v : view) (m : msg_ref) (q : user_state cow) :
  seen v m -> v_command v = b "USERSTATE" ->
  (user_state_parse m = Ret (Some q) <-> exists x, q = user_state_map Borrowed x /\ user_state_of v x).
Proof.
  intros H C. unfold user_state_parse. look H C. split.
  - steps; try discriminate. intros [= <-]. eexists (mk_user_state _ _ _ _ _). split; [reflexivity|].
    unfold user_state_of, has_channel. cbn [us_channel us_user_name us_badges us_emote_sets us_color]. eqs.
    repeat split; auto.
  - intros ([a c d e f] & -> & K). unfold user_state_of, has_channel in K.
    cbn [us_channel us_user_name us_badges us_emote_sets us_color] in K. eqs_in K. back.
Qed.

Lemma around_iff (v : view) (l r : str) :
  (exists p, v_params v = Some p /\ around_first (b " :") p l r) <->
  opt_bind (v_params v) (split_once (b " :")) = Some (l, r).
Proof.
  rewrite opt_bind_iff. split; intros (p & A & B); exists p; (split; [exact A|now apply split_once_around]).
Qed.

Lemma whisper_iff (v : view) (m : msg_ref) (q : whisper_msg cow) :
  seen v m -> v_command v = b "WHISPER" ->
  (whisper_parse m = Ret (Some q) <-> exists x, q = whisper_map Borrowed x /\ whisper_of v x).
Proof.
  intros H C. unfold whisper_parse. look H C. split.
  - steps; try discriminate. destruct p as [l r]. steps; try discriminate.
    intros [= <-]. eexists (mk_whisper _ (mk_user _ _ _) _ _ _ _). split; [reflexivity|].
    unfold whisper_of. cbn [w_recipient w_sender w_text w_badges w_emotes w_color u_id u_login u_name].
    rewrite around_iff. eqs. repeat split; auto. rewrite opt_bind_iff. eauto.
  - intros ([a [c d e] f g h i] & -> & K). unfold whisper_of in K.
    cbn [w_recipient w_sender w_text w_badges w_emotes w_color u_id u_login u_name] in K.
    rewrite around_iff, opt_bind_iff in K. eqs_in K. destruct K as ((p & ? & ?) & ?). back.
Qed.

(** *** RoomState *)

Definition followers_fun (n : Z) : followers_only :=
  if (0 <? n)%Z then Enabled (Some (60 * Z.to_N n)%N)
  else if (n =? 0)%Z then Enabled None else Disabled.

Lemma followers_of_fun (n : Z) (f : followers_only) : followers_of n f <-> followers_fun n = f.
Proof.
  unfold followers_of, followers_fun.
  destruct (Z.ltb_spec 0 n) as [L|L]; [|destruct (Z.eqb_spec n 0) as [E|E]].
  - split; [intros [[K _]|[[K _]|[_ ->]]]; [lia|lia|reflexivity]|intros <-; right; right; auto].
  - split; [intros [[K _]|[[_ ->]|[K _]]]; [lia|reflexivity|lia]|intros <-; right; left; auto].
  - split; [intros [[_ ->]|[[K _]|[K _]]]; [reflexivity|lia|lia]|intros <-; left; split; [lia|reflexivity]].
Qed.

Lemma followers_ok (pf : profile) (n : Z) : (60 * n <= i64_max)%Z ->
  followers_only_from pf n = Ret (followers_fun n).
Proof.
  intros L. unfold followers_only_from, followers_fun. destruct (Z.ltb_spec 0 n) as [P|P]; [|now destruct (n =? 0)%Z].
  unfold i64_mul. replace ((i64_min <=? n * 60) && (n * 60 <=? i64_max))%Z with true by (unfold i64_min in *; lia).
  cbn [bind]. unfold as_u64. rewrite Z.mod_small by (unfold i64_max in L; lia). do 3 f_equal. lia.
Qed.

Lemma opt_followers_iff (v : view) (o : option followers_only) :
  opt (fun f => exists n, has_i64 v "followers-only" n /\ followers_of n f) o <->
  option_map followers_fun (opt_bind (lookup (b "followers-only") (v_tags v)) parse_i64) = o.
Proof.
  apply opt_iff. intros f. rewrite option_map_some. split; intros (n & A & B); exists n.
  - split; [now apply has_i64_iff|]. symmetry. now apply followers_of_fun.
  - split; [now apply has_i64_iff|]. now apply followers_of_fun.
Qed.

Lemma room_state_read (pf : profile) (v : view) (m : msg_ref) :
  seen v m -> v_command v = b "ROOMSTATE" -> followers_fit v ->
  room_state_parse pf m =
  let? channel := Ret (option_map Borrowed (v_channel v)) in
  let? id := Ret (option_map Borrowed (lookup (b "room-id") (v_tags v))) in
  Ret (Some (mk_room_state channel id (option_map parse_bool (lookup (b "emote-only") (v_tags v)))
     (option_map followers_fun (opt_bind (lookup (b "followers-only") (v_tags v)) parse_i64))
     (option_map parse_bool (lookup (b "r9k") (v_tags v)))
     (opt_bind (lookup (b "slow") (v_tags v)) parse_u64)
     (option_map parse_bool (lookup (b "subs-only") (v_tags v))))).
Proof.
  intros H C O. unfold room_state_parse. look H C.
  destruct (v_channel v) as [ch|]; [|reflexivity]. cbn [option_map bindo].
  destruct (lookup (b "room-id") (v_tags v)) as [id|]; [|reflexivity]. cbn [option_map bindo].
  destruct (opt_bind (lookup (b "followers-only") (v_tags v)) parse_i64) as [n|] eqn:E; [|reflexivity].
  rewrite followers_ok; [reflexivity|]. apply has_i64_iff in E. now apply O in E.
Qed.

Lemma room_state_iff (pf : profile) (v : view) (m : msg_ref) (q : room_state cow) :
  seen v m -> v_command v = b "ROOMSTATE" -> followers_fit v ->
  (room_state_parse pf m = Ret (Some q) <-> exists x, q = room_state_map Borrowed x /\ room_state_of v x).
Proof.
  intros H C O. rewrite (room_state_read pf v m H C O). split.
  - steps; try discriminate. intros [= <-]. eexists (mk_room_state _ _ _ _ _ _ _). split; [reflexivity|].
    unfold room_state_of, has_channel.
    cbn [rs_channel rs_channel_id rs_emote_only rs_followers_only rs_r9k rs_slow rs_subs_only].
    rewrite opt_followers_iff. eqs. repeat split; auto.
  - intros ([a c d e f g h] & -> & K). unfold room_state_of, has_channel in K.
    cbn [rs_channel rs_channel_id rs_emote_only rs_followers_only rs_r9k rs_slow rs_subs_only] in K.
    rewrite opt_followers_iff in K. eqs_in K. back.
Qed.

(** *** Privmsg *)

Definition reply_fun (v : view) : option (reply str) :=
  let tag n := lookup (b n) (v_tags v) in
  opt_bind (tag "reply-parent-msg-id"%string) (fun message_id =>
  opt_bind (tag "reply-thread-parent-msg-id"%string) (fun thread_id =>
  opt_bind (tag "reply-thread-parent-user-login"%string) (fun thread_login =>
  opt_bind (tag "reply-parent-user-id"%string) (fun id =>
  opt_bind (tag "reply-parent-user-login"%string) (fun login =>
  opt_bind (tag "reply-parent-display-name"%string) (fun name =>
  opt_bind (tag "reply-parent-msg-body"%string) (fun text =>
  Some (mk_reply thread_id thread_login message_id (mk_user id login name) text)))))))).

Ltac back' :=
  repeat match goal with K : _ /\ _ |- _ => destruct K end;
  repeat match goal with K : ?x = _ |- _ => rewrite K; clear K end; reflexivity.

Lemma reply_read (v : view) (m : msg_ref) : seen v m ->
  privmsg_reply_to m = Ret (option_map (reply_map Borrowed) (reply_fun v)).
Proof.
  intros H. unfold privmsg_reply_to, reply_fun. rewrite ?(seen_tag_into H). cbn [tag_as_str].
  repeat (cbn [bindo option_map opt_bind];
          match goal with
         | |- match option_map _ ?o with _ => _ end = _ => destruct o; try reflexivity
         end).
Qed.

Lemma reply_iff (v : view) (o : option (reply str)) : opt (reply_of v) o <-> reply_fun v = o.
Proof.
  apply opt_iff. intros [a c d [e f g] h]. unfold reply_of, user_of, reply_fun.
  cbn [rp_thread_parent_message_id rp_thread_parent_user_login rp_message_id rp_sender rp_text u_id u_login u_name].
  eqs. split.
  - intros K. back'.
  - intros K. repeat (apply opt_bind_iff in K as (? & ? & K)). injection K as <- <- <- <- <- <- <-. auto 10.
Qed.

Lemma level_from_str_iff (s : str) (l : level) :
  level_from_str s = Some l <-> exists n, In (n, l) level_names /\ s = b n.
Proof.
  split.
  - unfold level_from_str. intros H.
    repeat match type of H with
           | (if str_eqb s ?n then _ else _) = _ => destruct (str_eqb_spec s n) as [->|]
           end; try discriminate; injection H as <-; eexists; (split; [|reflexivity]); cbn [level_names In]; tauto.
  - intros (n & I & ->). cbn [level_names In] in I.
    repeat (destruct I as [I|I]; [injection I as <- <-; reflexivity|]). destruct I.
Qed.

Definition pinned_fun (v : view) : option (pinned_chat str) :=
  let tag n := lookup (b n) (v_tags v) in
  opt_bind (opt_bind (tag "pinned-chat-paid-amount"%string) parse_i64) (fun amount =>
  opt_bind (tag "pinned-chat-paid-currency"%string) (fun currency =>
  opt_bind (opt_bind (tag "pinned-chat-paid-exponent"%string) parse_i64) (fun exponent =>
  opt_bind (opt_bind (tag "pinned-chat-paid-level"%string) level_from_str) (fun lv =>
  opt_bind (option_map parse_bool (tag "pinned-chat-paid-is-system-message"%string)) (fun sys =>
  Some (mk_pinned amount currency exponent lv sys)))))).

Lemma pinned_read (v : view) (m : msg_ref) : seen v m ->
  privmsg_pinned_chat m = Ret (option_map (pinned_map Borrowed) (pinned_fun v)).
Proof.
  intros H. unfold privmsg_pinned_chat, pinned_fun. rewrite ?(seen_tag_into H), ?(sn_tag _ _ H). cbn [tag_as_str].
  repeat (cbn [bindo option_map opt_bind];
          match goal with
         | |- match option_map _ ?o with _ => _ end = _ => destruct o; try reflexivity
         | |- match ?o with _ => _ end = _ => destruct o; try reflexivity
         end).
Qed.

Lemma level_iff (v : view) (l : level) :
  (exists n, In (n, l) level_names /\ has v "pinned-chat-paid-level" (b n)) <->
  opt_bind (lookup (b "pinned-chat-paid-level") (v_tags v)) level_from_str = Some l.
Proof.
  rewrite opt_bind_iff. split.
  - intros (n & A & B). exists (b n). split; [now apply has_iff|]. apply level_from_str_iff. eauto.
  - intros (x & A & B). apply level_from_str_iff in B as (n & B & ->). exists n. split; [exact B|]. now apply has_iff.
Qed.

Lemma pinned_iff (v : view) (o : option (pinned_chat str)) : opt (pinned_of v) o <-> pinned_fun v = o.
Proof.
  apply opt_iff. intros [a c d e f]. unfold pinned_of, pinned_fun.
  cbn [pc_paid_amount pc_paid_currency pc_paid_exponent pc_paid_level pc_is_system_message].
  rewrite level_iff. eqs. split.
  - intros K. back'.
  - intros K. repeat (apply opt_bind_iff in K as (? & ? & K)). injection K as <- <- <- <- <-. auto 10.
Qed.

Lemma privmsg_iff (v : view) (m : msg_ref) (q : privmsg cow) :
  seen v m -> v_command v = b "PRIVMSG" ->
  (privmsg_parse m = Ret (Some q) <-> exists x, q = privmsg_map Borrowed x /\ privmsg_of v x).
Proof.
  intros H C. unfold privmsg_parse. look H C. rewrite (reply_read v m H), (pinned_read v m H). split.
  - steps; try discriminate. destruct (parse_message_text _) as [t f] eqn:?.
    steps; try discriminate. intros [= <-].
    eexists (mk_privmsg _ _ _ _ (mk_user _ _ _) _ _ _ _ _ _ _ _ _ _). split; [reflexivity|].
    unfold privmsg_of, has_channel.
    cbn [pm_channel pm_channel_id pm_msg_id pm_id pm_sender pm_reply_to pm_pinned_chat pm_text pm_is_action
         pm_badges pm_color pm_custom_reward_id pm_bits pm_emotes pm_timestamp u_id u_login u_name].
    rewrite reply_iff, pinned_iff. eqs. repeat split; auto. back.
  - intros ([a1 a2 a3 a4 [u1 u2 u3] a6 a7 t f a10 a11 a12 a13 a14 a15] & -> & K). unfold privmsg_of, has_channel in K.
    cbn [pm_channel pm_channel_id pm_msg_id pm_id pm_sender pm_reply_to pm_pinned_chat pm_text pm_is_action
         pm_badges pm_color pm_custom_reward_id pm_bits pm_emotes pm_timestamp u_id u_login u_name] in K.
    rewrite reply_iff, pinned_iff in K. eqs_in K. rewrite option_map_some in K.
    destruct K as (? & ? & ? & ? & ? & ? & ? & ? & ? & (x & ? & E) & ?). symmetry in E. back.
Qed.
