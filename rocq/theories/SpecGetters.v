(** * SpecGetters: what the methods of a typed message should return, in terms of the line. *)

From Verif Require Import Base Wide Tags Irc SpecIrc SpecText Unescape MsgBase MsgTypes MsgNotice SpecMsg Getters.

(** The method returns what is to be shown for the value of the tag. *)
Definition unescapes (v : view) (name : string) (g : res cow) : Prop :=
  exists x c, has v name x /\ g = Ret c /\ shown x (deref c).

(** ** Badges *)

Definition plain_badges : list str := [b "staff"; b "turbo"; b "broadcaster"; b "moderator"].

(** The item [name/version] of the badges tag, with [extra] in badge-info. *)
Definition tells_badge (name version : str) (extra : option str) (x : badge cow) : Prop :=
  let d := as_badge_data x in
  get_badge_data_name d = name /\
  (In name plain_badges -> get_badge_data_version d = b "1" /\ get_badge_data_extra d = None) /\
  (~ In name plain_badges -> get_badge_data_version d = version) /\
  (~ In name plain_badges -> name <> b "subscriber" -> get_badge_data_extra d = extra) /\
  (name = b "subscriber" ->
     exists s, x = BSubscriber s /\ get_subscriber_version s = version /\
     match extra with
     | None => get_subscriber_months s = 1%N /\ get_badge_data_extra d = Some (b "1")
     | Some e => get_badge_data_extra d = Some e /\
                 (is_u64 e (get_subscriber_months s) \/ (forall n, ~ is_u64 e n) /\ get_subscriber_months s = 1%N)
     end).

(** The badges of a line, in order, and their number. *)
Definition tells_badges (v : view) (l : list (badge cow)) (n : nat) : Prop :=
  n = length l /\
  ((exists x y items extras, has v "badges" x /\ has v "badge-info" y /\ comma_items x items /\ comma_items y extras /\
      Forall2 (fun nv x => exists e, first_tag (fst nv) extras e /\ tells_badge (fst nv) (snd nv) e x) items l) \/
   (((forall x, ~ has v "badges" x) \/ (forall x, ~ has v "badge-info" x)) /\ l = [])).

(** ** Users *)

Definition tells_user (v : view) (id login name : string) (u : user_info cow) : Prop :=
  has v id (get_user_id u) /\ has v login (get_user_login u) /\ unescapes v name (user_name u).

(** A user whose login is the nick of the prefix. *)
Definition tells_sender (v : view) (u : user_info cow) : Prop :=
  has v "user-id" (get_user_id u) /\ has_nick v (get_user_login u) /\ unescapes v "display-name" (user_name u).

(** ** Messages *)

Definition tells_join (v : view) (q : join_msg cow) : Prop :=
  has_channel v (get_join_channel q) /\ has_nick v (get_join_user q).

Definition tells_part (v : view) (q : part_msg cow) : Prop :=
  has_channel v (get_part_channel q) /\ has_nick v (get_part_user q).

Definition tells_ping (v : view) (q : ping_msg cow) : Prop := opt (has_text v) (get_ping_nonce q).

Definition tells_pong (v : view) (q : pong_msg cow) : Prop := opt (has_text v) (get_pong_nonce q).

Definition tells_notice (v : view) (q : notice_msg cow) : Prop :=
  opt (has_channel v) (get_notice_channel q) /\ has_text v (get_notice_text q) /\ opt (has v "msg-id") (get_notice_id q).

Definition tells_clear_msg (v : view) (q : clear_msg cow) : Prop :=
  has_channel v (get_clear_msg_channel q) /\ has v "room-id" (get_clear_msg_channel_id q) /\
  has v "login" (get_clear_msg_sender q) /\ has v "target-msg-id" (get_clear_msg_target_message_id q) /\
  (exists t, has_text v t /\ action_text t (get_clear_msg_text q) (get_clear_msg_is_action q)) /\
  has_time v (get_clear_msg_timestamp q).

Definition tells_clear_chat (v : view) (q : clear_chat cow) : Prop :=
  has_channel v (get_clear_chat_channel q) /\ has v "room-id" (get_clear_chat_channel_id q) /\
  has_time v (get_clear_chat_timestamp q) /\ opt (has_text v) (clear_chat_target q) /\
  let a := get_clear_chat_action q in
  (v_params v = None -> is_clear a = true) /\
  (v_params v <> None -> forall d, has_u64 v "ban-duration" d ->
     is_time_out a = true /\ get_time_out_duration a = Some d /\
     exists user id, get_time_out_user a = Some user /\ get_time_out_id a = Some id /\
       has_text v user /\ has v "target-user-id" id) /\
  (v_params v <> None -> (forall d, ~ has_u64 v "ban-duration" d) ->
     is_ban a = true /\
     exists user id, get_ban_user a = Some user /\ get_ban_id a = Some id /\
       has_text v user /\ has v "target-user-id" id).

Definition tells_global_user_state (v : view) (q : global_user_state cow) : Prop :=
  has v "user-id" (get_global_user_state_id q) /\ unescapes v "display-name" (global_user_state_name q) /\
  tells_badges v (get_global_user_state_badges q) (get_global_user_state_num_badges q) /\
  has_list v "emote-sets" (get_global_user_state_emote_sets q) /\
  get_global_user_state_num_emote_sets q = length (get_global_user_state_emote_sets q) /\
  opt (has_filled v "color") (get_global_user_state_color q).

Definition tells_user_state (v : view) (q : user_state cow) : Prop :=
  has_channel v (get_user_state_channel q) /\ has v "display-name" (get_user_state_user_name q) /\
  tells_badges v (get_user_state_badges q) (get_user_state_num_badges q) /\
  has_list v "emote-sets" (get_user_state_emote_sets q) /\
  get_user_state_num_emote_sets q = length (get_user_state_emote_sets q) /\
  opt (has_filled v "color") (get_user_state_color q).

Definition tells_whisper (v : view) (q : whisper_msg cow) : Prop :=
  (exists p, v_params v = Some p /\ around_first (b " :") p (get_whisper_recipient q) (get_whisper_text q)) /\
  tells_sender v (get_whisper_sender q) /\ tells_badges v (get_whisper_badges q) (get_whisper_num_badges q) /\
  has_or v "emotes" [] (get_whisper_raw_emotes q) /\ opt (has_filled v "color") (get_whisper_color q).

Definition tells_room_state (v : view) (q : room_state cow) : Prop :=
  has_channel v (get_room_state_channel q) /\ has v "room-id" (get_room_state_channel_id q) /\
  opt (has_flag v "emote-only") (get_room_state_emote_only q) /\
  opt (fun f => exists n, has_i64 v "followers-only" n /\ followers_of n f) (get_room_state_followers_only q) /\
  opt (has_flag v "r9k") (get_room_state_r9k q) /\ opt (has_u64 v "slow") (get_room_state_slow q) /\
  opt (has_flag v "subs-only") (get_room_state_subs_only q).

Definition tells_reply (v : view) (r : reply cow) : Prop :=
  has v "reply-thread-parent-msg-id" (get_reply_thread_parent_message_id r) /\
  has v "reply-thread-parent-user-login" (get_reply_thread_parent_user_login r) /\
  has v "reply-parent-msg-id" (get_reply_message_id r) /\
  tells_user v "reply-parent-user-id" "reply-parent-user-login" "reply-parent-display-name" (get_reply_sender r) /\
  unescapes v "reply-parent-msg-body" (reply_text r).

Definition tells_pinned (v : view) (p : pinned_chat cow) : Prop :=
  has_i64 v "pinned-chat-paid-amount" (get_pinned_paid_amount p) /\
  has v "pinned-chat-paid-currency" (get_pinned_paid_currency p) /\
  has_i64 v "pinned-chat-paid-exponent" (get_pinned_paid_exponent p) /\
  (exists n, In (n, get_pinned_paid_level p) level_names /\ has v "pinned-chat-paid-level" (b n)) /\
  has_flag v "pinned-chat-paid-is-system-message" (get_pinned_is_system_message p).

Definition tells_privmsg (v : view) (q : privmsg cow) : Prop :=
  has v "id" (get_privmsg_id q) /\ has_channel v (get_privmsg_channel q) /\ has v "room-id" (get_privmsg_channel_id q) /\
  opt (has v "msg-id") (get_privmsg_msg_id q) /\ tells_sender v (get_privmsg_sender q) /\
  match get_privmsg_reply_to q with Some r => tells_reply v r | None => forall r, ~ reply_of v r end /\
  match get_privmsg_pinned_chat q with Some p => tells_pinned v p | None => forall p, ~ pinned_of v p end /\
  (exists t, has_text v t /\ action_text t (get_privmsg_text q) (get_privmsg_is_action q)) /\
  tells_badges v (get_privmsg_badges q) (get_privmsg_num_badges q) /\
  opt (has_filled v "color") (get_privmsg_color q) /\
  opt (has_filled v "custom-reward-id") (get_privmsg_custom_reward_id q) /\
  opt (has_u64 v "bits") (get_privmsg_bits q) /\ has_or v "emotes" [] (get_privmsg_raw_emotes q) /\
  has_time v (get_privmsg_timestamp q).

Definition tells_promo (v : view) (p : promo cow) : Prop :=
  has_u64 v "msg-param-promo-gift-total" (get_promo_total_gifts p) /\ has v "msg-param-promo-name" (get_promo_name p).

(** The payload of the event, by the message id. *)
Definition tells_event (v : view) (id : str) (e : event cow) : Prop :=
  (In id [b "sub"; b "resub"] ->
     exists months streak plan name, get_sub_is_resub e = Some (str_eqb id (b "resub")) /\
       get_sub_cumulative_months e = Some months /\ has_u64 v "msg-param-cumulative-months" months /\
       get_sub_streak_months e = Some streak /\ opt (fun n => has_u64 v "msg-param-streak-months" n /\ (0 < n)%N) streak /\
       get_sub_plan e = Some plan /\ has v "msg-param-sub-plan" plan /\
       event_sub_plan_name e = Some name /\ unescapes v "msg-param-sub-plan-name" name) /\
  (id = b "raid" ->
     exists n url, get_raid_viewer_count e = Some n /\ has_u64 v "msg-param-viewerCount" n /\
       get_raid_profile_image_url e = Some url /\ has v "msg-param-profileImageURL" url) /\
  (In id [b "subgift"; b "anonsubgift"] ->
     exists months u plan name gifted, get_gift_cumulative_months e = Some months /\ has_u64 v "msg-param-months" months /\
       get_gift_recipient e = Some u /\
       tells_user v "msg-param-recipient-id" "msg-param-recipient-user-name" "msg-param-recipient-display-name" u /\
       get_gift_sub_plan e = Some plan /\ has v "msg-param-sub-plan" plan /\
       event_sub_plan_name e = Some name /\ unescapes v "msg-param-sub-plan-name" name /\
       get_gift_num_gifted_months e = Some gifted /\ has_u64 v "msg-param-gift-months" gifted) /\
  (id = b "submysterygift" -> ~ from_anonymous_account v ->
     exists n total plan, get_mystery_count e = Some n /\ has_u64 v "msg-param-mass-gift-count" n /\
       get_mystery_sender_total_gifts e = Some total /\ has_u64 v "msg-param-sender-count" total /\
       get_mystery_sub_plan e = Some plan /\ has v "msg-param-sub-plan" plan) /\
  (id = b "anonsubmysterygift" \/ (id = b "submysterygift" /\ from_anonymous_account v) ->
     exists n plan, get_anon_mystery_count e = Some n /\ has_u64 v "msg-param-mass-gift-count" n /\
       get_anon_mystery_sub_plan e = Some plan /\ has v "msg-param-sub-plan" plan) /\
  (id = b "giftpaidupgrade" ->
     exists login name p, get_upgrade_gifter_login e = Some login /\ has v "msg-param-sender-login" login /\
       get_upgrade_gifter_name e = Some name /\ has v "msg-param-sender-name" name /\
       get_upgrade_promotion e = Some p /\ match p with Some x => tells_promo v x | None => forall x, ~ promo_of v x end) /\
  (id = b "anongiftpaidupgrade" ->
     exists p, get_anon_upgrade_promotion e = Some p /\ match p with Some x => tells_promo v x | None => forall x, ~ promo_of v x end) /\
  (id = b "ritual" -> exists name, get_ritual_name e = Some name /\ has v "msg-param-ritual-name" name) /\
  (id = b "bitsbadgetier" -> exists n, get_bits_badge_tier e = Some n /\ has_u64 v "msg-param-threshold" n) /\
  (id = b "announcement" ->
     exists c, get_announcement_highlight_color e = Some c /\ has_or v "msg-param-color" (b "PRIMARY") c).

(** What belongs to one kind of event is there only if the message id is of that kind. *)
Definition only_its_event (v : view) (id : str) (e : event cow) : Prop :=
  (get_sub_is_resub e <> None \/ get_sub_cumulative_months e <> None \/ get_sub_streak_months e <> None \/
   get_sub_plan e <> None -> In id [b "sub"; b "resub"]) /\
  (get_raid_viewer_count e <> None \/ get_raid_profile_image_url e <> None -> id = b "raid") /\
  (get_gift_cumulative_months e <> None \/ get_gift_recipient e <> None \/ get_gift_sub_plan e <> None \/
   get_gift_num_gifted_months e <> None -> In id [b "subgift"; b "anonsubgift"]) /\
  (event_sub_plan_name e <> None -> In id [b "sub"; b "resub"; b "subgift"; b "anonsubgift"]) /\
  (get_mystery_count e <> None \/ get_mystery_sender_total_gifts e <> None \/ get_mystery_sub_plan e <> None ->
   id = b "submysterygift" /\ ~ from_anonymous_account v) /\
  (get_anon_mystery_count e <> None \/ get_anon_mystery_sub_plan e <> None ->
   id = b "anonsubmysterygift" \/ (id = b "submysterygift" /\ from_anonymous_account v)) /\
  (get_upgrade_gifter_login e <> None \/ get_upgrade_gifter_name e <> None \/ get_upgrade_promotion e <> None ->
   id = b "giftpaidupgrade") /\
  (get_anon_upgrade_promotion e <> None -> id = b "anongiftpaidupgrade") /\
  (get_ritual_name e <> None -> id = b "ritual") /\
  (get_bits_badge_tier e <> None -> id = b "bitsbadgetier") /\
  (get_announcement_highlight_color e <> None -> id = b "announcement").

Definition tells_user_notice (v : view) (q : user_notice cow) : Prop :=
  has_channel v (get_user_notice_channel q) /\ has v "room-id" (get_user_notice_channel_id q) /\
  has v "msg-id" (get_user_notice_event_id q) /\
  match get_user_notice_sender q with
  | None => anonymous v (get_user_notice_event_id q)
  | Some u => ~ anonymous v (get_user_notice_event_id q) /\ tells_user v "user-id" "login" "display-name" u
  end /\
  opt (has_text v) (get_user_notice_text q) /\
  (forall x, has_filled v "system-msg" x ->
     exists c, user_notice_system_message q = Ret (Some c) /\ shown x (deref c)) /\
  ((forall x, ~ has_filled v "system-msg" x) -> user_notice_system_message q = Ret None) /\
  tells_event v (get_user_notice_event_id q) (get_user_notice_event q) /\
  tells_badges v (get_user_notice_badges q) (get_user_notice_num_badges q) /\
  has_or v "emotes" [] (get_user_notice_raw_emotes q) /\ opt (has_filled v "color") (get_user_notice_color q) /\
  has v "id" (get_user_notice_message_id q) /\ has_time v (get_user_notice_timestamp q).
