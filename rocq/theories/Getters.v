(** * Getters: the methods which read a typed message (model, no proofs).

    [generate_getters!] (src/msg/macros.rs:1-23) makes a method out of each entry:
    [as_ref] and [as_deref] give the text of a [Cow], entries without an expression
    clone the field, [iter] is given here as the list of its items.  The unescaping
    getters are in the files of their types ([user_name], [reply_text],
    [global_user_state_name], [user_notice_system_message], [event_sub_plan_name]).
    The payload of a variant is not a type of its own here: its getters return [None]
    for the other variants. *)

From Verif Require Import Base Tags Irc Unescape MsgBase MsgTypes MsgNotice.

(** [Option::as_deref]. *)
Definition as_deref (o : option cow) : option str := option_map deref o.

(** ** src/msg.rs *)

(** [Subscriber]: msg.rs:230, 235. *)
Definition get_subscriber_version (s : subscriber cow) : str := deref (sb_version s).
Definition get_subscriber_months (s : subscriber cow) : N := sb_months_n s.

(** [BadgeData]: msg.rs:264, 269, 275. *)
Definition get_badge_data_name (d : badge_data cow) : str := deref (bd_name d).
Definition get_badge_data_version (d : badge_data cow) : str := deref (bd_version d).
Definition get_badge_data_extra (d : badge_data cow) : option str := as_deref (bd_extra d).

(** [User]: msg.rs:302, 305. *)
Definition get_user_id (u : user_info cow) : str := deref (u_id u).
Definition get_user_login (u : user_info cow) : str := deref (u_login u).

(** ** src/msg/join.rs:21, 24; src/msg/part.rs:21, 24 *)

Definition get_join_channel (x : join_msg cow) : str := deref (j_channel x).
Definition get_join_user (x : join_msg cow) : str := deref (j_user x).
Definition get_part_channel (x : part_msg cow) : str := deref (pt_channel x).
Definition get_part_user (x : part_msg cow) : str := deref (pt_user x).

(** ** src/msg/ping.rs:32; src/msg/pong.rs:30 *)

Definition get_ping_nonce (x : ping_msg cow) : option str := as_deref (pi_nonce x).
Definition get_pong_nonce (x : pong_msg cow) : option str := as_deref (po_nonce x).

(** ** src/msg/notice.rs:28, 31, 36 *)

Definition get_notice_channel (x : notice_msg cow) : option str := as_deref (n_channel x).
Definition get_notice_text (x : notice_msg cow) : str := deref (n_text x).
Definition get_notice_id (x : notice_msg cow) : option str := as_deref (n_id x).

(** ** src/msg/clear_msg.rs:35-53 *)

Definition get_clear_msg_channel (x : clear_msg cow) : str := deref (cm_channel x).
Definition get_clear_msg_channel_id (x : clear_msg cow) : str := deref (cm_channel_id x).
Definition get_clear_msg_sender (x : clear_msg cow) : str := deref (cm_sender x).
Definition get_clear_msg_target_message_id (x : clear_msg cow) : str := deref (cm_target_message_id x).
Definition get_clear_msg_text (x : clear_msg cow) : str := deref (cm_text x).
Definition get_clear_msg_is_action (x : clear_msg cow) : bool := cm_is_action x.
Definition get_clear_msg_timestamp (x : clear_msg cow) : Z := cm_timestamp x.

(** ** src/msg/clear_chat.rs:28-37 *)

Definition get_clear_chat_channel (x : clear_chat cow) : str := deref (cc_channel x).
Definition get_clear_chat_channel_id (x : clear_chat cow) : str := deref (cc_channel_id x).
Definition get_clear_chat_action (x : clear_chat cow) : action cow := cc_action x.
Definition get_clear_chat_timestamp (x : clear_chat cow) : Z := cc_timestamp x.

(** [Ban]: clear_chat.rs:115, 118. *)
Definition get_ban_user (a : action cow) : option str := match a with Ban user _ => Some (deref user) | _ => None end.
Definition get_ban_id (a : action cow) : option str := match a with Ban _ id => Some (deref id) | _ => None end.

(** [TimeOut]: clear_chat.rs:138, 141, 144. *)
Definition get_time_out_user (a : action cow) : option str :=
  match a with TimeOut user _ _ => Some (deref user) | _ => None end.
Definition get_time_out_id (a : action cow) : option str :=
  match a with TimeOut _ id _ => Some (deref id) | _ => None end.
Definition get_time_out_duration (a : action cow) : option duration :=
  match a with TimeOut _ _ d => Some d | _ => None end.

(** ** src/msg/global_user_state.rs:32-61 *)

Definition get_global_user_state_id (x : global_user_state cow) : str := deref (gus_id x).
Definition get_global_user_state_badges (x : global_user_state cow) : list (badge cow) := gus_badges x.
Definition get_global_user_state_num_badges (x : global_user_state cow) : nat := length (gus_badges x).
Definition get_global_user_state_emote_sets (x : global_user_state cow) : list str := map deref (gus_emote_sets x).
Definition get_global_user_state_num_emote_sets (x : global_user_state cow) : nat := length (gus_emote_sets x).
Definition get_global_user_state_color (x : global_user_state cow) : option str := as_deref (gus_color x).

(** ** src/msg/user_state.rs:40-64 *)

Definition get_user_state_channel (x : user_state cow) : str := deref (us_channel x).
Definition get_user_state_user_name (x : user_state cow) : str := deref (us_user_name x).
Definition get_user_state_badges (x : user_state cow) : list (badge cow) := us_badges x.
Definition get_user_state_num_badges (x : user_state cow) : nat := length (us_badges x).
Definition get_user_state_emote_sets (x : user_state cow) : list str := map deref (us_emote_sets x).
Definition get_user_state_num_emote_sets (x : user_state cow) : nat := length (us_emote_sets x).
Definition get_user_state_color (x : user_state cow) : option str := as_deref (us_color x).

(** ** src/msg/whisper.rs:33-60 *)

Definition get_whisper_recipient (x : whisper_msg cow) : str := deref (w_recipient x).
Definition get_whisper_sender (x : whisper_msg cow) : user_info cow := w_sender x.
Definition get_whisper_text (x : whisper_msg cow) : str := deref (w_text x).
Definition get_whisper_badges (x : whisper_msg cow) : list (badge cow) := w_badges x.
Definition get_whisper_num_badges (x : whisper_msg cow) : nat := length (w_badges x).
Definition get_whisper_raw_emotes (x : whisper_msg cow) : str := deref (w_emotes x).
Definition get_whisper_color (x : whisper_msg cow) : option str := as_deref (w_color x).

(** ** src/msg/room_state.rs:32-66 *)

Definition get_room_state_channel (x : room_state cow) : str := deref (rs_channel x).
Definition get_room_state_channel_id (x : room_state cow) : str := deref (rs_channel_id x).
Definition get_room_state_emote_only (x : room_state cow) : option bool := rs_emote_only x.
Definition get_room_state_followers_only (x : room_state cow) : option followers_only := rs_followers_only x.
Definition get_room_state_r9k (x : room_state cow) : option bool := rs_r9k x.
Definition get_room_state_slow (x : room_state cow) : option duration := rs_slow x.
Definition get_room_state_subs_only (x : room_state cow) : option bool := rs_subs_only x.

(** ** src/msg/privmsg.rs:61-124 *)

Definition get_privmsg_id (x : privmsg cow) : str := deref (pm_id x).
Definition get_privmsg_channel (x : privmsg cow) : str := deref (pm_channel x).
Definition get_privmsg_channel_id (x : privmsg cow) : str := deref (pm_channel_id x).
Definition get_privmsg_msg_id (x : privmsg cow) : option str := as_deref (pm_msg_id x).
Definition get_privmsg_sender (x : privmsg cow) : user_info cow := pm_sender x.
Definition get_privmsg_reply_to (x : privmsg cow) : option (reply cow) := pm_reply_to x.
Definition get_privmsg_pinned_chat (x : privmsg cow) : option (pinned_chat cow) := pm_pinned_chat x.
Definition get_privmsg_text (x : privmsg cow) : str := deref (pm_text x).
Definition get_privmsg_is_action (x : privmsg cow) : bool := pm_is_action x.
Definition get_privmsg_badges (x : privmsg cow) : list (badge cow) := pm_badges x.
Definition get_privmsg_num_badges (x : privmsg cow) : nat := length (pm_badges x).
Definition get_privmsg_color (x : privmsg cow) : option str := as_deref (pm_color x).
Definition get_privmsg_custom_reward_id (x : privmsg cow) : option str := as_deref (pm_custom_reward_id x).
Definition get_privmsg_bits (x : privmsg cow) : option N := pm_bits x.
Definition get_privmsg_raw_emotes (x : privmsg cow) : str := deref (pm_emotes x).
Definition get_privmsg_timestamp (x : privmsg cow) : Z := pm_timestamp x.

(** [Reply]: privmsg.rs:153-168. *)
Definition get_reply_thread_parent_message_id (r : reply cow) : str := deref (rp_thread_parent_message_id r).
Definition get_reply_thread_parent_user_login (r : reply cow) : str := deref (rp_thread_parent_user_login r).
Definition get_reply_message_id (r : reply cow) : str := deref (rp_message_id r).
Definition get_reply_sender (r : reply cow) : user_info cow := rp_sender r.

(** [PinnedChat]: privmsg.rs:280-300. *)
Definition get_pinned_paid_amount (p : pinned_chat cow) : Z := pc_paid_amount p.
Definition get_pinned_paid_currency (p : pinned_chat cow) : str := deref (pc_paid_currency p).
Definition get_pinned_paid_exponent (p : pinned_chat cow) : Z := pc_paid_exponent p.
Definition get_pinned_paid_level (p : pinned_chat cow) : level := pc_paid_level p.
Definition get_pinned_is_system_message (p : pinned_chat cow) : bool := pc_is_system_message p.

(** ** src/msg/user_notice.rs:56-111 *)

Definition get_user_notice_channel (x : user_notice cow) : str := deref (un_channel x).
Definition get_user_notice_channel_id (x : user_notice cow) : str := deref (un_channel_id x).
Definition get_user_notice_sender (x : user_notice cow) : option (user_info cow) := un_sender x.
Definition get_user_notice_text (x : user_notice cow) : option str := as_deref (un_text x).
Definition get_user_notice_event (x : user_notice cow) : event cow := un_event x.
Definition get_user_notice_event_id (x : user_notice cow) : str := deref (un_event_id x).
Definition get_user_notice_badges (x : user_notice cow) : list (badge cow) := un_badges x.
Definition get_user_notice_num_badges (x : user_notice cow) : nat := length (un_badges x).
Definition get_user_notice_raw_emotes (x : user_notice cow) : str := deref (un_emotes x).
Definition get_user_notice_color (x : user_notice cow) : option str := as_deref (un_color x).
Definition get_user_notice_message_id (x : user_notice cow) : str := deref (un_message_id x).
Definition get_user_notice_timestamp (x : user_notice cow) : Z := un_timestamp x.

(** [SubOrResub]: user_notice.rs:192-206. *)
Definition get_sub_is_resub (e : event cow) : option bool := match e with SubOrResub x _ _ _ _ => Some x | _ => None end.
Definition get_sub_cumulative_months (e : event cow) : option N := match e with SubOrResub _ x _ _ _ => Some x | _ => None end.
Definition get_sub_streak_months (e : event cow) : option (option N) := match e with SubOrResub _ _ x _ _ => Some x | _ => None end.
Definition get_sub_plan (e : event cow) : option str := match e with SubOrResub _ _ _ x _ => Some (deref x) | _ => None end.

(** [Raid]: user_notice.rs:226, 233. *)
Definition get_raid_viewer_count (e : event cow) : option N := match e with Raid x _ => Some x | _ => None end.
Definition get_raid_profile_image_url (e : event cow) : option str := match e with Raid _ x => Some (deref x) | _ => None end.

(** [SubGift]: user_notice.rs:253-264, 272. *)
Definition get_gift_cumulative_months (e : event cow) : option N := match e with SubGift x _ _ _ _ => Some x | _ => None end.
Definition get_gift_recipient (e : event cow) : option (user_info cow) := match e with SubGift _ x _ _ _ => Some x | _ => None end.
Definition get_gift_sub_plan (e : event cow) : option str := match e with SubGift _ _ x _ _ => Some (deref x) | _ => None end.
Definition get_gift_num_gifted_months (e : event cow) : option N := match e with SubGift _ _ _ _ x => Some x | _ => None end.

(** [SubMysteryGift]: user_notice.rs:288-299; [AnonSubMysteryGift]: user_notice.rs:314-322. *)
Definition get_mystery_count (e : event cow) : option N := match e with SubMysteryGift x _ _ => Some x | _ => None end.
Definition get_mystery_sender_total_gifts (e : event cow) : option N := match e with SubMysteryGift _ x _ => Some x | _ => None end.
Definition get_mystery_sub_plan (e : event cow) : option str := match e with SubMysteryGift _ _ x => Some (deref x) | _ => None end.
Definition get_anon_mystery_count (e : event cow) : option N := match e with AnonSubMysteryGift x _ => Some x | _ => None end.
Definition get_anon_mystery_sub_plan (e : event cow) : option str := match e with AnonSubMysteryGift _ x => Some (deref x) | _ => None end.

(** [GiftPaidUpgrade]: user_notice.rs:338-344; [AnonGiftPaidUpgrade]: user_notice.rs:359. *)
Definition get_upgrade_gifter_login (e : event cow) : option str := match e with GiftPaidUpgrade x _ _ => Some (deref x) | _ => None end.
Definition get_upgrade_gifter_name (e : event cow) : option str := match e with GiftPaidUpgrade _ x _ => Some (deref x) | _ => None end.
Definition get_upgrade_promotion (e : event cow) : option (option (promo cow)) :=
  match e with GiftPaidUpgrade _ _ x => Some x | _ => None end.
Definition get_anon_upgrade_promotion (e : event cow) : option (option (promo cow)) :=
  match e with AnonGiftPaidUpgrade x => Some x | _ => None end.

(** [Ritual], [BitsBadgeTier], [Announcement]: user_notice.rs:380, 399, 422. *)
Definition get_ritual_name (e : event cow) : option str := match e with Ritual x => Some (deref x) | _ => None end.
Definition get_bits_badge_tier (e : event cow) : option N := match e with BitsBadgeTier x => Some x | _ => None end.
Definition get_announcement_highlight_color (e : event cow) : option str :=
  match e with Announcement x => Some (deref x) | _ => None end.

(** [SubGiftPromo]: user_notice.rs:437, 440. *)
Definition get_promo_total_gifts (p : promo cow) : N := pr_total_gifts p.
Definition get_promo_name (p : promo cow) : str := deref (pr_promo_name p).
