(** * Cmp: [==], the order and the hashes of the crate's types (model, no proofs).

    These are derived: [#[derive(PartialEq, PartialOrd, Ord, Hash)]] compares (or
    hashes) the fields in the order of their declaration; for an enum the variants
    (their positions in the declaration) come first.  [Message], [IrcMessageRef]
    and [IrcMessage] have no [==]. *)

From Verif Require Import Base Common Tags Irc Unescape MsgBase MsgTypes MsgNotice.

(** ** [==] *)

(** [PartialEq] of [str], [String] and [Cow<str>]: the bytes are compared, not
    who owns them. *)
Definition cow_eq (x y : cow) : bool := str_eqb (deref x) (deref y).

(** [PartialEq] of [Option<T>] and [Vec<T>]. *)
Definition opt_eq {A : Type} (e : A -> A -> bool) (x y : option A) : bool :=
  match x, y with
  | None, None => true
  | Some x, Some y => e x y
  | _, _ => false
  end.

Fixpoint list_eq {A : Type} (e : A -> A -> bool) (x y : list A) : bool :=
  match x, y with
  | [], [] => true
  | a :: x', c :: y' => e a c && list_eq e x' y'
  | _, _ => false
  end.

(** [BadgeData]: src/msg.rs:251-257. *)
Definition badge_data_eq (x y : badge_data cow) : bool :=
  cow_eq (bd_name x) (bd_name y) && cow_eq (bd_version x) (bd_version y) &&
  opt_eq cow_eq (bd_extra x) (bd_extra y).

(** [Subscriber]: src/msg.rs:214-223. *)
Definition subscriber_eq (x y : subscriber cow) : bool :=
  cow_eq (sb_version x) (sb_version y) && cow_eq (sb_months x) (sb_months y) &&
  N.eqb (sb_months_n x) (sb_months_n y).

(** [Badge]: src/msg.rs:111-137. *)
Definition badge_eq (x y : badge cow) : bool :=
  match x, y with
  | Staff, Staff | Turbo, Turbo | Broadcaster, Broadcaster | Moderator, Moderator => true
  | BSubscriber x, BSubscriber y => subscriber_eq x y
  | BOther x, BOther y => badge_data_eq x y
  | _, _ => false
  end.

(** [User]: src/msg.rs:291-297. *)
Definition user_eq (x y : user_info cow) : bool :=
  cow_eq (u_id x) (u_id y) && cow_eq (u_login x) (u_login y) && cow_eq (u_name x) (u_name y).

(** [Join]: src/msg/join.rs:8-13. *)
Definition join_eq (x y : join_msg cow) : bool :=
  cow_eq (j_channel x) (j_channel y) && cow_eq (j_user x) (j_user y).

(** [Part]: src/msg/part.rs:8-13. *)
Definition part_eq (x y : part_msg cow) : bool :=
  cow_eq (pt_channel x) (pt_channel y) && cow_eq (pt_user x) (pt_user y).

(** [Ping]: src/msg/ping.rs:22-26. *)
Definition ping_eq (x y : ping_msg cow) : bool :=
  opt_eq cow_eq (pi_nonce x) (pi_nonce y).

(** [Pong]: src/msg/pong.rs:20-24. *)
Definition pong_eq (x y : pong_msg cow) : bool :=
  opt_eq cow_eq (po_nonce x) (po_nonce y).

(** [Notice]: src/msg/notice.rs:10-18. *)
Definition notice_eq (x y : notice_msg cow) : bool :=
  opt_eq cow_eq (n_channel x) (n_channel y) && cow_eq (n_text x) (n_text y) &&
  opt_eq cow_eq (n_id x) (n_id y).

(** [ClearMsg]: src/msg/clear_msg.rs:9-26. *)
Definition clear_msg_eq (x y : clear_msg cow) : bool :=
  cow_eq (cm_channel x) (cm_channel y) && cow_eq (cm_channel_id x) (cm_channel_id y) &&
  cow_eq (cm_sender x) (cm_sender y) &&
  cow_eq (cm_target_message_id x) (cm_target_message_id y) && cow_eq (cm_text x) (cm_text y) &&
  Bool.eqb (cm_is_action x) (cm_is_action y) && Z.eqb (cm_timestamp x) (cm_timestamp y).

(** [Action], with [Ban] and [TimeOut]: src/msg/clear_chat.rs:56-73, 102-133. *)
Definition action_eq (x y : action cow) : bool :=
  match x, y with
  | Clear, Clear => true
  | Ban u i, Ban u' i' => cow_eq u u' && cow_eq i i'
  | TimeOut u i d, TimeOut u' i' d' => cow_eq u u' && cow_eq i i' && N.eqb d d'
  | _, _ => false
  end.

(** [ClearChat]: src/msg/clear_chat.rs:10-19. *)
Definition clear_chat_eq (x y : clear_chat cow) : bool :=
  cow_eq (cc_channel x) (cc_channel y) && cow_eq (cc_channel_id x) (cc_channel_id y) &&
  action_eq (cc_action x) (cc_action y) && Z.eqb (cc_timestamp x) (cc_timestamp y).

(** [GlobalUserState]: src/msg/global_user_state.rs:10-22. *)
Definition global_user_state_eq (x y : global_user_state cow) : bool :=
  cow_eq (gus_id x) (gus_id y) && cow_eq (gus_name x) (gus_name y) &&
  list_eq badge_eq (gus_badges x) (gus_badges y) &&
  list_eq cow_eq (gus_emote_sets x) (gus_emote_sets y) &&
  opt_eq cow_eq (gus_color x) (gus_color y).

(** [UserState]: src/msg/user_state.rs:18-29. *)
Definition user_state_eq (x y : user_state cow) : bool :=
  cow_eq (us_channel x) (us_channel y) && cow_eq (us_user_name x) (us_user_name y) &&
  list_eq badge_eq (us_badges x) (us_badges y) &&
  list_eq cow_eq (us_emote_sets x) (us_emote_sets y) && opt_eq cow_eq (us_color x) (us_color y).

(** [Whisper]: src/msg/whisper.rs:8-20. *)
Definition whisper_eq (x y : whisper_msg cow) : bool :=
  cow_eq (w_recipient x) (w_recipient y) && user_eq (w_sender x) (w_sender y) &&
  cow_eq (w_text x) (w_text y) && list_eq badge_eq (w_badges x) (w_badges y) &&
  cow_eq (w_emotes x) (w_emotes y) && opt_eq cow_eq (w_color x) (w_color y).

(** [FollowersOnly]: src/msg/room_state.rs:71-90. *)
Definition followers_only_eq (x y : followers_only) : bool :=
  match x, y with
  | Disabled, Disabled => true
  | Enabled d, Enabled d' => opt_eq N.eqb d d'
  | _, _ => false
  end.

(** [RoomState]: src/msg/room_state.rs:9-29. *)
Definition room_state_eq (x y : room_state cow) : bool :=
  cow_eq (rs_channel x) (rs_channel y) && cow_eq (rs_channel_id x) (rs_channel_id y) &&
  opt_eq Bool.eqb (rs_emote_only x) (rs_emote_only y) &&
  opt_eq followers_only_eq (rs_followers_only x) (rs_followers_only y) &&
  opt_eq Bool.eqb (rs_r9k x) (rs_r9k y) && opt_eq N.eqb (rs_slow x) (rs_slow y) &&
  opt_eq Bool.eqb (rs_subs_only x) (rs_subs_only y).

(** [PinnedChatLevel] ([repr(u8)], no fields: the discriminants are compared):
    src/msg/privmsg.rs:203-218. *)
Definition level_eq (x y : level) : bool := N.eqb (level_to_u8 x) (level_to_u8 y).

(** [Reply]: src/msg/privmsg.rs:129-148. *)
Definition reply_eq (x y : reply cow) : bool :=
  cow_eq (rp_thread_parent_message_id x) (rp_thread_parent_message_id y) &&
  cow_eq (rp_thread_parent_user_login x) (rp_thread_parent_user_login y) &&
  cow_eq (rp_message_id x) (rp_message_id y) && user_eq (rp_sender x) (rp_sender y) &&
  cow_eq (rp_text x) (rp_text y).

(** [PinnedChat]: src/msg/privmsg.rs:187-201. *)
Definition pinned_eq (x y : pinned_chat cow) : bool :=
  Z.eqb (pc_paid_amount x) (pc_paid_amount y) &&
  cow_eq (pc_paid_currency x) (pc_paid_currency y) &&
  Z.eqb (pc_paid_exponent x) (pc_paid_exponent y) &&
  level_eq (pc_paid_level x) (pc_paid_level y) &&
  Bool.eqb (pc_is_system_message x) (pc_is_system_message y).

(** [Privmsg]: src/msg/privmsg.rs:13-63. *)
Definition privmsg_eq (x y : privmsg cow) : bool :=
  cow_eq (pm_channel x) (pm_channel y) && cow_eq (pm_channel_id x) (pm_channel_id y) &&
  opt_eq cow_eq (pm_msg_id x) (pm_msg_id y) && cow_eq (pm_id x) (pm_id y) &&
  user_eq (pm_sender x) (pm_sender y) && opt_eq reply_eq (pm_reply_to x) (pm_reply_to y) &&
  opt_eq pinned_eq (pm_pinned_chat x) (pm_pinned_chat y) && cow_eq (pm_text x) (pm_text y) &&
  Bool.eqb (pm_is_action x) (pm_is_action y) && list_eq badge_eq (pm_badges x) (pm_badges y) &&
  opt_eq cow_eq (pm_color x) (pm_color y) &&
  opt_eq cow_eq (pm_custom_reward_id x) (pm_custom_reward_id y) &&
  opt_eq N.eqb (pm_bits x) (pm_bits y) && cow_eq (pm_emotes x) (pm_emotes y) &&
  Z.eqb (pm_timestamp x) (pm_timestamp y).

(** [SubGiftPromo]: src/msg/user_notice.rs:427-432. *)
Definition promo_eq (x y : promo cow) : bool :=
  N.eqb (pr_total_gifts x) (pr_total_gifts y) && cow_eq (pr_promo_name x) (pr_promo_name y).

(** [Event] with its payload structs: src/msg/user_notice.rs:117-173, 177-408. *)
Definition event_eq (x y : event cow) : bool :=
  match x, y with
  | SubOrResub r n s p q, SubOrResub r' n' s' p' q' =>
    Bool.eqb r r' && N.eqb n n' && opt_eq N.eqb s s' && cow_eq p p' && cow_eq q q'
  | Raid n u, Raid n' u' => N.eqb n n' && cow_eq u u'
  | SubGift n u p q g, SubGift n' u' p' q' g' =>
    N.eqb n n' && user_eq u u' && cow_eq p p' && cow_eq q q' && N.eqb g g'
  | SubMysteryGift n t p, SubMysteryGift n' t' p' => N.eqb n n' && N.eqb t t' && cow_eq p p'
  | AnonSubMysteryGift n p, AnonSubMysteryGift n' p' => N.eqb n n' && cow_eq p p'
  | GiftPaidUpgrade l n p, GiftPaidUpgrade l' n' p' => cow_eq l l' && cow_eq n n' && opt_eq promo_eq p p'
  | AnonGiftPaidUpgrade p, AnonGiftPaidUpgrade p' => opt_eq promo_eq p p'
  | Ritual n, Ritual n' => cow_eq n n'
  | BitsBadgeTier t, BitsBadgeTier t' => N.eqb t t'
  | Announcement c, Announcement c' => cow_eq c c'
  | UnknownEvent, UnknownEvent => true
  | _, _ => false
  end.

(** [UserNotice]: src/msg/user_notice.rs:14-51. *)
Definition user_notice_eq (x y : user_notice cow) : bool :=
  cow_eq (un_channel x) (un_channel y) && cow_eq (un_channel_id x) (un_channel_id y) &&
  opt_eq user_eq (un_sender x) (un_sender y) && opt_eq cow_eq (un_text x) (un_text y) &&
  opt_eq cow_eq (un_system_message x) (un_system_message y) &&
  event_eq (un_event x) (un_event y) && cow_eq (un_event_id x) (un_event_id y) &&
  list_eq badge_eq (un_badges x) (un_badges y) && cow_eq (un_emotes x) (un_emotes y) &&
  opt_eq cow_eq (un_color x) (un_color y) && cow_eq (un_message_id x) (un_message_id y) &&
  Z.eqb (un_timestamp x) (un_timestamp y).

(** [Prefix]: src/irc/prefix.rs:26-36. *)
Definition prefix_eq (x y : prefix) : bool :=
  opt_eq str_eqb (nick x) (nick y) && opt_eq str_eqb (user x) (user y) && str_eqb (host x) (host y).

(** [Span]: src/common.rs:8-12. *)
Definition span_eq (x y : span) : bool := (sp_start x =? sp_start y) && (sp_end x =? sp_end y).

(** ** Positions of the variants *)

(** [enum Command]: src/irc/command.rs:68-141. *)
Definition command_discriminant (c : command) : nat :=
  match c with
  | Ping => 0 | Pong => 1 | Join => 2 | Part => 3 | Privmsg => 4 | Whisper => 5 | ClearChat => 6
  | ClearMsg => 7 | GlobalUserState => 8 | Notice => 9 | Reconnect => 10 | RoomState => 11
  | UserNotice => 12 | UserState => 13 | Capability => 14 | RplWelcome => 15 | RplYourHost => 16
  | RplCreated => 17 | RplMyInfo => 18 | RplNames => 19 | RplEndOfNames => 20 | RplMotd => 21
  | RplMotdStart => 22 | RplEndOfMotd => 23
  | Other _ => 24
  end.

(** [enum Tag]: src/irc/tags.rs:12-20 with the table at 80-194. *)
Definition tag_discriminant (t : tag_name) : nat :=
  match t with
  | TMsgId => 0 | TBadges => 1 | TBadgeInfo => 2 | TDisplayName => 3 | TEmoteOnly => 4
  | TEmotes => 5 | TFlags => 6 | TId => 7 | TMod => 8 | TRoomId => 9 | TSubscriber => 10
  | TTmiSentTs => 11 | TTurbo => 12 | TUserId => 13 | TUserType => 14 | TClientNonce => 15
  | TFirstMsg => 16 | TReplyParentDisplayName => 17 | TReplyParentMsgBody => 18
  | TReplyParentMsgId => 19 | TReplyParentUserId => 20 | TReplyParentUserLogin => 21
  | TReplyThreadParentMsgId => 22 | TReplyThreadParentUserLogin => 23 | TFollowersOnly => 24
  | TR9K => 25 | TRituals => 26 | TSlow => 27 | TSubsOnly => 28 | TMsgParamCumulativeMonths => 29
  | TMsgParamDisplayName => 30 | TMsgParamLogin => 31 | TMsgParamMonths => 32
  | TMsgParamPromoGiftTotal => 33 | TMsgParamPromoName => 34
  | TMsgParamRecipientDisplayName => 35 | TMsgParamRecipientId => 36
  | TMsgParamRecipientUserName => 37 | TMsgParamSenderLogin => 38 | TMsgParamSenderName => 39
  | TMsgParamShouldShareStreak => 40 | TMsgParamStreakMonths => 41 | TMsgParamSubPlan => 42
  | TMsgParamSubPlanName => 43 | TMsgParamViewerCount => 44 | TMsgParamRitualName => 45
  | TMsgParamThreshold => 46 | TMsgParamGiftMonths => 47 | TMsgParamColor => 48 | TLogin => 49
  | TBits => 50 | TSystemMsg => 51 | TEmoteSets => 52 | TThreadId => 53 | TMessageId => 54
  | TReturningChatter => 55 | TColor => 56 | TVip => 57 | TTargetUserId => 58
  | TTargetMsgId => 59 | TBanDuration => 60 | TMsgParamMultimonthDuration => 61
  | TMsgParamWasGifted => 62 | TMsgParamMultimonthTenure => 63 | TSentTs => 64
  | TMsgParamOriginId => 65 | TMsgParamFunString => 66 | TMsgParamSenderCount => 67
  | TMsgParamProfileImageUrl => 68 | TMsgParamMassGiftCount => 69
  | TMsgParamGiftMonthBeingRedeemed => 70 | TMsgParamAnonGift => 71 | TCustomRewardId => 72
  | TPinnedChatPaidAmount => 73 | TPinnedChatPaidCanonicalAmount => 74
  | TPinnedChatPaidCurrency => 75 | TPinnedChatPaidExponent => 76 | TPinnedChatPaidLevel => 77
  | TPinnedChatPaidIsSystemMessage => 78
  | TUnknown _ => 79
  end.

(** [Command] and [Tag]: src/irc/command.rs:68, src/irc/tags.rs:12. *)
Definition command_eq (x y : command) : bool :=
  (command_discriminant x =? command_discriminant y) &&
  match x, y with
  | Other s, Other t => str_eqb s t
  | _, _ => true
  end.

Definition tag_eq (x y : tag_name) : bool :=
  (tag_discriminant x =? tag_discriminant y) &&
  match x, y with
  | TUnknown s, TUnknown t => str_eqb s t
  | _, _ => true
  end.

(** [ChannelRef] and [Channel]: src/common/channel.rs:5-7, 81-83. *)
Definition channel_ref_eq (x y : channel_ref) : bool := str_eqb (ref_as_str x) (ref_as_str y).
Definition channel_eq (x y : channel) : bool := str_eqb (chan_as_str x) (chan_as_str y).

(** ** The order *)

(** [Ord for str]: [memcmp] of the bytes of both up to the length of the shorter,
    then the lengths (core/src/str/traits.rs, core/src/slice/cmp.rs). *)
Fixpoint memcmp (x y : str) : comparison :=
  match x, y with
  | a :: x', c :: y' =>
    match N.compare (Byte.to_N a) (Byte.to_N c) with
    | Eq => memcmp x' y'
    | o => o
    end
  | _, _ => Eq
  end.

Definition str_cmp (x y : str) : comparison :=
  match memcmp x y with
  | Eq => Nat.compare (length x) (length y)
  | o => o
  end.

(** [Command] and [Tag]: src/irc/command.rs:68, src/irc/tags.rs:12. *)
Definition command_cmp (x y : command) : comparison :=
  match Nat.compare (command_discriminant x) (command_discriminant y) with
  | Eq => match x, y with
          | Other s, Other t => str_cmp s t
          | _, _ => Eq
          end
  | o => o
  end.

Definition tag_cmp (x y : tag_name) : comparison :=
  match Nat.compare (tag_discriminant x) (tag_discriminant y) with
  | Eq => match x, y with
          | TUnknown s, TUnknown t => str_cmp s t
          | _, _ => Eq
          end
  | o => o
  end.

(** [ChannelRef] and [Channel]: src/common/channel.rs:5-7, 81-83. *)
Definition channel_ref_cmp (x y : channel_ref) : comparison := str_cmp (ref_as_str x) (ref_as_str y).
Definition channel_cmp (x y : channel) : comparison := str_cmp (chan_as_str x) (chan_as_str y).

(** ** Hashes: the bytes that are given to the [Hasher] *)

(** [Hash for str] and [String]: [Hasher::write_str], which is [write] of the bytes and
    [write_u8(0xff)] unless the hasher replaces it (the default one does not). *)
Definition hash_str (s : str) : list byte := s ++ [xff].

(** The variant: [write_isize], 8 bytes on a 64-bit target, the lowest first.
    No enum here has more than 256 variants. *)
Definition hash_discriminant (n : nat) : list byte :=
  match Byte.of_N (N.of_nat n) with
  | Some x => x :: repeat x00 7
  | None => []
  end.

(** [Command] and [Tag]: src/irc/command.rs:68, src/irc/tags.rs:12. *)
Definition command_hash (c : command) : list byte :=
  hash_discriminant (command_discriminant c) ++
  match c with
  | Other s => hash_str s
  | _ => []
  end.

Definition tag_hash (t : tag_name) : list byte :=
  hash_discriminant (tag_discriminant t) ++
  match t with
  | TUnknown s => hash_str s
  | _ => []
  end.

(** [ChannelRef] and [Channel]: src/common/channel.rs:5-7, 81-83. *)
Definition channel_ref_hash (c : channel_ref) : list byte := hash_str (ref_as_str c).
Definition channel_hash (c : channel) : list byte := hash_str (chan_as_str c).
