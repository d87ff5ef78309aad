(** * MsgTypes: the message types of src/msg/*.rs except USERNOTICE (model, no proofs).

    In each [parse] the fields are evaluated in the order of the source. *)

From Verif Require Import Base Tags Irc Unescape MsgBase.

(** ** Join: src/msg/join.rs *)

Record join_msg (S : Type) := mk_join { j_channel : S; j_user : S }.
Arguments mk_join {S}. Arguments j_channel {S}. Arguments j_user {S}.

(** [Join::parse]: join.rs:29-41. *)
Definition join_parse (m : msg_ref) : res (option (join_msg cow)) :=
  let! c := ref_command m in
  match c with
  | Join =>
    let? channel := channel_into m in
    let? user := prefix_nick m in
    Ret (Some (mk_join channel user))
  | _ => Ret None
  end.

(** join.rs:44-49. *)
Definition join_into_owned (v : join_msg cow) : join_msg cow :=
  mk_join (maybe_clone (j_channel v)) (maybe_clone (j_user v)).

(** ** Part: src/msg/part.rs *)

Record part_msg (S : Type) := mk_part { pt_channel : S; pt_user : S }.
Arguments mk_part {S}. Arguments pt_channel {S}. Arguments pt_user {S}.

(** [Part::parse]: part.rs:29-41. *)
Definition part_parse (m : msg_ref) : res (option (part_msg cow)) :=
  let! c := ref_command m in
  match c with
  | Part =>
    let? channel := channel_into m in
    let? user := prefix_nick m in
    Ret (Some (mk_part channel user))
  | _ => Ret None
  end.

(** part.rs:44-49. *)
Definition part_into_owned (v : part_msg cow) : part_msg cow :=
  mk_part (maybe_clone (pt_channel v)) (maybe_clone (pt_user v)).

(** ** Ping and Pong: src/msg/ping.rs, src/msg/pong.rs *)

Record ping_msg (S : Type) := mk_ping { pi_nonce : option S }.
Arguments mk_ping {S}. Arguments pi_nonce {S}.

Record pong_msg (S : Type) := mk_pong { po_nonce : option S }.
Arguments mk_pong {S}. Arguments po_nonce {S}.

(** [Ping::parse]: ping.rs:37-45. *)
Definition ping_parse (m : msg_ref) : res (option (ping_msg cow)) :=
  let! c := ref_command m in
  match c with
  | Ping =>
    let! text := ref_text m in
    Ret (Some (mk_ping (option_map Borrowed text)))
  | _ => Ret None
  end.

(** ping.rs:48-52. *)
Definition ping_into_owned (v : ping_msg cow) : ping_msg cow :=
  mk_ping (option_map maybe_clone (pi_nonce v)).

(** [Pong::parse]: pong.rs:35-43. *)
Definition pong_parse (m : msg_ref) : res (option (pong_msg cow)) :=
  let! c := ref_command m in
  match c with
  | Pong =>
    let! text := ref_text m in
    Ret (Some (mk_pong (option_map Borrowed text)))
  | _ => Ret None
  end.

(** pong.rs:46-50. *)
Definition pong_into_owned (v : pong_msg cow) : pong_msg cow :=
  mk_pong (option_map maybe_clone (po_nonce v)).

(** ** Notice: src/msg/notice.rs *)

Record notice_msg (S : Type) := mk_notice
  { n_channel : option S; n_text : S; n_id : option S }.
Arguments mk_notice {S}. Arguments n_channel {S}. Arguments n_text {S}. Arguments n_id {S}.

(** [Notice::parse]: notice.rs:41-51. *)
Definition notice_parse (m : msg_ref) : res (option (notice_msg cow)) :=
  let! c := ref_command m in
  match c with
  | Notice =>
    let! channel := channel_into m in
    let? text := ref_text m in
    let! id := tag_borrowed m TMsgId in
    Ret (Some (mk_notice channel (Borrowed text) id))
  | _ => Ret None
  end.

(** notice.rs:54-60. *)
Definition notice_into_owned (v : notice_msg cow) : notice_msg cow :=
  mk_notice (option_map maybe_clone (n_channel v)) (maybe_clone (n_text v))
    (option_map maybe_clone (n_id v)).

(** ** ClearMsg: src/msg/clear_msg.rs *)

Record clear_msg (S : Type) := mk_clear_msg
  { cm_channel : S; cm_channel_id : S; cm_sender : S; cm_target_message_id : S;
    cm_text : S; cm_is_action : bool; cm_timestamp : Z }.
Arguments mk_clear_msg {S}. Arguments cm_channel {S}. Arguments cm_channel_id {S}.
Arguments cm_sender {S}. Arguments cm_target_message_id {S}. Arguments cm_text {S}.
Arguments cm_is_action {S}. Arguments cm_timestamp {S}.

(** [ClearMsg::parse]: clear_msg.rs:58-73. *)
Definition clear_msg_parse (m : msg_ref) : res (option (clear_msg cow)) :=
  let! c := ref_command m in
  match c with
  | ClearMsg =>
    let? text := ref_text m in
    let (text, is_action) := parse_message_text text in
    let? channel := channel_into m in
    let? channel_id := tag_into m TRoomId in
    let? sender := tag_into m TLogin in
    let? target := tag_into m TTargetMsgId in
    let? timestamp := tag_timestamp m in
    Ret (Some (mk_clear_msg channel channel_id sender target (Borrowed text) is_action timestamp))
  | _ => Ret None
  end.

(** clear_msg.rs:76-86. *)
Definition clear_msg_into_owned (v : clear_msg cow) : clear_msg cow :=
  mk_clear_msg (maybe_clone (cm_channel v)) (maybe_clone (cm_channel_id v))
    (maybe_clone (cm_sender v)) (maybe_clone (cm_target_message_id v))
    (maybe_clone (cm_text v)) (cm_is_action v) (cm_timestamp v).

(** ** ClearChat: src/msg/clear_chat.rs *)

(** [enum Action] with [Ban] and [TimeOut]: clear_chat.rs:62-73, 104-133. *)
Inductive action (S : Type) :=
| Clear
| Ban (user id : S)
| TimeOut (user id : S) (duration : duration).
Arguments Clear {S}. Arguments Ban {S}. Arguments TimeOut {S}.

Record clear_chat (S : Type) := mk_clear_chat
  { cc_channel : S; cc_channel_id : S; cc_action : action S; cc_timestamp : Z }.
Arguments mk_clear_chat {S}. Arguments cc_channel {S}. Arguments cc_channel_id {S}.
Arguments cc_action {S}. Arguments cc_timestamp {S}.

(** [ClearChat::target]: clear_chat.rs:46-52. *)
Definition clear_chat_target (v : clear_chat cow) : option str :=
  match cc_action v with
  | Clear => None
  | Ban user _ => Some (deref user)
  | TimeOut user _ _ => Some (deref user)
  end.

(** [is_clear], [is_ban], [is_time_out]: clear_chat.rs:80-98. *)
Definition is_clear {S : Type} (a : action S) : bool := match a with Clear => true | _ => false end.
Definition is_ban {S : Type} (a : action S) : bool := match a with Ban _ _ => true | _ => false end.
Definition is_time_out {S : Type} (a : action S) : bool := match a with TimeOut _ _ _ => true | _ => false end.

(** [ClearChat::parse]: clear_chat.rs:149-174. *)
Definition clear_chat_parse (m : msg_ref) : res (option (clear_chat cow)) :=
  let! c := ref_command m in
  match c with
  | ClearChat =>
    let? channel := channel_into m in
    let? channel_id := tag_into m TRoomId in
    let! text := ref_text m in
    let! dur := ref_tag m TBanDuration in
    let? action :=
      match text, opt_bind dur parse_duration with
      | Some name, Some d =>
        let? id := tag_into m TTargetUserId in
        Ret (Some (TimeOut (Borrowed name) id d))
      | Some name, None =>
        let? id := tag_into m TTargetUserId in
        Ret (Some (Ban (Borrowed name) id))
      | None, _ => Ret (Some Clear)
      end in
    let? timestamp := tag_timestamp m in
    Ret (Some (mk_clear_chat channel channel_id action timestamp))
  | _ => Ret None
  end.

(** [Action::into_owned]: clear_chat.rs:189-202. *)
Definition action_into_owned (a : action cow) : action cow :=
  match a with
  | Clear => Clear
  | Ban user id => Ban (maybe_clone user) (maybe_clone id)
  | TimeOut user id d => TimeOut (maybe_clone user) (maybe_clone id) d
  end.

(** clear_chat.rs:177-184. *)
Definition clear_chat_into_owned (v : clear_chat cow) : clear_chat cow :=
  mk_clear_chat (maybe_clone (cc_channel v)) (maybe_clone (cc_channel_id v))
    (action_into_owned (cc_action v)) (cc_timestamp v).

(** ** GlobalUserState: src/msg/global_user_state.rs *)

Record global_user_state (S : Type) := mk_gus
  { gus_id : S; gus_name : S; gus_badges : list (badge S); gus_emote_sets : list S;
    gus_color : option S }.
Arguments mk_gus {S}. Arguments gus_id {S}. Arguments gus_name {S}. Arguments gus_badges {S}.
Arguments gus_emote_sets {S}. Arguments gus_color {S}.

(** The getter [name]: global_user_state.rs:40. *)
Definition global_user_state_name (v : global_user_state cow) : res cow := maybe_unescape (gus_name v).

(** [GlobalUserState::parse]: global_user_state.rs:66-90. *)
Definition global_user_state_parse (m : msg_ref) : res (option (global_user_state cow)) :=
  let! c := ref_command m in
  match c with
  | GlobalUserState =>
    let? id := tag_into m TUserId in
    let? name := tag_into m TDisplayName in
    let! badges := tag_badges m in
    let! emote_sets := tag_emote_sets m in
    let! color := tag_non_empty m TColor in
    Ret (Some (mk_gus id name badges emote_sets color))
  | _ => Ret None
  end.

(** global_user_state.rs:93-101. *)
Definition global_user_state_into_owned (v : global_user_state cow) : global_user_state cow :=
  mk_gus (maybe_clone (gus_id v)) (maybe_clone (gus_name v)) (map badge_into_owned (gus_badges v))
    (map maybe_clone (gus_emote_sets v)) (option_map maybe_clone (gus_color v)).

(** ** UserState: src/msg/user_state.rs *)

Record user_state (S : Type) := mk_user_state
  { us_channel : S; us_user_name : S; us_badges : list (badge S); us_emote_sets : list S;
    us_color : option S }.
Arguments mk_user_state {S}. Arguments us_channel {S}. Arguments us_user_name {S}.
Arguments us_badges {S}. Arguments us_emote_sets {S}. Arguments us_color {S}.

(** [UserState::parse]: user_state.rs:69-93. *)
Definition user_state_parse (m : msg_ref) : res (option (user_state cow)) :=
  let! c := ref_command m in
  match c with
  | UserState =>
    let? channel := channel_into m in
    let? name := tag_into m TDisplayName in
    let! badges := tag_badges m in
    let! emote_sets := tag_emote_sets m in
    let! color := tag_non_empty m TColor in
    Ret (Some (mk_user_state channel name badges emote_sets color))
  | _ => Ret None
  end.

(** user_state.rs:96-104. *)
Definition user_state_into_owned (v : user_state cow) : user_state cow :=
  mk_user_state (maybe_clone (us_channel v)) (maybe_clone (us_user_name v))
    (map badge_into_owned (us_badges v)) (map maybe_clone (us_emote_sets v))
    (option_map maybe_clone (us_color v)).

(** ** Whisper: src/msg/whisper.rs *)

Record whisper_msg (S : Type) := mk_whisper
  { w_recipient : S; w_sender : user_info S; w_text : S; w_badges : list (badge S);
    w_emotes : S; w_color : option S }.
Arguments mk_whisper {S}. Arguments w_recipient {S}. Arguments w_sender {S}. Arguments w_text {S}.
Arguments w_badges {S}. Arguments w_emotes {S}. Arguments w_color {S}.

(** [Whisper::parse]: whisper.rs:65-91. *)
Definition whisper_parse (m : msg_ref) : res (option (whisper_msg cow)) :=
  let! c := ref_command m in
  match c with
  | Whisper =>
    let? params := ref_params m in
    let? (recipient, text) := Ret (split_once (b " :") params) in
    let? id := tag_into m TUserId in
    let? login := prefix_nick m in
    let? name := tag_into m TDisplayName in
    let! color := tag_non_empty m TColor in
    let! badges := tag_badges m in
    let! emotes := tag_emotes m in
    Ret (Some (mk_whisper (Borrowed recipient) (mk_user id login name) (Borrowed text) badges emotes color))
  | _ => Ret None
  end.

(** whisper.rs:94-103. *)
Definition whisper_into_owned (v : whisper_msg cow) : whisper_msg cow :=
  mk_whisper (maybe_clone (w_recipient v)) (user_into_owned (w_sender v)) (maybe_clone (w_text v))
    (map badge_into_owned (w_badges v)) (maybe_clone (w_emotes v)) (option_map maybe_clone (w_color v)).

(** ** RoomState: src/msg/room_state.rs *)

(** [enum FollowersOnly]: room_state.rs:77-90. *)
Inductive followers_only :=
| Disabled
| Enabled (min : option duration).

Record room_state (S : Type) := mk_room_state
  { rs_channel : S; rs_channel_id : S; rs_emote_only : option bool;
    rs_followers_only : option followers_only; rs_r9k : option bool;
    rs_slow : option duration; rs_subs_only : option bool }.
Arguments mk_room_state {S}. Arguments rs_channel {S}. Arguments rs_channel_id {S}.
Arguments rs_emote_only {S}. Arguments rs_followers_only {S}. Arguments rs_r9k {S}.
Arguments rs_slow {S}. Arguments rs_subs_only {S}.

(** Whether arithmetic overflow panics (debug) or wraps (release). *)
Inductive profile := Debug | Release.

(** [n * 60] at type [i64]. *)
Definition i64_mul (pf : profile) (x y : Z) : res Z :=
  let r := (x * y)%Z in
  if ((i64_min <=? r) && (r <=? i64_max))%Z then Ret r
  else match pf with
       | Debug => Panic
       | Release => Ret ((r - i64_min) mod 18446744073709551616 + i64_min)%Z
       end.

(** [n as u64]. *)
Definition as_u64 (n : Z) : N := Z.to_N (n mod 18446744073709551616)%Z.

(** The closure at room_state.rs:105-109. *)
Definition followers_only_from (pf : profile) (n : Z) : res followers_only :=
  if (0 <? n)%Z then
    let! secs := i64_mul pf n 60 in
    Ret (Enabled (Some (as_u64 secs)))
  else if (n =? 0)%Z then Ret (Enabled None)
  else Ret Disabled.

(** [RoomState::parse]: room_state.rs:93-117. *)
Definition room_state_parse (pf : profile) (m : msg_ref) : res (option (room_state cow)) :=
  let! c := ref_command m in
  match c with
  | RoomState =>
    let? channel := channel_into m in
    let? channel_id := tag_into m TRoomId in
    let! emote_only := ref_tag m TEmoteOnly in
    let! followers := ref_tag m TFollowersOnly in
    let! followers :=
      match opt_bind followers parse_i64 with
      | Some n => rmap Some (followers_only_from pf n)
      | None => Ret None
      end in
    let! r9k := ref_tag m TR9K in
    let! slow := tag_u64 m TSlow in
    let! subs_only := ref_tag m TSubsOnly in
    Ret (Some (mk_room_state channel channel_id (option_map parse_bool emote_only) followers
                 (option_map parse_bool r9k) slow (option_map parse_bool subs_only)))
  | _ => Ret None
  end.

(** room_state.rs:120-130. *)
Definition room_state_into_owned (v : room_state cow) : room_state cow :=
  mk_room_state (maybe_clone (rs_channel v)) (maybe_clone (rs_channel_id v)) (rs_emote_only v)
    (rs_followers_only v) (rs_r9k v) (rs_slow v) (rs_subs_only v).

(** ** Privmsg: src/msg/privmsg.rs *)

(** [enum PinnedChatLevel]: privmsg.rs:206-217. *)
Inductive level := ONE | TWO | THREE | FOUR | FIVE | SIX | SEVEN | EIGHT | NINE | TEN.

(** [PinnedChatLevel::as_str]: privmsg.rs:223-236. *)
Definition level_as_str (l : level) : str :=
  match l with
  | ONE => b "ONE" | TWO => b "TWO" | THREE => b "THREE" | FOUR => b "FOUR" | FIVE => b "FIVE"
  | SIX => b "SIX" | SEVEN => b "SEVEN" | EIGHT => b "EIGHT" | NINE => b "NINE" | TEN => b "TEN"
  end.

(** [From<PinnedChatLevel> for u8]: privmsg.rs:239-243 ([repr(u8)], discriminants
    from 0). *)
Definition level_to_u8 (l : level) : N :=
  match l with
  | ONE => 0 | TWO => 1 | THREE => 2 | FOUR => 3 | FIVE => 4
  | SIX => 5 | SEVEN => 6 | EIGHT => 7 | NINE => 8 | TEN => 9
  end.

(** [transmute::<u8, PinnedChatLevel>]: undefined for other discriminants. *)
Definition level_transmute (n : N) : res level :=
  match n with
  | 0 => Ret ONE | 1 => Ret TWO | 2 => Ret THREE | 3 => Ret FOUR | 4 => Ret FIVE
  | 5 => Ret SIX | 6 => Ret SEVEN | 7 => Ret EIGHT | 8 => Ret NINE | 9 => Ret TEN
  | _ => Ub
  end%N.

(** [TryFrom<u8>]: privmsg.rs:245-255, with [MIN]/[MAX] of 220-221. *)
Definition level_try_from (n : N) : res (option level) :=
  if ((n <? level_to_u8 ONE) || (level_to_u8 TEN <? n))%N then Ret None
  else rmap Some (level_transmute n).

(** [FromStr]: privmsg.rs:257-275. *)
Definition level_from_str (s : str) : option level :=
  if str_eqb s (b "ONE") then Some ONE
  else if str_eqb s (b "TWO") then Some TWO
  else if str_eqb s (b "THREE") then Some THREE
  else if str_eqb s (b "FOUR") then Some FOUR
  else if str_eqb s (b "FIVE") then Some FIVE
  else if str_eqb s (b "SIX") then Some SIX
  else if str_eqb s (b "SEVEN") then Some SEVEN
  else if str_eqb s (b "EIGHT") then Some EIGHT
  else if str_eqb s (b "NINE") then Some NINE
  else if str_eqb s (b "TEN") then Some TEN
  else None.

(** [struct Reply]: privmsg.rs:131-146. *)
Record reply (S : Type) := mk_reply
  { rp_thread_parent_message_id : S; rp_thread_parent_user_login : S; rp_message_id : S;
    rp_sender : user_info S; rp_text : S }.
Arguments mk_reply {S}. Arguments rp_thread_parent_message_id {S}.
Arguments rp_thread_parent_user_login {S}. Arguments rp_message_id {S}. Arguments rp_sender {S}.
Arguments rp_text {S}.

(** The getter [Reply::text]: privmsg.rs:173. *)
Definition reply_text (r : reply cow) : res cow := maybe_unescape (rp_text r).

(** [struct PinnedChat]: privmsg.rs:189-200. *)
Record pinned_chat (S : Type) := mk_pinned
  { pc_paid_amount : Z; pc_paid_currency : S; pc_paid_exponent : Z; pc_paid_level : level;
    pc_is_system_message : bool }.
Arguments mk_pinned {S}. Arguments pc_paid_amount {S}. Arguments pc_paid_currency {S}.
Arguments pc_paid_exponent {S}. Arguments pc_paid_level {S}. Arguments pc_is_system_message {S}.

(** [struct Privmsg]: privmsg.rs:15-56. *)
Record privmsg (S : Type) := mk_privmsg
  { pm_channel : S; pm_channel_id : S; pm_msg_id : option S; pm_id : S; pm_sender : user_info S;
    pm_reply_to : option (reply S); pm_pinned_chat : option (pinned_chat S); pm_text : S;
    pm_is_action : bool; pm_badges : list (badge S); pm_color : option S;
    pm_custom_reward_id : option S; pm_bits : option N; pm_emotes : S; pm_timestamp : Z }.
Arguments mk_privmsg {S}. Arguments pm_channel {S}. Arguments pm_channel_id {S}.
Arguments pm_msg_id {S}. Arguments pm_id {S}. Arguments pm_sender {S}. Arguments pm_reply_to {S}.
Arguments pm_pinned_chat {S}. Arguments pm_text {S}. Arguments pm_is_action {S}.
Arguments pm_badges {S}. Arguments pm_color {S}. Arguments pm_custom_reward_id {S}.
Arguments pm_bits {S}. Arguments pm_emotes {S}. Arguments pm_timestamp {S}.

(** privmsg.rs:359-371. *)
Definition privmsg_reply_to (m : msg_ref) : res (option (reply cow)) :=
  let? message_id := tag_into m TReplyParentMsgId in
  let? thread_id := tag_into m TReplyThreadParentMsgId in
  let? thread_login := tag_into m TReplyThreadParentUserLogin in
  let? id := tag_into m TReplyParentUserId in
  let? login := tag_into m TReplyParentUserLogin in
  let? name := tag_into m TReplyParentDisplayName in
  let? text := tag_into m TReplyParentMsgBody in
  Ret (Some (mk_reply thread_id thread_login message_id (mk_user id login name) text)).

(** privmsg.rs:372-385. *)
Definition privmsg_pinned_chat (m : msg_ref) : res (option (pinned_chat cow)) :=
  let? amount := ref_tag m TPinnedChatPaidAmount in
  let? amount := Ret (parse_i64 amount) in
  let? currency := tag_into m TPinnedChatPaidCurrency in
  let? exponent := ref_tag m TPinnedChatPaidExponent in
  let? exponent := Ret (parse_i64 exponent) in
  let? lv := ref_tag m TPinnedChatPaidLevel in
  let? lv := Ret (level_from_str lv) in
  let? sys := ref_tag m TPinnedChatPaidIsSystemMessage in
  Ret (Some (mk_pinned amount currency exponent lv (parse_bool sys))).

(** [Privmsg::parse]: privmsg.rs:341-421. *)
Definition privmsg_parse (m : msg_ref) : res (option (privmsg cow)) :=
  let! c := ref_command m in
  match c with
  | Privmsg =>
    let? text := ref_text m in
    let (text, is_action) := parse_message_text text in
    let? channel := channel_into m in
    let? channel_id := tag_into m TRoomId in
    let! msg_id := tag_borrowed m TMsgId in
    let? id := tag_into m TId in
    let? user_id := tag_into m TUserId in
    let? login := prefix_nick m in
    let? name := tag_into m TDisplayName in
    let! reply_to := privmsg_reply_to m in
    let! pinned := privmsg_pinned_chat m in
    let! badges := tag_badges m in
    let! color := tag_non_empty m TColor in
    let! custom_reward_id := tag_non_empty m TCustomRewardId in
    let! bits := tag_u64 m TBits in
    let! emotes := tag_emotes m in
    let? timestamp := tag_timestamp m in
    Ret (Some (mk_privmsg channel channel_id msg_id id (mk_user user_id login name) reply_to pinned
                 (Borrowed text) is_action badges color custom_reward_id bits emotes timestamp))
  | _ => Ret None
  end.

(** [Reply::into_owned]: privmsg.rs:447-455. *)
Definition reply_into_owned (v : reply cow) : reply cow :=
  mk_reply (maybe_clone (rp_thread_parent_message_id v)) (maybe_clone (rp_thread_parent_user_login v))
    (maybe_clone (rp_message_id v)) (user_into_owned (rp_sender v)) (maybe_clone (rp_text v)).

(** [PinnedChat::into_owned]: privmsg.rs:460-468. *)
Definition pinned_into_owned (v : pinned_chat cow) : pinned_chat cow :=
  mk_pinned (pc_paid_amount v) (maybe_clone (pc_paid_currency v)) (pc_paid_exponent v)
    (pc_paid_level v) (pc_is_system_message v).

(** [Privmsg::into_owned]: privmsg.rs:424-442. *)
Definition privmsg_into_owned (v : privmsg cow) : privmsg cow :=
  mk_privmsg (maybe_clone (pm_channel v)) (maybe_clone (pm_channel_id v))
    (option_map maybe_clone (pm_msg_id v)) (maybe_clone (pm_id v)) (user_into_owned (pm_sender v))
    (option_map reply_into_owned (pm_reply_to v)) (option_map pinned_into_owned (pm_pinned_chat v))
    (maybe_clone (pm_text v)) (pm_is_action v) (map badge_into_owned (pm_badges v))
    (option_map maybe_clone (pm_color v)) (option_map maybe_clone (pm_custom_reward_id v))
    (pm_bits v) (maybe_clone (pm_emotes v)) (pm_timestamp v).
