(** * MsgNotice: src/msg/user_notice.rs (model, no proofs). *)

From Verif Require Import Base Tags Irc Unescape MsgBase.

(** [struct SubGiftPromo]: user_notice.rs:429-432. *)
Record promo (S : Type) := mk_promo { pr_total_gifts : N; pr_promo_name : S }.
Arguments mk_promo {S}. Arguments pr_total_gifts {S}. Arguments pr_promo_name {S}.

(** [enum Event] with its payload structs: user_notice.rs:123-173, 179-408. *)
Inductive event (S : Type) :=
| SubOrResub (is_resub : bool) (cumulative_months : N) (streak_months : option N)
    (sub_plan sub_plan_name : S)
| Raid (viewer_count : N) (profile_image_url : S)
| SubGift (cumulative_months : N) (recipient : user_info S) (sub_plan sub_plan_name : S)
    (num_gifted_months : N)
| SubMysteryGift (count sender_total_gifts : N) (sub_plan : S)
| AnonSubMysteryGift (count : N) (sub_plan : S)
| GiftPaidUpgrade (gifter_login gifter_name : S) (promotion : option (promo S))
| AnonGiftPaidUpgrade (promotion : option (promo S))
| Ritual (name : S)
| BitsBadgeTier (tier : N)
| Announcement (highlight_color : S)
| UnknownEvent.
Arguments SubOrResub {S}. Arguments Raid {S}. Arguments SubGift {S}. Arguments SubMysteryGift {S}.
Arguments AnonSubMysteryGift {S}. Arguments GiftPaidUpgrade {S}. Arguments AnonGiftPaidUpgrade {S}.
Arguments Ritual {S}. Arguments BitsBadgeTier {S}. Arguments Announcement {S}.
Arguments UnknownEvent {S}.

(** [struct UserNotice]: user_notice.rs:16-51. *)
Record user_notice (S : Type) := mk_user_notice
  { un_channel : S; un_channel_id : S; un_sender : option (user_info S); un_text : option S;
    un_system_message : option S; un_event : event S; un_event_id : S; un_badges : list (badge S);
    un_emotes : S; un_color : option S; un_message_id : S; un_timestamp : Z }.
Arguments mk_user_notice {S}. Arguments un_channel {S}. Arguments un_channel_id {S}.
Arguments un_sender {S}. Arguments un_text {S}. Arguments un_system_message {S}.
Arguments un_event {S}. Arguments un_event_id {S}. Arguments un_badges {S}. Arguments un_emotes {S}.
Arguments un_color {S}. Arguments un_message_id {S}. Arguments un_timestamp {S}.

(** The getter [system_message]: user_notice.rs:76. *)
Definition user_notice_system_message (v : user_notice cow) : res (option cow) :=
  match un_system_message v with
  | Some x => rmap Some (maybe_unescape x)
  | None => Ret None
  end.

(** The getters [SubOrResub::sub_plan_name] and [SubGift::sub_plan_name]:
    user_notice.rs:211, 269. *)
Definition event_sub_plan_name (e : event cow) : option (res cow) :=
  match e with
  | SubOrResub _ _ _ _ plan_name => Some (maybe_unescape plan_name)
  | SubGift _ _ _ plan_name _ => Some (maybe_unescape plan_name)
  | _ => None
  end.

(** [parse_promotion]: user_notice.rs:444-457. *)
Definition parse_promotion (m : msg_ref) : res (option (promo cow)) :=
  let! total := tag_u64 m TMsgParamPromoGiftTotal in
  let! name := ref_tag m TMsgParamPromoName in
  Ret (match total, name with
       | Some n, Some p => Some (mk_promo n (Borrowed p))
       | _, _ => None
       end).

(** [AN_ANONYMOUS_GIFTER]: user_notice.rs:461, compared with [sender_id]. *)
Definition is_anonymous_gifter (sender_id : option str) : bool :=
  match sender_id with
  | Some s => str_eqb s (b "274598607")
  | None => false
  end.

(** user_notice.rs:472-486. *)
Definition event_sub (m : msg_ref) (event_id : str) : res (option (event cow)) :=
  let? months := tag_u64 m TMsgParamCumulativeMonths in
  let! streak := tag_u64 m TMsgParamStreakMonths in
  let? plan := tag_into m TMsgParamSubPlan in
  let? plan_name := tag_into m TMsgParamSubPlanName in
  Ret (Some (SubOrResub (str_eqb event_id (b "resub")) months
               (opt_bind streak (fun n => if (0 <? n)%N then Some n else None)) plan plan_name)).

(** user_notice.rs:487-495. *)
Definition event_raid (m : msg_ref) : res (option (event cow)) :=
  let? n := tag_u64 m TMsgParamViewerCount in
  let? url := tag_into m TMsgParamProfileImageUrl in
  Ret (Some (Raid n url)).

(** user_notice.rs:496-513. *)
Definition event_sub_gift (m : msg_ref) : res (option (event cow)) :=
  let? months := tag_u64 m TMsgParamMonths in
  let? id := tag_into m TMsgParamRecipientId in
  let? login := tag_into m TMsgParamRecipientUserName in
  let? name := tag_into m TMsgParamRecipientDisplayName in
  let? plan := tag_into m TMsgParamSubPlan in
  let? plan_name := tag_into m TMsgParamSubPlanName in
  let? gifted := tag_u64 m TMsgParamGiftMonths in
  Ret (Some (SubGift months (mk_user id login name) plan plan_name gifted)).

(** user_notice.rs:514-531 (twice the same code). *)
Definition event_anon_sub_mystery_gift (m : msg_ref) : res (option (event cow)) :=
  let? n := tag_u64 m TMsgParamMassGiftCount in
  let? plan := tag_into m TMsgParamSubPlan in
  Ret (Some (AnonSubMysteryGift n plan)).

(** user_notice.rs:532-543. *)
Definition event_sub_mystery_gift (m : msg_ref) : res (option (event cow)) :=
  let? n := tag_u64 m TMsgParamMassGiftCount in
  let? total := tag_u64 m TMsgParamSenderCount in
  let? plan := tag_into m TMsgParamSubPlan in
  Ret (Some (SubMysteryGift n total plan)).

(** user_notice.rs:544-551. *)
Definition event_gift_paid_upgrade (m : msg_ref) : res (option (event cow)) :=
  let? login := tag_into m TMsgParamSenderLogin in
  let? name := tag_into m TMsgParamSenderName in
  let! promotion := parse_promotion m in
  Ret (Some (GiftPaidUpgrade login name promotion)).

(** user_notice.rs:552-557. *)
Definition event_anon_gift_paid_upgrade (m : msg_ref) : res (option (event cow)) :=
  let! promotion := parse_promotion m in
  Ret (Some (AnonGiftPaidUpgrade promotion)).

(** user_notice.rs:558-563. *)
Definition event_ritual (m : msg_ref) : res (option (event cow)) :=
  let? name := tag_into m TMsgParamRitualName in
  Ret (Some (Ritual name)).

(** user_notice.rs:564-571. *)
Definition event_bits_badge_tier (m : msg_ref) : res (option (event cow)) :=
  let? tier := tag_u64 m TMsgParamThreshold in
  Ret (Some (BitsBadgeTier tier)).

(** user_notice.rs:572-577. *)
Definition event_announcement (m : msg_ref) : res (option (event cow)) :=
  let! color := ref_tag m TMsgParamColor in
  Ret (Some (Announcement (Borrowed (opt_default (b "PRIMARY") color)))).

(** The [match event_id] at user_notice.rs:471-579: the event and [is_anon]. *)
Definition parse_event (m : msg_ref) (sender_id : option str) (event_id : str)
  : res (option (event cow * bool)) :=
  let is (s : str) := str_eqb event_id s in
  if is (b "sub") || is (b "resub") then
    let? e := event_sub m event_id in Ret (Some (e, false))
  else if is (b "raid") then
    let? e := event_raid m in Ret (Some (e, false))
  else if is (b "subgift") || is (b "anonsubgift") then
    let? e := event_sub_gift m in
    Ret (Some (e, is (b "anonsubgift") || is_anonymous_gifter sender_id))
  else if is (b "anonsubmysterygift") then
    let? e := event_anon_sub_mystery_gift m in Ret (Some (e, true))
  else if is (b "submysterygift") && is_anonymous_gifter sender_id then
    let? e := event_anon_sub_mystery_gift m in Ret (Some (e, true))
  else if is (b "submysterygift") then
    let? e := event_sub_mystery_gift m in Ret (Some (e, false))
  else if is (b "giftpaidupgrade") then
    let? e := event_gift_paid_upgrade m in Ret (Some (e, false))
  else if is (b "anongiftpaidupgrade") then
    let? e := event_anon_gift_paid_upgrade m in Ret (Some (e, true))
  else if is (b "ritual") then
    let? e := event_ritual m in Ret (Some (e, false))
  else if is (b "bitsbadgetier") then
    let? e := event_bits_badge_tier m in Ret (Some (e, false))
  else if is (b "announcement") then
    let? e := event_announcement m in Ret (Some (e, false))
  else Ret (Some (UnknownEvent, true)).

(** user_notice.rs:581-589. *)
Definition parse_sender (m : msg_ref) (is_anon : bool) : res (option (option (user_info cow))) :=
  if negb is_anon then
    let? id := tag_into m TUserId in
    let? login := tag_into m TLogin in
    let? name := tag_into m TDisplayName in
    Ret (Some (Some (mk_user id login name)))
  else Ret (Some None).

(** [UserNotice::parse]: user_notice.rs:464-615. *)
Definition user_notice_parse (m : msg_ref) : res (option (user_notice cow)) :=
  let! c := ref_command m in
  match c with
  | UserNotice =>
    let! sender_id := ref_tag m TUserId in
    let? event_id := ref_tag m TMsgId in
    let? (ev, is_anon) := parse_event m sender_id event_id in
    let? sender := parse_sender m is_anon in
    let? channel := channel_into m in
    let? channel_id := tag_into m TRoomId in
    let! text := ref_text m in
    let! system_message := tag_non_empty m TSystemMsg in
    let! badges := tag_badges m in
    let! emotes := tag_emotes m in
    let! color := tag_non_empty m TColor in
    let? message_id := tag_into m TId in
    let? timestamp := tag_timestamp m in
    Ret (Some (mk_user_notice channel channel_id sender (option_map Borrowed text) system_message
                 ev (Borrowed event_id) badges emotes color message_id timestamp))
  | _ => Ret None
  end.

(** [SubGiftPromo::into_owned]: user_notice.rs:689-694. *)
Definition promo_into_owned (v : promo cow) : promo cow :=
  mk_promo (pr_total_gifts v) (maybe_clone (pr_promo_name v)).

(** [Event::into_owned]: user_notice.rs:638-684. *)
Definition event_into_owned (e : event cow) : event cow :=
  match e with
  | SubOrResub r n s p pn => SubOrResub r n s (maybe_clone p) (maybe_clone pn)
  | Raid n u => Raid n (maybe_clone u)
  | SubGift n u p pn g => SubGift n (user_into_owned u) (maybe_clone p) (maybe_clone pn) g
  | SubMysteryGift n t p => SubMysteryGift n t (maybe_clone p)
  | AnonSubMysteryGift n p => AnonSubMysteryGift n (maybe_clone p)
  | GiftPaidUpgrade l n p => GiftPaidUpgrade (maybe_clone l) (maybe_clone n) (option_map promo_into_owned p)
  | AnonGiftPaidUpgrade p => AnonGiftPaidUpgrade (option_map promo_into_owned p)
  | Ritual n => Ritual (maybe_clone n)
  | BitsBadgeTier t => BitsBadgeTier t
  | Announcement c => Announcement (maybe_clone c)
  | UnknownEvent => UnknownEvent
  end.

(** [UserNotice::into_owned]: user_notice.rs:618-633. *)
Definition user_notice_into_owned (v : user_notice cow) : user_notice cow :=
  mk_user_notice (maybe_clone (un_channel v)) (maybe_clone (un_channel_id v))
    (option_map user_into_owned (un_sender v)) (option_map maybe_clone (un_text v))
    (option_map maybe_clone (un_system_message v)) (event_into_owned (un_event v))
    (maybe_clone (un_event_id v)) (map badge_into_owned (un_badges v)) (maybe_clone (un_emotes v))
    (option_map maybe_clone (un_color v)) (maybe_clone (un_message_id v)) (un_timestamp v).
