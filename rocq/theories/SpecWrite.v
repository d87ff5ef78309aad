(** * SpecWrite: how a typed message can be written as a line.

    For every typed message, given by its plain strings, a line that says it: a
    table of tags, a prefix, the command word, the channel and the params.  The
    text of the line is the one of [render] (SpecIrc).  [able] are the conditions
    on the values that no line can break; nothing here comes from the parsers. *)

From Verif Require Import Base Client Tags Irc SpecIrc MsgBase MsgTypes MsgNotice Message SpecMsg.

(** ** The contents of the fourteen kinds of typed messages *)

Inductive content :=
| KClearChat (x : clear_chat str)
| KClearMsg (x : clear_msg str)
| KGlobalUserState (x : global_user_state str)
| KJoin (x : join_msg str)
| KNotice (x : notice_msg str)
| KPart (x : part_msg str)
| KPing (x : ping_msg str)
| KPong (x : pong_msg str)
| KPrivmsg (x : privmsg str)
| KReconnect
| KRoomState (x : room_state str)
| KUserNotice (x : user_notice str)
| KUserState (x : user_state str)
| KWhisper (x : whisper_msg str).

(** The typed message with these strings, all borrowed. *)
Definition typed_of (c : content) : typed :=
  match c with
  | KClearChat x => MClearChat (clear_chat_map Borrowed x)
  | KClearMsg x => MClearMsg (clear_msg_map Borrowed x)
  | KGlobalUserState x => MGlobalUserState (global_user_state_map Borrowed x)
  | KJoin x => MJoin (join_map Borrowed x)
  | KNotice x => MNotice (notice_map Borrowed x)
  | KPart x => MPart (part_map Borrowed x)
  | KPing x => MPing (ping_map Borrowed x)
  | KPong x => MPong (pong_map Borrowed x)
  | KPrivmsg x => MPrivmsg (privmsg_map Borrowed x)
  | KReconnect => MReconnect
  | KRoomState x => MRoomState (room_state_map Borrowed x)
  | KUserNotice x => MUserNotice (user_notice_map Borrowed x)
  | KUserState x => MUserState (user_state_map Borrowed x)
  | KWhisper x => MWhisper (whisper_map Borrowed x)
  end.

(** ** Tags *)

(** Names with the values of the tags that are there. *)
Definition table := list (string * option str).

Definition written (t : table) : list (str * str) :=
  flat_map (fun r => match snd r with Some x => [(b (fst r), x)] | None => [] end) t.

Definition write_Z (z : Z) : str :=
  if (z <? 0)%Z then b "-" ++ show_N (Z.to_N (- z)) else show_N (Z.to_N z).

Definition write_flag (f : bool) : str := if f then b "1" else b "0".

Definition write_action (text : str) (is_action : bool) : str :=
  if is_action then [x01] ++ b "ACTION " ++ text ++ [x01] else text.

Definition write_list (ws : list str) : option str :=
  match ws with [] => None | _ => Some (join_by "," ws) end.

Definition badge_name (x : badge str) : str :=
  match x with
  | Staff => b "staff" | Turbo => b "turbo" | Broadcaster => b "broadcaster"
  | Moderator => b "moderator" | BSubscriber _ => b "subscriber" | BOther d => bd_name d
  end.

Definition badge_version (x : badge str) : str :=
  match x with BSubscriber s => sb_version s | BOther d => bd_version d | _ => b "1" end.

Definition badge_extra (x : badge str) : option str :=
  match x with BSubscriber s => Some (sb_months s) | BOther d => bd_extra d | _ => None end.

Definition badge_item (x : badge str) : str := badge_name x ++ b "/" ++ badge_version x.

Definition info_items (l : list (badge str)) : list str :=
  flat_map (fun x => match badge_extra x with Some e => [badge_name x ++ b "/" ++ e] | None => [] end) l.

Definition badge_rows (l : list (badge str)) : table :=
  [("badges"%string, write_list (map badge_item l));
   ("badge-info"%string, match l with [] => None | _ => Some (join_by "," (info_items l)) end)].

(** ** Lines *)

Definition server : option sender := Some (SHost (b "tmi.twitch.tv")).
Definition from (nick : str) : option sender := Some (SFull nick (b "user") (b "tmi.twitch.tv")).
Definition after_colon (t : str) : option str := Some (b ":" ++ t).

Definition line_with (t : table) (s : option sender) (w : str) (ch ps : option str) : message :=
  mk_message (written t) s w ch ps.

Open Scope string_scope.
Open Scope list_scope.

Definition reply_rows (o : option (reply str)) : table :=
  let f {A : Type} (g : reply str -> A) := option_map g o in
  [ ("reply-thread-parent-msg-id", f rp_thread_parent_message_id);
    ("reply-thread-parent-user-login", f rp_thread_parent_user_login);
    ("reply-parent-msg-id", f rp_message_id);
    ("reply-parent-user-id", f (fun r => u_id (rp_sender r)));
    ("reply-parent-user-login", f (fun r => u_login (rp_sender r)));
    ("reply-parent-display-name", f (fun r => u_name (rp_sender r)));
    ("reply-parent-msg-body", f rp_text) ].

Definition level_word (l : level) : str :=
  match l with
  | ONE => b "ONE" | TWO => b "TWO" | THREE => b "THREE" | FOUR => b "FOUR" | FIVE => b "FIVE"
  | SIX => b "SIX" | SEVEN => b "SEVEN" | EIGHT => b "EIGHT" | NINE => b "NINE" | TEN => b "TEN"
  end.

Definition pinned_rows (o : option (pinned_chat str)) : table :=
  let f {A : Type} (g : pinned_chat str -> A) := option_map g o in
  [ ("pinned-chat-paid-amount", f (fun p => write_Z (pc_paid_amount p)));
    ("pinned-chat-paid-currency", f pc_paid_currency);
    ("pinned-chat-paid-exponent", f (fun p => write_Z (pc_paid_exponent p)));
    ("pinned-chat-paid-level", f (fun p => level_word (pc_paid_level p)));
    ("pinned-chat-paid-is-system-message", f (fun p => write_flag (pc_is_system_message p))) ].

Definition promo_rows (o : option (promo str)) : table :=
  [ ("msg-param-promo-gift-total", option_map (fun p => show_N (pr_total_gifts p)) o);
    ("msg-param-promo-name", option_map pr_promo_name o) ].

Definition event_rows (e : event str) : table :=
  match e with
  | SubOrResub _ months streak plan plan_name =>
    [ ("msg-param-cumulative-months", Some (show_N months));
      ("msg-param-streak-months", option_map show_N streak);
      ("msg-param-sub-plan", Some plan); ("msg-param-sub-plan-name", Some plan_name) ]
  | Raid n url =>
    [ ("msg-param-viewerCount", Some (show_N n)); ("msg-param-profileImageURL", Some url) ]
  | SubGift months u plan plan_name gifted =>
    [ ("msg-param-months", Some (show_N months));
      ("msg-param-recipient-id", Some (u_id u)); ("msg-param-recipient-user-name", Some (u_login u));
      ("msg-param-recipient-display-name", Some (u_name u));
      ("msg-param-sub-plan", Some plan); ("msg-param-sub-plan-name", Some plan_name);
      ("msg-param-gift-months", Some (show_N gifted)) ]
  | SubMysteryGift n total plan =>
    [ ("msg-param-mass-gift-count", Some (show_N n)); ("msg-param-sender-count", Some (show_N total));
      ("msg-param-sub-plan", Some plan) ]
  | AnonSubMysteryGift n plan =>
    [ ("msg-param-mass-gift-count", Some (show_N n)); ("msg-param-sub-plan", Some plan) ]
  | GiftPaidUpgrade login name p =>
    [ ("msg-param-sender-login", Some login); ("msg-param-sender-name", Some name) ] ++ promo_rows p
  | AnonGiftPaidUpgrade p => promo_rows p
  | Ritual name => [ ("msg-param-ritual-name", Some name) ]
  | BitsBadgeTier n => [ ("msg-param-threshold", Some (show_N n)) ]
  | Announcement color => [ ("msg-param-color", Some color) ]
  | UnknownEvent => []
  end.

(** A gift without a sender is written as one of Twitch's account for them. *)
Definition sender_rows (o : option (user_info str)) : table :=
  match o with
  | Some u => [ ("user-id", Some (u_id u)); ("login", Some (u_login u)); ("display-name", Some (u_name u)) ]
  | None => [ ("user-id", Some (b "274598607")) ]
  end.

Definition write_followers (f : followers_only) : str :=
  match f with
  | Disabled => b "-1"
  | Enabled None => b "0"
  | Enabled (Some d) => show_N (d / 60)
  end.

Definition line (c : content) : message :=
  match c with
  | KClearChat x =>
    let rows := match cc_action x with
      | Clear => [("target-user-id", None); ("ban-duration", None)]
      | Ban _ id => [("target-user-id", Some id); ("ban-duration", None)]
      | TimeOut _ id d => [("target-user-id", Some id); ("ban-duration", Some (show_N d))]
      end in
    line_with ([("room-id", Some (cc_channel_id x)); ("tmi-sent-ts", Some (write_Z (cc_timestamp x)))] ++ rows)
      server (b "CLEARCHAT") (Some (cc_channel x))
      match cc_action x with Clear => None | Ban u _ => after_colon u | TimeOut u _ _ => after_colon u end
  | KClearMsg x =>
    line_with [("login", Some (cm_sender x)); ("room-id", Some (cm_channel_id x));
               ("target-msg-id", Some (cm_target_message_id x));
               ("tmi-sent-ts", Some (write_Z (cm_timestamp x)))]
      server (b "CLEARMSG") (Some (cm_channel x)) (after_colon (write_action (cm_text x) (cm_is_action x)))
  | KGlobalUserState x =>
    line_with (badge_rows (gus_badges x) ++
               [("user-id", Some (gus_id x)); ("display-name", Some (gus_name x));
                ("emote-sets", write_list (gus_emote_sets x)); ("color", gus_color x)])
      server (b "GLOBALUSERSTATE") None None
  | KJoin x => line_with [] (from (j_user x)) (b "JOIN") (Some (j_channel x)) None
  | KNotice x =>
    line_with [("msg-id", n_id x)] server (b "NOTICE") (n_channel x) (after_colon (n_text x))
  | KPart x => line_with [] (from (pt_user x)) (b "PART") (Some (pt_channel x)) None
  | KPing x => line_with [] None (b "PING") None (option_map (fun t => b ":" ++ t)%list (pi_nonce x))
  | KPong x => line_with [] None (b "PONG") None (option_map (fun t => b ":" ++ t)%list (po_nonce x))
  | KPrivmsg x =>
    line_with (badge_rows (pm_badges x) ++
               [("bits", option_map show_N (pm_bits x)); ("color", pm_color x);
                ("custom-reward-id", pm_custom_reward_id x);
                ("display-name", Some (u_name (pm_sender x))); ("emotes", Some (pm_emotes x));
                ("id", Some (pm_id x)); ("msg-id", pm_msg_id x); ("room-id", Some (pm_channel_id x));
                ("tmi-sent-ts", Some (write_Z (pm_timestamp x))); ("user-id", Some (u_id (pm_sender x)))] ++
               reply_rows (pm_reply_to x) ++ pinned_rows (pm_pinned_chat x))
      (from (u_login (pm_sender x))) (b "PRIVMSG") (Some (pm_channel x))
      (after_colon (write_action (pm_text x) (pm_is_action x)))
  | KReconnect => line_with [] server (b "RECONNECT") None None
  | KRoomState x =>
    line_with [("room-id", Some (rs_channel_id x)); ("emote-only", option_map write_flag (rs_emote_only x));
               ("followers-only", option_map write_followers (rs_followers_only x));
               ("r9k", option_map write_flag (rs_r9k x)); ("slow", option_map show_N (rs_slow x));
               ("subs-only", option_map write_flag (rs_subs_only x))]
      server (b "ROOMSTATE") (Some (rs_channel x)) None
  | KUserNotice x =>
    line_with (badge_rows (un_badges x) ++ sender_rows (un_sender x) ++
               [("color", un_color x); ("emotes", Some (un_emotes x)); ("id", Some (un_message_id x));
                ("msg-id", Some (un_event_id x)); ("room-id", Some (un_channel_id x));
                ("system-msg", un_system_message x); ("tmi-sent-ts", Some (write_Z (un_timestamp x)))] ++
               event_rows (un_event x))
      server (b "USERNOTICE") (Some (un_channel x)) (option_map (fun t => b ":" ++ t)%list (un_text x))
  | KUserState x =>
    line_with (badge_rows (us_badges x) ++
               [("display-name", Some (us_user_name x)); ("emote-sets", write_list (us_emote_sets x));
                ("color", us_color x)])
      server (b "USERSTATE") (Some (us_channel x)) None
  | KWhisper x =>
    line_with (badge_rows (w_badges x) ++
               [("color", w_color x); ("display-name", Some (u_name (w_sender x)));
                ("emotes", Some (w_emotes x)); ("user-id", Some (u_id (w_sender x)))])
      (from (u_login (w_sender x))) (b "WHISPER")
      (* a word with a hash in front would be taken for the channel *)
      (match w_recipient x with "#"%byte :: _ => Some (b "#") | _ => None end)
      (Some (w_recipient x ++ b " :" ++ w_text x)%list)
  end.

Close Scope string_scope.

(** ** The conditions on values *)

Definition u64 (n : N) : Prop := (n < 2 ^ 64)%N.
Definition i64 (z : Z) : Prop := (- 2 ^ 63 <= z < 2 ^ 63)%Z.

(** chrono's range, as in [is_time]. *)
Definition timestamp (ms : Z) : Prop := (-8334601228800000 <= ms <= 8210266876799999)%Z.

(** A text that is not an action must not look like one. *)
Definition action_able (text : str) (is_action : bool) : Prop :=
  is_action = false -> forall x, text <> [x01] ++ b "ACTION " ++ x ++ [x01].

Definition no_comma (s : str) : Prop := ~ In ","%byte s.

Definition badge_able (x : badge str) : Prop :=
  no_comma (badge_name x) /\ ~ In "/"%byte (badge_name x) /\ no_comma (badge_version x) /\
  (forall e, badge_extra x = Some e -> no_comma e) /\
  match x with
  | BSubscriber s =>
    is_u64 (sb_months s) (sb_months_n s) \/ (forall n, ~ is_u64 (sb_months s) n) /\ sb_months_n s = 1%N
  | BOther d => ~ In (bd_name d) special_badges
  | _ => True
  end.

(** Badges of the same name have the same extra text: there is only one per name. *)
Definition badges_able (l : list (badge str)) : Prop :=
  Forall badge_able l /\
  forall x y, In x l -> In y l -> badge_name x = badge_name y -> badge_extra x = badge_extra y.

Definition filled (o : option str) : Prop := o <> Some [].

Definition number (o : option N) : Prop := forall n, o = Some n -> u64 n.

Definition gift_id (id : str) : Prop := In id [b "subgift"; b "submysterygift"].

Definition anon_id (id : str) : Prop :=
  In id [b "anonsubgift"; b "anonsubmysterygift"; b "anongiftpaidupgrade"] \/ ~ In id known_events.

Definition promo_able (o : option (promo str)) : Prop := forall p, o = Some p -> u64 (pr_total_gifts p).

Definition event_able (id : str) (has_sender : bool) (e : event str) : Prop :=
  match e with
  | SubOrResub is_resub months streak _ _ =>
    id = (if is_resub then b "resub" else b "sub") /\ u64 months /\
    forall n, streak = Some n -> u64 n /\ (0 < n)%N
  | Raid n _ => id = b "raid" /\ u64 n
  | SubGift months _ _ _ gifted => In id [b "subgift"; b "anonsubgift"] /\ u64 months /\ u64 gifted
  | SubMysteryGift n total _ => id = b "submysterygift" /\ has_sender = true /\ u64 n /\ u64 total
  | AnonSubMysteryGift n _ =>
    (id = b "anonsubmysterygift" \/ id = b "submysterygift" /\ has_sender = false) /\ u64 n
  | GiftPaidUpgrade _ _ p => id = b "giftpaidupgrade" /\ promo_able p
  | AnonGiftPaidUpgrade p => id = b "anongiftpaidupgrade" /\ promo_able p
  | Ritual _ => id = b "ritual"
  | BitsBadgeTier n => id = b "bitsbadgetier" /\ u64 n
  | Announcement _ => id = b "announcement"
  | UnknownEvent => ~ In id known_events
  end.

Definition able (c : content) : Prop :=
  match c with
  | KClearChat x =>
    timestamp (cc_timestamp x) /\ forall u i d, cc_action x = TimeOut u i d -> u64 d
  | KClearMsg x => timestamp (cm_timestamp x) /\ action_able (cm_text x) (cm_is_action x)
  | KGlobalUserState x =>
    badges_able (gus_badges x) /\ Forall no_comma (gus_emote_sets x) /\ filled (gus_color x)
  | KPrivmsg x =>
    badges_able (pm_badges x) /\ number (pm_bits x) /\ filled (pm_color x) /\
    filled (pm_custom_reward_id x) /\ timestamp (pm_timestamp x) /\
    action_able (pm_text x) (pm_is_action x) /\
    (forall p, pm_pinned_chat x = Some p -> i64 (pc_paid_amount p) /\ i64 (pc_paid_exponent p))
  | KRoomState x =>
    number (rs_slow x) /\
    forall d, rs_followers_only x = Some (Enabled (Some d)) ->
      (0 < d < 2 ^ 63)%N /\ exists n, d = (60 * n)%N
  | KUserNotice x =>
    badges_able (un_badges x) /\ filled (un_color x) /\ filled (un_system_message x) /\
    timestamp (un_timestamp x) /\
    match un_sender x with
    | None => anon_id (un_event_id x) \/ gift_id (un_event_id x)
    | Some u => ~ anon_id (un_event_id x) /\ (gift_id (un_event_id x) -> u_id u <> b "274598607")
    end /\
    event_able (un_event_id x) (match un_sender x with Some _ => true | None => false end) (un_event x)
  | KUserState x =>
    badges_able (us_badges x) /\ Forall no_comma (us_emote_sets x) /\ filled (us_color x)
  | KWhisper x =>
    badges_able (w_badges x) /\ filled (w_color x) /\ ~ infix (b " :") (w_recipient x)
  | _ => True
  end.
