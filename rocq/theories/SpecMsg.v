(** * SpecMsg: what the typed messages should contain, per line.

    For each message type [X] a predicate [X_of v x]: the line with parts [v] is
    described by the value [x], whose strings are plain byte strings ([X str]).
    The predicates only use the parts of the line, tag names as strings, and
    decimal numbers; the result types are imported from the model, its functions
    are not. *)

From Verif Require Import Base Tags Irc SpecIrc MsgBase MsgTypes MsgNotice Message.

(** ** Optional values *)

(** [opt P o]: [o] holds the value with [P], and is [None] only if there is none. *)
Definition opt {A : Type} (P : A -> Prop) (o : option A) : Prop :=
  match o with
  | Some x => P x
  | None => forall x, ~ P x
  end.

(** ** Numbers *)

Definition is_digit (c : byte) : Prop := (48 <= Byte.to_N c <= 57)%N.

Definition value (ds : str) : N :=
  fold_left (fun acc c => 10 * acc + (Byte.to_N c - 48))%N ds 0%N.

(** [ds] are decimal digits with value [n]. *)
Definition numeral (ds : str) (n : N) : Prop :=
  ds <> [] /\ Forall is_digit ds /\ n = value ds.

Definition unsigned (max : N) (s : str) (n : N) : Prop :=
  exists ds, (s = ds \/ s = b "+" ++ ds) /\ numeral ds n /\ (n <= max)%N.

Definition signed (min max : Z) (s : str) (z : Z) : Prop :=
  exists ds n, numeral ds n /\
    (((s = ds \/ s = b "+" ++ ds) /\ z = Z.of_N n) \/ (s = b "-" ++ ds /\ z = - Z.of_N n)%Z) /\
    (min <= z <= max)%Z.

Definition is_u8 : str -> N -> Prop := unsigned 255.
Definition is_u64 : str -> N -> Prop := unsigned (2 ^ 64 - 1).
Definition is_i64 : str -> Z -> Prop := signed (- 2 ^ 63) (2 ^ 63 - 1).

(** True for the numbers 1 to 255, false for every other text. *)
Definition is_flag (s : str) (x : bool) : Prop :=
  x = true <-> exists n, is_u8 s n /\ (0 < n)%N.

(** Milliseconds since the epoch, from January 1st -262143 to December 31st
    262142. *)
Definition is_time (s : str) (ms : Z) : Prop :=
  is_i64 s ms /\ (-8334601228800000 <= ms <= 8210266876799999)%Z.

(** ** Texts *)

(** [t] is a "/me" message with the given body, or any other text. *)
Definition action_text (t body : str) (is_action : bool) : Prop :=
  match is_action with
  | true => t = [x01] ++ b "ACTION " ++ body ++ [x01]
  | false => t = body /\ forall x, t <> [x01] ++ b "ACTION " ++ x ++ [x01]
  end.

Fixpoint join_by (c : byte) (ws : list str) : str :=
  match ws with
  | [] => []
  | [w] => w
  | w :: ws' => w ++ [c] ++ join_by c ws'
  end.

(** [ws] are the parts of [s] between the [c]s. *)
Definition parts_by (c : byte) (s : str) (ws : list str) : Prop :=
  ws <> [] /\ s = join_by c ws /\ Forall (fun w => ~ In c w) ws.

(** The texts around the first [p] in [s]. *)
Definition around_first (p s l r : str) : Prop :=
  s = l ++ p ++ r /\ forall l' r', s = l' ++ p ++ r' -> length l <= length l'.

(** ** Badges *)

(** The [name/value] items among [ws], in order. *)
Inductive slash_items : list str -> list (str * str) -> Prop :=
| si_nil : slash_items [] []
| si_skip w ws l : ~ In "/"%byte w -> slash_items ws l -> slash_items (w :: ws) l
| si_item n x ws l :
    ~ In "/"%byte n -> slash_items ws l -> slash_items ((n ++ b "/" ++ x) :: ws) ((n, x) :: l).

(** [comma_items s l]: [l] are the [name/value] items of the comma separated
    text [s]. *)
Definition comma_items (s : str) (l : list (str * str)) : Prop :=
  exists ws, parts_by "," s ws /\ slash_items ws l.

(** The badge names with a variant of their own. *)
Definition special_badges : list str :=
  [b "staff"; b "turbo"; b "broadcaster"; b "moderator"; b "subscriber"].

(** The badge with the given name, version and (from badge-info) extra text. *)
Definition is_badge (name version : str) (extra : option str) (x : badge str) : Prop :=
  match x with
  | Staff => name = b "staff"
  | Turbo => name = b "turbo"
  | Broadcaster => name = b "broadcaster"
  | Moderator => name = b "moderator"
  | BSubscriber s =>
    name = b "subscriber" /\ sb_version s = version /\
    match extra with
    | Some e => sb_months s = e /\
                (is_u64 e (sb_months_n s) \/ (forall n, ~ is_u64 e n) /\ sb_months_n s = 1%N)
    | None => sb_months s = b "1" /\ sb_months_n s = 1%N
    end
  | BOther d =>
    ~ In name special_badges /\
    d = mk_badge_data name version extra
  end.

(** The badges written in a [badges] and a [badge-info] tag. *)
Definition badges_in (badges info : str) (l : list (badge str)) : Prop :=
  exists items extras, comma_items badges items /\ comma_items info extras /\
    Forall2 (fun nv x => exists e, first_tag (fst nv) extras e /\ is_badge (fst nv) (snd nv) e x) items l.

(** ** Parts of a line *)

(** The first tag with this name has this value. *)
Definition has (v : view) (name : string) (x : str) : Prop := first_tag (b name) (v_tags v) (Some x).

Definition has_u64 (v : view) (name : string) (n : N) : Prop := exists x, has v name x /\ is_u64 x n.
Definition has_i64 (v : view) (name : string) (z : Z) : Prop := exists x, has v name x /\ is_i64 x z.
Definition has_flag (v : view) (name : string) (f : bool) : Prop := exists x, has v name x /\ is_flag x f.
Definition has_time (v : view) (ms : Z) : Prop := exists x, has v "tmi-sent-ts" x /\ is_time x ms.
Definition has_filled (v : view) (name : string) (x : str) : Prop := has v name x /\ x <> [].

(** The value of the tag, or [d] without the tag. *)
Definition has_or (v : view) (name : string) (d x : str) : Prop :=
  has v name x \/ ((forall y, ~ has v name y) /\ x = d).

Definition has_list (v : view) (name : string) (ws : list str) : Prop :=
  (exists x, has v name x /\ parts_by "," x ws) \/ ((forall x, ~ has v name x) /\ ws = []).

Definition has_badges (v : view) (l : list (badge str)) : Prop :=
  (exists x y, has v "badges" x /\ has v "badge-info" y /\ badges_in x y l) \/
  (((forall x, ~ has v "badges" x) \/ (forall x, ~ has v "badge-info" x)) /\ l = []).

Definition has_channel (v : view) (x : str) : Prop := v_channel v = Some x.
Definition has_nick (v : view) (x : str) : Prop := exists p, v_prefix v = Some p /\ nick p = Some x.
Definition has_text (v : view) (t : str) : Prop := exists p, v_params v = Some p /\ after_first ":" p t.

(** ** The message types *)

Definition join_of (v : view) (x : join_msg str) : Prop :=
  has_channel v (j_channel x) /\ has_nick v (j_user x).

Definition part_of (v : view) (x : part_msg str) : Prop :=
  has_channel v (pt_channel x) /\ has_nick v (pt_user x).

Definition ping_of (v : view) (x : ping_msg str) : Prop := opt (has_text v) (pi_nonce x).

Definition pong_of (v : view) (x : pong_msg str) : Prop := opt (has_text v) (po_nonce x).

Definition notice_of (v : view) (x : notice_msg str) : Prop :=
  opt (has_channel v) (n_channel x) /\ has_text v (n_text x) /\ opt (has v "msg-id") (n_id x).

Definition clear_msg_of (v : view) (x : clear_msg str) : Prop :=
  has_channel v (cm_channel x) /\ has v "room-id" (cm_channel_id x) /\ has v "login" (cm_sender x) /\
  has v "target-msg-id" (cm_target_message_id x) /\
  (exists t, has_text v t /\ action_text t (cm_text x) (cm_is_action x)) /\
  has_time v (cm_timestamp x).

Definition action_of (v : view) (a : action str) : Prop :=
  match a with
  | Clear => v_params v = None
  | Ban user id =>
    has_text v user /\ has v "target-user-id" id /\ forall d, ~ has_u64 v "ban-duration" d
  | TimeOut user id d =>
    has_text v user /\ has v "target-user-id" id /\ has_u64 v "ban-duration" d
  end.

Definition clear_chat_of (v : view) (x : clear_chat str) : Prop :=
  has_channel v (cc_channel x) /\ has v "room-id" (cc_channel_id x) /\ action_of v (cc_action x) /\
  has_time v (cc_timestamp x).

Definition global_user_state_of (v : view) (x : global_user_state str) : Prop :=
  has v "user-id" (gus_id x) /\ has v "display-name" (gus_name x) /\ has_badges v (gus_badges x) /\
  has_list v "emote-sets" (gus_emote_sets x) /\ opt (has_filled v "color") (gus_color x).

Definition user_state_of (v : view) (x : user_state str) : Prop :=
  has_channel v (us_channel x) /\ has v "display-name" (us_user_name x) /\ has_badges v (us_badges x) /\
  has_list v "emote-sets" (us_emote_sets x) /\ opt (has_filled v "color") (us_color x).

Definition whisper_of (v : view) (x : whisper_msg str) : Prop :=
  (exists p, v_params v = Some p /\ around_first (b " :") p (w_recipient x) (w_text x)) /\
  has v "user-id" (u_id (w_sender x)) /\ has_nick v (u_login (w_sender x)) /\
  has v "display-name" (u_name (w_sender x)) /\ has_badges v (w_badges x) /\
  has_or v "emotes" [] (w_emotes x) /\ opt (has_filled v "color") (w_color x).

(** The [followers-only] minutes. *)
Definition followers_of (n : Z) (f : followers_only) : Prop :=
  ((n < 0)%Z /\ f = Disabled) \/ (n = 0%Z /\ f = Enabled None) \/
  ((0 < n)%Z /\ f = Enabled (Some (60 * Z.to_N n)%N)).

Definition room_state_of (v : view) (x : room_state str) : Prop :=
  has_channel v (rs_channel x) /\ has v "room-id" (rs_channel_id x) /\
  opt (has_flag v "emote-only") (rs_emote_only x) /\
  opt (fun f => exists n, has_i64 v "followers-only" n /\ followers_of n f) (rs_followers_only x) /\
  opt (has_flag v "r9k") (rs_r9k x) /\
  opt (has_u64 v "slow") (rs_slow x) /\
  opt (has_flag v "subs-only") (rs_subs_only x).

Definition user_of (v : view) (id login name : string) (u : user_info str) : Prop :=
  has v id (u_id u) /\ has v login (u_login u) /\ has v name (u_name u).

Definition reply_of (v : view) (r : reply str) : Prop :=
  has v "reply-thread-parent-msg-id" (rp_thread_parent_message_id r) /\
  has v "reply-thread-parent-user-login" (rp_thread_parent_user_login r) /\
  has v "reply-parent-msg-id" (rp_message_id r) /\
  user_of v "reply-parent-user-id" "reply-parent-user-login" "reply-parent-display-name" (rp_sender r) /\
  has v "reply-parent-msg-body" (rp_text r).

Definition level_names : list (string * level) :=
  [("ONE", ONE); ("TWO", TWO); ("THREE", THREE); ("FOUR", FOUR); ("FIVE", FIVE); ("SIX", SIX);
   ("SEVEN", SEVEN); ("EIGHT", EIGHT); ("NINE", NINE); ("TEN", TEN)]%string.

Definition pinned_of (v : view) (p : pinned_chat str) : Prop :=
  has_i64 v "pinned-chat-paid-amount" (pc_paid_amount p) /\
  has v "pinned-chat-paid-currency" (pc_paid_currency p) /\
  has_i64 v "pinned-chat-paid-exponent" (pc_paid_exponent p) /\
  (exists n, In (n, pc_paid_level p) level_names /\ has v "pinned-chat-paid-level" (b n)) /\
  has_flag v "pinned-chat-paid-is-system-message" (pc_is_system_message p).

Definition privmsg_of (v : view) (x : privmsg str) : Prop :=
  has_channel v (pm_channel x) /\ has v "room-id" (pm_channel_id x) /\
  opt (has v "msg-id") (pm_msg_id x) /\ has v "id" (pm_id x) /\
  has v "user-id" (u_id (pm_sender x)) /\ has_nick v (u_login (pm_sender x)) /\
  has v "display-name" (u_name (pm_sender x)) /\
  opt (reply_of v) (pm_reply_to x) /\ opt (pinned_of v) (pm_pinned_chat x) /\
  (exists t, has_text v t /\ action_text t (pm_text x) (pm_is_action x)) /\
  has_badges v (pm_badges x) /\ opt (has_filled v "color") (pm_color x) /\
  opt (has_filled v "custom-reward-id") (pm_custom_reward_id x) /\
  opt (has_u64 v "bits") (pm_bits x) /\ has_or v "emotes" [] (pm_emotes x) /\
  has_time v (pm_timestamp x).

(** *** USERNOTICE *)

Definition promo_of (v : view) (p : promo str) : Prop :=
  has_u64 v "msg-param-promo-gift-total" (pr_total_gifts p) /\
  has v "msg-param-promo-name" (pr_promo_name p).

(** The events with a form of their own. *)
Definition known_events : list str :=
  [b "sub"; b "resub"; b "raid"; b "subgift"; b "anonsubgift"; b "submysterygift";
   b "anonsubmysterygift"; b "giftpaidupgrade"; b "anongiftpaidupgrade"; b "ritual";
   b "bitsbadgetier"; b "announcement"].

(** The message was sent by Twitch's account for anonymous gifts. *)
Definition from_anonymous_account (v : view) : Prop := has v "user-id" (b "274598607").

(** The notices reported without a sender. *)
Definition anonymous (v : view) (id : str) : Prop :=
  In id [b "anonsubgift"; b "anonsubmysterygift"; b "anongiftpaidupgrade"] \/
  (In id [b "subgift"; b "submysterygift"] /\ from_anonymous_account v) \/
  ~ In id known_events.

Definition event_of (v : view) (id : str) (e : event str) : Prop :=
  match e with
  | SubOrResub is_resub months streak plan plan_name =>
    id = (if is_resub then b "resub" else b "sub") /\
    has_u64 v "msg-param-cumulative-months" months /\
    opt (fun n => has_u64 v "msg-param-streak-months" n /\ (0 < n)%N) streak /\
    has v "msg-param-sub-plan" plan /\ has v "msg-param-sub-plan-name" plan_name
  | Raid n url =>
    id = b "raid" /\ has_u64 v "msg-param-viewerCount" n /\ has v "msg-param-profileImageURL" url
  | SubGift months recipient plan plan_name gifted =>
    In id [b "subgift"; b "anonsubgift"] /\ has_u64 v "msg-param-months" months /\
    user_of v "msg-param-recipient-id" "msg-param-recipient-user-name"
      "msg-param-recipient-display-name" recipient /\
    has v "msg-param-sub-plan" plan /\ has v "msg-param-sub-plan-name" plan_name /\
    has_u64 v "msg-param-gift-months" gifted
  | SubMysteryGift n total plan =>
    id = b "submysterygift" /\ ~ from_anonymous_account v /\
    has_u64 v "msg-param-mass-gift-count" n /\ has_u64 v "msg-param-sender-count" total /\
    has v "msg-param-sub-plan" plan
  | AnonSubMysteryGift n plan =>
    (id = b "anonsubmysterygift" \/ id = b "submysterygift" /\ from_anonymous_account v) /\
    has_u64 v "msg-param-mass-gift-count" n /\ has v "msg-param-sub-plan" plan
  | GiftPaidUpgrade login name promotion =>
    id = b "giftpaidupgrade" /\ has v "msg-param-sender-login" login /\
    has v "msg-param-sender-name" name /\ opt (promo_of v) promotion
  | AnonGiftPaidUpgrade promotion =>
    id = b "anongiftpaidupgrade" /\ opt (promo_of v) promotion
  | Ritual name => id = b "ritual" /\ has v "msg-param-ritual-name" name
  | BitsBadgeTier n => id = b "bitsbadgetier" /\ has_u64 v "msg-param-threshold" n
  | Announcement color => id = b "announcement" /\ has_or v "msg-param-color" (b "PRIMARY") color
  | UnknownEvent => ~ In id known_events
  end.

Definition user_notice_of (v : view) (x : user_notice str) : Prop :=
  has_channel v (un_channel x) /\ has v "room-id" (un_channel_id x) /\
  match un_sender x with
  | None => anonymous v (un_event_id x)
  | Some u => ~ anonymous v (un_event_id x) /\ user_of v "user-id" "login" "display-name" u
  end /\
  opt (has_text v) (un_text x) /\ opt (has_filled v "system-msg") (un_system_message x) /\
  event_of v (un_event_id x) (un_event x) /\ has v "msg-id" (un_event_id x) /\
  has_badges v (un_badges x) /\ has_or v "emotes" [] (un_emotes x) /\
  opt (has_filled v "color") (un_color x) /\ has v "id" (un_message_id x) /\
  has_time v (un_timestamp x).

(** *** Dispatch *)

(** The command word that a typed variant stands for. *)
Definition variant_word (t : typed) : option str :=
  match t with
  | MClearChat _ => Some (b "CLEARCHAT")
  | MClearMsg _ => Some (b "CLEARMSG")
  | MGlobalUserState _ => Some (b "GLOBALUSERSTATE")
  | MJoin _ => Some (b "JOIN")
  | MNotice _ => Some (b "NOTICE")
  | MPart _ => Some (b "PART")
  | MPing _ => Some (b "PING")
  | MPong _ => Some (b "PONG")
  | MPrivmsg _ => Some (b "PRIVMSG")
  | MReconnect => Some (b "RECONNECT")
  | MRoomState _ => Some (b "ROOMSTATE")
  | MUserNotice _ => Some (b "USERNOTICE")
  | MUserState _ => Some (b "USERSTATE")
  | MWhisper _ => Some (b "WHISPER")
  | MOther _ => None
  end.

(** The commands with a typed form. *)
Definition typed_words : list str :=
  [b "CLEARCHAT"; b "CLEARMSG"; b "GLOBALUSERSTATE"; b "JOIN"; b "NOTICE"; b "PART"; b "PING";
   b "PONG"; b "PRIVMSG"; b "RECONNECT"; b "ROOMSTATE"; b "USERNOTICE"; b "USERSTATE"; b "WHISPER"].

(** The minutes fit when counted in seconds. *)
Definition followers_fit (v : view) : Prop :=
  forall n, has_i64 v "followers-only" n -> (60 * n <= 2 ^ 63 - 1)%Z.

(** ** The same value with other strings *)

Section Maps.
Context {S T : Type} (f : S -> T).

Definition badge_data_map (d : badge_data S) : badge_data T :=
  mk_badge_data (f (bd_name d)) (f (bd_version d)) (option_map f (bd_extra d)).

Definition subscriber_map (s : subscriber S) : subscriber T :=
  mk_subscriber (f (sb_version s)) (f (sb_months s)) (sb_months_n s).

Definition badge_map (x : badge S) : badge T :=
  match x with
  | Staff => Staff | Turbo => Turbo | Broadcaster => Broadcaster | Moderator => Moderator
  | BSubscriber s => BSubscriber (subscriber_map s)
  | BOther d => BOther (badge_data_map d)
  end.

Definition user_map (u : user_info S) : user_info T :=
  mk_user (f (u_id u)) (f (u_login u)) (f (u_name u)).

Definition join_map (x : join_msg S) : join_msg T := mk_join (f (j_channel x)) (f (j_user x)).
Definition part_map (x : part_msg S) : part_msg T := mk_part (f (pt_channel x)) (f (pt_user x)).
Definition ping_map (x : ping_msg S) : ping_msg T := mk_ping (option_map f (pi_nonce x)).
Definition pong_map (x : pong_msg S) : pong_msg T := mk_pong (option_map f (po_nonce x)).

Definition notice_map (x : notice_msg S) : notice_msg T :=
  mk_notice (option_map f (n_channel x)) (f (n_text x)) (option_map f (n_id x)).

Definition clear_msg_map (x : clear_msg S) : clear_msg T :=
  mk_clear_msg (f (cm_channel x)) (f (cm_channel_id x)) (f (cm_sender x))
    (f (cm_target_message_id x)) (f (cm_text x)) (cm_is_action x) (cm_timestamp x).

Definition action_map (a : action S) : action T :=
  match a with
  | Clear => Clear
  | Ban u i => Ban (f u) (f i)
  | TimeOut u i d => TimeOut (f u) (f i) d
  end.

Definition clear_chat_map (x : clear_chat S) : clear_chat T :=
  mk_clear_chat (f (cc_channel x)) (f (cc_channel_id x)) (action_map (cc_action x)) (cc_timestamp x).

Definition global_user_state_map (x : global_user_state S) : global_user_state T :=
  mk_gus (f (gus_id x)) (f (gus_name x)) (map badge_map (gus_badges x)) (map f (gus_emote_sets x))
    (option_map f (gus_color x)).

Definition user_state_map (x : user_state S) : user_state T :=
  mk_user_state (f (us_channel x)) (f (us_user_name x)) (map badge_map (us_badges x))
    (map f (us_emote_sets x)) (option_map f (us_color x)).

Definition whisper_map (x : whisper_msg S) : whisper_msg T :=
  mk_whisper (f (w_recipient x)) (user_map (w_sender x)) (f (w_text x)) (map badge_map (w_badges x))
    (f (w_emotes x)) (option_map f (w_color x)).

Definition room_state_map (x : room_state S) : room_state T :=
  mk_room_state (f (rs_channel x)) (f (rs_channel_id x)) (rs_emote_only x) (rs_followers_only x)
    (rs_r9k x) (rs_slow x) (rs_subs_only x).

Definition reply_map (r : reply S) : reply T :=
  mk_reply (f (rp_thread_parent_message_id r)) (f (rp_thread_parent_user_login r))
    (f (rp_message_id r)) (user_map (rp_sender r)) (f (rp_text r)).

Definition pinned_map (p : pinned_chat S) : pinned_chat T :=
  mk_pinned (pc_paid_amount p) (f (pc_paid_currency p)) (pc_paid_exponent p) (pc_paid_level p)
    (pc_is_system_message p).

Definition privmsg_map (x : privmsg S) : privmsg T :=
  mk_privmsg (f (pm_channel x)) (f (pm_channel_id x)) (option_map f (pm_msg_id x)) (f (pm_id x))
    (user_map (pm_sender x)) (option_map reply_map (pm_reply_to x))
    (option_map pinned_map (pm_pinned_chat x)) (f (pm_text x)) (pm_is_action x)
    (map badge_map (pm_badges x)) (option_map f (pm_color x)) (option_map f (pm_custom_reward_id x))
    (pm_bits x) (f (pm_emotes x)) (pm_timestamp x).

Definition promo_map (p : promo S) : promo T := mk_promo (pr_total_gifts p) (f (pr_promo_name p)).

Definition event_map (e : event S) : event T :=
  match e with
  | SubOrResub r n s p pn => SubOrResub r n s (f p) (f pn)
  | Raid n u => Raid n (f u)
  | SubGift n u p pn g => SubGift n (user_map u) (f p) (f pn) g
  | SubMysteryGift n t p => SubMysteryGift n t (f p)
  | AnonSubMysteryGift n p => AnonSubMysteryGift n (f p)
  | GiftPaidUpgrade l n p => GiftPaidUpgrade (f l) (f n) (option_map promo_map p)
  | AnonGiftPaidUpgrade p => AnonGiftPaidUpgrade (option_map promo_map p)
  | Ritual n => Ritual (f n)
  | BitsBadgeTier t => BitsBadgeTier t
  | Announcement c => Announcement (f c)
  | UnknownEvent => UnknownEvent
  end.

Definition user_notice_map (x : user_notice S) : user_notice T :=
  mk_user_notice (f (un_channel x)) (f (un_channel_id x)) (option_map user_map (un_sender x))
    (option_map f (un_text x)) (option_map f (un_system_message x)) (event_map (un_event x))
    (f (un_event_id x)) (map badge_map (un_badges x)) (f (un_emotes x)) (option_map f (un_color x))
    (f (un_message_id x)) (un_timestamp x).
End Maps.

(** [q] has the same strings as [x], all of them owned. *)
Definition kept {X Y : Type} (strings : X -> Y) (own : Y -> X) (q x : X) : Prop :=
  strings q = strings x /\ exists y, q = own y.

(** ** Parsed lines *)

(** The line [s], with parts [v], parses to [m]. *)
Record parsed (bd : build) (s : str) (v : view) (m : msg_ref) : Prop :=
  { pd_utf8 : utf8_valid s = true;
    pd_size : below_4gib s;
    pd_tags : all_short s;
    pd_view : spec_view s = Some v;
    pd_parse : ref_parse bd s = Ret (Some m) }.
