(** * Serde: the derived serialisers and deserialisers of the typed messages
    (model, no proofs).

    The messages are serialised into, and deserialised from, a tree of data in the
    manner of serde's self-describing formats (the crate's own tests use
    [serde_json]): a struct is a map from its field names, [None] is null and
    [Some x] is [x], a unit variant is its name, a newtype variant a map with the
    name as only key.  How a format writes that tree as text is not modelled.

    The deserialisers return messages of plain strings: which of their [Cow]s are
    borrowed depends on the format. *)

From Verif Require Import Base Tags Irc MsgBase MsgTypes MsgNotice Message.

Inductive data :=
| DNull
| DBool (x : bool)
| DInt (z : Z)
| DStr (s : str)
| DSeq (l : list data)
| DMap (l : list (str * data)).

(** How [chrono] serialises and deserialises a [DateTime<Utc>]. *)
Record codec := mk_codec { time_ser : Z -> data; time_de : data -> option Z }.

(** ** Values (serde's implementations for standard types) *)

Definition ser_bool (x : bool) : data := DBool x.
Definition ser_u64 (n : N) : data := DInt (Z.of_N n).
Definition ser_i64 (z : Z) : data := DInt z.
Definition ser_str (c : cow) : data := DStr (deref c).
Definition ser_opt {A : Type} (f : A -> data) (o : option A) : data :=
  match o with Some x => f x | None => DNull end.
Definition ser_list {A : Type} (f : A -> data) (l : list A) : data := DSeq (map f l).

Definition de_bool (d : data) : option bool := match d with DBool x => Some x | _ => None end.
Definition de_str (d : data) : option str := match d with DStr s => Some s | _ => None end.

(** Integers are checked against the range of the type. *)
Definition de_uint (max : N) (d : data) : option N :=
  match d with
  | DInt z => if ((0 <=? z) && (z <=? Z.of_N max))%Z then Some (Z.to_N z) else None
  | _ => None
  end.
Definition de_u64 : data -> option N := de_uint u64_max.
Definition de_u32 : data -> option N := de_uint 4294967295.
Definition de_i64 (d : data) : option Z :=
  match d with
  | DInt z => if ((i64_min <=? z) && (z <=? i64_max))%Z then Some z else None
  | _ => None
  end.

Definition de_opt {A : Type} (f : data -> option A) (d : data) : option (option A) :=
  match d with DNull => Some None | _ => option_map Some (f d) end.

Fixpoint all_some {A : Type} (l : list (option A)) : option (list A) :=
  match l with
  | [] => Some []
  | None :: _ => None
  | Some x :: l' => option_map (cons x) (all_some l')
  end.

Definition de_list {A : Type} (f : data -> option A) (d : data) : option (list A) :=
  match d with DSeq l => all_some (map f l) | _ => None end.

(** ** Structs ([#[derive(Serialize, Deserialize)]]) *)

Definition entry (name : string) (d : data) : str * data := (b name, d).

(** The fields of a struct: those of a map, or the elements of a sequence in the
    order of the declaration. *)
Definition fields (names : list string) (d : data) : option (list (str * data)) :=
  match d with
  | DMap l => Some l
  | DSeq l => if length l =? length names then Some (combine (map b names) l) else None
  | _ => None
  end.

Definition values (name : string) (l : list (str * data)) : list data :=
  map snd (filter (fun kv : str * data => str_eqb (fst kv) (b name)) l).

(** A field: unknown keys are ignored, a duplicate or a missing one is an error. *)
Definition field {A : Type} (f : data -> option A) (name : string) (l : list (str * data)) : option A :=
  match values name l with
  | [d] => f d
  | _ => None
  end.

(** A field of type [Option]: a missing one is [None]. *)
Definition opt_field {A : Type} (f : data -> option A) (name : string) (l : list (str * data))
  : option (option A) :=
  match values name l with
  | [] => Some None
  | [d] => de_opt f d
  | _ => None
  end.

Notation "'let*' x := m 'in' k" := (opt_bind m (fun x => k))
  (at level 200, x name, m at level 100, k at level 200, right associativity).

(** ** Enums (externally tagged) *)

Definition ser_unit (name : string) : data := DStr (b name).
Definition ser_newtype (name : string) (d : data) : data := DMap [(b name, d)].

(** The name of a variant, and what comes with it. *)
Definition variant (d : data) : option (str * option data) :=
  match d with
  | DStr s => Some (s, None)
  | DMap [(s, d)] => Some (s, Some d)
  | _ => None
  end.

(** A unit variant comes with nothing, or with null. *)
Definition unit_variant {A : Type} (x : A) (o : option data) : option A :=
  match o with
  | None => Some x
  | Some DNull => Some x
  | Some _ => None
  end.

Definition newtype_variant {A : Type} (f : data -> option A) (o : option data) : option A :=
  match o with
  | None => None
  | Some d => f d
  end.

(** ** [Duration] (serde): a struct of seconds and nanoseconds *)

(** The durations here are whole seconds. *)
Definition ser_duration (d : duration) : data := DMap [entry "secs" (ser_u64 d); entry "nanos" (DInt 0)].

(** Nanoseconds from a billion on carry over, and must not make the seconds
    overflow.  A fraction of a second would be accepted, but has no counterpart here. *)
Definition de_duration (d : data) : option duration :=
  let* l := fields ["secs"; "nanos"]%string d in
  let* secs := field de_u64 "secs" l in
  let* nanos := field de_u32 "nanos" l in
  if (nanos mod 1000000000 =? 0)%N && (secs + nanos / 1000000000 <=? u64_max)%N
  then Some (secs + nanos / 1000000000)%N else None.

(** ** Badges: src/msg.rs:112-137, 214-223, 251-257 and 441-466 *)

(** [derive(Serialize) for Subscriber]: msg.rs:214-223, without [months_n]. *)
Definition ser_subscriber (s : subscriber cow) : data :=
  DMap [entry "version" (ser_str (sb_version s)); entry "months" (ser_str (sb_months s))].

(** [Deserialize for Subscriber]: msg.rs:446-466. *)
Definition de_subscriber (d : data) : option (subscriber str) :=
  let* l := fields ["version"; "months"]%string d in
  let* version := field de_str "version" l in
  let* months := field de_str "months" l in
  let* months_n := parse_u64 months in
  Some (mk_subscriber version months months_n).

(** [BadgeData]: msg.rs:251-257. *)
Definition ser_badge_data (x : badge_data cow) : data :=
  DMap [entry "name" (ser_str (bd_name x)); entry "version" (ser_str (bd_version x));
        entry "extra" (ser_opt ser_str (bd_extra x))].

Definition de_badge_data (d : data) : option (badge_data str) :=
  let* l := fields ["name"; "version"; "extra"]%string d in
  let* name := field de_str "name" l in
  let* version := field de_str "version" l in
  let* extra := opt_field de_str "extra" l in
  Some (mk_badge_data name version extra).

(** [Badge]: msg.rs:112-137 ([rename_all = "lowercase"]). *)
Definition ser_badge (x : badge cow) : data :=
  match x with
  | Staff => ser_unit "staff"
  | Turbo => ser_unit "turbo"
  | Broadcaster => ser_unit "broadcaster"
  | Moderator => ser_unit "moderator"
  | BSubscriber s => ser_newtype "subscriber" (ser_subscriber s)
  | BOther o => ser_newtype "other" (ser_badge_data o)
  end.

Definition de_badge (d : data) : option (badge str) :=
  let* v := variant d in
  let (s, o) := (v : str * option data) in
  if str_eqb s (b "staff") then unit_variant Staff o
  else if str_eqb s (b "turbo") then unit_variant Turbo o
  else if str_eqb s (b "broadcaster") then unit_variant Broadcaster o
  else if str_eqb s (b "moderator") then unit_variant Moderator o
  else if str_eqb s (b "subscriber") then option_map BSubscriber (newtype_variant de_subscriber o)
  else if str_eqb s (b "other") then option_map BOther (newtype_variant de_badge_data o)
  else None.

(** [User]: msg.rs:291-297. *)
Definition ser_user (u : user_info cow) : data :=
  DMap [entry "id" (ser_str (u_id u)); entry "login" (ser_str (u_login u)); entry "name" (ser_str (u_name u))].

Definition de_user (d : data) : option (user_info str) :=
  let* l := fields ["id"; "login"; "name"]%string d in
  let* id := field de_str "id" l in
  let* login := field de_str "login" l in
  let* name := field de_str "name" l in
  Some (mk_user id login name).

(** ** The message types *)

(** [Join]: join.rs:8-16. *)
Definition ser_join (x : join_msg cow) : data :=
  DMap [entry "channel" (ser_str (j_channel x)); entry "user" (ser_str (j_user x))].

Definition de_join (d : data) : option (join_msg str) :=
  let* l := fields ["channel"; "user"]%string d in
  let* channel := field de_str "channel" l in
  let* user := field de_str "user" l in
  Some (mk_join channel user).

(** [Part]: part.rs:8-16. *)
Definition ser_part (x : part_msg cow) : data :=
  DMap [entry "channel" (ser_str (pt_channel x)); entry "user" (ser_str (pt_user x))].

Definition de_part (d : data) : option (part_msg str) :=
  let* l := fields ["channel"; "user"]%string d in
  let* channel := field de_str "channel" l in
  let* user := field de_str "user" l in
  Some (mk_part channel user).

(** [Ping]: ping.rs:22-27. *)
Definition ser_ping (x : ping_msg cow) : data := DMap [entry "nonce" (ser_opt ser_str (pi_nonce x))].

Definition de_ping (d : data) : option (ping_msg str) :=
  let* l := fields ["nonce"]%string d in
  let* nonce := opt_field de_str "nonce" l in
  Some (mk_ping nonce).

(** [Pong]: pong.rs:20-25. *)
Definition ser_pong (x : pong_msg cow) : data := DMap [entry "nonce" (ser_opt ser_str (po_nonce x))].

Definition de_pong (d : data) : option (pong_msg str) :=
  let* l := fields ["nonce"]%string d in
  let* nonce := opt_field de_str "nonce" l in
  Some (mk_pong nonce).

(** [Notice]: notice.rs:10-21. *)
Definition ser_notice (x : notice_msg cow) : data :=
  DMap [entry "channel" (ser_opt ser_str (n_channel x)); entry "text" (ser_str (n_text x));
        entry "id" (ser_opt ser_str (n_id x))].

Definition de_notice (d : data) : option (notice_msg str) :=
  let* l := fields ["channel"; "text"; "id"]%string d in
  let* channel := opt_field de_str "channel" l in
  let* text := field de_str "text" l in
  let* id := opt_field de_str "id" l in
  Some (mk_notice channel text id).

(** [ClearMsg]: clear_msg.rs:9-30. *)
Definition ser_clear_msg (cd : codec) (x : clear_msg cow) : data :=
  DMap [entry "channel" (ser_str (cm_channel x)); entry "channel_id" (ser_str (cm_channel_id x));
        entry "sender" (ser_str (cm_sender x)); entry "target_message_id" (ser_str (cm_target_message_id x));
        entry "text" (ser_str (cm_text x)); entry "is_action" (ser_bool (cm_is_action x));
        entry "timestamp" (time_ser cd (cm_timestamp x))].

Definition de_clear_msg (cd : codec) (d : data) : option (clear_msg str) :=
  let* l := fields ["channel"; "channel_id"; "sender"; "target_message_id"; "text"; "is_action"; "timestamp"]%string d in
  let* channel := field de_str "channel" l in
  let* channel_id := field de_str "channel_id" l in
  let* sender := field de_str "sender" l in
  let* target := field de_str "target_message_id" l in
  let* text := field de_str "text" l in
  let* is_action := field de_bool "is_action" l in
  let* timestamp := field (time_de cd) "timestamp" l in
  Some (mk_clear_msg channel channel_id sender target text is_action timestamp).

(** [Action], [Ban] and [TimeOut]: clear_chat.rs:56-73, 102-110, 123-133
    ([rename_all = "lowercase"]). *)
Definition ser_action (a : action cow) : data :=
  match a with
  | Clear => ser_unit "clear"
  | Ban user id => ser_newtype "ban" (DMap [entry "user" (ser_str user); entry "id" (ser_str id)])
  | TimeOut user id d =>
    ser_newtype "timeout" (DMap [entry "user" (ser_str user); entry "id" (ser_str id);
                                 entry "duration" (ser_duration d)])
  end.

Definition de_ban (d : data) : option (action str) :=
  let* l := fields ["user"; "id"]%string d in
  let* user := field de_str "user" l in
  let* id := field de_str "id" l in
  Some (Ban user id).

Definition de_time_out (d : data) : option (action str) :=
  let* l := fields ["user"; "id"; "duration"]%string d in
  let* user := field de_str "user" l in
  let* id := field de_str "id" l in
  let* duration := field de_duration "duration" l in
  Some (TimeOut user id duration).

Definition de_action (d : data) : option (action str) :=
  let* v := variant d in
  let (s, o) := (v : str * option data) in
  if str_eqb s (b "clear") then unit_variant Clear o
  else if str_eqb s (b "ban") then newtype_variant de_ban o
  else if str_eqb s (b "timeout") then newtype_variant de_time_out o
  else None.

(** [ClearChat]: clear_chat.rs:10-23. *)
Definition ser_clear_chat (cd : codec) (x : clear_chat cow) : data :=
  DMap [entry "channel" (ser_str (cc_channel x)); entry "channel_id" (ser_str (cc_channel_id x));
        entry "action" (ser_action (cc_action x)); entry "timestamp" (time_ser cd (cc_timestamp x))].

Definition de_clear_chat (cd : codec) (d : data) : option (clear_chat str) :=
  let* l := fields ["channel"; "channel_id"; "action"; "timestamp"]%string d in
  let* channel := field de_str "channel" l in
  let* channel_id := field de_str "channel_id" l in
  let* action := field de_action "action" l in
  let* timestamp := field (time_de cd) "timestamp" l in
  Some (mk_clear_chat channel channel_id action timestamp).

(** [GlobalUserState]: global_user_state.rs:10-27. *)
Definition ser_global_user_state (x : global_user_state cow) : data :=
  DMap [entry "id" (ser_str (gus_id x)); entry "name" (ser_str (gus_name x));
        entry "badges" (ser_list ser_badge (gus_badges x)); entry "emote_sets" (ser_list ser_str (gus_emote_sets x));
        entry "color" (ser_opt ser_str (gus_color x))].

Definition de_global_user_state (d : data) : option (global_user_state str) :=
  let* l := fields ["id"; "name"; "badges"; "emote_sets"; "color"]%string d in
  let* id := field de_str "id" l in
  let* name := field de_str "name" l in
  let* badges := field (de_list de_badge) "badges" l in
  let* emote_sets := field (de_list de_str) "emote_sets" l in
  let* color := opt_field de_str "color" l in
  Some (mk_gus id name badges emote_sets color).

(** [UserState]: user_state.rs:18-35. *)
Definition ser_user_state (x : user_state cow) : data :=
  DMap [entry "channel" (ser_str (us_channel x)); entry "user_name" (ser_str (us_user_name x));
        entry "badges" (ser_list ser_badge (us_badges x)); entry "emote_sets" (ser_list ser_str (us_emote_sets x));
        entry "color" (ser_opt ser_str (us_color x))].

Definition de_user_state (d : data) : option (user_state str) :=
  let* l := fields ["channel"; "user_name"; "badges"; "emote_sets"; "color"]%string d in
  let* channel := field de_str "channel" l in
  let* name := field de_str "user_name" l in
  let* badges := field (de_list de_badge) "badges" l in
  let* emote_sets := field (de_list de_str) "emote_sets" l in
  let* color := opt_field de_str "color" l in
  Some (mk_user_state channel name badges emote_sets color).

(** [Whisper]: whisper.rs:8-28. *)
Definition ser_whisper (x : whisper_msg cow) : data :=
  DMap [entry "recipient" (ser_str (w_recipient x)); entry "sender" (ser_user (w_sender x));
        entry "text" (ser_str (w_text x)); entry "badges" (ser_list ser_badge (w_badges x));
        entry "emotes" (ser_str (w_emotes x)); entry "color" (ser_opt ser_str (w_color x))].

Definition de_whisper (d : data) : option (whisper_msg str) :=
  let* l := fields ["recipient"; "sender"; "text"; "badges"; "emotes"; "color"]%string d in
  let* recipient := field de_str "recipient" l in
  let* sender := field de_user "sender" l in
  let* text := field de_str "text" l in
  let* badges := field (de_list de_badge) "badges" l in
  let* emotes := field de_str "emotes" l in
  let* color := opt_field de_str "color" l in
  Some (mk_whisper recipient sender text badges emotes color).

(** [FollowersOnly]: room_state.rs:70-90 ([rename_all = "lowercase"]). *)
Definition ser_followers (f : followers_only) : data :=
  match f with
  | Disabled => ser_unit "disabled"
  | Enabled o => ser_newtype "enabled" (ser_opt ser_duration o)
  end.

Definition de_followers (d : data) : option followers_only :=
  let* v := variant d in
  let (s, o) := (v : str * option data) in
  if str_eqb s (b "disabled") then unit_variant Disabled o
  else if str_eqb s (b "enabled") then option_map Enabled (newtype_variant (de_opt de_duration) o)
  else None.

(** [RoomState]: room_state.rs:9-26. *)
Definition ser_room_state (x : room_state cow) : data :=
  DMap [entry "channel" (ser_str (rs_channel x)); entry "channel_id" (ser_str (rs_channel_id x));
        entry "emote_only" (ser_opt ser_bool (rs_emote_only x));
        entry "followers_only" (ser_opt ser_followers (rs_followers_only x));
        entry "r9k" (ser_opt ser_bool (rs_r9k x)); entry "slow" (ser_opt ser_duration (rs_slow x));
        entry "subs_only" (ser_opt ser_bool (rs_subs_only x))].

Definition de_room_state (d : data) : option (room_state str) :=
  let* l := fields ["channel"; "channel_id"; "emote_only"; "followers_only"; "r9k"; "slow"; "subs_only"]%string d in
  let* channel := field de_str "channel" l in
  let* channel_id := field de_str "channel_id" l in
  let* emote_only := opt_field de_bool "emote_only" l in
  let* followers_only := opt_field de_followers "followers_only" l in
  let* r9k := opt_field de_bool "r9k" l in
  let* slow := opt_field de_duration "slow" l in
  let* subs_only := opt_field de_bool "subs_only" l in
  Some (mk_room_state channel channel_id emote_only followers_only r9k slow subs_only).

(** [PinnedChatLevel]: privmsg.rs:202-217 (the names as declared). *)
Definition ser_level (l : level) : data :=
  match l with
  | ONE => ser_unit "ONE" | TWO => ser_unit "TWO" | THREE => ser_unit "THREE" | FOUR => ser_unit "FOUR"
  | FIVE => ser_unit "FIVE" | SIX => ser_unit "SIX" | SEVEN => ser_unit "SEVEN" | EIGHT => ser_unit "EIGHT"
  | NINE => ser_unit "NINE" | TEN => ser_unit "TEN"
  end.

Definition de_level (d : data) : option level :=
  let* v := variant d in
  let (s, o) := (v : str * option data) in
  if str_eqb s (b "ONE") then unit_variant ONE o
  else if str_eqb s (b "TWO") then unit_variant TWO o
  else if str_eqb s (b "THREE") then unit_variant THREE o
  else if str_eqb s (b "FOUR") then unit_variant FOUR o
  else if str_eqb s (b "FIVE") then unit_variant FIVE o
  else if str_eqb s (b "SIX") then unit_variant SIX o
  else if str_eqb s (b "SEVEN") then unit_variant SEVEN o
  else if str_eqb s (b "EIGHT") then unit_variant EIGHT o
  else if str_eqb s (b "NINE") then unit_variant NINE o
  else if str_eqb s (b "TEN") then unit_variant TEN o
  else None.

(** [PinnedChat]: privmsg.rs:187-200. *)
Definition ser_pinned (x : pinned_chat cow) : data :=
  DMap [entry "paid_amount" (ser_i64 (pc_paid_amount x)); entry "paid_currency" (ser_str (pc_paid_currency x));
        entry "paid_exponent" (ser_i64 (pc_paid_exponent x)); entry "paid_level" (ser_level (pc_paid_level x));
        entry "is_system_message" (ser_bool (pc_is_system_message x))].

Definition de_pinned (d : data) : option (pinned_chat str) :=
  let* l := fields ["paid_amount"; "paid_currency"; "paid_exponent"; "paid_level"; "is_system_message"]%string d in
  let* amount := field de_i64 "paid_amount" l in
  let* currency := field de_str "paid_currency" l in
  let* exponent := field de_i64 "paid_exponent" l in
  let* lv := field de_level "paid_level" l in
  let* sys := field de_bool "is_system_message" l in
  Some (mk_pinned amount currency exponent lv sys).

(** [Reply]: privmsg.rs:129-146. *)
Definition ser_reply (x : reply cow) : data :=
  DMap [entry "thread_parent_message_id" (ser_str (rp_thread_parent_message_id x));
        entry "thread_parent_user_login" (ser_str (rp_thread_parent_user_login x));
        entry "message_id" (ser_str (rp_message_id x)); entry "sender" (ser_user (rp_sender x));
        entry "text" (ser_str (rp_text x))].

Definition de_reply (d : data) : option (reply str) :=
  let* l := fields ["thread_parent_message_id"; "thread_parent_user_login"; "message_id"; "sender"; "text"]%string d in
  let* thread_id := field de_str "thread_parent_message_id" l in
  let* thread_login := field de_str "thread_parent_user_login" l in
  let* message_id := field de_str "message_id" l in
  let* sender := field de_user "sender" l in
  let* text := field de_str "text" l in
  Some (mk_reply thread_id thread_login message_id sender text).

(** [Privmsg]: privmsg.rs:13-56. *)
Definition ser_privmsg (cd : codec) (x : privmsg cow) : data :=
  DMap [entry "channel" (ser_str (pm_channel x)); entry "channel_id" (ser_str (pm_channel_id x));
        entry "msg_id" (ser_opt ser_str (pm_msg_id x)); entry "id" (ser_str (pm_id x));
        entry "sender" (ser_user (pm_sender x)); entry "reply_to" (ser_opt ser_reply (pm_reply_to x));
        entry "pinned_chat" (ser_opt ser_pinned (pm_pinned_chat x)); entry "text" (ser_str (pm_text x));
        entry "is_action" (ser_bool (pm_is_action x)); entry "badges" (ser_list ser_badge (pm_badges x));
        entry "color" (ser_opt ser_str (pm_color x));
        entry "custom_reward_id" (ser_opt ser_str (pm_custom_reward_id x));
        entry "bits" (ser_opt ser_u64 (pm_bits x)); entry "emotes" (ser_str (pm_emotes x));
        entry "timestamp" (time_ser cd (pm_timestamp x))].

Definition de_privmsg (cd : codec) (d : data) : option (privmsg str) :=
  let* l := fields ["channel"; "channel_id"; "msg_id"; "id"; "sender"; "reply_to"; "pinned_chat"; "text";
                    "is_action"; "badges"; "color"; "custom_reward_id"; "bits"; "emotes"; "timestamp"]%string d in
  let* channel := field de_str "channel" l in
  let* channel_id := field de_str "channel_id" l in
  let* msg_id := opt_field de_str "msg_id" l in
  let* id := field de_str "id" l in
  let* sender := field de_user "sender" l in
  let* reply_to := opt_field de_reply "reply_to" l in
  let* pinned := opt_field de_pinned "pinned_chat" l in
  let* text := field de_str "text" l in
  let* is_action := field de_bool "is_action" l in
  let* badges := field (de_list de_badge) "badges" l in
  let* color := opt_field de_str "color" l in
  let* reward := opt_field de_str "custom_reward_id" l in
  let* bits := opt_field de_u64 "bits" l in
  let* emotes := field de_str "emotes" l in
  let* timestamp := field (time_de cd) "timestamp" l in
  Some (mk_privmsg channel channel_id msg_id id sender reply_to pinned text is_action badges color reward
          bits emotes timestamp).

(** [SubGiftPromo]: user_notice.rs:427-432. *)
Definition ser_promo (p : promo cow) : data :=
  DMap [entry "total_gifts" (ser_u64 (pr_total_gifts p)); entry "promo_name" (ser_str (pr_promo_name p))].

Definition de_promo (d : data) : option (promo str) :=
  let* l := fields ["total_gifts"; "promo_name"]%string d in
  let* total := field de_u64 "total_gifts" l in
  let* name := field de_str "promo_name" l in
  Some (mk_promo total name).

(** [Event] and its payloads: user_notice.rs:117-173, 178-187, 217-221, 241-248,
    278-283, 305-309, 328-333, 350-354, 370-373, 386-393, 405-408
    ([rename_all = "lowercase"]). *)
Definition ser_event (e : event cow) : data :=
  match e with
  | SubOrResub is_resub months streak plan plan_name =>
    ser_newtype "suborresub"
      (DMap [entry "is_resub" (ser_bool is_resub); entry "cumulative_months" (ser_u64 months);
             entry "streak_months" (ser_opt ser_u64 streak); entry "sub_plan" (ser_str plan);
             entry "sub_plan_name" (ser_str plan_name)])
  | Raid n url =>
    ser_newtype "raid" (DMap [entry "viewer_count" (ser_u64 n); entry "profile_image_url" (ser_str url)])
  | SubGift months recipient plan plan_name gifted =>
    ser_newtype "subgift"
      (DMap [entry "cumulative_months" (ser_u64 months); entry "recipient" (ser_user recipient);
             entry "sub_plan" (ser_str plan); entry "sub_plan_name" (ser_str plan_name);
             entry "num_gifted_months" (ser_u64 gifted)])
  | SubMysteryGift n total plan =>
    ser_newtype "submysterygift"
      (DMap [entry "count" (ser_u64 n); entry "sender_total_gifts" (ser_u64 total); entry "sub_plan" (ser_str plan)])
  | AnonSubMysteryGift n plan =>
    ser_newtype "anonsubmysterygift" (DMap [entry "count" (ser_u64 n); entry "sub_plan" (ser_str plan)])
  | GiftPaidUpgrade login name promotion =>
    ser_newtype "giftpaidupgrade"
      (DMap [entry "gifter_login" (ser_str login); entry "gifter_name" (ser_str name);
             entry "promotion" (ser_opt ser_promo promotion)])
  | AnonGiftPaidUpgrade promotion =>
    ser_newtype "anongiftpaidupgrade" (DMap [entry "promotion" (ser_opt ser_promo promotion)])
  | Ritual name => ser_newtype "ritual" (DMap [entry "name" (ser_str name)])
  | BitsBadgeTier tier => ser_newtype "bitsbadgetier" (DMap [entry "tier" (ser_u64 tier)])
  | Announcement color => ser_newtype "announcement" (DMap [entry "highlight_color" (ser_str color)])
  | UnknownEvent => ser_unit "unknown"
  end.

Definition de_sub (d : data) : option (event str) :=
  let* l := fields ["is_resub"; "cumulative_months"; "streak_months"; "sub_plan"; "sub_plan_name"]%string d in
  let* is_resub := field de_bool "is_resub" l in
  let* months := field de_u64 "cumulative_months" l in
  let* streak := opt_field de_u64 "streak_months" l in
  let* plan := field de_str "sub_plan" l in
  let* plan_name := field de_str "sub_plan_name" l in
  Some (SubOrResub is_resub months streak plan plan_name).

Definition de_raid (d : data) : option (event str) :=
  let* l := fields ["viewer_count"; "profile_image_url"]%string d in
  let* n := field de_u64 "viewer_count" l in
  let* url := field de_str "profile_image_url" l in
  Some (Raid n url).

Definition de_sub_gift (d : data) : option (event str) :=
  let* l := fields ["cumulative_months"; "recipient"; "sub_plan"; "sub_plan_name"; "num_gifted_months"]%string d in
  let* months := field de_u64 "cumulative_months" l in
  let* recipient := field de_user "recipient" l in
  let* plan := field de_str "sub_plan" l in
  let* plan_name := field de_str "sub_plan_name" l in
  let* gifted := field de_u64 "num_gifted_months" l in
  Some (SubGift months recipient plan plan_name gifted).

Definition de_sub_mystery_gift (d : data) : option (event str) :=
  let* l := fields ["count"; "sender_total_gifts"; "sub_plan"]%string d in
  let* n := field de_u64 "count" l in
  let* total := field de_u64 "sender_total_gifts" l in
  let* plan := field de_str "sub_plan" l in
  Some (SubMysteryGift n total plan).

Definition de_anon_sub_mystery_gift (d : data) : option (event str) :=
  let* l := fields ["count"; "sub_plan"]%string d in
  let* n := field de_u64 "count" l in
  let* plan := field de_str "sub_plan" l in
  Some (AnonSubMysteryGift n plan).

Definition de_gift_paid_upgrade (d : data) : option (event str) :=
  let* l := fields ["gifter_login"; "gifter_name"; "promotion"]%string d in
  let* login := field de_str "gifter_login" l in
  let* name := field de_str "gifter_name" l in
  let* promotion := opt_field de_promo "promotion" l in
  Some (GiftPaidUpgrade login name promotion).

Definition de_anon_gift_paid_upgrade (d : data) : option (event str) :=
  let* l := fields ["promotion"]%string d in
  let* promotion := opt_field de_promo "promotion" l in
  Some (AnonGiftPaidUpgrade promotion).

Definition de_ritual (d : data) : option (event str) :=
  let* l := fields ["name"]%string d in
  let* name := field de_str "name" l in
  Some (Ritual name).

Definition de_bits_badge_tier (d : data) : option (event str) :=
  let* l := fields ["tier"]%string d in
  let* tier := field de_u64 "tier" l in
  Some (BitsBadgeTier tier).

Definition de_announcement (d : data) : option (event str) :=
  let* l := fields ["highlight_color"]%string d in
  let* color := field de_str "highlight_color" l in
  Some (Announcement color).

Definition de_event (d : data) : option (event str) :=
  let* v := variant d in
  let (s, o) := (v : str * option data) in
  if str_eqb s (b "suborresub") then newtype_variant de_sub o
  else if str_eqb s (b "raid") then newtype_variant de_raid o
  else if str_eqb s (b "subgift") then newtype_variant de_sub_gift o
  else if str_eqb s (b "submysterygift") then newtype_variant de_sub_mystery_gift o
  else if str_eqb s (b "anonsubmysterygift") then newtype_variant de_anon_sub_mystery_gift o
  else if str_eqb s (b "giftpaidupgrade") then newtype_variant de_gift_paid_upgrade o
  else if str_eqb s (b "anongiftpaidupgrade") then newtype_variant de_anon_gift_paid_upgrade o
  else if str_eqb s (b "ritual") then newtype_variant de_ritual o
  else if str_eqb s (b "bitsbadgetier") then newtype_variant de_bits_badge_tier o
  else if str_eqb s (b "announcement") then newtype_variant de_announcement o
  else if str_eqb s (b "unknown") then unit_variant UnknownEvent o
  else None.

(** [UserNotice]: user_notice.rs:14-51. *)
Definition ser_user_notice (cd : codec) (x : user_notice cow) : data :=
  DMap [entry "channel" (ser_str (un_channel x)); entry "channel_id" (ser_str (un_channel_id x));
        entry "sender" (ser_opt ser_user (un_sender x)); entry "text" (ser_opt ser_str (un_text x));
        entry "system_message" (ser_opt ser_str (un_system_message x)); entry "event" (ser_event (un_event x));
        entry "event_id" (ser_str (un_event_id x)); entry "badges" (ser_list ser_badge (un_badges x));
        entry "emotes" (ser_str (un_emotes x)); entry "color" (ser_opt ser_str (un_color x));
        entry "message_id" (ser_str (un_message_id x)); entry "timestamp" (time_ser cd (un_timestamp x))].

Definition de_user_notice (cd : codec) (d : data) : option (user_notice str) :=
  let* l := fields ["channel"; "channel_id"; "sender"; "text"; "system_message"; "event"; "event_id"; "badges";
                    "emotes"; "color"; "message_id"; "timestamp"]%string d in
  let* channel := field de_str "channel" l in
  let* channel_id := field de_str "channel_id" l in
  let* sender := opt_field de_user "sender" l in
  let* text := opt_field de_str "text" l in
  let* system_message := opt_field de_str "system_message" l in
  let* ev := field de_event "event" l in
  let* event_id := field de_str "event_id" l in
  let* badges := field (de_list de_badge) "badges" l in
  let* emotes := field de_str "emotes" l in
  let* color := opt_field de_str "color" l in
  let* message_id := field de_str "message_id" l in
  let* timestamp := field (time_de cd) "timestamp" l in
  Some (mk_user_notice channel channel_id sender text system_message ev event_id badges emotes color
          message_id timestamp).
