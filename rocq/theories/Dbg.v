(** * Dbg: [Debug] output of messages and configuration (model, no proofs).

    The derived and written [fmt::Debug] implementations hand a tree of names and
    values to core's builders, which print it as one line or, with [{:#?}], as
    indented lines.  From core and chrono: the builders, [Debug] of [str],
    integers, [bool], [Option], [Duration] and [DateTime<Utc>]. *)

From Verif Require Import Base Common Client Tags Irc MsgBase MsgTypes MsgNotice Message.

(** ** Trees *)

Inductive dbg :=
| DText (s : str)                                  (* a [str] *)
| DPlain (s : str)                                 (* printed as it is *)
| DStruct (name : str) (fields : list (str * dbg)) (all : bool) (* [finish] or [finish_non_exhaustive] *)
| DTuple (name : str) (items : list dbg)
| DList (items : list dbg).

(** ** [Debug for str] (core) *)

(** The code point of a character. *)
Definition code_point (c : uchar) : N :=
  match map Byte.to_N c with
  | [a] => a
  | [a; x] => ((a - 192) * 64 + (x - 128))%N
  | [a; x; y] => ((a - 224) * 4096 + (x - 128) * 64 + (y - 128))%N
  | [a; x; y; z] => ((a - 240) * 262144 + (x - 128) * 4096 + (y - 128) * 64 + (z - 128))%N
  | _ => 0%N
  end.

(** Hexadecimal digits, lower case, without leading zeros. *)
Fixpoint show_hex_uint (u : Hexadecimal.uint) : str :=
  match u with
  | Hexadecimal.Nil => []
  | Hexadecimal.D0 u => "0"%byte :: show_hex_uint u
  | Hexadecimal.D1 u => "1"%byte :: show_hex_uint u
  | Hexadecimal.D2 u => "2"%byte :: show_hex_uint u
  | Hexadecimal.D3 u => "3"%byte :: show_hex_uint u
  | Hexadecimal.D4 u => "4"%byte :: show_hex_uint u
  | Hexadecimal.D5 u => "5"%byte :: show_hex_uint u
  | Hexadecimal.D6 u => "6"%byte :: show_hex_uint u
  | Hexadecimal.D7 u => "7"%byte :: show_hex_uint u
  | Hexadecimal.D8 u => "8"%byte :: show_hex_uint u
  | Hexadecimal.D9 u => "9"%byte :: show_hex_uint u
  | Hexadecimal.Da u => "a"%byte :: show_hex_uint u
  | Hexadecimal.Db u => "b"%byte :: show_hex_uint u
  | Hexadecimal.Dc u => "c"%byte :: show_hex_uint u
  | Hexadecimal.Dd u => "d"%byte :: show_hex_uint u
  | Hexadecimal.De u => "e"%byte :: show_hex_uint u
  | Hexadecimal.Df u => "f"%byte :: show_hex_uint u
  end.

Definition show_hex (n : N) : str := show_hex_uint (N.to_hex_uint n).

(** [char::escape_debug_ext], quotes of characters not escaped.  [shown] tells for
    the characters beyond ASCII whether they are printed as they are: core's tables
    of printable characters and of grapheme extenders. *)
Definition char_debug (shown : uchar -> bool) (c : uchar) : str :=
  match c with
  | [x00] => b "\0"
  | [x09] => b "\t"
  | [x0a] => b "\n"
  | [x0d] => b "\r"
  | [x22] => [x5c; x22]
  | [x5c] => b "\\"
  | _ =>
    let n := code_point c in
    if (if (n <? 128)%N then (32 <=? n)%N && (n <? 127)%N else shown c) then c
    else b "\u{" ++ show_hex n ++ b "}"
  end.

Definition str_debug (shown : uchar -> bool) (s : str) : str :=
  [x22] ++ flat_map (char_debug shown) (chars s) ++ [x22].

(** ** The builders: core::fmt::builders *)

(** [PadAdapter]: four spaces before every line; [bol] tells that a line begins. *)
Fixpoint pad (bol : bool) (s : str) : str :=
  match s with
  | [] => []
  | c :: s' => (if bol then b "    " else []) ++ c :: pad (Byte.eqb c x0a) s'
  end.

Section Show.
Context (shown : uchar -> bool).

(** The fields of a struct, the items of a tuple or list, one line. *)
Fixpoint one_line (start sep : str) (l : list str) : str :=
  match l with
  | [] => []
  | x :: l' => start ++ x ++ one_line sep sep l'
  end.

(** The same, a line for each. *)
Definition lines (start : str) (l : list str) : str :=
  match l with
  | [] => []
  | _ => start ++ [x0a] ++ concat (map (fun x => pad true (x ++ b "," ++ [x0a])) l)
  end.

Definition nonempty {A : Type} (l : list A) (s : str) : str := match l with [] => [] | _ => s end.

(** [{:?}] if not [alt], [{:#?}] if [alt]. *)
Fixpoint show (alt : bool) (d : dbg) : str :=
  match d with
  | DText s => str_debug shown s
  | DPlain s => s
  | DStruct name fields all =>
    let fs := map (fun f => fst f ++ b ": " ++ show alt (snd f)) fields in
    name ++
    (if alt then lines (b " {") fs else one_line (b " { ") (b ", ") fs) ++
    (if all then nonempty fs (if alt then b "}" else b " }")
     else match fs with
          | [] => b " { .. }"
          | _ => if alt then pad true (b ".." ++ [x0a]) ++ b "}" else b ", .. }"
          end)
  | DTuple name items =>
    let xs := map (show alt) items in
    name ++ (if alt then lines (b "(") xs else one_line (b "(") (b ", ") xs) ++
    nonempty xs (match xs, name, alt with [_], [], false => b ",)" | _, _, _ => b ")" end)
  | DList items =>
    let xs := map (show alt) items in
    b "[" ++ (if alt then lines [] xs else one_line [] (b ", ") xs) ++ b "]"
  end.
End Show.

(** ** Values of other crates *)

Definition dbg_unit (name : string) : dbg := DPlain (b name).
Definition dbg_bool (x : bool) : dbg := DPlain (if x then b "true" else b "false").
Definition dbg_u64 (n : N) : dbg := DPlain (show_N n).
Definition dbg_i64 (z : Z) : dbg :=
  DPlain (if (z <? 0)%Z then b "-" ++ show_N (Z.to_N (- z)) else show_N (Z.to_N z)).
Definition dbg_cow (c : cow) : dbg := DText (deref c).

Definition dbg_option {A : Type} (f : A -> dbg) (o : option A) : dbg :=
  match o with
  | None => dbg_unit "None"
  | Some x => DTuple (b "Some") [f x]
  end.

Definition dbg_list {A : Type} (f : A -> dbg) (l : list A) : dbg := DList (map f l).

(** A field of a struct. *)
Definition fld (name : string) (d : dbg) : str * dbg := (b name, d).
Definition dbg_struct (name : string) (fields : list (str * dbg)) : dbg := DStruct (b name) fields true.

(** [n] in at least [w] digits. *)
Definition digits (w : nat) (n : N) : str :=
  let s := show_N n in repeat "0"%byte (w - length s) ++ s.

(** The digits without the zeros at the end. *)
Definition trim_zeros (s : str) : str :=
  rev ((fix go (r : str) : str := match r with x30 :: r' => go r' | _ => r end) (rev s)).

(** [Debug for Duration] (core), from whole seconds and nanoseconds. *)
Definition decimal (int frac : N) (w : nat) (unit : str) : str :=
  show_N int ++ (if (frac =? 0)%N then [] else b "." ++ trim_zeros (digits w frac)) ++ unit.

Definition duration_debug (secs nanos : N) : str :=
  if (0 <? secs)%N then decimal secs nanos 9 (b "s")
  else if (1000000 <=? nanos)%N then decimal (nanos / 1000000) (nanos mod 1000000) 6 (b "ms")
  else if (1000 <=? nanos)%N then decimal (nanos / 1000) (nanos mod 1000) 3 (b "µs")
  else decimal nanos 0 1 (b "ns").

(** A duration of messages (in seconds), of the client (in nanoseconds). *)
Definition dbg_secs (n : N) : dbg := DPlain (duration_debug n 0).
Definition dbg_nanos (n : N) : dbg := DPlain (duration_debug (n / 1000000000) (n mod 1000000000)).

(** Year, month and day of the day [days] after 1970-01-01, in the proleptic
    Gregorian calendar; the years are counted from March inside. *)
Definition civil (days : Z) : Z * Z * Z :=
  let z := (days + 719468)%Z in
  let era := (z / 146097)%Z in
  let doe := (z mod 146097)%Z in
  let yoe := ((doe - doe / 1460 + doe / 36524 - doe / 146096) / 365)%Z in
  let doy := (doe - (365 * yoe + yoe / 4 - yoe / 100))%Z in
  let mp := ((5 * doy + 2) / 153)%Z in
  let d := (doy - (153 * mp + 2) / 5 + 1)%Z in
  let m := (if mp <? 10 then mp + 3 else mp - 9)%Z in
  ((yoe + era * 400 + (if m <=? 2 then 1 else 0))%Z, m, d).

(** [Debug for NaiveDate]'s year (chrono): four digits, with a sign outside of
    0..=9999. *)
Definition year_debug (y : Z) : str :=
  if ((0 <=? y) && (y <=? 9999))%Z then digits 4 (Z.to_N y)
  else (if (y <? 0)%Z then b "-" else b "+") ++ digits 4 (Z.to_N (Z.abs y)).

(** [Debug for DateTime<Utc>] (chrono), from milliseconds. *)
Definition time_debug (ms : Z) : str :=
  let '(y, m, d) := civil (ms / 86400000) in
  let t := Z.to_N (ms mod 86400000) in
  year_debug y ++ b "-" ++ digits 2 (Z.to_N m) ++ b "-" ++ digits 2 (Z.to_N d) ++ b "T" ++
  digits 2 (t / 3600000) ++ b ":" ++ digits 2 (t / 60000 mod 60) ++ b ":" ++ digits 2 (t / 1000 mod 60) ++
  (if (t mod 1000 =? 0)%N then [] else b "." ++ digits 3 (t mod 1000)) ++ b "Z".

Definition dbg_time (ms : Z) : dbg := DPlain (time_debug ms).

(** ** IRC messages *)

(** [Prefix]: derived, prefix.rs:26-34. *)
Definition dbg_prefix (p : prefix) : dbg :=
  dbg_struct "Prefix" [fld "nick" (dbg_option DText (nick p)); fld "user" (dbg_option DText (user p));
                       fld "host" (DText (host p))].

(** [Command]: derived, command.rs:68-121. *)
Definition dbg_command (c : command) : dbg :=
  match c with
  | Ping => dbg_unit "Ping" | Pong => dbg_unit "Pong" | Join => dbg_unit "Join" | Part => dbg_unit "Part"
  | Privmsg => dbg_unit "Privmsg" | Whisper => dbg_unit "Whisper" | ClearChat => dbg_unit "ClearChat"
  | ClearMsg => dbg_unit "ClearMsg" | GlobalUserState => dbg_unit "GlobalUserState" | Notice => dbg_unit "Notice"
  | Reconnect => dbg_unit "Reconnect" | RoomState => dbg_unit "RoomState" | UserNotice => dbg_unit "UserNotice"
  | UserState => dbg_unit "UserState" | Capability => dbg_unit "Capability" | RplWelcome => dbg_unit "RplWelcome"
  | RplYourHost => dbg_unit "RplYourHost" | RplCreated => dbg_unit "RplCreated" | RplMyInfo => dbg_unit "RplMyInfo"
  | RplNames => dbg_unit "RplNames" | RplEndOfNames => dbg_unit "RplEndOfNames" | RplMotd => dbg_unit "RplMotd"
  | RplMotdStart => dbg_unit "RplMotdStart" | RplEndOfMotd => dbg_unit "RplEndOfMotd"
  | Other s => DTuple (b "Other") [DText s]
  end.

(** One item of [tags()]: a pair of strings. *)
Definition dbg_pair (kv : str * str) : dbg := DTuple [] [DText (fst kv); DText (snd kv)].

Definition dbg_parts (name : string) (tags : list (str * str)) (p : option prefix) (c : command)
  (channel params : option str) : dbg :=
  dbg_struct name [fld "tags" (dbg_list dbg_pair tags); fld "prefix" (dbg_option dbg_prefix p);
    fld "command" (dbg_command c); fld "channel" (dbg_option DText channel);
    fld "params" (dbg_option DText params)].

(** [Debug for IrcMessageRef]: irc.rs:167-177, with [DebugIter]: irc.rs:293-312. *)
Definition dbg_ref (m : msg_ref) : res dbg :=
  let! tags := ref_tags m in
  let! p := ref_prefix m in
  let! c := ref_command m in
  let! channel := ref_channel m in
  let! params := ref_params m in
  Ret (dbg_parts "Message" tags p c channel params).

(** [Debug for IrcMessage]: irc.rs:275-285. *)
Definition dbg_own (m : msg_own) : res dbg :=
  let! tags := own_tags m in
  let! p := own_prefix m in
  let! c := own_command m in
  let! channel := own_channel m in
  let! params := own_params m in
  Ret (dbg_parts "IrcMessage" tags p c channel params).

(** [Debug for ChannelRef]: common/channel.rs:60-64. *)
Definition dbg_channel_ref (s : str) : dbg := DTuple (b "Channel") [DText s].

(** ** Typed messages: derived *)

(** [BadgeData], [Subscriber], [Badge], [User]: msg.rs:251-257, 214-223, 111-137, 291-297. *)
Definition dbg_badge_data (d : badge_data cow) : dbg :=
  dbg_struct "BadgeData" [fld "name" (dbg_cow (bd_name d)); fld "version" (dbg_cow (bd_version d));
                          fld "extra" (dbg_option dbg_cow (bd_extra d))].

Definition dbg_subscriber (s : subscriber cow) : dbg :=
  dbg_struct "Subscriber" [fld "version" (dbg_cow (sb_version s)); fld "months" (dbg_cow (sb_months s));
                           fld "months_n" (dbg_u64 (sb_months_n s))].

Definition dbg_badge (x : badge cow) : dbg :=
  match x with
  | Staff => dbg_unit "Staff"
  | Turbo => dbg_unit "Turbo"
  | Broadcaster => dbg_unit "Broadcaster"
  | Moderator => dbg_unit "Moderator"
  | BSubscriber s => DTuple (b "Subscriber") [dbg_subscriber s]
  | BOther d => DTuple (b "Other") [dbg_badge_data d]
  end.

Definition dbg_user (u : user_info cow) : dbg :=
  dbg_struct "User" [fld "id" (dbg_cow (u_id u)); fld "login" (dbg_cow (u_login u)); fld "name" (dbg_cow (u_name u))].

(** [Join], [Part]: join.rs:8-16, part.rs:8-16. *)
Definition dbg_join (x : join_msg cow) : dbg :=
  dbg_struct "Join" [fld "channel" (dbg_cow (j_channel x)); fld "user" (dbg_cow (j_user x))].
Definition dbg_part (x : part_msg cow) : dbg :=
  dbg_struct "Part" [fld "channel" (dbg_cow (pt_channel x)); fld "user" (dbg_cow (pt_user x))].

(** [Ping], [Pong]: ping.rs:22-27, pong.rs:20-25. *)
Definition dbg_ping (x : ping_msg cow) : dbg := dbg_struct "Ping" [fld "nonce" (dbg_option dbg_cow (pi_nonce x))].
Definition dbg_pong (x : pong_msg cow) : dbg := dbg_struct "Pong" [fld "nonce" (dbg_option dbg_cow (po_nonce x))].

(** [Notice]: notice.rs:10-21. *)
Definition dbg_notice (x : notice_msg cow) : dbg :=
  dbg_struct "Notice" [fld "channel" (dbg_option dbg_cow (n_channel x)); fld "text" (dbg_cow (n_text x));
                       fld "id" (dbg_option dbg_cow (n_id x))].

(** [ClearMsg]: clear_msg.rs:9-30. *)
Definition dbg_clear_msg (x : clear_msg cow) : dbg :=
  dbg_struct "ClearMsg" [fld "channel" (dbg_cow (cm_channel x)); fld "channel_id" (dbg_cow (cm_channel_id x));
    fld "sender" (dbg_cow (cm_sender x)); fld "target_message_id" (dbg_cow (cm_target_message_id x));
    fld "text" (dbg_cow (cm_text x)); fld "is_action" (dbg_bool (cm_is_action x));
    fld "timestamp" (dbg_time (cm_timestamp x))].

(** [Action], [Ban], [TimeOut], [ClearChat]: clear_chat.rs:10-23, 56-73, 102-110, 123-133. *)
Definition dbg_action (a : action cow) : dbg :=
  match a with
  | Clear => dbg_unit "Clear"
  | Ban u i => DTuple (b "Ban") [dbg_struct "Ban" [fld "user" (dbg_cow u); fld "id" (dbg_cow i)]]
  | TimeOut u i d =>
    DTuple (b "TimeOut")
      [dbg_struct "TimeOut" [fld "user" (dbg_cow u); fld "id" (dbg_cow i); fld "duration" (dbg_secs d)]]
  end.

Definition dbg_clear_chat (x : clear_chat cow) : dbg :=
  dbg_struct "ClearChat" [fld "channel" (dbg_cow (cc_channel x)); fld "channel_id" (dbg_cow (cc_channel_id x));
    fld "action" (dbg_action (cc_action x)); fld "timestamp" (dbg_time (cc_timestamp x))].

(** [GlobalUserState], [UserState]: global_user_state.rs:10-27, user_state.rs:18-35. *)
Definition dbg_global_user_state (x : global_user_state cow) : dbg :=
  dbg_struct "GlobalUserState" [fld "id" (dbg_cow (gus_id x)); fld "name" (dbg_cow (gus_name x));
    fld "badges" (dbg_list dbg_badge (gus_badges x)); fld "emote_sets" (dbg_list dbg_cow (gus_emote_sets x));
    fld "color" (dbg_option dbg_cow (gus_color x))].

Definition dbg_user_state (x : user_state cow) : dbg :=
  dbg_struct "UserState" [fld "channel" (dbg_cow (us_channel x)); fld "user_name" (dbg_cow (us_user_name x));
    fld "badges" (dbg_list dbg_badge (us_badges x)); fld "emote_sets" (dbg_list dbg_cow (us_emote_sets x));
    fld "color" (dbg_option dbg_cow (us_color x))].

(** [Whisper]: whisper.rs:8-28. *)
Definition dbg_whisper (x : whisper_msg cow) : dbg :=
  dbg_struct "Whisper" [fld "recipient" (dbg_cow (w_recipient x)); fld "sender" (dbg_user (w_sender x));
    fld "text" (dbg_cow (w_text x)); fld "badges" (dbg_list dbg_badge (w_badges x));
    fld "emotes" (dbg_cow (w_emotes x)); fld "color" (dbg_option dbg_cow (w_color x))].

(** [FollowersOnly], [RoomState]: room_state.rs:71-90, 9-27. *)
Definition dbg_followers (f : followers_only) : dbg :=
  match f with
  | Disabled => dbg_unit "Disabled"
  | Enabled d => DTuple (b "Enabled") [dbg_option dbg_secs d]
  end.

Definition dbg_room_state (x : room_state cow) : dbg :=
  dbg_struct "RoomState" [fld "channel" (dbg_cow (rs_channel x)); fld "channel_id" (dbg_cow (rs_channel_id x));
    fld "emote_only" (dbg_option dbg_bool (rs_emote_only x));
    fld "followers_only" (dbg_option dbg_followers (rs_followers_only x)); fld "r9k" (dbg_option dbg_bool (rs_r9k x));
    fld "slow" (dbg_option dbg_secs (rs_slow x)); fld "subs_only" (dbg_option dbg_bool (rs_subs_only x))].

(** [Reply], [PinnedChatLevel], [PinnedChat], [Privmsg]: privmsg.rs:129-146, 203-217, 187-200, 13-56. *)
Definition dbg_reply (r : reply cow) : dbg :=
  dbg_struct "Reply" [fld "thread_parent_message_id" (dbg_cow (rp_thread_parent_message_id r));
    fld "thread_parent_user_login" (dbg_cow (rp_thread_parent_user_login r));
    fld "message_id" (dbg_cow (rp_message_id r)); fld "sender" (dbg_user (rp_sender r));
    fld "text" (dbg_cow (rp_text r))].

Definition dbg_level (l : level) : dbg :=
  match l with
  | ONE => dbg_unit "ONE" | TWO => dbg_unit "TWO" | THREE => dbg_unit "THREE" | FOUR => dbg_unit "FOUR"
  | FIVE => dbg_unit "FIVE" | SIX => dbg_unit "SIX" | SEVEN => dbg_unit "SEVEN" | EIGHT => dbg_unit "EIGHT"
  | NINE => dbg_unit "NINE" | TEN => dbg_unit "TEN"
  end.

Definition dbg_pinned (p : pinned_chat cow) : dbg :=
  dbg_struct "PinnedChat" [fld "paid_amount" (dbg_i64 (pc_paid_amount p));
    fld "paid_currency" (dbg_cow (pc_paid_currency p)); fld "paid_exponent" (dbg_i64 (pc_paid_exponent p));
    fld "paid_level" (dbg_level (pc_paid_level p)); fld "is_system_message" (dbg_bool (pc_is_system_message p))].

Definition dbg_privmsg (x : privmsg cow) : dbg :=
  dbg_struct "Privmsg" [fld "channel" (dbg_cow (pm_channel x)); fld "channel_id" (dbg_cow (pm_channel_id x));
    fld "msg_id" (dbg_option dbg_cow (pm_msg_id x)); fld "id" (dbg_cow (pm_id x));
    fld "sender" (dbg_user (pm_sender x)); fld "reply_to" (dbg_option dbg_reply (pm_reply_to x));
    fld "pinned_chat" (dbg_option dbg_pinned (pm_pinned_chat x)); fld "text" (dbg_cow (pm_text x));
    fld "is_action" (dbg_bool (pm_is_action x)); fld "badges" (dbg_list dbg_badge (pm_badges x));
    fld "color" (dbg_option dbg_cow (pm_color x)); fld "custom_reward_id" (dbg_option dbg_cow (pm_custom_reward_id x));
    fld "bits" (dbg_option dbg_u64 (pm_bits x)); fld "emotes" (dbg_cow (pm_emotes x));
    fld "timestamp" (dbg_time (pm_timestamp x))].

(** [SubGiftPromo], [Event] and its payloads, [UserNotice]: user_notice.rs:427-432, 117-408, 14-51. *)
Definition dbg_promo (p : promo cow) : dbg :=
  dbg_struct "SubGiftPromo" [fld "total_gifts" (dbg_u64 (pr_total_gifts p)); fld "promo_name" (dbg_cow (pr_promo_name p))].

(** A variant holding the struct of the same name. *)
Definition dbg_variant (name : string) (fields : list (str * dbg)) : dbg := DTuple (b name) [dbg_struct name fields].

Definition dbg_event (e : event cow) : dbg :=
  match e with
  | SubOrResub r n s p pn =>
    dbg_variant "SubOrResub" [fld "is_resub" (dbg_bool r); fld "cumulative_months" (dbg_u64 n);
      fld "streak_months" (dbg_option dbg_u64 s); fld "sub_plan" (dbg_cow p); fld "sub_plan_name" (dbg_cow pn)]
  | Raid n u => dbg_variant "Raid" [fld "viewer_count" (dbg_u64 n); fld "profile_image_url" (dbg_cow u)]
  | SubGift n u p pn g =>
    dbg_variant "SubGift" [fld "cumulative_months" (dbg_u64 n); fld "recipient" (dbg_user u);
      fld "sub_plan" (dbg_cow p); fld "sub_plan_name" (dbg_cow pn); fld "num_gifted_months" (dbg_u64 g)]
  | SubMysteryGift n t p =>
    dbg_variant "SubMysteryGift" [fld "count" (dbg_u64 n); fld "sender_total_gifts" (dbg_u64 t); fld "sub_plan" (dbg_cow p)]
  | AnonSubMysteryGift n p => dbg_variant "AnonSubMysteryGift" [fld "count" (dbg_u64 n); fld "sub_plan" (dbg_cow p)]
  | GiftPaidUpgrade l n p =>
    dbg_variant "GiftPaidUpgrade" [fld "gifter_login" (dbg_cow l); fld "gifter_name" (dbg_cow n);
      fld "promotion" (dbg_option dbg_promo p)]
  | AnonGiftPaidUpgrade p => dbg_variant "AnonGiftPaidUpgrade" [fld "promotion" (dbg_option dbg_promo p)]
  | Ritual n => dbg_variant "Ritual" [fld "name" (dbg_cow n)]
  | BitsBadgeTier t => dbg_variant "BitsBadgeTier" [fld "tier" (dbg_u64 t)]
  | Announcement c => dbg_variant "Announcement" [fld "highlight_color" (dbg_cow c)]
  | UnknownEvent => dbg_unit "Unknown"
  end.

Definition dbg_user_notice (x : user_notice cow) : dbg :=
  dbg_struct "UserNotice" [fld "channel" (dbg_cow (un_channel x)); fld "channel_id" (dbg_cow (un_channel_id x));
    fld "sender" (dbg_option dbg_user (un_sender x)); fld "text" (dbg_option dbg_cow (un_text x));
    fld "system_message" (dbg_option dbg_cow (un_system_message x)); fld "event" (dbg_event (un_event x));
    fld "event_id" (dbg_cow (un_event_id x)); fld "badges" (dbg_list dbg_badge (un_badges x));
    fld "emotes" (dbg_cow (un_emotes x)); fld "color" (dbg_option dbg_cow (un_color x));
    fld "message_id" (dbg_cow (un_message_id x)); fld "timestamp" (dbg_time (un_timestamp x))].

(** [Message]: msg.rs:39-56. *)
Definition dbg_typed (t : typed) : res dbg :=
  match t with
  | MClearChat x => Ret (DTuple (b "ClearChat") [dbg_clear_chat x])
  | MClearMsg x => Ret (DTuple (b "ClearMsg") [dbg_clear_msg x])
  | MGlobalUserState x => Ret (DTuple (b "GlobalUserState") [dbg_global_user_state x])
  | MJoin x => Ret (DTuple (b "Join") [dbg_join x])
  | MNotice x => Ret (DTuple (b "Notice") [dbg_notice x])
  | MPart x => Ret (DTuple (b "Part") [dbg_part x])
  | MPing x => Ret (DTuple (b "Ping") [dbg_ping x])
  | MPong x => Ret (DTuple (b "Pong") [dbg_pong x])
  | MPrivmsg x => Ret (DTuple (b "Privmsg") [dbg_privmsg x])
  | MReconnect => Ret (dbg_unit "Reconnect")
  | MRoomState x => Ret (DTuple (b "RoomState") [dbg_room_state x])
  | MUserNotice x => Ret (DTuple (b "UserNotice") [dbg_user_notice x])
  | MUserState x => Ret (DTuple (b "UserState") [dbg_user_state x])
  | MWhisper x => Ret (DTuple (b "Whisper") [dbg_whisper x])
  | MOther m => let! d := dbg_ref m in Ret (DTuple (b "Other") [d])
  end.

(** ** Configuration *)

(** [Debug for Credentials]: client.rs:137-143; [Backoff], [Config]: derived,
    client.rs:146-159, 173-183. *)
Definition dbg_credentials (c : credentials) : dbg := DStruct (b "Credentials") [fld "nick" (DText (login c))] false.

Definition dbg_backoff (x : backoff) : dbg :=
  dbg_struct "Backoff" [fld "max_tries" (dbg_option dbg_u64 (max_tries x)); fld "initial_delay" (dbg_nanos (initial_delay x));
    fld "delay_multiplier" (dbg_u64 (delay_multiplier x)); fld "max_delay" (dbg_nanos (max_delay x))].

Definition dbg_config (x : config) : dbg :=
  dbg_struct "Config" [fld "credentials" (dbg_credentials (cf_credentials x)); fld "timeout" (dbg_nanos (cf_timeout x));
    fld "backoff" (dbg_backoff (cf_backoff x))].
