(** * SpecDbg: what printed messages are compared with. *)

From Verif Require Import Base Tags Irc MsgBase MsgTypes MsgNotice Message SpecMsg.

(** Not a byte of a control character of ASCII; in particular no line break. *)
Definition visible (c : byte) : Prop := (32 <= Byte.to_N c)%N /\ Byte.to_N c <> 127%N.

(** ** The calendar *)

Open Scope Z_scope.

Definition leap (y : Z) : bool := (y mod 4 =? 0) && negb (y mod 100 =? 0) || (y mod 400 =? 0).

Definition month_days (y m : Z) : Z :=
  if m =? 2 then (if leap y then 29 else 28)
  else if (m =? 4) || (m =? 6) || (m =? 9) || (m =? 11) then 30 else 31.

Definition date : Type := Z * Z * Z.

Definition next_day (x : date) : date :=
  let '(y, m, d) := x in
  if d <? month_days y m then (y, m, d + 1)
  else if m <? 12 then (y, m + 1, 1)
  else (y + 1, 1, 1).

Definition is_date (x : date) : Prop :=
  let '(y, m, d) := x in 1 <= m <= 12 /\ 1 <= d <= month_days y m.

(** [calendar k x]: the day [k] days after 1970-01-01 is [x]. *)
Inductive calendar : Z -> date -> Prop :=
| epoch : calendar 0 (1970, 1, 1)
| day_after k x : calendar k x -> calendar (k + 1) (next_day x)
| day_before k x : is_date x -> calendar (k + 1) (next_day x) -> calendar k x.

(** ** Times *)

(** [n] in exactly [w] digits. *)
Definition padded (w : nat) (s : str) (n : Z) : Prop := length s = w /\ numeral s (Z.to_N n) /\ 0 <= n.

Definition year_text (y : Z) (s : str) : Prop :=
  (0 <= y <= 9999 /\ padded 4 s y) \/
  exists sign ds, s = sign :: ds /\ (4 <= length ds)%nat /\ numeral ds (Z.to_N (Z.abs y)) /\
    ((y < 0 /\ sign = "-"%byte) \/ (9999 < y /\ sign = "+"%byte)).

Definition millis_text (n : Z) (s : str) : Prop :=
  (n = 0 /\ s = []) \/ (0 < n < 1000 /\ exists ds, s = "."%byte :: ds /\ padded 3 ds n).

(** [s] is the time [ms] milliseconds after the epoch, in UTC (ISO 8601). *)
Definition time_text (ms : Z) (s : str) : Prop :=
  exists y m d hour minute second milli sy sm sd sh smi ss sf,
    calendar (ms / 86400000) (y, m, d) /\
    0 <= hour < 24 /\ 0 <= minute < 60 /\ 0 <= second < 60 /\ 0 <= milli < 1000 /\
    ms mod 86400000 = ((hour * 60 + minute) * 60 + second) * 1000 + milli /\
    year_text y sy /\ padded 2 sm m /\ padded 2 sd d /\
    padded 2 sh hour /\ padded 2 smi minute /\ padded 2 ss second /\ millis_text milli sf /\
    s = sy ++ b "-" ++ sm ++ b "-" ++ sd ++ b "T" ++ sh ++ b ":" ++ smi ++ b ":" ++ ss ++ sf ++ b "Z".

Close Scope Z_scope.

(** ** Texts of a message *)

(** Texts of Rust are UTF-8. *)
Definition text : Type := { s : str | utf8_valid s = true }.
Definition raw (t : text) : str := proj1_sig t.

(** [x] has the plain value of some [z] whose texts are UTF-8. *)
Definition texts {X Y Z : Type} (plain : X -> Y) (of_texts : Z -> Y) (x : X) : Prop :=
  exists z, plain x = of_texts z.

(** [print] shows the plain value of everything that [good] holds of, and
    nothing else. *)
Definition faithful {X Y : Type} (good : X -> Prop) (plain : X -> Y) (print : X -> str) : Prop :=
  forall x y, good x -> good y -> (print x = print y <-> plain x = plain y).

(** ** The same message *)

(** All accessors of the messages agree. *)
Definition same_ref (m m' : msg_ref) : Prop :=
  ref_tags m = ref_tags m' /\ ref_prefix m = ref_prefix m' /\ ref_command m = ref_command m' /\
  ref_channel m = ref_channel m' /\ ref_params m = ref_params m'.

(** Same variant, same contents, apart from who owns the strings. *)
Inductive same_message : typed -> typed -> Prop :=
| same_clear_chat x y : clear_chat_map deref x = clear_chat_map deref y -> same_message (MClearChat x) (MClearChat y)
| same_clear_msg x y : clear_msg_map deref x = clear_msg_map deref y -> same_message (MClearMsg x) (MClearMsg y)
| same_global_user_state x y : global_user_state_map deref x = global_user_state_map deref y ->
    same_message (MGlobalUserState x) (MGlobalUserState y)
| same_join x y : join_map deref x = join_map deref y -> same_message (MJoin x) (MJoin y)
| same_notice x y : notice_map deref x = notice_map deref y -> same_message (MNotice x) (MNotice y)
| same_part x y : part_map deref x = part_map deref y -> same_message (MPart x) (MPart y)
| same_ping x y : ping_map deref x = ping_map deref y -> same_message (MPing x) (MPing y)
| same_pong x y : pong_map deref x = pong_map deref y -> same_message (MPong x) (MPong y)
| same_privmsg x y : privmsg_map deref x = privmsg_map deref y -> same_message (MPrivmsg x) (MPrivmsg y)
| same_reconnect : same_message MReconnect MReconnect
| same_room_state x y : room_state_map deref x = room_state_map deref y -> same_message (MRoomState x) (MRoomState y)
| same_user_notice x y : user_notice_map deref x = user_notice_map deref y -> same_message (MUserNotice x) (MUserNotice y)
| same_user_state x y : user_state_map deref x = user_state_map deref y -> same_message (MUserState x) (MUserState y)
| same_whisper x y : whisper_map deref x = whisper_map deref y -> same_message (MWhisper x) (MWhisper y)
| same_other m m' : same_ref m m' -> same_message (MOther m) (MOther m').
