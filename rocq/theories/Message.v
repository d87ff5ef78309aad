(** * Message: typed dispatch, src/msg.rs:16-108 (model, no proofs). *)

From Verif Require Import Base Tags Irc Unescape MsgBase MsgTypes MsgNotice.

(** [enum Message]: src/msg.rs:40-56. *)
Inductive typed :=
| MClearChat (v : clear_chat cow)
| MClearMsg (v : clear_msg cow)
| MGlobalUserState (v : global_user_state cow)
| MJoin (v : join_msg cow)
| MNotice (v : notice_msg cow)
| MPart (v : part_msg cow)
| MPing (v : ping_msg cow)
| MPong (v : pong_msg cow)
| MPrivmsg (v : privmsg cow)
| MReconnect
| MRoomState (v : room_state cow)
| MUserNotice (v : user_notice cow)
| MUserState (v : user_state cow)
| MWhisper (v : whisper_msg cow)
| MOther (m : msg_ref).

(** [X::from_irc(message)?.into()]; [Err(MessageParseError)] is [None]. *)
Definition into {A : Type} (f : A -> typed) (r : res (option A)) : res (option typed) :=
  let? v := r in Ret (Some (f v)).

(** [Message::from_irc]: src/msg.rs:87-108. *)
Definition from_irc (pf : profile) (m : msg_ref) : res (option typed) :=
  let! c := ref_command m in
  match c with
  | ClearChat => into MClearChat (clear_chat_parse m)
  | ClearMsg => into MClearMsg (clear_msg_parse m)
  | GlobalUserState => into MGlobalUserState (global_user_state_parse m)
  | Join => into MJoin (join_parse m)
  | Notice => into MNotice (notice_parse m)
  | Part => into MPart (part_parse m)
  | Ping => into MPing (ping_parse m)
  | Pong => into MPong (pong_parse m)
  | Privmsg => into MPrivmsg (privmsg_parse m)
  | Reconnect => Ret (Some MReconnect)
  | RoomState => into MRoomState (room_state_parse pf m)
  | UserNotice => into MUserNotice (user_notice_parse m)
  | UserState => into MUserState (user_state_parse m)
  | Whisper => into MWhisper (whisper_parse m)
  | _ => Ret (Some (MOther m))
  end.

(** [IrcMessageRef::as_typed]: src/msg.rs:25-27. *)
Definition ref_as_typed (pf : profile) (m : msg_ref) : res (option typed) := from_irc pf m.

(** [IrcMessage::as_typed]: src/msg.rs:18-20. *)
Definition own_as_typed (pf : profile) (m : msg_own) : res (option typed) := from_irc pf (own_as_ref m).

(** [Message::parse]: src/msg.rs:62-66. *)
Definition message_parse (bd : build) (pf : profile) (src : str) : res (option typed) :=
  let? m := ref_parse bd src in from_irc pf m.
