(** * SpecSlice: where the strings of a typed message come from. *)

From Verif Require Import Base Tags Irc SpecIrc MsgBase MsgTypes MsgNotice Message SpecMsg.

(** The line has a subscriber badge and no number of months for it. *)
Definition bare_subscriber (v : view) : Prop :=
  exists x y items extras, has v "badges" x /\ has v "badge-info" y /\
    comma_items x items /\ comma_items y extras /\
    In (b "subscriber") (map fst items) /\ first_tag (b "subscriber") extras None.

(** The line is an announcement and does not say in which colour. *)
Definition plain_announcement (v : view) : Prop :=
  has v "msg-id" (b "announcement") /\ forall x, ~ has v "msg-param-color" x.

(** A string made from the line [s] with the parts [v]: a stretch of the line, or
    one of the two that stand for what is not there. *)
Inductive piece (s : str) (v : view) : Type :=
| Stretch (l x r : str) (C : s = l ++ x ++ r) (U : utf8_valid x = true)
| OneMonth (H : bare_subscriber v)
| Primary (H : plain_announcement v).
Arguments Stretch {s v}. Arguments OneMonth {s v}. Arguments Primary {s v}.

Definition piece_text {s : str} {v : view} (p : piece s v) : str :=
  match p with
  | Stretch _ x _ _ _ => x
  | OneMonth _ => b "1"
  | Primary _ => b "PRIMARY"
  end.

(** All strings of the typed message are given by [f]. *)
Definition made_with {T : Type} (f : T -> cow) (t : typed) : Prop :=
  match t with
  | MClearChat x => exists y, x = clear_chat_map f y
  | MClearMsg x => exists y, x = clear_msg_map f y
  | MGlobalUserState x => exists y, x = global_user_state_map f y
  | MJoin x => exists y, x = join_map f y
  | MNotice x => exists y, x = notice_map f y
  | MPart x => exists y, x = part_map f y
  | MPing x => exists y, x = ping_map f y
  | MPong x => exists y, x = pong_map f y
  | MPrivmsg x => exists y, x = privmsg_map f y
  | MReconnect => True
  | MRoomState x => exists y, x = room_state_map f y
  | MUserNotice x => exists y, x = user_notice_map f y
  | MUserState x => exists y, x = user_state_map f y
  | MWhisper x => exists y, x = whisper_map f y
  | MOther _ => False
  end.
