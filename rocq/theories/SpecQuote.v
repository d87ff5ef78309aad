(** * SpecQuote: typed messages without what someone wrote in them. *)

From Verif Require Import Base Tags Irc SpecIrc MsgBase MsgTypes MsgNotice Message SpecMsg.

(** The same parts with other parameters. *)
Definition with_params (v : view) (p : str) : view :=
  mk_view (v_tags v) (v_prefix v) (v_command v) (v_channel v) (Some p).

Definition blank : cow := Borrowed [].

(** The same message with the text left out. *)
Definition without_text (t : typed) : typed :=
  match t with
  | MClearChat x =>
    MClearChat (mk_clear_chat (cc_channel x) (cc_channel_id x)
      match cc_action x with Clear => Clear | Ban _ i => Ban blank i | TimeOut _ i d => TimeOut blank i d end
      (cc_timestamp x))
  | MClearMsg x =>
    MClearMsg (mk_clear_msg (cm_channel x) (cm_channel_id x) (cm_sender x) (cm_target_message_id x) blank
      false (cm_timestamp x))
  | MNotice x => MNotice (mk_notice (n_channel x) blank (n_id x))
  | MPing _ => MPing (mk_ping None)
  | MPong _ => MPong (mk_pong None)
  | MPrivmsg x =>
    MPrivmsg (mk_privmsg (pm_channel x) (pm_channel_id x) (pm_msg_id x) (pm_id x) (pm_sender x) (pm_reply_to x)
      (pm_pinned_chat x) blank false (pm_badges x) (pm_color x) (pm_custom_reward_id x) (pm_bits x) (pm_emotes x)
      (pm_timestamp x))
  | MUserNotice x =>
    MUserNotice (mk_user_notice (un_channel x) (un_channel_id x) (un_sender x) None (un_system_message x)
      (un_event x) (un_event_id x) (un_badges x) (un_emotes x) (un_color x) (un_message_id x) (un_timestamp x))
  | MWhisper x => MWhisper (mk_whisper (w_recipient x) (w_sender x) blank (w_badges x) (w_emotes x) (w_color x))
  | MGlobalUserState _ | MJoin _ | MPart _ | MReconnect | MRoomState _ | MUserState _ | MOther _ => t
  end.
