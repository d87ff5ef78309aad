(** * SpecCut: lines and streams that end too early. *)

From Verif Require Import Base Tags Irc SpecIrc MsgBase MsgTypes MsgNotice Message SpecMsg Common Client SpecClient.

(** [v'] has the tags, the prefix and the command of [v]; of the channel and the
    parameters it has what comes before some point. *)
Definition shortened (v v' : view) : Prop :=
  v_tags v' = v_tags v /\ v_prefix v' = v_prefix v /\ v_command v' = v_command v /\
  ((v_channel v' = None /\ v_params v' = None) \/
   (v_params v' = None /\ exists c r, v_channel v' = Some c /\ v_channel v = Some (c ++ r)) \/
   (v_channel v' = v_channel v /\ exists p r, v_params v' = Some p /\ v_params v = Some (p ++ r))).

(** What is left of the first of the lines [ls]: nothing, or one line which is the
    beginning of that line, or the whole of it followed by the carriage return
    that should have been dropped. *)
Definition left_of (ls tail : list str) : Prop :=
  tail = [] \/
  exists l l0 ls', tail = [l] /\ ls = l0 :: ls' /\ l <> [] /\ ((exists x, l0 = l ++ x) \/ l = l0 ++ [cr]).
