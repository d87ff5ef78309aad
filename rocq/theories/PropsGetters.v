(** * PropsGetters: property theorems (generated from GettersProofs.v by tools/gen_props.py).

    Only statements; each is closed by the lemma of the same name. *)

From Verif Require Import Base Wide Tags Irc Unescape SpecIrc SpecText MsgBase MsgTypes MsgNotice Message SpecMsg Samples Getters SpecGetters GettersProofs.

(** C70. The methods of a JOIN return what its line says, also after [into_owned]. *)
Theorem c70_join :
  forall (bd : build) (s : str) (v : view) (m : msg_ref) (q : join_msg cow),
    parsed bd s v m -> v_command v = b "JOIN" -> join_parse m = Ret (Some q) ->
    tells_join v q /\ tells_join v (join_into_owned q).
Proof. exact p_c70_join. Qed.
Print Assumptions c70_join.

(** C70. The methods of a PART return what its line says, also after [into_owned]. *)
Theorem c70_part :
  forall (bd : build) (s : str) (v : view) (m : msg_ref) (q : part_msg cow),
    parsed bd s v m -> v_command v = b "PART" -> part_parse m = Ret (Some q) ->
    tells_part v q /\ tells_part v (part_into_owned q).
Proof. exact p_c70_part. Qed.
Print Assumptions c70_part.

(** C70. The methods of a PING return what its line says, also after [into_owned]. *)
Theorem c70_ping :
  forall (bd : build) (s : str) (v : view) (m : msg_ref) (q : ping_msg cow),
    parsed bd s v m -> v_command v = b "PING" -> ping_parse m = Ret (Some q) ->
    tells_ping v q /\ tells_ping v (ping_into_owned q).
Proof. exact p_c70_ping. Qed.
Print Assumptions c70_ping.

(** C70. The methods of a PONG return what its line says, also after [into_owned]. *)
Theorem c70_pong :
  forall (bd : build) (s : str) (v : view) (m : msg_ref) (q : pong_msg cow),
    parsed bd s v m -> v_command v = b "PONG" -> pong_parse m = Ret (Some q) ->
    tells_pong v q /\ tells_pong v (pong_into_owned q).
Proof. exact p_c70_pong. Qed.
Print Assumptions c70_pong.

(** C70. The methods of a NOTICE return what its line says, also after [into_owned]. *)
Theorem c70_notice :
  forall (bd : build) (s : str) (v : view) (m : msg_ref) (q : notice_msg cow),
    parsed bd s v m -> v_command v = b "NOTICE" -> notice_parse m = Ret (Some q) ->
    tells_notice v q /\ tells_notice v (notice_into_owned q).
Proof. exact p_c70_notice. Qed.
Print Assumptions c70_notice.

(** C70. The methods of a CLEARMSG return what its line says, also after [into_owned]. *)
Theorem c70_clear_msg :
  forall (bd : build) (s : str) (v : view) (m : msg_ref) (q : clear_msg cow),
    parsed bd s v m -> v_command v = b "CLEARMSG" -> clear_msg_parse m = Ret (Some q) ->
    tells_clear_msg v q /\ tells_clear_msg v (clear_msg_into_owned q).
Proof. exact p_c70_clear_msg. Qed.
Print Assumptions c70_clear_msg.

(** C70. The methods of a CLEARCHAT return what its line says, also after [into_owned]. *)
Theorem c70_clear_chat :
  forall (bd : build) (s : str) (v : view) (m : msg_ref) (q : clear_chat cow),
    parsed bd s v m -> v_command v = b "CLEARCHAT" -> clear_chat_parse m = Ret (Some q) ->
    tells_clear_chat v q /\ tells_clear_chat v (clear_chat_into_owned q).
Proof. exact p_c70_clear_chat. Qed.
Print Assumptions c70_clear_chat.

(** C70. The methods of a GLOBALUSERSTATE return what its line says, also after [into_owned]. *)
Theorem c70_global_user_state :
  forall (bd : build) (s : str) (v : view) (m : msg_ref) (q : global_user_state cow),
    parsed bd s v m -> v_command v = b "GLOBALUSERSTATE" -> global_user_state_parse m = Ret (Some q) ->
    tells_global_user_state v q /\ tells_global_user_state v (global_user_state_into_owned q).
Proof. exact p_c70_global_user_state. Qed.
Print Assumptions c70_global_user_state.

(** C70. The methods of a USERSTATE return what its line says, also after [into_owned]. *)
Theorem c70_user_state :
  forall (bd : build) (s : str) (v : view) (m : msg_ref) (q : user_state cow),
    parsed bd s v m -> v_command v = b "USERSTATE" -> user_state_parse m = Ret (Some q) ->
    tells_user_state v q /\ tells_user_state v (user_state_into_owned q).
Proof. exact p_c70_user_state. Qed.
Print Assumptions c70_user_state.

(** C70. The methods of a WHISPER return what its line says, also after [into_owned]. *)
Theorem c70_whisper :
  forall (bd : build) (s : str) (v : view) (m : msg_ref) (q : whisper_msg cow),
    parsed bd s v m -> v_command v = b "WHISPER" -> whisper_parse m = Ret (Some q) ->
    tells_whisper v q /\ tells_whisper v (whisper_into_owned q).
Proof. exact p_c70_whisper. Qed.
Print Assumptions c70_whisper.

(** C70. The methods of a PRIVMSG return what its line says, also after [into_owned]. *)
Theorem c70_privmsg :
  forall (bd : build) (s : str) (v : view) (m : msg_ref) (q : privmsg cow),
    parsed bd s v m -> v_command v = b "PRIVMSG" -> privmsg_parse m = Ret (Some q) ->
    tells_privmsg v q /\ tells_privmsg v (privmsg_into_owned q).
Proof. exact p_c70_privmsg. Qed.
Print Assumptions c70_privmsg.

(** C70. The methods of a USERNOTICE return what its line says, also after [into_owned]. *)
Theorem c70_user_notice :
  forall (bd : build) (s : str) (v : view) (m : msg_ref) (q : user_notice cow),
    parsed bd s v m -> v_command v = b "USERNOTICE" -> user_notice_parse m = Ret (Some q) ->
    tells_user_notice v q /\ tells_user_notice v (user_notice_into_owned q).
Proof. exact p_c70_user_notice. Qed.
Print Assumptions c70_user_notice.

(** C70. What belongs to one kind of event is there for no other. *)
Theorem c70_no_other_event :
  forall (bd : build) (s : str) (v : view) (m : msg_ref) (q : user_notice cow),
    parsed bd s v m -> v_command v = b "USERNOTICE" -> user_notice_parse m = Ret (Some q) ->
    only_its_event v (get_user_notice_event_id q) (get_user_notice_event q).
Proof. exact p_c70_no_other_event. Qed.
Print Assumptions c70_no_other_event.

(** C70. What belongs to a ban or to a timeout is there for nothing else. *)
Theorem c70_no_other_action :
  forall (bd : build) (s : str) (v : view) (m : msg_ref) (q : clear_chat cow),
    parsed bd s v m -> v_command v = b "CLEARCHAT" -> clear_chat_parse m = Ret (Some q) ->
    let a := get_clear_chat_action q in
    (is_clear a = true <-> v_params v = None) /\
    (is_ban a = true <-> v_params v <> None /\ forall d, ~ has_u64 v "ban-duration" d) /\
    (is_time_out a = true <-> v_params v <> None /\ exists d, has_u64 v "ban-duration" d) /\
    (get_ban_user a <> None \/ get_ban_id a <> None -> is_ban a = true) /\
    (get_time_out_user a <> None \/ get_time_out_id a <> None \/ get_time_out_duration a <> None -> is_time_out a = true).
Proof. exact p_c70_no_other_action. Qed.
Print Assumptions c70_no_other_action.

(** C70. The methods of a ROOMSTATE return what its line says, also after [into_owned],
    while the followers-only minutes fit. *)
Theorem c70_room_state :
  forall (bd : build) (pf : profile) (s : str) (v : view) (m : msg_ref) (q : room_state cow),
    parsed bd s v m -> v_command v = b "ROOMSTATE" -> followers_fit v -> room_state_parse pf m = Ret (Some q) ->
    tells_room_state v q /\ tells_room_state v (room_state_into_owned q).
Proof. exact p_c70_room_state. Qed.
Print Assumptions c70_room_state.

(** C70. The badge data of a badge does not always have the version written in the
    badges tag: the four badges with a variant of their own report version 1. *)
Theorem c70_badge_version_refuted :
  exists (s : str) (v : view) (m : msg_ref) (q : privmsg cow) (x : badge cow),
    parsed Scalar s v m /\ v_command v = b "PRIVMSG" /\ privmsg_parse m = Ret (Some q) /\
    has v "badges" (b "moderator/2") /\ get_privmsg_badges q = [x] /\
    get_badge_data_name (as_badge_data x) = b "moderator" /\ get_badge_data_version (as_badge_data x) <> b "2".
Proof. exact p_c70_badge_version_refuted. Qed.
Print Assumptions c70_badge_version_refuted.

Example example_c70 :
  exists v m q r y, parsed Scalar chat_line v m /\ v_command v = b "PRIVMSG" /\ privmsg_parse m = Ret (Some q) /\
    get_privmsg_text q = b "Kappa one" /\ get_user_login (get_privmsg_sender q) = b "ab" /\
    user_name (get_privmsg_sender q) = Ret (Owned (b "A B")) /\
    get_privmsg_reply_to q = Some r /\ reply_text r = Ret (Owned (b "hi :)")) /\
    get_privmsg_num_badges q = 2 /\ get_privmsg_badges q = [BSubscriber y; BOther (mk_badge_data (Borrowed (b "vip")) (Borrowed (b "1")) None)] /\
    get_subscriber_version y = b "24" /\ get_subscriber_months y = 25%N /\
  exists v' m' q', parsed Scalar (sub_line (b "resub") (b "5")) v' m' /\ v_command v' = b "USERNOTICE" /\
    user_notice_parse m' = Ret (Some q') /\ user_notice_system_message q' = Ret (Some (Owned (b "x 5"))) /\
    get_sub_cumulative_months (get_user_notice_event q') = Some 5%N /\
    get_sub_streak_months (get_user_notice_event q') = Some None /\
  exists v2 m2 q2, parsed Scalar (b "@ban-duration=600;room-id=4;target-user-id=9;tmi-sent-ts=5 :tmi.twitch.tv CLEARCHAT #c :bob") v2 m2 /\
    v_command v2 = b "CLEARCHAT" /\ clear_chat_parse m2 = Ret (Some q2) /\
    get_time_out_user (get_clear_chat_action q2) = Some (b "bob") /\ get_ban_user (get_clear_chat_action q2) = None /\
    get_time_out_id (get_clear_chat_action (clear_chat_into_owned q2)) = Some (b "9").
Proof. exact ex_c70. Qed.
