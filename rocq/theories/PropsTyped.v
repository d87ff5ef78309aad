(** * PropsTyped: property theorems (generated from TypedProofs.v by tools/gen_props.py).

    Only statements; each is closed by the lemma of the same name. *)

From Verif Require Import Base Wide Tags Irc Unescape SpecIrc SpecText MsgBase MsgTypes MsgNotice Message SpecMsg Samples TypedProofs.

(** C22. Each variant is produced exactly when its own parser accepts the
    message; [Reconnect] and [Other] exactly for their commands. *)
Theorem c22_variants :
  forall (bd : build) (pf : profile) (s : str) (v : view) (m : msg_ref),
    utf8_valid s = true -> below_4gib s -> spec_view s = Some v -> ref_parse bd s = Ret (Some m) ->
    let is t := from_irc pf m = Ret (Some t) in
    (forall x, is (MClearChat x) <-> clear_chat_parse m = Ret (Some x)) /\
    (forall x, is (MClearMsg x) <-> clear_msg_parse m = Ret (Some x)) /\
    (forall x, is (MGlobalUserState x) <-> global_user_state_parse m = Ret (Some x)) /\
    (forall x, is (MJoin x) <-> join_parse m = Ret (Some x)) /\
    (forall x, is (MNotice x) <-> notice_parse m = Ret (Some x)) /\
    (forall x, is (MPart x) <-> part_parse m = Ret (Some x)) /\
    (forall x, is (MPing x) <-> ping_parse m = Ret (Some x)) /\
    (forall x, is (MPong x) <-> pong_parse m = Ret (Some x)) /\
    (forall x, is (MPrivmsg x) <-> privmsg_parse m = Ret (Some x)) /\
    (forall x, is (MRoomState x) <-> room_state_parse pf m = Ret (Some x)) /\
    (forall x, is (MUserNotice x) <-> user_notice_parse m = Ret (Some x)) /\
    (forall x, is (MUserState x) <-> user_state_parse m = Ret (Some x)) /\
    (forall x, is (MWhisper x) <-> whisper_parse m = Ret (Some x)) /\
    (is MReconnect <-> v_command v = b "RECONNECT") /\
    (forall m', is (MOther m') <-> ~ In (v_command v) typed_words /\ m' = m).
Proof. exact p_c22_variants. Qed.
Print Assumptions c22_variants.

(** C22. The variant is always the one of the command, [Other] holds the message
    itself and stands for every command without a typed form. *)
Theorem c22_variant_is_command :
  forall (bd : build) (pf : profile) (s : str) (v : view) (m : msg_ref) (t : typed),
    utf8_valid s = true -> below_4gib s -> spec_view s = Some v -> ref_parse bd s = Ret (Some m) ->
    from_irc pf m = Ret (Some t) ->
    match variant_word t with
    | Some w => v_command v = w
    | None => t = MOther m /\ ~ In (v_command v) typed_words
    end.
Proof. exact p_c22_variant_is_command. Qed.
Print Assumptions c22_variant_is_command.

(** C22. RECONNECT and the commands without a typed form cannot fail. *)
Theorem c22_never_fail :
  forall (bd : build) (pf : profile) (s : str) (v : view) (m : msg_ref),
    utf8_valid s = true -> below_4gib s -> spec_view s = Some v -> ref_parse bd s = Ret (Some m) ->
    (v_command v = b "RECONNECT" -> from_irc pf m = Ret (Some MReconnect)) /\
    (~ In (v_command v) typed_words -> from_irc pf m = Ret (Some (MOther m))).
Proof. exact p_c22_never_fail. Qed.
Print Assumptions c22_never_fail.

(** C22. Each [X::from_irc] refuses every other command. *)
Theorem c22_refuse_other_commands :
  forall (bd : build) (pf : profile) (s : str) (v : view) (m : msg_ref),
    utf8_valid s = true -> below_4gib s -> spec_view s = Some v -> ref_parse bd s = Ret (Some m) ->
    (v_command v <> b "CLEARCHAT" -> clear_chat_parse m = Ret None) /\
    (v_command v <> b "CLEARMSG" -> clear_msg_parse m = Ret None) /\
    (v_command v <> b "GLOBALUSERSTATE" -> global_user_state_parse m = Ret None) /\
    (v_command v <> b "JOIN" -> join_parse m = Ret None) /\
    (v_command v <> b "NOTICE" -> notice_parse m = Ret None) /\
    (v_command v <> b "PART" -> part_parse m = Ret None) /\
    (v_command v <> b "PING" -> ping_parse m = Ret None) /\
    (v_command v <> b "PONG" -> pong_parse m = Ret None) /\
    (v_command v <> b "PRIVMSG" -> privmsg_parse m = Ret None) /\
    (v_command v <> b "ROOMSTATE" -> room_state_parse pf m = Ret None) /\
    (v_command v <> b "USERNOTICE" -> user_notice_parse m = Ret None) /\
    (v_command v <> b "USERSTATE" -> user_state_parse m = Ret None) /\
    (v_command v <> b "WHISPER" -> whisper_parse m = Ret None).
Proof. exact p_c22_refuse_other_commands. Qed.
Print Assumptions c22_refuse_other_commands.

(** C22. [Message::parse] and both [as_typed] give the same result, and parse
    failure of the line is the only other failure. *)
Theorem c22_entry_points :
  forall (bd : build) (pf : profile) (s : str),
    match ref_parse bd s with
    | Ret (Some m) =>
      message_parse bd pf s = from_irc pf m /\ ref_as_typed pf m = from_irc pf m /\
      exists o, own_parse bd s = Ret (Some o) /\ own_as_typed pf o = from_irc pf m
    | Ret None => message_parse bd pf s = Ret None
    | _ => message_parse bd pf s = Panic
    end.
Proof. exact p_c22_entry_points. Qed.
Print Assumptions c22_entry_points.

Example example_c22 :
  exists v m, parsed (Simd Sse2 0) (b ":tmi.twitch.tv RECONNECT") v m /\
    from_irc Debug m = Ret (Some MReconnect) /\
    exists v' m', parsed Scalar (b "001 nick :Welcome, GLHF!") v' m' /\
      ~ In (v_command v') typed_words /\ from_irc Release m' = Ret (Some (MOther m')).
Proof. exact ex_c22. Qed.

(** C22. Typing a parsed message never panics, except for the followers-only
    overflow of debug builds (see C33). *)
Theorem c22_no_panic :
  forall (bd : build) (pf : profile) (s : str) (v : view) (m : msg_ref),
    parsed bd s v m -> pf = Release \/ followers_fit v ->
    exists o, from_irc pf m = Ret o.
Proof. exact p_c22_no_panic. Qed.
Print Assumptions c22_no_panic.

(** C23. A JOIN is read as its channel and the nick of its prefix. *)
Theorem c23_join :
  forall (bd : build) (s : str) (v : view) (m : msg_ref) (q : join_msg cow),
    parsed bd s v m -> v_command v = b "JOIN" ->
    (join_parse m = Ret (Some q) <-> exists x, q = join_map Borrowed x /\ join_of v x).
Proof. exact p_c23_join. Qed.
Print Assumptions c23_join.

(** C23. A PART is read as its channel and the nick of its prefix. *)
Theorem c23_part :
  forall (bd : build) (s : str) (v : view) (m : msg_ref) (q : part_msg cow),
    parsed bd s v m -> v_command v = b "PART" ->
    (part_parse m = Ret (Some q) <-> exists x, q = part_map Borrowed x /\ part_of v x).
Proof. exact p_c23_part. Qed.
Print Assumptions c23_part.

(** C23. A JOIN is accepted exactly with a channel and a nick. *)
Theorem c23_join_accepted :
  forall (bd : build) (s : str) (v : view) (m : msg_ref),
    parsed bd s v m -> v_command v = b "JOIN" ->
    let needed := exists channel nick, has_channel v channel /\ has_nick v nick in
    (needed -> exists q, join_parse m = Ret (Some q)) /\ (~ needed -> join_parse m = Ret None).
Proof. exact p_c23_join_accepted. Qed.
Print Assumptions c23_join_accepted.

(** C23. A PART is accepted exactly with a channel and a nick. *)
Theorem c23_part_accepted :
  forall (bd : build) (s : str) (v : view) (m : msg_ref),
    parsed bd s v m -> v_command v = b "PART" ->
    let needed := exists channel nick, has_channel v channel /\ has_nick v nick in
    (needed -> exists q, part_parse m = Ret (Some q)) /\ (~ needed -> part_parse m = Ret None).
Proof. exact p_c23_part_accepted. Qed.
Print Assumptions c23_part_accepted.

Example example_c23 :
  exists v m, parsed (Simd Avx2 3) (b ":ronni!ronni@ronni.tmi.twitch.tv JOIN #dallas") v m /\
    v_command v = b "JOIN" /\
    join_parse m = Ret (Some (mk_join (Borrowed (b "#dallas")) (Borrowed (b "ronni")))) /\
    exists v' m', parsed Scalar (b "PART #dallas") v' m' /\ v_command v' = b "PART" /\ part_parse m' = Ret None.
Proof. exact ex_c23. Qed.

(** C24. A PING is read as its text. *)
Theorem c24_ping :
  forall (bd : build) (s : str) (v : view) (m : msg_ref) (q : ping_msg cow),
    parsed bd s v m -> v_command v = b "PING" ->
    (ping_parse m = Ret (Some q) <-> exists x, q = ping_map Borrowed x /\ ping_of v x).
Proof. exact p_c24_ping. Qed.
Print Assumptions c24_ping.

(** C24. A PONG is read as its text. *)
Theorem c24_pong :
  forall (bd : build) (s : str) (v : view) (m : msg_ref) (q : pong_msg cow),
    parsed bd s v m -> v_command v = b "PONG" ->
    (pong_parse m = Ret (Some q) <-> exists x, q = pong_map Borrowed x /\ pong_of v x).
Proof. exact p_c24_pong. Qed.
Print Assumptions c24_pong.

(** C24. Every PING line is accepted. *)
Theorem c24_ping_accepted :
  forall (bd : build) (s : str) (v : view) (m : msg_ref),
    parsed bd s v m -> v_command v = b "PING" -> exists q, ping_parse m = Ret (Some q).
Proof. exact p_c24_ping_accepted. Qed.
Print Assumptions c24_ping_accepted.

(** C24. Every PONG line is accepted. *)
Theorem c24_pong_accepted :
  forall (bd : build) (s : str) (v : view) (m : msg_ref),
    parsed bd s v m -> v_command v = b "PONG" -> exists q, pong_parse m = Ret (Some q).
Proof. exact p_c24_pong_accepted. Qed.
Print Assumptions c24_pong_accepted.

Example example_c24 :
  exists v m, parsed Scalar (b ":tmi.twitch.tv PING :nonce 1") v m /\ v_command v = b "PING" /\
    ping_parse m = Ret (Some (mk_ping (Some (Borrowed (b "nonce 1"))))) /\
    exists v' m', parsed Scalar (b "PONG") v' m' /\ v_command v' = b "PONG" /\
      pong_parse m' = Ret (Some (mk_pong None)).
Proof. exact ex_c24. Qed.

(** C25. A NOTICE is read as its text, optional channel and optional message id. *)
Theorem c25_notice :
  forall (bd : build) (s : str) (v : view) (m : msg_ref) (q : notice_msg cow),
    parsed bd s v m -> v_command v = b "NOTICE" ->
    (notice_parse m = Ret (Some q) <-> exists x, q = notice_map Borrowed x /\ notice_of v x).
Proof. exact p_c25_notice. Qed.
Print Assumptions c25_notice.

(** C25. A NOTICE is accepted exactly with parameters. *)
Theorem c25_notice_accepted :
  forall (bd : build) (s : str) (v : view) (m : msg_ref),
    parsed bd s v m -> v_command v = b "NOTICE" ->
    (v_params v <> None -> exists q, notice_parse m = Ret (Some q)) /\
    (v_params v = None -> notice_parse m = Ret None).
Proof. exact p_c25_notice_accepted. Qed.
Print Assumptions c25_notice_accepted.

Example example_c25 :
  exists v m, parsed Scalar (b "@msg-id=msg_banned :tmi.twitch.tv NOTICE #forsen :You are banned.") v m /\
    v_command v = b "NOTICE" /\ v_params v <> None /\
    notice_parse m = Ret (Some (mk_notice (Some (Borrowed (b "#forsen"))) (Borrowed (b "You are banned."))
                                 (Some (Borrowed (b "msg_banned"))))) /\
    exists v' m', parsed Scalar (b "NOTICE #forsen") v' m' /\ v_command v' = b "NOTICE" /\
      v_params v' = None /\ notice_parse m' = Ret None.
Proof. exact ex_c25. Qed.

(** C26. A CLEARCHAT is read as channel, room id, time and action. An unreadable
    ban-duration makes the action a permanent [Ban]. *)
Theorem c26_clear_chat :
  forall (bd : build) (s : str) (v : view) (m : msg_ref) (q : clear_chat cow),
    parsed bd s v m -> v_command v = b "CLEARCHAT" ->
    (clear_chat_parse m = Ret (Some q) <-> exists x, q = clear_chat_map Borrowed x /\ clear_chat_of v x).
Proof. exact p_c26_clear_chat. Qed.
Print Assumptions c26_clear_chat.

(** C26. A CLEARCHAT is accepted exactly with a channel, a room id, a readable
    time and, if it has a text, a target user id. *)
Theorem c26_clear_chat_accepted :
  forall (bd : build) (s : str) (v : view) (m : msg_ref),
    parsed bd s v m -> v_command v = b "CLEARCHAT" ->
    let needed :=
      (exists channel room ms, has_channel v channel /\ has v "room-id" room /\ has_time v ms) /\
      (v_params v <> None -> exists id, has v "target-user-id" id) in
    (needed -> exists q, clear_chat_parse m = Ret (Some q)) /\ (~ needed -> clear_chat_parse m = Ret None).
Proof. exact p_c26_clear_chat_accepted. Qed.
Print Assumptions c26_clear_chat_accepted.

(** C26. [target] is the text. *)
Theorem c26_target :
  forall (bd : build) (s : str) (v : view) (m : msg_ref) (q : clear_chat cow),
    parsed bd s v m -> v_command v = b "CLEARCHAT" -> clear_chat_parse m = Ret (Some q) ->
    opt (has_text v) (clear_chat_target q) /\
    (is_clear (cc_action q) = true <-> v_params v = None) /\
    (is_time_out (cc_action q) = true <-> v_params v <> None /\ exists d, has_u64 v "ban-duration" d) /\
    (is_ban (cc_action q) = true <-> v_params v <> None /\ forall d, ~ has_u64 v "ban-duration" d).
Proof. exact p_c26_target. Qed.
Print Assumptions c26_target.

(** C26. A ban-duration that is not a u64 is silently reported as a permanent ban. *)
Theorem c26_timeout_reported_refuted :
  exists (s : str) (v : view) (m : msg_ref) (q : clear_chat cow),
    parsed Scalar s v m /\ v_command v = b "CLEARCHAT" /\ has v "ban-duration" (b "60.5") /\
    clear_chat_parse m = Ret (Some q) /\ is_ban (cc_action q) = true.
Proof. exact p_c26_timeout_reported_refuted. Qed.
Print Assumptions c26_timeout_reported_refuted.

Example example_c26 :
  exists v m, parsed Scalar (b "@ban-duration=600;room-id=1;target-user-id=2;tmi-sent-ts=1642715756806 :tmi.twitch.tv CLEARCHAT #c :bob") v m /\
    v_command v = b "CLEARCHAT" /\
    clear_chat_parse m = Ret (Some (mk_clear_chat (Borrowed (b "#c")) (Borrowed (b "1"))
       (TimeOut (Borrowed (b "bob")) (Borrowed (b "2")) 600%N) 1642715756806%Z)) /\
    exists v' m', parsed Scalar (b "@room-id=1;tmi-sent-ts=1642715756806 :tmi.twitch.tv CLEARCHAT #c") v' m' /\
      v_command v' = b "CLEARCHAT" /\
      clear_chat_parse m' = Ret (Some (mk_clear_chat (Borrowed (b "#c")) (Borrowed (b "1")) Clear 1642715756806%Z)).
Proof. exact ex_c26. Qed.

(** C27. A CLEARMSG is read as its channel, room id, sender, target message, time
    and text without the /me wrapper. *)
Theorem c27_clear_msg :
  forall (bd : build) (s : str) (v : view) (m : msg_ref) (q : clear_msg cow),
    parsed bd s v m -> v_command v = b "CLEARMSG" ->
    (clear_msg_parse m = Ret (Some q) <-> exists x, q = clear_msg_map Borrowed x /\ clear_msg_of v x).
Proof. exact p_c27_clear_msg. Qed.
Print Assumptions c27_clear_msg.

(** C27. The fields a CLEARMSG must have. *)
Theorem c27_clear_msg_accepted :
  forall (bd : build) (s : str) (v : view) (m : msg_ref),
    parsed bd s v m -> v_command v = b "CLEARMSG" ->
    let needed :=
      v_params v <> None /\ exists channel room login target ms,
        has_channel v channel /\ has v "room-id" room /\ has v "login" login /\
        has v "target-msg-id" target /\ has_time v ms in
    (needed -> exists q, clear_msg_parse m = Ret (Some q)) /\ (~ needed -> clear_msg_parse m = Ret None).
Proof. exact p_c27_clear_msg_accepted. Qed.
Print Assumptions c27_clear_msg_accepted.

Example example_c27 :
  exists v m, parsed Scalar (b "@login=bob;room-id=;target-msg-id=94e6c7ff-bf98-4faa-af5d-7ad633a158a9;tmi-sent-ts=1642720582342 :tmi.twitch.tv CLEARMSG #c :" ++ [x01] ++ b "ACTION waves" ++ [x01]) v m /\
    v_command v = b "CLEARMSG" /\
    clear_msg_parse m = Ret (Some (mk_clear_msg (Borrowed (b "#c")) (Borrowed []) (Borrowed (b "bob"))
       (Borrowed (b "94e6c7ff-bf98-4faa-af5d-7ad633a158a9")) (Borrowed (b "waves")) true 1642720582342%Z)) /\
    exists v' m', parsed Scalar (b "@login=bob;room-id=1;tmi-sent-ts=1642720582342 CLEARMSG #c :hi") v' m' /\
      v_command v' = b "CLEARMSG" /\ clear_msg_parse m' = Ret None.
Proof. exact ex_c27. Qed.

(** C28. A PRIVMSG is read as exactly the fields of its line, required and optional. *)
Theorem c28_privmsg :
  forall (bd : build) (s : str) (v : view) (m : msg_ref) (q : privmsg cow),
    parsed bd s v m -> v_command v = b "PRIVMSG" ->
    (privmsg_parse m = Ret (Some q) <-> exists x, q = privmsg_map Borrowed x /\ privmsg_of v x).
Proof. exact p_c28_privmsg. Qed.
Print Assumptions c28_privmsg.

(** C28. The fields a PRIVMSG must have; no other part of the line matters. *)
Theorem c28_privmsg_accepted :
  forall (bd : build) (s : str) (v : view) (m : msg_ref),
    parsed bd s v m -> v_command v = b "PRIVMSG" ->
    let needed :=
      v_params v <> None /\ exists channel nick room id user name ms,
        has_channel v channel /\ has_nick v nick /\ has v "room-id" room /\ has v "id" id /\
        has v "user-id" user /\ has v "display-name" name /\ has_time v ms in
    (needed -> exists q, privmsg_parse m = Ret (Some q)) /\ (~ needed -> privmsg_parse m = Ret None).
Proof. exact p_c28_privmsg_accepted. Qed.
Print Assumptions c28_privmsg_accepted.

(** C28. The sender's name getter undoes the tag escaping. *)
Theorem c28_sender_name :
  forall (bd : build) (s : str) (v : view) (m : msg_ref) (q : privmsg cow) (t : str),
    parsed bd s v m -> v_command v = b "PRIVMSG" -> privmsg_parse m = Ret (Some q) ->
    utf8_valid t = true -> ~ infix comma_mark t -> has v "display-name" (escape t) ->
    exists c, user_name (pm_sender q) = Ret c /\ deref c = t.
Proof. exact p_c28_sender_name. Qed.
Print Assumptions c28_sender_name.

Example example_c28 :
  exists v m q, parsed (Simd Sse2 9) chat_line v m /\ v_command v = b "PRIVMSG" /\
    privmsg_parse m = Ret (Some q) /\ has v "display-name" (escape (b "A B")) /\
    deref (u_login (pm_sender q)) = b "ab" /\ deref (pm_text q) = b "Kappa one" /\
    exists v' m', parsed Scalar (b "@display-name=A;id=1;tmi-sent-ts=1594545155039;user-id=2 :ab!ab@ab PRIVMSG #c :no room") v' m' /\
      v_command v' = b "PRIVMSG" /\ privmsg_parse m' = Ret None.
Proof. exact ex_c28. Qed.

(** C29. Each optional field is present exactly with its tags, and read from them. *)
Theorem c29_privmsg_optional :
  forall (bd : build) (s : str) (v : view) (m : msg_ref) (q : privmsg cow),
    parsed bd s v m -> v_command v = b "PRIVMSG" -> privmsg_parse m = Ret (Some q) ->
    let x := privmsg_map deref q in
    opt (reply_of v) (pm_reply_to x) /\ opt (pinned_of v) (pm_pinned_chat x) /\
    opt (has_u64 v "bits") (pm_bits x) /\ opt (has_filled v "color") (pm_color x) /\
    opt (has_filled v "custom-reward-id") (pm_custom_reward_id x) /\ opt (has v "msg-id") (pm_msg_id x) /\
    has_or v "emotes" [] (pm_emotes x) /\ has_badges v (pm_badges x).
Proof. exact p_c29_privmsg_optional. Qed.
Print Assumptions c29_privmsg_optional.

(** C29. Presence, spelled out: a reply needs all seven of its tags, a pinned chat
    all five of its own, numbers and level readable. *)
Theorem c29_presence :
  forall (bd : build) (s : str) (v : view) (m : msg_ref) (q : privmsg cow),
    parsed bd s v m -> v_command v = b "PRIVMSG" -> privmsg_parse m = Ret (Some q) ->
    (pm_reply_to q <> None <->
       forall name, In name ["reply-thread-parent-msg-id"; "reply-thread-parent-user-login";
         "reply-parent-msg-id"; "reply-parent-user-id"; "reply-parent-user-login";
         "reply-parent-display-name"; "reply-parent-msg-body"]%string -> exists x, has v name x) /\
    (pm_pinned_chat q <> None <->
       (exists n, has_i64 v "pinned-chat-paid-amount" n) /\ (exists n, has_i64 v "pinned-chat-paid-exponent" n) /\
       (exists x, has v "pinned-chat-paid-currency" x) /\
       (exists x, has v "pinned-chat-paid-is-system-message" x) /\
       (exists n l, In (n, l) level_names /\ has v "pinned-chat-paid-level" (b n))) /\
    (pm_bits q <> None <-> exists n, has_u64 v "bits" n) /\
    (pm_color q <> None <-> exists x, has v "color" x /\ x <> []) /\
    (pm_custom_reward_id q <> None <-> exists x, has v "custom-reward-id" x /\ x <> []) /\
    (pm_badges q <> [] -> (exists x, has v "badges" x) /\ exists x, has v "badge-info" x).
Proof. exact p_c29_presence. Qed.
Print Assumptions c29_presence.

Example example_c29 :
  exists v m q, parsed Scalar chat_line v m /\ v_command v = b "PRIVMSG" /\
    privmsg_parse m = Ret (Some q) /\
    pm_reply_to (privmsg_map deref q) =
      Some (mk_reply (b "t1") (b "top") (b "p1") (mk_user (b "7") (b "op") (b "OP")) (b "hi\s:)")) /\
    pm_pinned_chat (privmsg_map deref q) = Some (mk_pinned 1400%Z (b "USD") 2%Z TWO false) /\
    pm_bits q = Some 100%N /\ pm_custom_reward_id q = None /\ pm_color q <> None /\ pm_badges q <> [].
Proof. exact ex_c29. Qed.

(** C31. A WHISPER is read as the texts around the first " :" and its sender;
    badges need both badge tags. *)
Theorem c31_whisper :
  forall (bd : build) (s : str) (v : view) (m : msg_ref) (q : whisper_msg cow),
    parsed bd s v m -> v_command v = b "WHISPER" ->
    (whisper_parse m = Ret (Some q) <-> exists x, q = whisper_map Borrowed x /\ whisper_of v x).
Proof. exact p_c31_whisper. Qed.
Print Assumptions c31_whisper.

(** C31. The fields a WHISPER must have. *)
Theorem c31_whisper_accepted :
  forall (bd : build) (s : str) (v : view) (m : msg_ref),
    parsed bd s v m -> v_command v = b "WHISPER" ->
    let needed :=
      (exists p, v_params v = Some p /\ infix (b " :") p) /\
      exists user nick name, has v "user-id" user /\ has_nick v nick /\ has v "display-name" name in
    (needed -> exists q, whisper_parse m = Ret (Some q)) /\ (~ needed -> whisper_parse m = Ret None).
Proof. exact p_c31_whisper_accepted. Qed.
Print Assumptions c31_whisper_accepted.

(** C31. Badges are dropped whenever the badge-info tag is missing. *)
Theorem c31_badges_dropped :
  forall (bd : build) (s : str) (v : view) (m : msg_ref) (q : whisper_msg cow),
    parsed bd s v m -> v_command v = b "WHISPER" -> whisper_parse m = Ret (Some q) ->
    (forall x, ~ has v "badge-info" x) -> w_badges q = [].
Proof. exact p_c31_badges_dropped. Qed.
Print Assumptions c31_badges_dropped.

(** C31. In particular a real whisper line, which has no badge-info tag, loses its badges. *)
Theorem c31_badges_kept_refuted :
  exists (s : str) (v : view) (m : msg_ref) (q : whisper_msg cow),
    parsed Scalar s v m /\ v_command v = b "WHISPER" /\ has v "badges" (b "moderator/1") /\
    whisper_parse m = Ret (Some q) /\ w_badges q = [].
Proof. exact p_c31_badges_kept_refuted. Qed.
Print Assumptions c31_badges_kept_refuted.

Example example_c31 :
  exists v m q, parsed Scalar (b "@badge-info=;badges=moderator/1;display-name=HotBear;user-id=1 :hotbear!hotbear@x WHISPER me :a :b") v m /\
    v_command v = b "WHISPER" /\ whisper_parse m = Ret (Some q) /\
    deref (w_recipient q) = b "me" /\ deref (w_text q) = b "a :b" /\ w_badges q = [Moderator].
Proof. exact ex_c31. Qed.

(** C32. A GLOBALUSERSTATE is read as user id, name, badges, emote sets and color. *)
Theorem c32_global_user_state :
  forall (bd : build) (s : str) (v : view) (m : msg_ref) (q : global_user_state cow),
    parsed bd s v m -> v_command v = b "GLOBALUSERSTATE" ->
    (global_user_state_parse m = Ret (Some q) <-> exists x, q = global_user_state_map Borrowed x /\ global_user_state_of v x).
Proof. exact p_c32_global_user_state. Qed.
Print Assumptions c32_global_user_state.

(** C32. A USERSTATE is read as channel, name, badges, emote sets and color. *)
Theorem c32_user_state :
  forall (bd : build) (s : str) (v : view) (m : msg_ref) (q : user_state cow),
    parsed bd s v m -> v_command v = b "USERSTATE" ->
    (user_state_parse m = Ret (Some q) <-> exists x, q = user_state_map Borrowed x /\ user_state_of v x).
Proof. exact p_c32_user_state. Qed.
Print Assumptions c32_user_state.

(** C32. The fields a GLOBALUSERSTATE must have. *)
Theorem c32_global_user_state_accepted :
  forall (bd : build) (s : str) (v : view) (m : msg_ref),
    parsed bd s v m -> v_command v = b "GLOBALUSERSTATE" ->
    let needed := exists id name, has v "user-id" id /\ has v "display-name" name in
    (needed -> exists q, global_user_state_parse m = Ret (Some q)) /\ (~ needed -> global_user_state_parse m = Ret None).
Proof. exact p_c32_global_user_state_accepted. Qed.
Print Assumptions c32_global_user_state_accepted.

(** C32. The fields a USERSTATE must have. *)
Theorem c32_user_state_accepted :
  forall (bd : build) (s : str) (v : view) (m : msg_ref),
    parsed bd s v m -> v_command v = b "USERSTATE" ->
    let needed := exists channel name, has_channel v channel /\ has v "display-name" name in
    (needed -> exists q, user_state_parse m = Ret (Some q)) /\ (~ needed -> user_state_parse m = Ret None).
Proof. exact p_c32_user_state_accepted. Qed.
Print Assumptions c32_user_state_accepted.

Example example_c32 :
  exists v m q, parsed Scalar (b "@color=;display-name=bob;emote-sets=0,33,50;user-id=4 :tmi.twitch.tv GLOBALUSERSTATE") v m /\
    v_command v = b "GLOBALUSERSTATE" /\ global_user_state_parse m = Ret (Some q) /\
    map deref (gus_emote_sets q) = [b "0"; b "33"; b "50"] /\ gus_color q = None /\
    exists v' m' q', parsed Scalar (b "@color=#1;display-name=bob;emote-sets= :tmi.twitch.tv USERSTATE #c") v' m' /\
      v_command v' = b "USERSTATE" /\ user_state_parse m' = Ret (Some q') /\
      us_emote_sets q' = [Borrowed []] /\ us_color q' = Some (Borrowed (b "#1")).
Proof. exact ex_c32. Qed.

(** C33. A ROOMSTATE is read as a partial update, while the followers-only minutes
    fit (60 times their number is at most 2^63 - 1). *)
Theorem c33_room_state :
  forall (bd : build) (pf : profile) (s : str) (v : view) (m : msg_ref) (q : room_state cow),
    parsed bd s v m -> v_command v = b "ROOMSTATE" -> followers_fit v ->
    (room_state_parse pf m = Ret (Some q) <-> exists x, q = room_state_map Borrowed x /\ room_state_of v x).
Proof. exact p_c33_room_state. Qed.
Print Assumptions c33_room_state.

(** C33. The fields a ROOMSTATE must have. *)
Theorem c33_room_state_accepted :
  forall (bd : build) (pf : profile) (s : str) (v : view) (m : msg_ref),
    parsed bd s v m -> v_command v = b "ROOMSTATE" -> followers_fit v ->
    let needed := exists channel room, has_channel v channel /\ has v "room-id" room in
    (needed -> exists q, room_state_parse pf m = Ret (Some q)) /\ (~ needed -> room_state_parse pf m = Ret None).
Proof. exact p_c33_room_state_accepted. Qed.
Print Assumptions c33_room_state_accepted.

(** C33. With more followers-only minutes a debug build panics and a release build
    reports the seconds modulo 2^64. *)
Theorem c33_followers_overflow :
  forall (bd : build) (s : str) (v : view) (m : msg_ref) (channel room : str) (n : Z),
    parsed bd s v m -> v_command v = b "ROOMSTATE" -> has_channel v channel -> has v "room-id" room ->
    has_i64 v "followers-only" n -> (60 * n > 2 ^ 63 - 1)%Z ->
    room_state_parse Debug m = Panic /\
    exists q, room_state_parse Release m = Ret (Some q) /\
      rs_followers_only q = Some (Enabled (Some (Z.to_N ((60 * n) mod 2 ^ 64)))).
Proof. exact p_c33_followers_overflow. Qed.
Print Assumptions c33_followers_overflow.

(** C33. So the reading of [p_c33_room_state] fails without the bound. *)
Theorem c33_room_state_refuted :
  exists (s : str) (v : view) (m : msg_ref) (q : room_state cow),
    parsed Scalar s v m /\ v_command v = b "ROOMSTATE" /\ has_i64 v "followers-only" (2 ^ 62) /\
    room_state_parse Debug m = Panic /\ room_state_parse Release m = Ret (Some q) /\
    ~ room_state_of v (room_state_map deref q).
Proof. exact p_c33_room_state_refuted. Qed.
Print Assumptions c33_room_state_refuted.

Example example_c33 :
  exists v m, parsed Scalar (b "@emote-only=0;followers-only=10;r9k=1;room-id=4;slow=x :tmi.twitch.tv ROOMSTATE #c") v m /\
    v_command v = b "ROOMSTATE" /\ followers_fit v /\
    room_state_parse Debug m = Ret (Some (mk_room_state (Borrowed (b "#c")) (Borrowed (b "4")) (Some false)
      (Some (Enabled (Some 600%N))) (Some true) None None)).
Proof. exact ex_c33. Qed.

(** C34. A USERNOTICE is read as exactly the fields of its line: its event from its
    message id, and a sender unless the notice is anonymous. *)
Theorem c34_user_notice :
  forall (bd : build) (s : str) (v : view) (m : msg_ref) (q : user_notice cow),
    parsed bd s v m -> v_command v = b "USERNOTICE" ->
    (user_notice_parse m = Ret (Some q) <-> exists x, q = user_notice_map Borrowed x /\ user_notice_of v x).
Proof. exact p_c34_user_notice. Qed.
Print Assumptions c34_user_notice.

(** C34. The sender is missing exactly for the anonymous notices; the event id is
    the message id. *)
Theorem c34_anonymity :
  forall (bd : build) (s : str) (v : view) (m : msg_ref) (q : user_notice cow) (id : str),
    parsed bd s v m -> v_command v = b "USERNOTICE" -> user_notice_parse m = Ret (Some q) ->
    has v "msg-id" id ->
    deref (un_event_id q) = id /\
    (un_sender q = None <->
      id = b "anonsubgift" \/ id = b "anonsubmysterygift" \/ id = b "anongiftpaidupgrade" \/
      ((id = b "subgift" \/ id = b "submysterygift") /\ has v "user-id" (b "274598607")) \/
      ~ In id known_events) /\
    (forall u, un_sender q = Some u ->
      has v "user-id" (deref (u_id u)) /\ has v "login" (deref (u_login u)) /\
      has v "display-name" (deref (u_name u))).
Proof. exact p_c34_anonymity. Qed.
Print Assumptions c34_anonymity.

(** C34. Which event a notice is, by its message id; the one choice left is whether a
    submysterygift comes from the anonymous account. *)
Theorem c34_event_kind :
  forall (bd : build) (s : str) (v : view) (m : msg_ref) (q : user_notice cow) (id : str),
    parsed bd s v m -> v_command v = b "USERNOTICE" -> user_notice_parse m = Ret (Some q) ->
    has v "msg-id" id ->
    match un_event q with
    | SubOrResub is_resub _ _ _ _ => id = b "sub" /\ is_resub = false \/ id = b "resub" /\ is_resub = true
    | Raid _ _ => id = b "raid"
    | SubGift _ _ _ _ _ => id = b "subgift" \/ id = b "anonsubgift"
    | SubMysteryGift _ _ _ => id = b "submysterygift" /\ ~ has v "user-id" (b "274598607")
    | AnonSubMysteryGift _ _ =>
      id = b "anonsubmysterygift" \/ id = b "submysterygift" /\ has v "user-id" (b "274598607")
    | GiftPaidUpgrade _ _ _ => id = b "giftpaidupgrade"
    | AnonGiftPaidUpgrade _ => id = b "anongiftpaidupgrade"
    | Ritual _ => id = b "ritual"
    | BitsBadgeTier _ => id = b "bitsbadgetier"
    | Announcement _ => id = b "announcement"
    | UnknownEvent => ~ In id known_events
    end.
Proof. exact p_c34_event_kind. Qed.
Print Assumptions c34_event_kind.

Example example_c34 :
  exists v m q, parsed Scalar (sub_line (b "subgift") (b "274598607")) v m /\ v_command v = b "USERNOTICE" /\
    user_notice_parse m = Ret (Some q) /\ has v "msg-id" (b "subgift") /\ un_sender q = None /\
    exists v' m' q', parsed Scalar (sub_line (b "submysterygift") (b "5")) v' m' /\ v_command v' = b "USERNOTICE" /\
    user_notice_parse m' = Ret (Some q') /\ has v' "msg-id" (b "submysterygift") /\
    un_sender q' = Some (mk_user (Borrowed (b "5")) (Borrowed (b "bob")) (Borrowed (b "Bob"))) /\
    un_event q' = SubMysteryGift 3 8 (Borrowed (b "1000")).
Proof. exact ex_c34. Qed.

(** C35. The event is the one described by the tags of the line. *)
Theorem c35_payload :
  forall (bd : build) (s : str) (v : view) (m : msg_ref) (q : user_notice cow) (id : str),
    parsed bd s v m -> v_command v = b "USERNOTICE" -> user_notice_parse m = Ret (Some q) ->
    has v "msg-id" id ->
    event_of v id (event_map deref (un_event q)).
Proof. exact p_c35_payload. Qed.
Print Assumptions c35_payload.

(** C35. A USERNOTICE is accepted exactly with channel, room id, message id, id, a
    readable time, the sender's three tags unless anonymous, and everything its
    event needs. *)
Theorem c35_accepted :
  forall (bd : build) (s : str) (v : view) (m : msg_ref),
    parsed bd s v m -> v_command v = b "USERNOTICE" ->
    let needed := exists channel room id msg ms e,
      has_channel v channel /\ has v "room-id" room /\ has v "id" msg /\ has v "msg-id" id /\ has_time v ms /\
      (anonymous v id \/ exists u l n, has v "user-id" u /\ has v "login" l /\ has v "display-name" n) /\
      event_of v id e in
    (needed -> exists q, user_notice_parse m = Ret (Some q)) /\ (~ needed -> user_notice_parse m = Ret None).
Proof. exact p_c35_accepted. Qed.
Print Assumptions c35_accepted.

(** C35. A required number that is missing or unreadable makes the parse fail. *)
Theorem c35_bad_number_fails :
  forall (bd : build) (s : str) (v : view) (m : msg_ref) (id : str) (name : string),
    parsed bd s v m -> v_command v = b "USERNOTICE" -> has v "msg-id" id ->
    In (id, name)
      [(b "sub", "msg-param-cumulative-months"); (b "resub", "msg-param-cumulative-months");
       (b "raid", "msg-param-viewerCount"); (b "subgift", "msg-param-months");
       (b "subgift", "msg-param-gift-months"); (b "anonsubgift", "msg-param-months");
       (b "anonsubgift", "msg-param-gift-months"); (b "submysterygift", "msg-param-mass-gift-count");
       (b "anonsubmysterygift", "msg-param-mass-gift-count"); (b "bitsbadgetier", "msg-param-threshold")]%string \/
    (id = b "submysterygift" /\ name = "msg-param-sender-count"%string /\ ~ from_anonymous_account v) ->
    (forall n, ~ has_u64 v name n) -> user_notice_parse m = Ret None.
Proof. exact p_c35_bad_number_fails. Qed.
Print Assumptions c35_bad_number_fails.

(** C35. Streak months 0 are reported as none. *)
Theorem c35_streak :
  forall (bd : build) (s : str) (v : view) (m : msg_ref) (q : user_notice cow)
         (r : bool) (n : N) (k : option N) (p pn : cow),
    parsed bd s v m -> v_command v = b "USERNOTICE" -> user_notice_parse m = Ret (Some q) ->
    un_event q = SubOrResub r n k p pn ->
    k <> Some 0%N /\ forall i, (0 < i)%N -> (k = Some i <-> has_u64 v "msg-param-streak-months" i).
Proof. exact p_c35_streak. Qed.
Print Assumptions c35_streak.

Example example_c35 :
  exists v m q, parsed Scalar (sub_line (b "resub") (b "5")) v m /\ v_command v = b "USERNOTICE" /\
    user_notice_parse m = Ret (Some q) /\
    un_event q = SubOrResub true 5 None (Borrowed (b "1000")) (Borrowed (b "Plan")) /\
    exists v' m', parsed Scalar (sub_line (b "raid") (b "5")) v' m' /\ v_command v' = b "USERNOTICE" /\
      has v' "msg-id" (b "raid") /\ (forall n, ~ has_u64 v' "msg-param-viewerCount" n) /\
      user_notice_parse m' = Ret None.
Proof. exact ex_c35. Qed.
