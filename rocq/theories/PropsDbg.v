(** * PropsDbg: property theorems (generated from DbgProofs.v by tools/gen_props.py).

    Only statements; each is closed by the lemma of the same name. *)

From Verif Require Import Base Wide Common Client Tags Irc MsgBase MsgTypes MsgNotice Message SpecIrc SpecMsg SpecDbg Dbg Samples DbgProofs.

(** C71. The printed form of a message, [{:?}] or [{:#?}], shows all of its
    contents and nothing else: two messages of one type print alike exactly if
    all their fields are equal. *)
Theorem c71_contents :
  forall (shown : uchar -> bool) (alt : bool),
    faithful (texts (join_map deref) (join_map raw)) (join_map deref) (fun x => show shown alt (dbg_join x)) /\
    faithful (texts (part_map deref) (part_map raw)) (part_map deref) (fun x => show shown alt (dbg_part x)) /\
    faithful (texts (ping_map deref) (ping_map raw)) (ping_map deref) (fun x => show shown alt (dbg_ping x)) /\
    faithful (texts (pong_map deref) (pong_map raw)) (pong_map deref) (fun x => show shown alt (dbg_pong x)) /\
    faithful (texts (notice_map deref) (notice_map raw)) (notice_map deref) (fun x => show shown alt (dbg_notice x)) /\
    faithful (texts (clear_msg_map deref) (clear_msg_map raw)) (clear_msg_map deref) (fun x => show shown alt (dbg_clear_msg x)) /\
    faithful (texts (clear_chat_map deref) (clear_chat_map raw)) (clear_chat_map deref) (fun x => show shown alt (dbg_clear_chat x)) /\
    faithful (texts (global_user_state_map deref) (global_user_state_map raw)) (global_user_state_map deref) (fun x => show shown alt (dbg_global_user_state x)) /\
    faithful (texts (user_state_map deref) (user_state_map raw)) (user_state_map deref) (fun x => show shown alt (dbg_user_state x)) /\
    faithful (texts (whisper_map deref) (whisper_map raw)) (whisper_map deref) (fun x => show shown alt (dbg_whisper x)) /\
    faithful (texts (room_state_map deref) (room_state_map raw)) (room_state_map deref) (fun x => show shown alt (dbg_room_state x)) /\
    faithful (texts (privmsg_map deref) (privmsg_map raw)) (privmsg_map deref) (fun x => show shown alt (dbg_privmsg x)) /\
    faithful (texts (user_notice_map deref) (user_notice_map raw)) (user_notice_map deref) (fun x => show shown alt (dbg_user_notice x)).
Proof. exact p_c71_contents. Qed.
Print Assumptions c71_contents.

(** C71. Owned messages print as borrowed ones. *)
Theorem c71_owned :
  (forall x, dbg_join (join_into_owned x) = dbg_join x) /\
  (forall x, dbg_part (part_into_owned x) = dbg_part x) /\
  (forall x, dbg_ping (ping_into_owned x) = dbg_ping x) /\
  (forall x, dbg_pong (pong_into_owned x) = dbg_pong x) /\
  (forall x, dbg_notice (notice_into_owned x) = dbg_notice x) /\
  (forall x, dbg_clear_msg (clear_msg_into_owned x) = dbg_clear_msg x) /\
  (forall x, dbg_clear_chat (clear_chat_into_owned x) = dbg_clear_chat x) /\
  (forall x, dbg_global_user_state (global_user_state_into_owned x) = dbg_global_user_state x) /\
  (forall x, dbg_user_state (user_state_into_owned x) = dbg_user_state x) /\
  (forall x, dbg_whisper (whisper_into_owned x) = dbg_whisper x) /\
  (forall x, dbg_room_state (room_state_into_owned x) = dbg_room_state x) /\
  (forall x, dbg_privmsg (privmsg_into_owned x) = dbg_privmsg x) /\
  (forall x, dbg_user_notice (user_notice_into_owned x) = dbg_user_notice x).
Proof. exact p_c71_owned. Qed.
Print Assumptions c71_owned.

(** C71. Printing a parsed message never fails, and it shows what the accessors
    return and nothing else. *)
Theorem c71_irc :
  forall (shown : uchar -> bool) (alt : bool) (bd bd' : build) (s s' : str) (v v' : view) (m m' : msg_ref),
    parsed bd s v m -> parsed bd' s' v' m' ->
    exists d d', dbg_ref m = Ret d /\ dbg_ref m' = Ret d' /\
      (show shown alt d = show shown alt d' <-> same_ref m m').
Proof. exact p_c71_irc. Qed.
Print Assumptions c71_irc.

(** C71. The same for owned messages. *)
Theorem c71_irc_owned :
  forall (shown : uchar -> bool) (alt : bool) (bd bd' : build) (s s' : str) (v v' : view) (m m' : msg_ref),
    parsed bd s v m -> parsed bd' s' v' m' ->
    exists o o' d d', own_parse bd s = Ret (Some o) /\ own_parse bd' s' = Ret (Some o') /\
      dbg_own o = Ret d /\ dbg_own o' = Ret d' /\
      (show shown alt d = show shown alt d' <-> same_ref m m').
Proof. exact p_c71_irc_owned. Qed.
Print Assumptions c71_irc_owned.

(** C71. The message of a line is always printed, and two lines print alike
    exactly if they have the same variant with the same contents. *)
Theorem c71_message :
  forall (shown : uchar -> bool) (alt : bool) (bd bd' : build) (pf pf' : profile) (s s' : str) (v v' : view)
         (m m' : msg_ref) (t t' : typed),
    parsed bd s v m -> from_irc pf m = Ret (Some t) -> parsed bd' s' v' m' -> from_irc pf' m' = Ret (Some t') ->
    exists d d', dbg_typed t = Ret d /\ dbg_typed t' = Ret d' /\
      (show shown alt d = show shown alt d' <-> same_message t t').
Proof. exact p_c71_message. Qed.
Print Assumptions c71_message.

(** C71. On one line ([{:?}]) there are no control characters, in particular no
    line breaks, whatever the line contained. *)
Theorem c71_one_line :
  forall (shown : uchar -> bool) (bd : build) (pf : profile) (s : str) (v : view) (m : msg_ref),
    parsed bd s v m ->
    (exists d, dbg_ref m = Ret d /\ Forall visible (show shown false d)) /\
    (exists o d, own_parse bd s = Ret (Some o) /\ dbg_own o = Ret d /\ Forall visible (show shown false d)) /\
    (forall t, from_irc pf m = Ret (Some t) -> exists d, dbg_typed t = Ret d /\ Forall visible (show shown false d)).
Proof. exact p_c71_one_line. Qed.
Print Assumptions c71_one_line.

(** C71. Times are printed as the date and time of day in UTC, of any year. *)
Theorem c71_time : forall ms : Z, time_text ms (time_debug ms).
Proof. exact p_c71_time. Qed.
Print Assumptions c71_time.

(** C71. Each day has exactly one date, another for each day. *)
Theorem c71_calendar :
  (forall k : Z, exists! x, calendar k x) /\
  (forall (k : Z) (x : date), calendar k x -> is_date x) /\
  (forall (k k' : Z) (x : date), calendar k x -> calendar k' x -> k = k').
Proof. exact p_c71_calendar. Qed.
Print Assumptions c71_calendar.

(** C71. Different times print differently. *)
Theorem c71_times_differ : forall ms ms' : Z, time_debug ms = time_debug ms' -> ms = ms'.
Proof. exact p_c71_times_differ. Qed.
Print Assumptions c71_times_differ.

(** C71. A printed configuration shows everything but the token. *)
Theorem c71_config :
  forall (shown : uchar -> bool) (alt : bool) (cf cf' : config),
    utf8_valid (login (cf_credentials cf)) = true -> utf8_valid (login (cf_credentials cf')) = true ->
    (show shown alt (dbg_config cf) = show shown alt (dbg_config cf') <->
     login (cf_credentials cf) = login (cf_credentials cf') /\ cf_timeout cf = cf_timeout cf' /\
     cf_backoff cf = cf_backoff cf').
Proof. exact p_c71_config. Qed.
Print Assumptions c71_config.

(** C71. A printed text is in quotes, shows which text it is, and has no control
    characters. *)
Theorem c71_text :
  forall (shown : uchar -> bool) (s s' : str), utf8_valid s = true -> utf8_valid s' = true ->
    (str_debug shown s = str_debug shown s' -> s = s') /\
    Forall visible (str_debug shown s) /\ exists t, str_debug shown s = [x22] ++ t ++ [x22].
Proof. exact p_c71_text. Qed.
Print Assumptions c71_text.

(** C71. A channel is printed with its name. *)
Theorem c71_channel :
  forall (shown : uchar -> bool) (alt : bool) (c c' : str), utf8_valid c = true -> utf8_valid c' = true ->
    (show shown alt (dbg_channel_ref c) = show shown alt (dbg_channel_ref c') <-> c = c').
Proof. exact p_c71_channel. Qed.
Print Assumptions c71_channel.

(** C71. What is printed does not show the line: two lines can print alike. *)
Theorem c71_line_shown_refuted :
  exists (s s' : str) (v v' : view) (m m' : msg_ref) (d : dbg),
    parsed Scalar s v m /\ parsed Scalar s' v' m' /\ s <> s' /\ dbg_ref m = Ret d /\ dbg_ref m' = Ret d.
Proof. exact p_c71_line_shown_refuted. Qed.
Print Assumptions c71_line_shown_refuted.

Example example_c71_message :
  exists (v v' : view) (m m' : msg_ref) (t t' : typed) (d d' : dbg),
    parsed Scalar (b ":a!b@c JOIN #x") v m /\ from_irc Release m = Ret (Some t) /\
    parsed (Simd Sse2 3) (b "@x=1;y :a!z@h JOIN #x ") v' m' /\ from_irc Release m' = Ret (Some t') /\
    same_message t t' /\ dbg_typed t = Ret d /\ dbg_typed t' = Ret d' /\
    show all_shown false d = b "Join(Join { channel: ""#x"", user: ""a"" })" /\
    show all_shown false d' = show all_shown false d.
Proof. exact ex_c71_message. Qed.

Example example_c71_one_line :
  exists (v : view) (m : msg_ref) (d : dbg),
    parsed Scalar (b "PING :a" ++ [x0a; x1b] ++ b "[31m ""é\") v m /\
    dbg_ref m = Ret d /\
    show all_shown false d =
      b "Message { tags: [], prefix: None, command: Ping, channel: None, params: Some("":a\n\u{1b}[31m \""é\\"") }".
Proof. exact ex_c71_one_line. Qed.

(** A message and its owned copy, and one that differs in one field. *)
Example example_c71_contents :
  let x := mk_clear_chat (Borrowed (b "#c")) (Borrowed (b "1")) (TimeOut (Borrowed (b "bob")) (Borrowed (b "2")) 60%N) 0%Z in
  let y := mk_clear_chat (Borrowed (b "#c")) (Borrowed (b "1")) (TimeOut (Borrowed (b "bob")) (Borrowed (b "2")) 61%N) 0%Z in
  texts (clear_chat_map deref) (clear_chat_map raw) x /\
  show all_shown false (dbg_clear_chat x) =
    b "ClearChat { channel: ""#c"", channel_id: ""1"", action: TimeOut(TimeOut { user: ""bob"", id: ""2"", duration: 60s }), timestamp: 1970-01-01T00:00:00Z }" /\
  show all_shown false (dbg_clear_chat (clear_chat_into_owned x)) = show all_shown false (dbg_clear_chat x) /\
  show all_shown false (dbg_clear_chat y) <> show all_shown false (dbg_clear_chat x).
Proof. exact ex_c71_contents. Qed.

Example example_c71_time :
  time_debug 1709164800001 = b "2024-02-29T00:00:00.001Z" /\ time_debug (-1) = b "1969-12-31T23:59:59.999Z" /\
  calendar (-1) (1969, 12, 31)%Z.
Proof. exact ex_c71_time. Qed.

Example example_c71_config :
  let cf t := mk_config (mk_credentials (b "me") (Some t)) default_timeout backoff_default in
  show all_shown false (dbg_config (cf (b "secret"))) =
    b "Config { credentials: Credentials { nick: ""me"", .. }, timeout: 30s, backoff: Backoff { max_tries: Some(8), initial_delay: 1s, delay_multiplier: 3, max_delay: 12s } }" /\
  show all_shown false (dbg_config (cf (b "other"))) = show all_shown false (dbg_config (cf (b "secret"))).
Proof. exact ex_c71_config. Qed.

Example example_c71_text : str_debug all_shown (b "it's é" ++ [x09]) = [x22] ++ b "it's é\t" ++ [x22].
Proof. exact ex_c71_text. Qed.
