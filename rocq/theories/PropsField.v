(** * PropsField: property theorems (generated from FieldProofs.v by tools/gen_props.py).

    Only statements; each is closed by the lemma of the same name. *)

From Verif Require Import Base Wide Tags Irc Unescape SpecIrc SpecText MsgBase MsgTypes MsgNotice Message SpecMsg Samples FieldProofs.

(** C30. A text is an action exactly when it is wrapped in the /me marker, and every
    other text is returned unchanged. *)
Theorem c30_action_text :
  forall t body : str,
    (parse_message_text t = (body, true) <-> t = [x01] ++ b "ACTION " ++ body ++ [x01]) /\
    (parse_message_text t = (body, false) <->
       t = body /\ forall x, t <> [x01] ++ b "ACTION " ++ x ++ [x01]).
Proof. exact p_c30_action_text. Qed.
Print Assumptions c30_action_text.

Example example_c30 :
  parse_message_text ([x01] ++ b "ACTION waves" ++ [x01]) = (b "waves", true) /\
  parse_message_text ([x01] ++ b "ACTION waves") = ([x01] ++ b "ACTION waves", false) /\
  parse_message_text ([x01] ++ b "ACTION ") = ([x01] ++ b "ACTION ", false).
Proof. exact ex_c30. Qed.

(** C36. The badges of a [badges] and a [badge-info] text. *)
Theorem c36_badges :
  forall (badges info : str) (q : list (badge cow)),
    parse_badges badges info = q <-> exists l, q = map (badge_map Borrowed) l /\ badges_in badges info l.
Proof. exact p_c36_badges. Qed.
Print Assumptions c36_badges.

(** C36. Every badge read has the name and version of an item, in the same place, and
    a subscriber's months are 1 unless badge-info has a readable number for it. *)
Theorem c36_subscriber_months :
  forall (badges info : str) (s : subscriber cow),
    In (BSubscriber s) (parse_badges badges info) ->
    exists extras, comma_items info extras /\
      ((exists e, first_tag (b "subscriber") extras (Some e) /\ is_u64 e (sb_months_n s)) \/
       (sb_months_n s = 1%N /\ forall e k, first_tag (b "subscriber") extras (Some e) -> ~ is_u64 e k)).
Proof. exact p_c36_subscriber_months. Qed.
Print Assumptions c36_subscriber_months.

(** C36. In a line, the two texts are the values of the tags [badges] and [badge-info];
    without both there are no badges. *)
Theorem c36_from_tags :
  forall (bd : build) (s : str) (v : view) (m : msg_ref),
    parsed bd s v m ->
    let of_tags (q : list (badge cow)) :=
      (forall x y, has v "badges" x -> has v "badge-info" y ->
         exists l, q = map (badge_map Borrowed) l /\ badges_in x y l) /\
      (((forall x, ~ has v "badges" x) \/ (forall y, ~ has v "badge-info" y)) -> q = []) in
    (forall q, v_command v = b "PRIVMSG" -> privmsg_parse m = Ret (Some q) -> of_tags (pm_badges q)) /\
    (forall q, v_command v = b "WHISPER" -> whisper_parse m = Ret (Some q) -> of_tags (w_badges q)) /\
    (forall q, v_command v = b "GLOBALUSERSTATE" -> global_user_state_parse m = Ret (Some q) -> of_tags (gus_badges q)) /\
    (forall q, v_command v = b "USERSTATE" -> user_state_parse m = Ret (Some q) -> of_tags (us_badges q)) /\
    (forall q, v_command v = b "USERNOTICE" -> user_notice_parse m = Ret (Some q) -> of_tags (un_badges q)).
Proof. exact p_c36_from_tags. Qed.
Print Assumptions c36_from_tags.

Example example_c36 :
  map (badge_map deref) (parse_badges (b "subscriber/24,moderator/1,junk,vip/1/2,x/") (b "x/y,subscriber/25,x/z")) =
    [BSubscriber (mk_subscriber (b "24") (b "25") 25); Moderator;
     BOther (mk_badge_data (b "vip") (b "1/2") None); BOther (mk_badge_data (b "x") [] (Some (b "y")))] /\
  map (badge_map deref) (parse_badges (b "subscriber/2") (b "subscriber/many")) =
    [BSubscriber (mk_subscriber (b "2") (b "many") 1)] /\
  exists v m q,
    parsed Scalar (b "@badge-info=subscriber/25;badges=subscriber/24;display-name=A;user-id=1 GLOBALUSERSTATE") v m /\
    v_command v = b "GLOBALUSERSTATE" /\ has v "badges" (b "subscriber/24") /\ has v "badge-info" (b "subscriber/25") /\
    global_user_state_parse m = Ret (Some q) /\
    map (badge_map deref) (gus_badges q) = [BSubscriber (mk_subscriber (b "24") (b "25") 25)].
Proof. exact ex_c36. Qed.

(** C37. Converting a badge read from a message to data and back changes nothing. *)
Theorem c37_badge_round_trip :
  forall (badges info : str) (x : badge cow),
    In x (parse_badges badges info) -> badge_from (as_badge_data x) = x.
Proof. exact p_c37_badge_round_trip. Qed.
Print Assumptions c37_badge_round_trip.

(** C37. Not for every value of type [Badge]: [Other] may carry a special name. *)
Theorem c37_any_badge_refuted :
  exists x : badge cow, badge_from (as_badge_data x) <> x.
Proof. exact p_c37_any_badge_refuted. Qed.
Print Assumptions c37_any_badge_refuted.

(** C37. From data to a badge and back: the name always stays; everything stays for
    the names without a variant of their own and for a subscriber with extra text; the
    rest is replaced as stated. *)
Theorem c37_data_round_trip :
  forall d : badge_data cow,
    let d' := badge_data_from (badge_from d) in
    deref (bd_name d') = deref (bd_name d) /\
    (~ In (deref (bd_name d)) special_badges -> d' = d) /\
    (deref (bd_name d) = b "subscriber" ->
       bd_version d' = bd_version d /\
       bd_extra d' = match bd_extra d with Some e => Some e | None => Some (Borrowed (b "1")) end) /\
    (In (deref (bd_name d)) [b "staff"; b "turbo"; b "broadcaster"; b "moderator"] ->
       deref (bd_version d') = b "1" /\ bd_extra d' = None).
Proof. exact p_c37_data_round_trip. Qed.
Print Assumptions c37_data_round_trip.

(** C37. So a version of a special badge is lost. *)
Theorem c37_data_round_trip_refuted :
  exists d : badge_data cow, badge_data_map deref (badge_data_from (badge_from d)) <> badge_data_map deref d.
Proof. exact p_c37_data_round_trip_refuted. Qed.
Print Assumptions c37_data_round_trip_refuted.

Example example_c37 :
  In (BSubscriber (mk_subscriber (Borrowed (b "24")) (Borrowed (b "many")) 1))
     (parse_badges (b "vip/1,subscriber/24") (b "subscriber/many")) /\
  badge_data_from (badge_from (mk_badge_data (Owned (b "vip")) (Owned (b "3")) (Some (Owned (b "x"))))) =
    mk_badge_data (Owned (b "vip")) (Owned (b "3")) (Some (Owned (b "x"))).
Proof. exact ex_c37. Qed.

(** C38. The integer parsers accept exactly the decimal numerals in range, with their
    exact value, and refuse everything else. *)
Theorem c38_numbers :
  (forall s n, parse_u8 s = Some n <-> is_u8 s n) /\
  (forall s n, parse_u64 s = Some n <-> is_u64 s n) /\
  (forall s z, parse_i64 s = Some z <-> is_i64 s z) /\
  (forall s, parse_u64 s = None <-> forall n, ~ is_u64 s n) /\
  (forall s, parse_i64 s = None <-> forall z, ~ is_i64 s z).
Proof. exact p_c38_numbers. Qed.
Print Assumptions c38_numbers.

(** C38. Numeric tag fields of a parsed line: present exactly if the tag is there and
    is such a numeral. *)
Theorem c38_numeric_tag :
  forall (bd : build) (s : str) (v : view) (m : msg_ref) (t : tag_name) (o : option N),
    parsed bd s v m ->
    (tag_u64 m t = Ret o <->
     opt (fun n => exists x, first_tag (tag_as_str t) (v_tags v) (Some x) /\ is_u64 x n) o).
Proof. exact p_c38_numeric_tag. Qed.
Print Assumptions c38_numeric_tag.

Example example_c38 :
  parse_u64 (b "+0018446744073709551615") = Some 18446744073709551615%N /\
  parse_u64 (b "18446744073709551616") = None /\ parse_u64 (b "-0") = None /\ parse_u64 (b "+") = None /\
  parse_i64 (b "-9223372036854775808") = Some (-9223372036854775808)%Z /\ parse_i64 (b "9223372036854775808") = None /\
  parse_u8 (b "256") = None /\ parse_u64 (b "1_000") = None.
Proof. exact ex_c38. Qed.

(** C39. Timestamps are milliseconds within the range of the calendar. *)
Theorem c39_timestamp :
  forall (s : str) (ms : Z),
    parse_timestamp s = Some ms <->
    is_i64 s ms /\ (-8334601228800000 <= ms <= 8210266876799999)%Z.
Proof. exact p_c39_timestamp. Qed.
Print Assumptions c39_timestamp.

(** C39. The bounds are the first and last millisecond of the years -262143..262142:
    days of the proleptic Gregorian calendar before them, counted from 1970. *)
Theorem c39_range_is_calendar :
  forall y : Z,
    (days_before_year (y + 1) - days_before_year y)%Z =
      (if ((y mod 4 =? 0) && negb (y mod 100 =? 0) || (y mod 400 =? 0))%Z then 366 else 365)%Z /\
    ((days_before_year (-262143) - days_before_year 1970) * 86400000)%Z = (-8334601228800000)%Z /\
    ((days_before_year 262143 - days_before_year 1970) * 86400000 - 1)%Z = 8210266876799999%Z.
Proof. exact p_c39_range_is_calendar. Qed.
Print Assumptions c39_range_is_calendar.

Example example_c39 :
  parse_timestamp (b "1594583782376") = Some 1594583782376%Z /\
  parse_timestamp (b "8210266876799999") = Some 8210266876799999%Z /\
  parse_timestamp (b "8210266876800000") = None /\ parse_timestamp (b "-8334601228800001") = None /\
  parse_timestamp (b "-8334601228800000") = Some (-8334601228800000)%Z.
Proof. exact ex_c39. Qed.

(** C40. [into_owned] of every type keeps all fields and owns all strings. *)
Theorem c40_into_owned :
    (forall x, kept (badge_data_map deref) (badge_data_map Owned) (badge_data_into_owned x) x) /\
    (forall x, kept (subscriber_map deref) (subscriber_map Owned) (subscriber_into_owned x) x) /\
    (forall x, kept (badge_map deref) (badge_map Owned) (badge_into_owned x) x) /\
    (forall x, kept (user_map deref) (user_map Owned) (user_into_owned x) x) /\
    (forall x, kept (join_map deref) (join_map Owned) (join_into_owned x) x) /\
    (forall x, kept (part_map deref) (part_map Owned) (part_into_owned x) x) /\
    (forall x, kept (ping_map deref) (ping_map Owned) (ping_into_owned x) x) /\
    (forall x, kept (pong_map deref) (pong_map Owned) (pong_into_owned x) x) /\
    (forall x, kept (notice_map deref) (notice_map Owned) (notice_into_owned x) x) /\
    (forall x, kept (clear_msg_map deref) (clear_msg_map Owned) (clear_msg_into_owned x) x) /\
    (forall x, kept (clear_chat_map deref) (clear_chat_map Owned) (clear_chat_into_owned x) x) /\
    (forall x, kept (global_user_state_map deref) (global_user_state_map Owned) (global_user_state_into_owned x) x) /\
    (forall x, kept (user_state_map deref) (user_state_map Owned) (user_state_into_owned x) x) /\
    (forall x, kept (whisper_map deref) (whisper_map Owned) (whisper_into_owned x) x) /\
    (forall x, kept (room_state_map deref) (room_state_map Owned) (room_state_into_owned x) x) /\
    (forall x, kept (reply_map deref) (reply_map Owned) (reply_into_owned x) x) /\
    (forall x, kept (pinned_map deref) (pinned_map Owned) (pinned_into_owned x) x) /\
    (forall x, kept (privmsg_map deref) (privmsg_map Owned) (privmsg_into_owned x) x) /\
    (forall x, kept (promo_map deref) (promo_map Owned) (promo_into_owned x) x) /\
    (forall x, kept (event_map deref) (event_map Owned) (event_into_owned x) x) /\
    (forall x, kept (user_notice_map deref) (user_notice_map Owned) (user_notice_into_owned x) x).
Proof. exact p_c40_into_owned. Qed.
Print Assumptions c40_into_owned.

Example example_c40 :
  exists v m q, parsed Scalar chat_line v m /\ privmsg_parse m = Ret (Some q) /\
    q <> privmsg_into_owned q /\ privmsg_map deref (privmsg_into_owned q) = privmsg_map deref q.
Proof. exact ex_c40. Qed.

(** C41. The names and numbers of the ten levels. *)
Theorem c41_levels :
  (forall l, level_from_str (level_as_str l) = Some l) /\
  (forall s l, level_from_str s = Some l -> s = level_as_str l) /\
  (forall l, level_try_from (level_to_u8 l) = Ret (Some l)) /\
  (forall n l, level_try_from n = Ret (Some l) -> level_to_u8 l = n) /\
  (forall n, (n < 256)%N -> level_try_from n = Ret None <-> (9 < n)%N) /\
  (forall n, exists o, level_try_from n = Ret o) /\
  (forall n l, In (n, l) level_names <-> b n = level_as_str l) /\
  (forall i l, nth_error (map snd level_names) i = Some l -> level_to_u8 l = N.of_nat i).
Proof. exact p_c41_levels. Qed.
Print Assumptions c41_levels.

Example example_c41 :
  level_try_from 4 = Ret (Some FIVE) /\ level_try_from 10 = Ret None /\ level_transmute 10 = Ub /\
  level_from_str (b "TEN") = Some TEN /\ level_from_str (b "ten") = None.
Proof. exact ex_c41. Qed.

(** C62. The getters documented to unescape return the text whose escaped form is the
    tag value: user names, reply texts, system messages and plan names. *)
Theorem c62_unescaping_getters :
  forall (bd : build) (s : str) (v : view) (m : msg_ref) (t : str),
    parsed bd s v m -> utf8_valid t = true -> ~ infix comma_mark t ->
    let shows (g : res cow) := exists c, g = Ret c /\ deref c = t in
    (forall q, v_command v = b "GLOBALUSERSTATE" -> global_user_state_parse m = Ret (Some q) ->
       has v "display-name" (escape t) -> shows (global_user_state_name q)) /\
    (forall q, v_command v = b "WHISPER" -> whisper_parse m = Ret (Some q) ->
       has v "display-name" (escape t) -> shows (user_name (w_sender q))) /\
    (forall q, v_command v = b "PRIVMSG" -> privmsg_parse m = Ret (Some q) ->
       has v "display-name" (escape t) -> shows (user_name (pm_sender q))) /\
    (forall q r, v_command v = b "PRIVMSG" -> privmsg_parse m = Ret (Some q) -> pm_reply_to q = Some r ->
       (has v "reply-parent-msg-body" (escape t) -> shows (reply_text r)) /\
       (has v "reply-parent-display-name" (escape t) -> shows (user_name (rp_sender r)))) /\
    (forall q, v_command v = b "USERNOTICE" -> user_notice_parse m = Ret (Some q) ->
       (has v "system-msg" (escape t) -> t <> [] ->
          exists c, user_notice_system_message q = Ret (Some c) /\ deref c = t) /\
       (forall u, un_sender q = Some u -> has v "display-name" (escape t) -> shows (user_name u)) /\
       (forall g, event_sub_plan_name (un_event q) = Some g ->
          has v "msg-param-sub-plan-name" (escape t) -> shows g)).
Proof. exact p_c62_unescaping_getters. Qed.
Print Assumptions c62_unescaping_getters.

(** C62. For a tag value of any form, also one that no escaping produces: the same getters
    return what is to be shown for it ([shown], C20: the value up to its first backslash,
    the rest with its escapes read). *)
Theorem c62_any_value_shown :
  forall (bd : build) (s : str) (v : view) (m : msg_ref) (x : str),
    parsed bd s v m ->
    let shows (g : res cow) := exists c, g = Ret c /\ shown x (deref c) in
    (forall q, v_command v = b "GLOBALUSERSTATE" -> global_user_state_parse m = Ret (Some q) ->
       has v "display-name" x -> shows (global_user_state_name q)) /\
    (forall q, v_command v = b "WHISPER" -> whisper_parse m = Ret (Some q) ->
       has v "display-name" x -> shows (user_name (w_sender q))) /\
    (forall q, v_command v = b "PRIVMSG" -> privmsg_parse m = Ret (Some q) ->
       has v "display-name" x -> shows (user_name (pm_sender q))) /\
    (forall q r, v_command v = b "PRIVMSG" -> privmsg_parse m = Ret (Some q) -> pm_reply_to q = Some r ->
       (has v "reply-parent-msg-body" x -> shows (reply_text r)) /\
       (has v "reply-parent-display-name" x -> shows (user_name (rp_sender r)))) /\
    (forall q, v_command v = b "USERNOTICE" -> user_notice_parse m = Ret (Some q) ->
       (has v "system-msg" x -> x <> [] ->
          exists c, user_notice_system_message q = Ret (Some c) /\ shown x (deref c)) /\
       (has v "system-msg" [] -> user_notice_system_message q = Ret None) /\
       (forall u, un_sender q = Some u -> has v "display-name" x -> shows (user_name u)) /\
       (forall g, event_sub_plan_name (un_event q) = Some g ->
          has v "msg-param-sub-plan-name" x -> shows g)).
Proof. exact p_c62_any_value_shown. Qed.
Print Assumptions c62_any_value_shown.

(** A value that is no escaped text: a lone backslash at the end, an unknown escape. *)
Example example_c62_shown :
  exists v m q, parsed Scalar (b "@display-name=x\s\q\;user-id=1 GLOBALUSERSTATE") v m /\
    v_command v = b "GLOBALUSERSTATE" /\ global_user_state_parse m = Ret (Some q) /\
    has v "display-name" (b "x\s\q\") /\ global_user_state_name q = Ret (Owned (b "x q\")).
Proof. exact ex_c62_shown. Qed.

(** C62. Two getters that return a display name do not unescape it: [UserState::user_name]
    and [GiftPaidUpgrade::gifter_name]. *)
Theorem c62_all_names_unescaped_refuted :
  (exists s v m q, parsed Scalar s v m /\ has v "display-name" (escape (b "A B")) /\
     user_state_parse m = Ret (Some q) /\ deref (us_user_name q) <> b "A B") /\
  (exists s v m q l n p, parsed Scalar s v m /\ has v "msg-param-sender-name" (escape (b "A B")) /\
     user_notice_parse m = Ret (Some q) /\ un_event q = GiftPaidUpgrade l n p /\ deref n <> b "A B").
Proof. exact p_c62_all_names_unescaped_refuted. Qed.
Print Assumptions c62_all_names_unescaped_refuted.

Example example_c62 :
  exists v m q, parsed Scalar (sub_line (b "resub") (b "5")) v m /\ v_command v = b "USERNOTICE" /\
    user_notice_parse m = Ret (Some q) /\ has v "system-msg" (escape (b "x 5")) /\
    user_notice_system_message q = Ret (Some (Owned (b "x 5"))).
Proof. exact ex_c62. Qed.
