(** * PropsSerde: property theorems (generated from SerdeProofs.v by tools/gen_props.py).

    Only statements; each is closed by the lemma of the same name. *)

From Verif Require Import Base Wide Tags Irc SpecIrc MsgBase MsgTypes MsgNotice Message SpecMsg Samples Serde SerdeProofs.

(** C60. Deserialising the serialised form of a parsed message gives an equal message,
    if its subscriber badges carry numbers of months. *)
Theorem c60_comes_back :
  forall (cd : codec) (bd : build) (pf : profile) (line : str) (t : typed),
    keeps_times cd -> message_parse bd pf line = Ret (Some t) -> months_are_numbers (badges_of t) ->
    comes_back cd t.
Proof. exact p_c60_comes_back. Qed.
Print Assumptions c60_comes_back.

(** C60. Otherwise it fails. *)
Theorem c60_fails :
  forall (cd : codec) (bd : build) (pf : profile) (line : str) (t : typed),
    keeps_times cd -> message_parse bd pf line = Ret (Some t) -> ~ months_are_numbers (badges_of t) ->
    is_lost cd t.
Proof. exact p_c60_fails. Qed.
Print Assumptions c60_fails.

(** C60. So not every parsed message survives. *)
Theorem c60_every_message_refuted :
  exists (line : str) (v : privmsg cow),
    utf8_valid line = true /\ keeps_times plain_times /\
    message_parse Scalar Release line = Ret (Some (MPrivmsg v)) /\
    de_privmsg plain_times (ser_privmsg plain_times v) = None.
Proof. exact p_c60_every_message_refuted. Qed.
Print Assumptions c60_every_message_refuted.

Example example_c60 :
  keeps_times plain_times /\
  exists t, message_parse (Simd Sse2 0) Debug chat_line = Ret (Some (MPrivmsg t)) /\ months_are_numbers (pm_badges t) /\
    (exists s, In (BSubscriber s) (pm_badges t)) /\ pm_pinned_chat t <> None /\ pm_reply_to t <> None /\
    exists l, ser_privmsg plain_times t = DMap l /\
      map fst l = [b "channel"; b "channel_id"; b "msg_id"; b "id"; b "sender"; b "reply_to"; b "pinned_chat"; b "text";
                   b "is_action"; b "badges"; b "color"; b "custom_reward_id"; b "bits"; b "emotes"; b "timestamp"].
Proof. exact ex_c60. Qed.

(** C63. A message that was deserialised from any data at all (with whichever of its
    strings borrowed) is serialised into data that deserialises to the same message. *)
Theorem c63_stable :
  forall (cd : codec) (d : data),
    settles cd ->
    (forall y, de_clear_chat cd d = Some (clear_chat_map deref y) ->
       de_clear_chat cd (ser_clear_chat cd y) = Some (clear_chat_map deref y)) /\
    (forall y, de_clear_msg cd d = Some (clear_msg_map deref y) ->
       de_clear_msg cd (ser_clear_msg cd y) = Some (clear_msg_map deref y)) /\
    (forall y, de_global_user_state d = Some (global_user_state_map deref y) ->
       de_global_user_state (ser_global_user_state y) = Some (global_user_state_map deref y)) /\
    (forall y, de_join d = Some (join_map deref y) -> de_join (ser_join y) = Some (join_map deref y)) /\
    (forall y, de_notice d = Some (notice_map deref y) -> de_notice (ser_notice y) = Some (notice_map deref y)) /\
    (forall y, de_part d = Some (part_map deref y) -> de_part (ser_part y) = Some (part_map deref y)) /\
    (forall y, de_ping d = Some (ping_map deref y) -> de_ping (ser_ping y) = Some (ping_map deref y)) /\
    (forall y, de_pong d = Some (pong_map deref y) -> de_pong (ser_pong y) = Some (pong_map deref y)) /\
    (forall y, de_privmsg cd d = Some (privmsg_map deref y) ->
       de_privmsg cd (ser_privmsg cd y) = Some (privmsg_map deref y)) /\
    (forall y, de_room_state d = Some (room_state_map deref y) ->
       de_room_state (ser_room_state y) = Some (room_state_map deref y)) /\
    (forall y, de_user_notice cd d = Some (user_notice_map deref y) ->
       de_user_notice cd (ser_user_notice cd y) = Some (user_notice_map deref y)) /\
    (forall y, de_user_state d = Some (user_state_map deref y) ->
       de_user_state (ser_user_state y) = Some (user_state_map deref y)) /\
    (forall y, de_whisper d = Some (whisper_map deref y) ->
       de_whisper (ser_whisper y) = Some (whisper_map deref y)).
Proof. exact p_c63_stable. Qed.
Print Assumptions c63_stable.

(** C63. In particular the number of months of a deserialised subscriber badge is the
    number its text says. *)
Theorem c63_months :
  forall (d : data) (s : subscriber str),
    de_badge d = Some (BSubscriber s) -> is_u64 (sb_months s) (sb_months_n s).
Proof. exact p_c63_months. Qed.
Print Assumptions c63_months.

Example example_c63 :
  settles plain_times /\
  let d := DMap [entry "version" (DStr (b "12")); entry "junk" DNull; entry "months" (DStr (b "+007"))] in
  de_badge (DMap [entry "subscriber" d]) = Some (BSubscriber (mk_subscriber (b "12") (b "+007") 7)) /\
  exists y, de_whisper (DSeq [DStr (b "me"); DSeq [DStr (b "1"); DStr (b "l"); DStr (b "n")]; DStr (b "text");
                              DSeq [DStr (b "staff"); DMap [entry "subscriber" d]]; DStr []; DNull])
            = Some (whisper_map deref y) /\ length (w_badges y) = 2.
Proof. exact ex_c63. Qed.
