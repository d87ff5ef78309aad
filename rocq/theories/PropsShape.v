(** * PropsShape: property theorems (generated from ShapeProofs.v by tools/gen_props.py).

    Only statements; each is closed by the lemma of the same name. *)

From Verif Require Import Base MsgBase MsgTypes MsgNotice Serde SpecSerde ShapeProofs.

(** C76. The messages: a map whose keys may come in any order and among others, with each
    field once, the optional ones at most once; or the fields in a sequence. *)
Theorem c76_messages :
  forall (cd : codec),
    reads_struct ["channel"; "user"] [] de_join /\
    reads_struct ["channel"; "user"] [] de_part /\
    reads_struct ["nonce"] ["nonce"] de_ping /\
    reads_struct ["nonce"] ["nonce"] de_pong /\
    reads_struct ["channel"; "text"; "id"] ["channel"; "id"] de_notice /\
    reads_struct
      ["channel"; "channel_id"; "sender"; "target_message_id"; "text"; "is_action"; "timestamp"]
      [] (de_clear_msg cd) /\
    reads_struct ["channel"; "channel_id"; "action"; "timestamp"] [] (de_clear_chat cd) /\
    reads_struct ["id"; "name"; "badges"; "emote_sets"; "color"] ["color"] de_global_user_state /\
    reads_struct ["channel"; "user_name"; "badges"; "emote_sets"; "color"] ["color"] de_user_state /\
    reads_struct ["recipient"; "sender"; "text"; "badges"; "emotes"; "color"] ["color"] de_whisper /\
    reads_struct
      ["channel"; "channel_id"; "emote_only"; "followers_only"; "r9k"; "slow"; "subs_only"]
      ["emote_only"; "followers_only"; "r9k"; "slow"; "subs_only"] de_room_state /\
    reads_struct
      ["channel"; "channel_id"; "msg_id"; "id"; "sender"; "reply_to"; "pinned_chat"; "text";
       "is_action"; "badges"; "color"; "custom_reward_id"; "bits"; "emotes"; "timestamp"]
      ["msg_id"; "reply_to"; "pinned_chat"; "color"; "custom_reward_id"; "bits"] (de_privmsg cd) /\
    reads_struct
      ["channel"; "channel_id"; "sender"; "text"; "system_message"; "event"; "event_id"; "badges";
       "emotes"; "color"; "message_id"; "timestamp"]
      ["sender"; "text"; "system_message"; "color"] (de_user_notice cd).
Proof. exact p_c76_messages. Qed.
Print Assumptions c76_messages.

(** C76. So are their parts read. *)
Theorem c76_parts :
    reads_struct ["secs"; "nanos"] [] de_duration /\
    reads_struct ["version"; "months"] [] de_subscriber /\
    reads_struct ["name"; "version"; "extra"] ["extra"] de_badge_data /\
    reads_struct ["id"; "login"; "name"] [] de_user /\
    reads_struct ["user"; "id"] [] de_ban /\
    reads_struct ["user"; "id"; "duration"] [] de_time_out /\
    reads_struct ["paid_amount"; "paid_currency"; "paid_exponent"; "paid_level"; "is_system_message"] [] de_pinned /\
    reads_struct
      ["thread_parent_message_id"; "thread_parent_user_login"; "message_id"; "sender"; "text"]
      [] de_reply /\
    reads_struct ["total_gifts"; "promo_name"] [] de_promo /\
    reads_struct
      ["is_resub"; "cumulative_months"; "streak_months"; "sub_plan"; "sub_plan_name"]
      ["streak_months"] de_sub /\
    reads_struct ["viewer_count"; "profile_image_url"] [] de_raid /\
    reads_struct
      ["cumulative_months"; "recipient"; "sub_plan"; "sub_plan_name"; "num_gifted_months"]
      [] de_sub_gift /\
    reads_struct ["count"; "sender_total_gifts"; "sub_plan"] [] de_sub_mystery_gift /\
    reads_struct ["count"; "sub_plan"] [] de_anon_sub_mystery_gift /\
    reads_struct ["gifter_login"; "gifter_name"; "promotion"] ["promotion"] de_gift_paid_upgrade /\
    reads_struct ["promotion"] ["promotion"] de_anon_gift_paid_upgrade /\
    reads_struct ["name"] [] de_ritual /\
    reads_struct ["tier"] [] de_bits_badge_tier /\
    reads_struct ["highlight_color"] [] de_announcement.
Proof. exact p_c76_parts. Qed.
Print Assumptions c76_parts.

(** C76. The enums. *)
Theorem c76_enums :
    reads_enum [("staff", Staff); ("turbo", Turbo); ("broadcaster", Broadcaster); ("moderator", Moderator)]
      [("subscriber", fun d => option_map BSubscriber (de_subscriber d)); ("other", fun d => option_map BOther (de_badge_data d))]
      de_badge /\
    reads_enum [("clear", Clear)] [("ban", de_ban); ("timeout", de_time_out)] de_action /\
    reads_enum [("disabled", Disabled)]
      [("enabled", fun d => match d with DNull => Some (Enabled None) | _ => option_map (fun x => Enabled (Some x)) (de_duration d) end)]
      de_followers /\
    reads_enum [("ONE", ONE); ("TWO", TWO); ("THREE", THREE); ("FOUR", FOUR); ("FIVE", FIVE); ("SIX", SIX);
                ("SEVEN", SEVEN); ("EIGHT", EIGHT); ("NINE", NINE); ("TEN", TEN)] [] de_level /\
    reads_enum [("unknown", UnknownEvent)]
      [("suborresub", de_sub); ("raid", de_raid); ("subgift", de_sub_gift); ("submysterygift", de_sub_mystery_gift);
       ("anonsubmysterygift", de_anon_sub_mystery_gift); ("giftpaidupgrade", de_gift_paid_upgrade);
       ("anongiftpaidupgrade", de_anon_gift_paid_upgrade); ("ritual", de_ritual);
       ("bitsbadgetier", de_bits_badge_tier); ("announcement", de_announcement)] de_event.
Proof. exact p_c76_enums. Qed.
Print Assumptions c76_enums.

(** C76. Numbers are read when they fit their type, and durations when their seconds do. *)
Theorem c76_numbers :
  (forall d n, de_u64 d = Some n <-> d = DInt (Z.of_N n) /\ (n < 2 ^ 64)%N) /\
  (forall d z, de_i64 d = Some z <-> d = DInt z /\ (- 2 ^ 63 <= z < 2 ^ 63)%Z) /\
  (forall secs nanos s,
     de_duration (DMap [entry "secs" (DInt secs); entry "nanos" (DInt nanos)]) = Some s <->
     (0 <= secs < 2 ^ 64 /\ 0 <= nanos < 2 ^ 32 /\ Z.of_N s < 2 ^ 64 /\
      1000000000 * secs + nanos = 1000000000 * Z.of_N s)%Z).
Proof. exact p_c76_numbers. Qed.
Print Assumptions c76_numbers.

(** A message with its nulls left out, its keys in another order and one of no meaning. *)
Example example_c76 :
  let l := [entry "text" (DStr (b "hi")); entry "x" (DInt 3)] in
  let full := [entry "channel" DNull; entry "text" (DStr (b "hi")); entry "id" DNull] in
  rearranged ["channel"; "text"; "id"] ["channel"; "id"] full l /\
  de_notice (DMap full) = Some (mk_notice None (b "hi") None) /\
  de_notice (DMap l) = Some (mk_notice None (b "hi") None) /\
  de_notice (DMap [entry "id" DNull]) = None /\
  de_notice (DMap (entry "text" (DStr []) :: l)) = None /\
  de_badge (DMap [entry "staff" DNull]) = Some Staff /\ de_badge (DMap [entry "staff" (DBool true)]) = None.
Proof. exact ex_c76. Qed.
