(** * PropsCmp: property theorems (generated from CmpProofs.v by tools/gen_props.py).

    Only statements; each is closed by the lemma of the same name. *)

From Verif Require Import Base Wide Common Client Tags Irc Unescape MsgBase MsgTypes MsgNotice Message SpecIrc SpecMsg SpecUnicode SpecDbg Dbg Cmp SpecCmp Samples CmpProofs.

(** C73. Two values of a type of messages are equal exactly if all their contents
    are, whoever owns the strings. *)
Theorem c73_messages :
  same_as (badge_data_map deref) badge_data_eq /\
  same_as (subscriber_map deref) subscriber_eq /\
  same_as (badge_map deref) badge_eq /\
  same_as (user_map deref) user_eq /\
  same_as (join_map deref) join_eq /\
  same_as (part_map deref) part_eq /\
  same_as (ping_map deref) ping_eq /\
  same_as (pong_map deref) pong_eq /\
  same_as (notice_map deref) notice_eq /\
  same_as (clear_msg_map deref) clear_msg_eq /\
  same_as (action_map deref) action_eq /\
  same_as (clear_chat_map deref) clear_chat_eq /\
  same_as (global_user_state_map deref) global_user_state_eq /\
  same_as (user_state_map deref) user_state_eq /\
  same_as (whisper_map deref) whisper_eq /\
  same_as (room_state_map deref) room_state_eq /\
  same_as (reply_map deref) reply_eq /\
  same_as (pinned_map deref) pinned_eq /\
  same_as (privmsg_map deref) privmsg_eq /\
  same_as (promo_map deref) promo_eq /\
  same_as (event_map deref) event_eq /\
  same_as (user_notice_map deref) user_notice_eq.
Proof. exact p_c73_messages. Qed.
Print Assumptions c73_messages.

(** C73. Types without strings, and those of borrowed lines. *)
Theorem c73_parts :
  same_as (fun x => x) level_eq /\ same_as (fun x => x) followers_only_eq /\
  same_as (fun x => x) prefix_eq /\ same_as (fun x => x) span_eq /\
  same_as (fun x => x) command_eq /\ same_as (fun x => x) tag_eq /\
  same_as ref_as_str channel_ref_eq /\ same_as chan_as_str channel_eq.
Proof. exact p_c73_parts. Qed.
Print Assumptions c73_parts.

(** C73. [into_owned] returns an equal value. *)
Theorem c73_owned :
  (forall x, badge_data_eq (badge_data_into_owned x) x = true) /\
  (forall x, subscriber_eq (subscriber_into_owned x) x = true) /\
  (forall x, badge_eq (badge_into_owned x) x = true) /\
  (forall x, user_eq (user_into_owned x) x = true) /\
  (forall x, join_eq (join_into_owned x) x = true) /\
  (forall x, part_eq (part_into_owned x) x = true) /\
  (forall x, ping_eq (ping_into_owned x) x = true) /\
  (forall x, pong_eq (pong_into_owned x) x = true) /\
  (forall x, notice_eq (notice_into_owned x) x = true) /\
  (forall x, clear_msg_eq (clear_msg_into_owned x) x = true) /\
  (forall x, action_eq (action_into_owned x) x = true) /\
  (forall x, clear_chat_eq (clear_chat_into_owned x) x = true) /\
  (forall x, global_user_state_eq (global_user_state_into_owned x) x = true) /\
  (forall x, user_state_eq (user_state_into_owned x) x = true) /\
  (forall x, whisper_eq (whisper_into_owned x) x = true) /\
  (forall x, room_state_eq (room_state_into_owned x) x = true) /\
  (forall x, reply_eq (reply_into_owned x) x = true) /\
  (forall x, pinned_eq (pinned_into_owned x) x = true) /\
  (forall x, privmsg_eq (privmsg_into_owned x) x = true) /\
  (forall x, promo_eq (promo_into_owned x) x = true) /\
  (forall x, event_eq (event_into_owned x) x = true) /\
  (forall x, user_notice_eq (user_notice_into_owned x) x = true).
Proof. exact p_c73_owned. Qed.
Print Assumptions c73_owned.

(** C73. Messages are equal exactly if they print alike. *)
Theorem c73_printed :
  forall (shown : uchar -> bool) (alt : bool),
    (forall x y, texts (join_map deref) (join_map raw) x -> texts (join_map deref) (join_map raw) y ->
       (join_eq x y = true <-> show shown alt (dbg_join x) = show shown alt (dbg_join y))) /\
    (forall x y, texts (part_map deref) (part_map raw) x -> texts (part_map deref) (part_map raw) y ->
       (part_eq x y = true <-> show shown alt (dbg_part x) = show shown alt (dbg_part y))) /\
    (forall x y, texts (ping_map deref) (ping_map raw) x -> texts (ping_map deref) (ping_map raw) y ->
       (ping_eq x y = true <-> show shown alt (dbg_ping x) = show shown alt (dbg_ping y))) /\
    (forall x y, texts (pong_map deref) (pong_map raw) x -> texts (pong_map deref) (pong_map raw) y ->
       (pong_eq x y = true <-> show shown alt (dbg_pong x) = show shown alt (dbg_pong y))) /\
    (forall x y, texts (notice_map deref) (notice_map raw) x -> texts (notice_map deref) (notice_map raw) y ->
       (notice_eq x y = true <-> show shown alt (dbg_notice x) = show shown alt (dbg_notice y))) /\
    (forall x y, texts (clear_msg_map deref) (clear_msg_map raw) x -> texts (clear_msg_map deref) (clear_msg_map raw) y ->
       (clear_msg_eq x y = true <-> show shown alt (dbg_clear_msg x) = show shown alt (dbg_clear_msg y))) /\
    (forall x y, texts (clear_chat_map deref) (clear_chat_map raw) x -> texts (clear_chat_map deref) (clear_chat_map raw) y ->
       (clear_chat_eq x y = true <-> show shown alt (dbg_clear_chat x) = show shown alt (dbg_clear_chat y))) /\
    (forall x y, texts (global_user_state_map deref) (global_user_state_map raw) x -> texts (global_user_state_map deref) (global_user_state_map raw) y ->
       (global_user_state_eq x y = true <-> show shown alt (dbg_global_user_state x) = show shown alt (dbg_global_user_state y))) /\
    (forall x y, texts (user_state_map deref) (user_state_map raw) x -> texts (user_state_map deref) (user_state_map raw) y ->
       (user_state_eq x y = true <-> show shown alt (dbg_user_state x) = show shown alt (dbg_user_state y))) /\
    (forall x y, texts (whisper_map deref) (whisper_map raw) x -> texts (whisper_map deref) (whisper_map raw) y ->
       (whisper_eq x y = true <-> show shown alt (dbg_whisper x) = show shown alt (dbg_whisper y))) /\
    (forall x y, texts (room_state_map deref) (room_state_map raw) x -> texts (room_state_map deref) (room_state_map raw) y ->
       (room_state_eq x y = true <-> show shown alt (dbg_room_state x) = show shown alt (dbg_room_state y))) /\
    (forall x y, texts (privmsg_map deref) (privmsg_map raw) x -> texts (privmsg_map deref) (privmsg_map raw) y ->
       (privmsg_eq x y = true <-> show shown alt (dbg_privmsg x) = show shown alt (dbg_privmsg y))) /\
    (forall x y, texts (user_notice_map deref) (user_notice_map raw) x -> texts (user_notice_map deref) (user_notice_map raw) y ->
       (user_notice_eq x y = true <-> show shown alt (dbg_user_notice x) = show shown alt (dbg_user_notice y))).
Proof. exact p_c73_printed. Qed.
Print Assumptions c73_printed.

(** C73. Commands of parsed lines are equal exactly if their words are. *)
Theorem c73_parsed_commands :
  forall (bd bd' : build) (s s' w w' rest rest' : str) (m m' : msg_ref),
    utf8_valid s = true -> below_4gib s -> ref_parse bd s = Ret (Some m) -> command_and_rest s w rest ->
    utf8_valid s' = true -> below_4gib s' -> ref_parse bd' s' = Ret (Some m') -> command_and_rest s' w' rest' ->
    exists c c', ref_command m = Ret c /\ ref_command m' = Ret c' /\ (command_eq c c' = true <-> w = w').
Proof. exact p_c73_parsed_commands. Qed.
Print Assumptions c73_parsed_commands.

(** C73. Tag names are parsed to equal values exactly if they are equal. *)
Theorem c73_tag_names :
  forall (x y : str), tag_eq (tag_parse x) (tag_parse y) = true <-> x = y.
Proof. exact p_c73_tag_names. Qed.
Print Assumptions c73_tag_names.

(** C73. Values with the same text need not be equal. *)
Theorem c73_same_text_refuted :
  (exists c c', command_as_str c = command_as_str c' /\ command_eq c c' = false) /\
  (exists s s', tag_as_str (tag_parse s) = tag_as_str (tag_parse s') /\ tag_eq (tag_parse s) (tag_parse s') = false).
Proof. exact p_c73_same_text_refuted. Qed.
Print Assumptions c73_same_text_refuted.

(** C73. The orders are total orders that agree with [==]. *)
Theorem c73_orders :
  total_order str_eqb str_cmp /\ total_order channel_ref_eq channel_ref_cmp /\ total_order channel_eq channel_cmp /\
  total_order command_eq command_cmp /\ total_order tag_eq tag_cmp.
Proof. exact p_c73_orders. Qed.
Print Assumptions c73_orders.

(** C73. Texts are ordered as in a dictionary, by bytes or, which is the same, by
    code points. *)
Theorem c73_dictionary :
  forall (s t : str),
    (str_cmp s t = Lt <-> before (codes s) (codes t)) /\
    (forall ns ms, text_of ns s -> text_of ms t -> (str_cmp s t = Lt <-> before ns ms)).
Proof. exact p_c73_dictionary. Qed.
Print Assumptions c73_dictionary.

(** C73. Variants are ordered as they are declared. *)
Theorem c73_variants :
  listed_order (map snd known_commands) Other command_cmp /\ listed_order declared_tags TUnknown tag_cmp.
Proof. exact p_c73_variants. Qed.
Print Assumptions c73_variants.

(** C73. So not by their texts. *)
Theorem c73_alphabetical_refuted :
  (exists c c', command_cmp c c' = Lt /\ before (codes (command_as_str c')) (codes (command_as_str c))) /\
  (exists t t', tag_cmp t t' = Lt /\ before (codes (tag_as_str t')) (codes (tag_as_str t))).
Proof. exact p_c73_alphabetical_refuted. Qed.
Print Assumptions c73_alphabetical_refuted.

(** C73. Hashes agree with [==]. *)
Theorem c73_hashes :
  hashes (fun s => utf8_valid s = true) str_eqb hash_str /\
  hashes (fun c => utf8_valid (ref_as_str c) = true) channel_ref_eq channel_ref_hash /\
  hashes (fun c => utf8_valid (chan_as_str c) = true) channel_eq channel_hash /\
  hashes (fun c => utf8_valid (command_as_str c) = true) command_eq command_hash /\
  hashes (fun t => utf8_valid (tag_as_str t) = true) tag_eq tag_hash.
Proof. exact p_c73_hashes. Qed.
Print Assumptions c73_hashes.

(** C73. Values of a map with channels as keys are found by the text of the
    channel, with any hash function [finish], and in sorted maps. *)
Theorem c73_lookup :
  forall (V : Type) (ops : list (channel * V)) (finish : list byte -> N) (s : str),
    last_bound (by_text chan_as_str ops) s
      (hash_lookup (fun c => finish (channel_hash c)) (fun t => finish (hash_str t)) chan_as_str
         (fold_left (hash_insert (fun c => finish (channel_hash c)) channel_eq) ops []) s) /\
    last_bound (by_text chan_as_str ops) s
      (sorted_lookup str_cmp chan_as_str (fold_left (sorted_insert channel_cmp) ops []) s).
Proof. exact p_c73_lookup. Qed.
Print Assumptions c73_lookup.

(** The printed texts of [chat_line], two codes of one text, and an order that
    bytes and code points share though UTF-16 would not. *)
Example example_c73 :
  (exists x, message_parse (Simd Sse2 0) Debug chat_line = Ret (Some (MPrivmsg x)) /\
     privmsg_into_owned x <> x /\ privmsg_eq (privmsg_into_owned x) x = true /\
     privmsg_eq x (mk_privmsg (pm_channel x) (pm_channel_id x) (pm_msg_id x) (pm_id x) (pm_sender x) None (pm_pinned_chat x)
       (pm_text x) (pm_is_action x) (pm_badges x) (pm_color x) (pm_custom_reward_id x) (pm_bits x) (pm_emotes x)
       (pm_timestamp x)) = false) /\
  (exists s t, text_of [65376]%N s /\ text_of [128512]%N t /\ str_cmp s t = Lt /\ channel_cmp (Channel t) (Channel s) = Gt) /\
  last_bound (by_text chan_as_str [(Channel (b "#a"), 1); (Channel (b "#c"), 2); (Channel (b "#a"), 3)]) (b "#a") (Some 3) /\
  command_and_rest (b "PING x") (b "PING") (b "x") /\
  command_eq (Other (b "a")) (Other (b "a")) = true /\ command_hash (Other (b "a")) = [x18; x00; x00; x00; x00; x00; x00; x00; x61; xff].
Proof. exact ex_c73. Qed.
