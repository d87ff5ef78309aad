(** * SpecFree: tags whose values someone may choose, and typed messages without
    them. *)

From Verif Require Import Base Tags Irc SpecIrc MsgBase MsgTypes MsgNotice Message SpecMsg SpecQuote.

(** Display names, texts and names of plans and promotions. *)
Definition free_tags : list string :=
  ["display-name"; "system-msg"; "reply-parent-msg-body"; "reply-parent-display-name";
   "msg-param-sub-plan-name"; "msg-param-recipient-display-name"; "msg-param-sender-name";
   "msg-param-promo-name"]%string.

(** The pairs of a section before the value of some tag. *)
Definition written (l : list (str * str)) : str :=
  concat (map (fun kv => fst kv ++ b "=" ++ snd kv ++ b ";") l).

Definition good_pair (kv : str * str) : Prop := ~ In "="%byte (fst kv) /\ ~ In ";"%byte (snd kv).

(** The same parts with other tags. *)
Definition with_tags (v : view) (l : list (str * str)) : view :=
  mk_view l (v_prefix v) (v_command v) (v_channel v) (v_params v).

(** Other values for some of these tags. *)
Definition other_values (l l' : list (str * str)) : Prop :=
  Forall2 (fun kv kv' => fst kv = fst kv' /\ (snd kv = snd kv' \/ In (fst kv) (map b free_tags))) l l'.

(** The same message with these values left out. *)
Definition nameless (u : user_info cow) : user_info cow := mk_user (u_id u) (u_login u) blank.

Definition plain_promo (p : promo cow) : promo cow := mk_promo (pr_total_gifts p) blank.

Definition plain_event (e : event cow) : event cow :=
  match e with
  | SubOrResub r n s p _ => SubOrResub r n s p blank
  | SubGift n u p _ g => SubGift n (nameless u) p blank g
  | GiftPaidUpgrade l _ p => GiftPaidUpgrade l blank (option_map plain_promo p)
  | AnonGiftPaidUpgrade p => AnonGiftPaidUpgrade (option_map plain_promo p)
  | Raid _ _ | SubMysteryGift _ _ _ | AnonSubMysteryGift _ _ | Ritual _ | BitsBadgeTier _ | Announcement _
  | UnknownEvent => e
  end.

Definition plain_reply (r : reply cow) : reply cow :=
  mk_reply (rp_thread_parent_message_id r) (rp_thread_parent_user_login r) (rp_message_id r)
    (nameless (rp_sender r)) blank.

Definition without_free (t : typed) : typed :=
  match t with
  | MGlobalUserState x => MGlobalUserState (mk_gus (gus_id x) blank (gus_badges x) (gus_emote_sets x) (gus_color x))
  | MUserState x => MUserState (mk_user_state (us_channel x) blank (us_badges x) (us_emote_sets x) (us_color x))
  | MWhisper x =>
    MWhisper (mk_whisper (w_recipient x) (nameless (w_sender x)) (w_text x) (w_badges x) (w_emotes x) (w_color x))
  | MPrivmsg x =>
    MPrivmsg (mk_privmsg (pm_channel x) (pm_channel_id x) (pm_msg_id x) (pm_id x) (nameless (pm_sender x))
      (option_map plain_reply (pm_reply_to x)) (pm_pinned_chat x) (pm_text x) (pm_is_action x) (pm_badges x)
      (pm_color x) (pm_custom_reward_id x) (pm_bits x) (pm_emotes x) (pm_timestamp x))
  | MUserNotice x =>
    MUserNotice (mk_user_notice (un_channel x) (un_channel_id x) (option_map nameless (un_sender x)) (un_text x) None
      (plain_event (un_event x)) (un_event_id x) (un_badges x) (un_emotes x) (un_color x) (un_message_id x)
      (un_timestamp x))
  | MClearChat _ | MClearMsg _ | MNotice _ | MPing _ | MPong _ | MJoin _ | MPart _ | MReconnect | MRoomState _
  | MOther _ => t
  end.
