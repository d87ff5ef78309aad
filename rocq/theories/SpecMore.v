(** * SpecMore: lines with more tags, and what this may add to a typed message. *)

From Verif Require Import Base Tags Irc SpecIrc MsgBase MsgTypes MsgNotice Message SpecMsg SpecFree.

(** Every tag found in the first list is found in the second, with its value. *)
Definition more_tags (l l' : list (str * str)) : Prop :=
  forall k x, first_tag k l (Some x) -> first_tag k l' (Some x).

(** A part that may be missing: it stays as it is if it is there. *)
Definition kept {A : Type} (o o' : option A) : Prop := o = None \/ o' = o.
Definition kept_list {A : Type} (l l' : list A) : Prop := l = [] \/ l' = l.
Definition kept_text (x x' : cow) : Prop := deref x = [] \/ x' = x.

Definition more_action (a a' : action cow) : Prop :=
  a' = a \/ exists u i d, a = Ban u i /\ a' = TimeOut u i d.

Definition more_event (e e' : event cow) : Prop :=
  match e, e' with
  | SubOrResub r n s p pn, SubOrResub r' n' s' p' pn' =>
    r' = r /\ n' = n /\ kept s s' /\ p' = p /\ pn' = pn
  | GiftPaidUpgrade l n p, GiftPaidUpgrade l' n' p' => l' = l /\ n' = n /\ kept p p'
  | AnonGiftPaidUpgrade p, AnonGiftPaidUpgrade p' => kept p p'
  | Announcement c, Announcement c' => deref c = b "PRIMARY" \/ c' = c
  | _, _ => e' = e
  end.

(** The same message, with more of its optional parts. *)
Definition more (t t' : typed) : Prop :=
  match t, t' with
  | MClearChat x, MClearChat y =>
    cc_channel y = cc_channel x /\ cc_channel_id y = cc_channel_id x /\ cc_timestamp y = cc_timestamp x /\
    more_action (cc_action x) (cc_action y)
  | MGlobalUserState x, MGlobalUserState y =>
    gus_id y = gus_id x /\ gus_name y = gus_name x /\ kept_list (gus_badges x) (gus_badges y) /\
    kept_list (gus_emote_sets x) (gus_emote_sets y) /\ kept (gus_color x) (gus_color y)
  | MUserState x, MUserState y =>
    us_channel y = us_channel x /\ us_user_name y = us_user_name x /\ kept_list (us_badges x) (us_badges y) /\
    kept_list (us_emote_sets x) (us_emote_sets y) /\ kept (us_color x) (us_color y)
  | MNotice x, MNotice y => n_channel y = n_channel x /\ n_text y = n_text x /\ kept (n_id x) (n_id y)
  | MWhisper x, MWhisper y =>
    w_recipient y = w_recipient x /\ w_sender y = w_sender x /\ w_text y = w_text x /\
    kept_list (w_badges x) (w_badges y) /\ kept_text (w_emotes x) (w_emotes y) /\ kept (w_color x) (w_color y)
  | MRoomState x, MRoomState y =>
    rs_channel y = rs_channel x /\ rs_channel_id y = rs_channel_id x /\
    kept (rs_emote_only x) (rs_emote_only y) /\ kept (rs_followers_only x) (rs_followers_only y) /\
    kept (rs_r9k x) (rs_r9k y) /\ kept (rs_slow x) (rs_slow y) /\ kept (rs_subs_only x) (rs_subs_only y)
  | MPrivmsg x, MPrivmsg y =>
    pm_channel y = pm_channel x /\ pm_channel_id y = pm_channel_id x /\ pm_id y = pm_id x /\
    pm_sender y = pm_sender x /\ pm_text y = pm_text x /\ pm_is_action y = pm_is_action x /\
    pm_timestamp y = pm_timestamp x /\
    kept (pm_msg_id x) (pm_msg_id y) /\ kept (pm_reply_to x) (pm_reply_to y) /\
    kept (pm_pinned_chat x) (pm_pinned_chat y) /\ kept_list (pm_badges x) (pm_badges y) /\
    kept (pm_color x) (pm_color y) /\ kept (pm_custom_reward_id x) (pm_custom_reward_id y) /\
    kept (pm_bits x) (pm_bits y) /\ kept_text (pm_emotes x) (pm_emotes y)
  | MUserNotice x, MUserNotice y =>
    un_channel y = un_channel x /\ un_channel_id y = un_channel_id x /\ un_sender y = un_sender x /\
    un_text y = un_text x /\ un_event_id y = un_event_id x /\ un_message_id y = un_message_id x /\
    un_timestamp y = un_timestamp x /\
    more_event (un_event x) (un_event y) /\ kept (un_system_message x) (un_system_message y) /\
    kept_list (un_badges x) (un_badges y) /\ kept_text (un_emotes x) (un_emotes y) /\ kept (un_color x) (un_color y)
  | _, _ => t' = t
  end.
