(** * PropsMore: property theorems (generated from MoreProofs.v by tools/gen_props.py).

    Only statements; each is closed by the lemma of the same name. *)

From Verif Require Import Base Wide Tags Irc MsgBase MsgTypes MsgNotice Message SpecIrc SpecMsg SpecFree SpecMore MoreProofs.

(** C89. If tags are added to a line (those found before are still found), a typed
    message stays one, with the parts it had. Only an optional part that was not
    there may be there now. The one exception is a ROOMSTATE in a debug build. *)
Theorem c89_more_tags :
  forall (bd bd' : build) (pf : profile) (s s' : str) (v : view) (l' : list (str * str)) (m m' : msg_ref) (y : typed),
    parsed bd s v m -> parsed bd' s' (with_tags v l') m' -> more_tags (v_tags v) l' ->
    In (v_command v) typed_words -> from_irc pf m = Ret (Some y) ->
    (exists y', from_irc pf m' = Ret (Some y') /\ more y y') \/
    pf = Debug /\ v_command v = b "ROOMSTATE" /\ from_irc pf m' = Panic.
Proof. exact p_c89_more_tags. Qed.
Print Assumptions c89_more_tags.

(** C89. In particular tags with new keys can be put anywhere. *)
Theorem c89_new_keys :
  forall (l1 l2 more : list (str * str)),
    (forall k, In k (map fst more) -> ~ In k (map fst (l1 ++ l2))) \/ l2 = [] ->
    more_tags (l1 ++ l2) (l1 ++ more ++ l2).
Proof. exact p_c89_new_keys. Qed.
Print Assumptions c89_new_keys.

(** C89. The exception is needed: a ROOMSTATE that is read well makes a debug build
    panic with one tag more. *)
Theorem c89_room_state_refuted :
  exists (s s' : str) (v : view) (l' : list (str * str)) (m m' : msg_ref) (y : typed),
    parsed Scalar s v m /\ parsed Scalar s' (with_tags v l') m' /\ more_tags (v_tags v) l' /\
    from_irc Debug m = Ret (Some y) /\ from_irc Debug m' = Panic.
Proof. exact p_c89_room_state_refuted. Qed.
Print Assumptions c89_room_state_refuted.

(** C89. And optional parts do change what a message means: a ban becomes a timeout. *)
Theorem c89_ban_refuted :
  exists (s s' : str) (v : view) (l' : list (str * str)) (m m' : msg_ref) (y y' : clear_chat cow),
    parsed Scalar s v m /\ parsed Scalar s' (with_tags v l') m' /\ more_tags (v_tags v) l' /\
    (forall pf, from_irc pf m = Ret (Some (MClearChat y)) /\ from_irc pf m' = Ret (Some (MClearChat y'))) /\
    is_ban (cc_action y) = true /\ is_ban (cc_action y') = false.
Proof. exact p_c89_ban_refuted. Qed.
Print Assumptions c89_ban_refuted.

Example example_c89 :
  let s := b "@badges=a/1;badge-info=;room-id=1;id=9;user-id=2;display-name=D;tmi-sent-ts=5 :d!d@d PRIVMSG #c :hi" in
  let s' := b "@new=x;badges=a/1;badge-info=;room-id=1;id=9;user-id=2;display-name=D;tmi-sent-ts=5;bits=3;badges=b/2 :d!d@d PRIVMSG #c :hi" in
  exists v l' m m' y y',
    parsed Scalar s v m /\ parsed Scalar s' (with_tags v l') m' /\ more_tags (v_tags v) l' /\
    In (v_command v) typed_words /\
    from_irc Debug m = Ret (Some (MPrivmsg y)) /\ from_irc Debug m' = Ret (Some (MPrivmsg y')) /\
    pm_bits y = None /\ pm_bits y' = Some 3%N /\ pm_badges y' = pm_badges y /\ pm_badges y <> [].
Proof. exact ex_c89. Qed.
