(** * LiftFacts: messages made from texts with a property (proofs).

    If every text that a message can take from a line is [raw] of something, the
    whole message is. *)

From Verif Require Import Base Tags Irc MsgBase MsgTypes MsgNotice Message SpecIrc SpecMsg.

Definition ups {X Y : Type} (f : X -> Y) (y : Y) : Prop := exists z, y = f z.

Lemma ups_all {X Y : Type} (f : X -> Y) (l : list Y) : Forall (ups f) l -> ups (map f) l.
Proof.
  induction 1 as [|y l [z ->] _ [zs ->]]; [now exists []|]. now exists (z :: zs).
Qed.

Lemma ups_opt {X Y : Type} (f : X -> Y) (P : Y -> Prop) (o : option Y) :
  (forall y, P y -> ups f y) -> opt P o -> ups (option_map f) o.
Proof.
  intros H. destruct o as [y|]; cbn; intros K; [|now exists None].
  destruct (H y K) as [z ->]. now exists (Some z).
Qed.

Record lifts (v : view) {T : Type} (raw : T -> str) : Prop :=
  { li_has : forall n x, has v n x -> ups raw x;
    li_channel : forall x, has_channel v x -> ups raw x;
    li_nick : forall x, has_nick v x -> ups raw x;
    li_text : forall x, has_text v x -> ups raw x;
    li_action : forall x f, (exists t, has_text v t /\ action_text t x f) -> ups raw x;
    li_around : forall p l r, v_params v = Some p -> p = l ++ b " :" ++ r -> ups raw l /\ ups raw r;
    li_list : forall n ws, has_list v n ws -> ups (map raw) ws;
    li_badges : forall l, has_badges v l -> ups (map (badge_map raw)) l;
    li_empty : ups raw [];
    li_color : forall x, has v "msg-id" (b "announcement") -> has_or v "msg-param-color" (b "PRIMARY") x ->
      ups raw x }.

Section View.
Context (v : view) {T : Type} (raw : T -> str) (L : lifts v raw).

Lemma up_filled (n : string) (x : str) : has_filled v n x -> ups raw x.
Proof. intros [H _]. exact (li_has v raw L _ _ H). Qed.

Lemma up_emotes (n : string) (x : str) : has_or v n [] x -> ups raw x.
Proof. intros [H|[_ ->]]; [exact (li_has v raw L _ _ H)|exact (li_empty v raw L)]. Qed.

Ltac conj H := repeat match type of H with
  | _ /\ _ => let K := fresh "K" in destruct H as [K H]
  end.

(** Replaces every text by its proof. *)
Ltac lift :=
  repeat match goal with
  | K : has_channel v ?x |- _ => apply (li_channel v raw L) in K as [? ->]
  | K : has_nick v ?x |- _ => apply (li_nick v raw L) in K as [? ->]
  | K : has_text v ?x |- _ => apply (li_text v raw L) in K as [? ->]
  | K : has v _ ?x |- _ => apply (li_has v raw L) in K as [? ->]
  | K : has_or v _ [] ?x |- _ => apply up_emotes in K as [? ->]
  | K : has_list v _ ?x |- _ => apply (li_list v raw L) in K as [? ->]
  | K : has_badges v ?x |- _ => apply (li_badges v raw L) in K as [? ->]
  | K : opt (has v _) ?x |- _ => apply (ups_opt raw _ _ (li_has v raw L _)) in K as [? ->]
  | K : opt (has_filled v _) ?x |- _ => apply (ups_opt raw _ _ (up_filled _)) in K as [? ->]
  | K : opt (has_text v) ?x |- _ => apply (ups_opt raw _ _ (li_text v raw L)) in K as [? ->]
  | K : opt (has_channel v) ?x |- _ => apply (ups_opt raw _ _ (li_channel v raw L)) in K as [? ->]
  | K : exists t, has_text v t /\ action_text t ?x _ |- _ => apply (li_action v raw L) in K as [? ->]
  end.

Ltac open := match goal with |- ?P ?v ?x -> _ => destruct x; unfold P; cbn -[has has_filled has_or has_list has_badges has_channel has_nick has_text has_u64 has_i64 has_flag has_time opt action_of reply_of pinned_of promo_of user_of event_of action_text b]; let H := fresh "H" in intros H; conj H; lift end.

Lemma up_join (x : join_msg str) : join_of v x -> ups (join_map raw) x.
Proof. open. eexists (mk_join _ _). reflexivity. Qed.

Lemma up_part (x : part_msg str) : part_of v x -> ups (part_map raw) x.
Proof. open. eexists (mk_part _ _). reflexivity. Qed.

Lemma up_ping (x : ping_msg str) : ping_of v x -> ups (ping_map raw) x.
Proof. open. eexists (mk_ping _). reflexivity. Qed.

Lemma up_pong (x : pong_msg str) : pong_of v x -> ups (pong_map raw) x.
Proof. open. eexists (mk_pong _). reflexivity. Qed.

Lemma up_notice (x : notice_msg str) : notice_of v x -> ups (notice_map raw) x.
Proof. open. eexists (mk_notice _ _ _). reflexivity. Qed.

Lemma up_clear_msg (x : clear_msg str) : clear_msg_of v x -> ups (clear_msg_map raw) x.
Proof. open. eexists (mk_clear_msg _ _ _ _ _ _ _). reflexivity. Qed.

Lemma up_act (x : action str) : action_of v x -> ups (action_map raw) x.
Proof.
  destruct x; cbn -[has has_filled has_or has_list has_badges has_channel has_nick has_text has_u64 has_i64 has_flag has_time opt action_of reply_of pinned_of promo_of user_of event_of action_text b]; unfold action_of, event_of; intros H; conj H; lift.
  - now exists Clear.
  - eexists (Ban _ _). reflexivity.
  - eexists (TimeOut _ _ _). reflexivity.
Qed.

Lemma up_clear_chat (x : clear_chat str) : clear_chat_of v x -> ups (clear_chat_map raw) x.
Proof. open. apply up_act in K1 as [? ->]. eexists (mk_clear_chat _ _ _ _). reflexivity. Qed.

Lemma up_global_user_state (x : global_user_state str) :
  global_user_state_of v x -> ups (global_user_state_map raw) x.
Proof. open. eexists (mk_gus _ _ _ _ _). reflexivity. Qed.

Lemma up_user_state (x : user_state str) : user_state_of v x -> ups (user_state_map raw) x.
Proof. open. eexists (mk_user_state _ _ _ _ _). reflexivity. Qed.

Lemma up_whisper (x : whisper_msg str) : whisper_of v x -> ups (whisper_map raw) x.
Proof.
  destruct x as [r [id login na] t bs es c]. unfold whisper_of. cbn -[has has_filled has_or has_list has_badges has_channel has_nick has_text has_u64 has_i64 has_flag has_time opt action_of reply_of pinned_of promo_of user_of event_of action_text b].
  intros ((p & P & A & _) & H). conj H; lift. destruct (li_around v raw L p r t P A) as [[? ->] [? ->]].
  eexists (mk_whisper _ (mk_user _ _ _) _ _ _ _). reflexivity.
Qed.

Lemma up_room_state (x : room_state str) : room_state_of v x -> ups (room_state_map raw) x.
Proof. open. eexists (mk_room_state _ _ _ _ _ _ _). reflexivity. Qed.

Lemma up_user (i l n : string) (x : user_info str) : user_of v i l n x -> ups (user_map raw) x.
Proof. destruct x. unfold user_of. cbn -[has has_filled has_or has_list has_badges has_channel has_nick has_text has_u64 has_i64 has_flag has_time opt action_of reply_of pinned_of promo_of user_of event_of action_text b]. intros H; conj H; lift. eexists (mk_user _ _ _). reflexivity. Qed.

Lemma up_reply (x : reply str) : reply_of v x -> ups (reply_map raw) x.
Proof. open. apply up_user in K2 as [? ->]. eexists (mk_reply _ _ _ _ _). reflexivity. Qed.

Lemma up_pinned (x : pinned_chat str) : pinned_of v x -> ups (pinned_map raw) x.
Proof. open. eexists (mk_pinned _ _ _ _ _). reflexivity. Qed.

Lemma up_privmsg (x : privmsg str) : privmsg_of v x -> ups (privmsg_map raw) x.
Proof.
  destruct x as [ch chid mid id [uid login na] re pin tx ac bs c cr bi es ts]. unfold privmsg_of. cbn -[has has_filled has_or has_list has_badges has_channel has_nick has_text has_u64 has_i64 has_flag has_time opt action_of reply_of pinned_of promo_of user_of event_of action_text b].
  intros H; conj H; lift.
  repeat match goal with
  | K : opt (reply_of v) _ |- _ => apply (ups_opt (reply_map raw) _ _ up_reply) in K as [? ->]
  | K : opt (pinned_of v) _ |- _ => apply (ups_opt (pinned_map raw) _ _ up_pinned) in K as [? ->]
  end.
  eexists (mk_privmsg _ _ _ _ (mk_user _ _ _) _ _ _ _ _ _ _ _ _ _). reflexivity.
Qed.

Lemma up_promo (x : promo str) : promo_of v x -> ups (promo_map raw) x.
Proof. open. eexists (mk_promo _ _). reflexivity. Qed.

Lemma up_event (id : str) (x : event str) : has v "msg-id" id -> event_of v id x -> ups (event_map raw) x.
Proof.
  destruct x; cbn -[has has_filled has_or has_list has_badges has_channel has_nick has_text has_u64 has_i64 has_flag has_time opt action_of reply_of pinned_of promo_of user_of event_of action_text b]; unfold action_of, event_of; intros M H; conj H;
  try (match goal with K : has_or v "msg-param-color" _ _ |- _ => subst id; apply (li_color v raw L _ M) in K as [? ->] end);
  lift;
  repeat match goal with
  | K : opt (promo_of v) _ |- _ => apply (ups_opt (promo_map raw) _ _ up_promo) in K as [? ->]
  | K : user_of v _ _ _ _ |- _ => apply up_user in K as [? ->]
  end.
  - eexists (SubOrResub _ _ _ _ _). reflexivity.
  - eexists (Raid _ _). reflexivity.
  - eexists (SubGift _ _ _ _ _). reflexivity.
  - eexists (SubMysteryGift _ _ _). reflexivity.
  - eexists (AnonSubMysteryGift _ _). reflexivity.
  - eexists (GiftPaidUpgrade _ _ _). reflexivity.
  - eexists (AnonGiftPaidUpgrade _). reflexivity.
  - eexists (Ritual _). reflexivity.
  - eexists (BitsBadgeTier _). reflexivity.
  - eexists (Announcement _). reflexivity.
  - eexists UnknownEvent. reflexivity.
Qed.

Lemma up_user_notice (x : user_notice str) : user_notice_of v x -> ups (user_notice_map raw) x.
Proof.
  destruct x as [ch chid sender tx sm ev evid bs es c mid ts]. unfold user_notice_of. cbn -[has has_filled has_or has_list has_badges has_channel has_nick has_text has_u64 has_i64 has_flag has_time opt action_of reply_of pinned_of promo_of user_of event_of action_text b].
  intros H; conj H.
  match goal with K : event_of v _ _, M : has v "msg-id" _ |- _ => apply (up_event _ _ M) in K as [? ->] end.
  assert (ups (option_map (user_map raw)) sender) as [? ->].
  { destruct sender as [u|]; [|now exists None]. destruct K1 as [_ U]. apply up_user in U as [z ->]. now exists (Some z). }
  lift. eexists (mk_user_notice _ _ _ _ _ _ _ _ _ _ _ _). reflexivity.
Qed.

End View.
