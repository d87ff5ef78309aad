(** * SerdeProofs: serialising and deserialising (C60). *)

From Verif Require Import Base Wide Tags Irc SpecIrc MsgBase MsgTypes MsgNotice Message SpecMsg Samples Serde.
From Verif Require Import BaseFacts FieldFacts MapFacts.
From Coq Require Import Lia ZifyBool ZifyNat ZifyN.

(** ** Values *)

Lemma de_str_ser (c : cow) : de_str (ser_str c) = Some (deref c).
Proof. reflexivity. Qed.

Lemma de_bool_ser (x : bool) : de_bool (ser_bool x) = Some x.
Proof. reflexivity. Qed.

Lemma de_u64_ser (n : N) : (n <= u64_max)%N -> de_u64 (ser_u64 n) = Some n.
Proof.
  intros L. unfold de_u64, de_uint, ser_u64.
  destruct ((0 <=? Z.of_N n) && (Z.of_N n <=? Z.of_N u64_max))%Z eqn:E; [|lia]. now rewrite N2Z.id.
Qed.

Lemma de_i64_ser (z : Z) : (i64_min <= z <= i64_max)%Z -> de_i64 (ser_i64 z) = Some z.
Proof. intros L. unfold de_i64, ser_i64. destruct ((i64_min <=? z) && (z <=? i64_max))%Z eqn:E; [reflexivity|lia]. Qed.

(** [f] never writes null. *)
Definition never_null {A : Type} (f : A -> data) : Prop := forall x, f x <> DNull.

Lemma de_opt_ser {A B : Type} (f : A -> data) (g : data -> option B) (h : A -> option B) (o : option A) :
  never_null f -> (forall x, o = Some x -> g (f x) = h x) ->
  de_opt g (ser_opt f o) = match o with Some x => option_map Some (h x) | None => Some None end.
Proof.
  intros N E. destruct o as [x|]; [|reflexivity]. cbn [ser_opt]. rewrite <- (E x eq_refl). unfold de_opt.
  pose proof (N x) as K. destruct (f x); congruence.
Qed.

Lemma de_opt_map {A B : Type} (f : A -> data) (g : data -> option B) (h : A -> B) (o : option A) :
  never_null f -> (forall x, o = Some x -> g (f x) = Some (h x)) ->
  de_opt g (ser_opt f o) = Some (option_map h o).
Proof.
  intros N E. rewrite (de_opt_ser f g (fun x => Some (h x)) o N E). now destruct o.
Qed.

Lemma de_opt_str (o : option cow) : de_opt de_str (ser_opt ser_str o) = Some (option_map deref o).
Proof. apply de_opt_map; [discriminate|reflexivity]. Qed.

Lemma de_opt_bool (o : option bool) : de_opt de_bool (ser_opt ser_bool o) = Some o.
Proof. destruct o; reflexivity. Qed.

Lemma de_opt_u64 (o : option N) : (forall n, o = Some n -> (n <= u64_max)%N) -> de_opt de_u64 (ser_opt ser_u64 o) = Some o.
Proof.
  intros L. destruct o as [n|]; [|reflexivity]. cbn [ser_opt]. change (de_opt de_u64 (ser_u64 n)) with (option_map Some (de_u64 (ser_u64 n))).
  now rewrite de_u64_ser by auto.
Qed.

Lemma all_some_map {A B C : Type} (f : A -> B) (g : B -> option C) (ok : A -> bool) (h : A -> C) (l : list A) :
  (forall x, In x l -> g (f x) = if ok x then Some (h x) else None) ->
  all_some (map g (map f l)) = if forallb ok l then Some (map h l) else None.
Proof.
  induction l as [|x l IH]; intros E; [reflexivity|]. cbn [map all_some forallb].
  rewrite (E x (or_introl eq_refl)). destruct (ok x); [|reflexivity]. rewrite IH by (intros y I; apply E; now right).
  cbn [andb]. now destruct (forallb ok l).
Qed.

Lemma de_list_str (l : list cow) : de_list de_str (ser_list ser_str l) = Some (map deref l).
Proof.
  unfold de_list, ser_list. rewrite (all_some_map ser_str de_str (fun _ => true) deref l) by reflexivity.
  assert (E : forallb (fun _ : cow => true) l = true) by (apply forallb_forall; auto). now rewrite E.
Qed.

Lemma values_hit (n : string) (d : data) (l : list (str * data)) :
  values n (entry n d :: l) = d :: values n l.
Proof. unfold values, entry. cbn [filter fst]. now rewrite str_eqb_refl. Qed.

Lemma values_miss (n m : string) (d : data) (l : list (str * data)) :
  str_eqb (b m) (b n) = false -> values n (entry m d :: l) = values n l.
Proof. intros E. unfold values, entry. cbn [filter fst]. now rewrite E. Qed.

Lemma values_nil (n : string) : values n [] = [].
Proof. reflexivity. Qed.

Ltac get := unfold field, opt_field; repeat first [rewrite values_hit | rewrite values_miss by reflexivity | rewrite values_nil].

Ltac struct_back :=
  cbn [fields opt_bind]; get; rewrite ?de_str_ser, ?de_bool_ser, ?de_opt_str, ?de_opt_bool, ?de_list_str; cbn [opt_bind].

(** ** Structs *)

Lemma de_duration_ser (d : duration) : (d <= u64_max)%N -> de_duration (ser_duration d) = Some d.
Proof.
  intros L. unfold de_duration, ser_duration. struct_back. rewrite de_u64_ser by exact L.
  change (de_u32 (DInt 0)) with (Some 0%N). cbn [opt_bind]. change (0 mod 1000000000 =? 0)%N with true. cbn [andb].
  change (0 / 1000000000)%N with 0%N. rewrite N.add_0_r. now rewrite (proj2 (N.leb_le _ _) L).
Qed.

Lemma de_user_ser (u : user_info cow) : de_user (ser_user u) = Some (user_map deref u).
Proof. unfold de_user, ser_user. struct_back. reflexivity. Qed.

Lemma de_badge_data_ser (x : badge_data cow) : de_badge_data (ser_badge_data x) = Some (badge_data_map deref x).
Proof. unfold de_badge_data, ser_badge_data. struct_back. reflexivity. Qed.

(** The month count of a subscriber badge is what its text says. *)
Definition consistent (x : badge cow) : Prop :=
  match x with
  | BSubscriber s => forall n, parse_u64 (deref (sb_months s)) = Some n -> sb_months_n s = n
  | _ => True
  end.

Definition numeric (x : badge cow) : bool :=
  match x with
  | BSubscriber s => match parse_u64 (deref (sb_months s)) with Some _ => true | None => false end
  | _ => true
  end.

Lemma de_badge_ser (x : badge cow) : consistent x ->
  de_badge (ser_badge x) = if numeric x then Some (badge_map deref x) else None.
Proof.
  destruct x as [| | | |s|d]; intros C; try reflexivity.
  - change (option_map (@BSubscriber str) (de_subscriber (ser_subscriber s)) =
      if numeric (BSubscriber s) then Some (badge_map deref (BSubscriber s)) else None).
    unfold de_subscriber, ser_subscriber. struct_back. cbn [numeric consistent] in *.
    destruct (parse_u64 (deref (sb_months s))) as [n|]; [|reflexivity]. cbn [opt_bind option_map badge_map].
    unfold subscriber_map. now rewrite (C n eq_refl).
  - change (option_map (@BOther str) (de_badge_data (ser_badge_data d)) = Some (badge_map deref (BOther d))).
    now rewrite de_badge_data_ser.
Qed.

Lemma de_badges_ser (l : list (badge cow)) : Forall consistent l ->
  de_list de_badge (ser_list ser_badge l) = if forallb numeric l then Some (map (badge_map deref) l) else None.
Proof.
  intros F. unfold de_list, ser_list. apply all_some_map. intros x I. apply de_badge_ser.
  now apply (proj1 (Forall_forall _ _) F).
Qed.

Lemma de_join_ser (x : join_msg cow) : de_join (ser_join x) = Some (join_map deref x).
Proof. unfold de_join, ser_join. struct_back. reflexivity. Qed.

Lemma de_part_ser (x : part_msg cow) : de_part (ser_part x) = Some (part_map deref x).
Proof. unfold de_part, ser_part. struct_back. reflexivity. Qed.

Lemma de_ping_ser (x : ping_msg cow) : de_ping (ser_ping x) = Some (ping_map deref x).
Proof. unfold de_ping, ser_ping. struct_back. reflexivity. Qed.

Lemma de_pong_ser (x : pong_msg cow) : de_pong (ser_pong x) = Some (pong_map deref x).
Proof. unfold de_pong, ser_pong. struct_back. reflexivity. Qed.

Lemma de_notice_ser (x : notice_msg cow) : de_notice (ser_notice x) = Some (notice_map deref x).
Proof. unfold de_notice, ser_notice. struct_back. reflexivity. Qed.

Lemma de_clear_msg_ser (cd : codec) (x : clear_msg cow) :
  time_de cd (time_ser cd (cm_timestamp x)) = Some (cm_timestamp x) ->
  de_clear_msg cd (ser_clear_msg cd x) = Some (clear_msg_map deref x).
Proof. intros T. unfold de_clear_msg, ser_clear_msg. struct_back. rewrite T. reflexivity. Qed.

Definition action_fits (a : action cow) : Prop :=
  match a with TimeOut _ _ d => (d <= u64_max)%N | _ => True end.

Lemma de_action_ser (a : action cow) : action_fits a -> de_action (ser_action a) = Some (action_map deref a).
Proof.
  destruct a as [|u i|u i d]; intros F; [reflexivity| |].
  - match goal with |- _ (_ (Ban _ _)) = _ => unfold ser_action end.
    change (de_ban (DMap [entry "user" (ser_str u); entry "id" (ser_str i)]) = Some (action_map deref (Ban u i))).
    unfold de_ban. struct_back. reflexivity.
  - change (de_time_out (DMap [entry "user" (ser_str u); entry "id" (ser_str i); entry "duration" (ser_duration d)]) =
      Some (action_map deref (TimeOut u i d))).
    unfold de_time_out. struct_back. now rewrite de_duration_ser.
Qed.

Lemma de_clear_chat_ser (cd : codec) (x : clear_chat cow) :
  time_de cd (time_ser cd (cc_timestamp x)) = Some (cc_timestamp x) -> action_fits (cc_action x) ->
  de_clear_chat cd (ser_clear_chat cd x) = Some (clear_chat_map deref x).
Proof. intros T A. unfold de_clear_chat, ser_clear_chat. struct_back. rewrite de_action_ser by exact A. cbn [opt_bind]. rewrite T. reflexivity. Qed.

Lemma de_global_user_state_ser (x : global_user_state cow) : Forall consistent (gus_badges x) ->
  de_global_user_state (ser_global_user_state x) =
  if forallb numeric (gus_badges x) then Some (global_user_state_map deref x) else None.
Proof.
  intros F. unfold de_global_user_state, ser_global_user_state. struct_back. rewrite de_badges_ser by exact F.
  destruct (forallb numeric (gus_badges x)); [|reflexivity]. struct_back. reflexivity.
Qed.

Lemma de_user_state_ser (x : user_state cow) : Forall consistent (us_badges x) ->
  de_user_state (ser_user_state x) = if forallb numeric (us_badges x) then Some (user_state_map deref x) else None.
Proof.
  intros F. unfold de_user_state, ser_user_state. struct_back. rewrite de_badges_ser by exact F.
  destruct (forallb numeric (us_badges x)); [|reflexivity]. struct_back. reflexivity.
Qed.

Lemma de_whisper_ser (x : whisper_msg cow) : Forall consistent (w_badges x) ->
  de_whisper (ser_whisper x) = if forallb numeric (w_badges x) then Some (whisper_map deref x) else None.
Proof.
  intros F. unfold de_whisper, ser_whisper. struct_back. rewrite de_user_ser, de_badges_ser by exact F. cbn [opt_bind].
  destruct (forallb numeric (w_badges x)); [|reflexivity]. struct_back. reflexivity.
Qed.

Definition followers_fits (f : followers_only) : Prop :=
  match f with Enabled (Some d) => (d <= u64_max)%N | _ => True end.

Lemma de_opt_duration (o : option duration) : (forall d, o = Some d -> (d <= u64_max)%N) ->
  de_opt de_duration (ser_opt ser_duration o) = Some o.
Proof.
  intros L. rewrite (de_opt_map ser_duration de_duration (fun d => d) o); [now destruct o|discriminate|].
  intros d E. apply de_duration_ser. auto.
Qed.

Lemma de_followers_ser (f : followers_only) : followers_fits f -> de_followers (ser_followers f) = Some f.
Proof.
  destruct f as [|o]; intros F; [reflexivity|].
  change (option_map Enabled (de_opt de_duration (ser_opt ser_duration o)) = Some (Enabled o)).
  rewrite de_opt_duration; [reflexivity|]. intros d ->. exact F.
Qed.

Lemma de_room_state_ser (x : room_state cow) :
  (forall f, rs_followers_only x = Some f -> followers_fits f) -> (forall d, rs_slow x = Some d -> (d <= u64_max)%N) ->
  de_room_state (ser_room_state x) = Some (room_state_map deref x).
Proof.
  intros F S. unfold de_room_state, ser_room_state. struct_back.
  rewrite (de_opt_map ser_followers de_followers (fun f => f)).
  - cbn [opt_bind]. rewrite de_opt_duration by exact S. struct_back. rewrite opt_map_id by reflexivity. reflexivity.
  - intros [|o]; discriminate.
  - intros f E. apply de_followers_ser. auto.
Qed.

Definition pinned_fits (p : pinned_chat cow) : Prop :=
  (i64_min <= pc_paid_amount p <= i64_max)%Z /\ (i64_min <= pc_paid_exponent p <= i64_max)%Z.

Lemma de_level_ser (l : level) : de_level (ser_level l) = Some l.
Proof. destruct l; reflexivity. Qed.

Lemma de_pinned_ser (p : pinned_chat cow) : pinned_fits p -> de_pinned (ser_pinned p) = Some (pinned_map deref p).
Proof.
  intros [A E]. unfold de_pinned, ser_pinned. struct_back. rewrite !de_i64_ser, de_level_ser by assumption. reflexivity.
Qed.

Lemma de_reply_ser (r : reply cow) : de_reply (ser_reply r) = Some (reply_map deref r).
Proof. unfold de_reply, ser_reply. struct_back. rewrite de_user_ser. struct_back. reflexivity. Qed.

Lemma de_privmsg_ser (cd : codec) (x : privmsg cow) :
  time_de cd (time_ser cd (pm_timestamp x)) = Some (pm_timestamp x) ->
  (forall p, pm_pinned_chat x = Some p -> pinned_fits p) -> (forall n, pm_bits x = Some n -> (n <= u64_max)%N) ->
  Forall consistent (pm_badges x) ->
  de_privmsg cd (ser_privmsg cd x) = if forallb numeric (pm_badges x) then Some (privmsg_map deref x) else None.
Proof.
  intros T P B F. unfold de_privmsg, ser_privmsg. struct_back. rewrite de_user_ser. cbn [opt_bind].
  rewrite (de_opt_map ser_reply de_reply (reply_map deref)) by (discriminate || (intros; apply de_reply_ser)).
  rewrite (de_opt_map ser_pinned de_pinned (pinned_map deref)) by (discriminate || (intros; apply de_pinned_ser; auto)).
  rewrite de_badges_ser by exact F. cbn [opt_bind]. rewrite de_opt_u64 by exact B.
  destruct (forallb numeric (pm_badges x)); [|reflexivity]. struct_back. rewrite T. reflexivity.
Qed.

Definition promo_fits (p : promo cow) : Prop := (pr_total_gifts p <= u64_max)%N.

Lemma de_promo_ser (p : promo cow) : promo_fits p -> de_promo (ser_promo p) = Some (promo_map deref p).
Proof. intros F. unfold de_promo, ser_promo. struct_back. now rewrite de_u64_ser by exact F. Qed.

Definition event_fits (e : event cow) : Prop :=
  match e with
  | SubOrResub _ n s _ _ => (n <= u64_max)%N /\ (forall k, s = Some k -> (k <= u64_max)%N)
  | Raid n _ => (n <= u64_max)%N
  | SubGift n _ _ _ g => (n <= u64_max)%N /\ (g <= u64_max)%N
  | SubMysteryGift n t _ => (n <= u64_max)%N /\ (t <= u64_max)%N
  | AnonSubMysteryGift n _ => (n <= u64_max)%N
  | GiftPaidUpgrade _ _ p => forall x, p = Some x -> promo_fits x
  | AnonGiftPaidUpgrade p => forall x, p = Some x -> promo_fits x
  | Ritual _ => True
  | BitsBadgeTier n => (n <= u64_max)%N
  | Announcement _ => True
  | UnknownEvent => True
  end.

Lemma de_event_ser (e : event cow) : event_fits e -> de_event (ser_event e) = Some (event_map deref e).
Proof.
  destruct e as [r n s p pn|n u|n u p pn g|n t p|n p|l n p|p|n|n|c|]; intros F; cbn [event_fits event_map] in *; try reflexivity.
  - change (de_sub (DMap [entry "is_resub" (ser_bool r); entry "cumulative_months" (ser_u64 n);
             entry "streak_months" (ser_opt ser_u64 s); entry "sub_plan" (ser_str p);
             entry "sub_plan_name" (ser_str pn)]) = Some (SubOrResub r n s (deref p) (deref pn))).
    destruct F as [F1 F2]. unfold de_sub. struct_back. rewrite de_u64_ser by exact F1. cbn [opt_bind].
    rewrite de_opt_u64 by exact F2. reflexivity.
  - change (de_raid (DMap [entry "viewer_count" (ser_u64 n); entry "profile_image_url" (ser_str u)]) = Some (Raid n (deref u))).
    unfold de_raid. struct_back. rewrite de_u64_ser by exact F. reflexivity.
  - change (de_sub_gift (DMap [entry "cumulative_months" (ser_u64 n); entry "recipient" (ser_user u);
             entry "sub_plan" (ser_str p); entry "sub_plan_name" (ser_str pn);
             entry "num_gifted_months" (ser_u64 g)]) = Some (SubGift n (user_map deref u) (deref p) (deref pn) g)).
    destruct F as [F1 F2]. unfold de_sub_gift. struct_back. rewrite !de_u64_ser, de_user_ser by assumption. reflexivity.
  - change (de_sub_mystery_gift (DMap [entry "count" (ser_u64 n); entry "sender_total_gifts" (ser_u64 t);
             entry "sub_plan" (ser_str p)]) = Some (SubMysteryGift n t (deref p))).
    destruct F as [F1 F2]. unfold de_sub_mystery_gift. struct_back. rewrite !de_u64_ser by assumption. reflexivity.
  - change (de_anon_sub_mystery_gift (DMap [entry "count" (ser_u64 n); entry "sub_plan" (ser_str p)]) =
      Some (AnonSubMysteryGift n (deref p))).
    unfold de_anon_sub_mystery_gift. struct_back. rewrite de_u64_ser by exact F. reflexivity.
  - change (de_gift_paid_upgrade (DMap [entry "gifter_login" (ser_str l); entry "gifter_name" (ser_str n);
             entry "promotion" (ser_opt ser_promo p)]) = Some (GiftPaidUpgrade (deref l) (deref n) (option_map (promo_map deref) p))).
    unfold de_gift_paid_upgrade. struct_back.
    rewrite (de_opt_map ser_promo de_promo (promo_map deref)) by (discriminate || (intros; apply de_promo_ser; auto)). reflexivity.
  - change (de_anon_gift_paid_upgrade (DMap [entry "promotion" (ser_opt ser_promo p)]) =
      Some (AnonGiftPaidUpgrade (option_map (promo_map deref) p))).
    unfold de_anon_gift_paid_upgrade. struct_back.
    rewrite (de_opt_map ser_promo de_promo (promo_map deref)) by (discriminate || (intros; apply de_promo_ser; auto)). reflexivity.
  - change (de_bits_badge_tier (DMap [entry "tier" (ser_u64 n)]) = Some (BitsBadgeTier n)).
    unfold de_bits_badge_tier. struct_back. rewrite de_u64_ser by exact F. reflexivity.
Qed.

Lemma de_user_notice_ser (cd : codec) (x : user_notice cow) :
  time_de cd (time_ser cd (un_timestamp x)) = Some (un_timestamp x) -> event_fits (un_event x) ->
  Forall consistent (un_badges x) ->
  de_user_notice cd (ser_user_notice cd x) = if forallb numeric (un_badges x) then Some (user_notice_map deref x) else None.
Proof.
  intros T E F. unfold de_user_notice, ser_user_notice. struct_back.
  rewrite (de_opt_map ser_user de_user (user_map deref)) by (discriminate || (intros; apply de_user_ser)).
  cbn [opt_bind]. rewrite de_event_ser by exact E. cbn [opt_bind]. rewrite de_badges_ser by exact F.
  destruct (forallb numeric (un_badges x)); [|reflexivity]. struct_back. rewrite T. reflexivity.
Qed.

(** ** What parsing produces *)

Lemma bind_ret {A B : Type} (m : res A) (f : A -> res B) (y : B) :
  bind m f = Ret y -> exists x, m = Ret x /\ f x = Ret y.
Proof. destruct m; try discriminate. cbn [bind]. eauto. Qed.

Lemma bindo_ret {A B : Type} (m : res (option A)) (f : A -> res (option B)) (y : B) :
  bindo m f = Ret (Some y) -> exists x, m = Ret (Some x) /\ f x = Ret (Some y).
Proof. destruct m as [[x|]| | |]; try discriminate. cbn [bindo]. eauto. Qed.

Ltac unbind H :=
  repeat first [ let x := fresh "x" in let E := fresh "E" in apply bindo_ret in H as (x & E & H)
               | let x := fresh "x" in let E := fresh "E" in apply bind_ret in H as (x & E & H) ].

Lemma tag_u64_fits (m : msg_ref) (t : tag_name) (o : option N) :
  tag_u64 m t = Ret o -> forall n, o = Some n -> (n <= u64_max)%N.
Proof.
  unfold tag_u64. intros H n ->. apply bind_ret in H as (x & _ & H). injection H as H. destruct x as [s|]; [|discriminate].
  apply parse_u64_spec in H as (ds & _ & _ & L). exact L.
Qed.

Lemma tag_u64_fits' (m : msg_ref) (t : tag_name) (n : N) : tag_u64 m t = Ret (Some n) -> (n <= u64_max)%N.
Proof. intros H. eapply tag_u64_fits; eauto. Qed.

Lemma tag_timestamp_fits (m : msg_ref) (ms : Z) :
  tag_timestamp m = Ret (Some ms) -> (-8334601228800000 <= ms <= 8210266876799999)%Z.
Proof.
  unfold tag_timestamp. intros H. apply bind_ret in H as (x & _ & H). injection H as H. destruct x as [s|]; [|discriminate].
  cbn [opt_bind] in H. unfold parse_timestamp in H. destruct (parse_i64 s) as [z|]; [|discriminate].
  cbn [opt_bind] in H. apply timestamp_range in H as [-> H]. exact H.
Qed.

Lemma badge_from_consistent (d : badge_data cow) : consistent (badge_from d).
Proof.
  unfold badge_from.
  repeat match goal with |- consistent (if ?c then _ else _) => destruct c; [try exact I|] end; [|exact I].
  cbn [consistent sb_months sb_months_n]. intros n. destruct (bd_extra d) as [v|]; cbn [opt_default opt_bind].
  - now intros ->.
  - cbn [deref]. now intros [= <-].
Qed.

Lemma tag_badges_consistent (m : msg_ref) (l : list (badge cow)) : tag_badges m = Ret l -> Forall consistent l.
Proof.
  unfold tag_badges. intros H. unbind H. injection H as <-. destruct (opt_zip x x0) as [[u v]|]; [|constructor].
  apply Forall_forall. intros y I. unfold parse_badges in I. destruct u as [|c u]; [contradiction|].
  apply in_map_iff in I as (nv & <- & _). apply badge_from_consistent.
Qed.

Lemma clear_msg_fits (m : msg_ref) (v : clear_msg cow) : clear_msg_parse m = Ret (Some v) ->
  (-8334601228800000 <= cm_timestamp v <= 8210266876799999)%Z.
Proof.
  unfold clear_msg_parse. intros H. apply bind_ret in H as (c & _ & H). destruct c; try discriminate.
  apply bindo_ret in H as (t & _ & H). destruct (parse_message_text t) as [tx a]. unbind H. injection H as <-.
  cbn [cm_timestamp]. eapply tag_timestamp_fits; eauto.
Qed.

Lemma clear_chat_fits (m : msg_ref) (v : clear_chat cow) : clear_chat_parse m = Ret (Some v) ->
  (-8334601228800000 <= cc_timestamp v <= 8210266876799999)%Z /\ action_fits (cc_action v).
Proof.
  unfold clear_chat_parse. intros H. apply bind_ret in H as (c & _ & H). destruct c; try discriminate.
  unbind H. injection H as <-. cbn [cc_timestamp cc_action]. split; [eapply tag_timestamp_fits; eauto|].
  destruct x1 as [name|].
  - destruct (opt_bind x2 parse_duration) as [d|] eqn:D; apply bindo_ret in E3 as (id & _ & Q); injection Q as <-; [|exact I].
    cbn [action_fits]. destruct x2 as [s|]; [|discriminate]. apply parse_u64_spec in D as (ds & _ & _ & L). exact L.
  - injection E3 as <-. exact I.
Qed.

Lemma global_user_state_fits (m : msg_ref) (v : global_user_state cow) :
  global_user_state_parse m = Ret (Some v) -> Forall consistent (gus_badges v).
Proof.
  unfold global_user_state_parse. intros H. apply bind_ret in H as (c & _ & H). destruct c; try discriminate.
  unbind H. injection H as <-. cbn [gus_badges]. eapply tag_badges_consistent; eauto.
Qed.

Lemma user_state_fits (m : msg_ref) (v : user_state cow) :
  user_state_parse m = Ret (Some v) -> Forall consistent (us_badges v).
Proof.
  unfold user_state_parse. intros H. apply bind_ret in H as (c & _ & H). destruct c; try discriminate.
  unbind H. injection H as <-. cbn [us_badges]. eapply tag_badges_consistent; eauto.
Qed.

Lemma whisper_fits (m : msg_ref) (v : whisper_msg cow) :
  whisper_parse m = Ret (Some v) -> Forall consistent (w_badges v).
Proof.
  unfold whisper_parse. intros H. apply bind_ret in H as (c & _ & H). destruct c; try discriminate.
  apply bindo_ret in H as (p & _ & H). apply bindo_ret in H as ([r t] & _ & H).
  unbind H. injection H as <-. cbn [w_badges]. eapply tag_badges_consistent; eauto.
Qed.

Lemma room_state_fits (pf : profile) (m : msg_ref) (v : room_state cow) : room_state_parse pf m = Ret (Some v) ->
  (forall f, rs_followers_only v = Some f -> followers_fits f) /\ (forall d, rs_slow v = Some d -> (d <= u64_max)%N).
Proof.
  unfold room_state_parse. intros H. apply bind_ret in H as (c & _ & H). destruct c; try discriminate.
  unbind H. injection H as <-. cbn [rs_followers_only rs_slow]. split.
  - intros f ->. destruct (opt_bind x2 parse_i64) as [n|]; [|discriminate].
    unfold followers_only_from in E3. destruct (0 <? n)%Z.
    + destruct (i64_mul pf n 60) as [z| | |]; try discriminate. cbn in E3. injection E3 as <-. cbn [followers_fits].
      unfold as_u64, u64_max. pose proof (Z.mod_pos_bound z 18446744073709551616 ltac:(lia)). lia.
    + destruct (n =? 0)%Z; cbn in E3; injection E3 as <-; exact I.
  - eapply tag_u64_fits; eauto.
Qed.

Lemma pinned_fits_parse (m : msg_ref) (o : option (pinned_chat cow)) : privmsg_pinned_chat m = Ret o ->
  forall p, o = Some p -> pinned_fits p.
Proof.
  unfold privmsg_pinned_chat. intros H p ->. unbind H. injection H as <-. unfold pinned_fits. cbn [pc_paid_amount pc_paid_exponent].
  split; match goal with |- (_ <= ?z <= _)%Z => match goal with K : Ret (parse_i64 ?s) = Ret (Some z) |- _ =>
    injection K as K; apply parse_i64_spec in K as (ds & n & _ & _ & L); exact L end end.
Qed.

Lemma privmsg_fits (m : msg_ref) (v : privmsg cow) : privmsg_parse m = Ret (Some v) ->
  (-8334601228800000 <= pm_timestamp v <= 8210266876799999)%Z /\
  (forall p, pm_pinned_chat v = Some p -> pinned_fits p) /\ (forall n, pm_bits v = Some n -> (n <= u64_max)%N) /\
  Forall consistent (pm_badges v).
Proof.
  unfold privmsg_parse. intros H. apply bind_ret in H as (c & _ & H). destruct c; try discriminate.
  apply bindo_ret in H as (t & _ & H). destruct (parse_message_text t) as [tx a]. unbind H. injection H as <-.
  cbn [pm_timestamp pm_pinned_chat pm_bits pm_badges].
  split; [eapply tag_timestamp_fits; eauto|]. split; [eapply pinned_fits_parse; eauto|].
  split; [eapply tag_u64_fits; eauto|]. eapply tag_badges_consistent; eauto.
Qed.

Lemma promotion_fits (m : msg_ref) (o : option (promo cow)) : parse_promotion m = Ret o ->
  forall p, o = Some p -> promo_fits p.
Proof.
  unfold parse_promotion. intros H p ->. unbind H. injection H as H. destruct x as [n|]; [|discriminate].
  destruct x0 as [s|]; [|discriminate]. injection H as <-. unfold promo_fits. cbn [pr_total_gifts]. eapply tag_u64_fits'; eauto.
Qed.

Lemma event_fits_parse (m : msg_ref) (sender_id : option str) (id : str) (e : event cow) (a : bool) :
  parse_event m sender_id id = Ret (Some (e, a)) -> event_fits e.
Proof.
  unfold parse_event. intros H.
  repeat match type of H with (if ?c then _ else _) = _ => destruct c end.
  all: try (injection H as <- <-; exact I).
  all: apply bindo_ret in H as (e' & E & H); injection H as -> _.
  all: unfold event_sub, event_raid, event_sub_gift, event_anon_sub_mystery_gift, event_sub_mystery_gift,
    event_gift_paid_upgrade, event_anon_gift_paid_upgrade, event_ritual, event_bits_badge_tier, event_announcement in E.
  all: unbind E; injection E as <-; cbn [event_fits].
  all: repeat split; eauto using tag_u64_fits', promotion_fits.
  intros k K. destruct x0 as [n|]; [|discriminate]. cbn [opt_bind] in K. destruct (0 <? n)%N; [|discriminate]. injection K as <-.
  eapply tag_u64_fits'; eauto.
Qed.

Lemma user_notice_fits (m : msg_ref) (v : user_notice cow) : user_notice_parse m = Ret (Some v) ->
  (-8334601228800000 <= un_timestamp v <= 8210266876799999)%Z /\ event_fits (un_event v) /\ Forall consistent (un_badges v).
Proof.
  unfold user_notice_parse. intros H. apply bind_ret in H as (c & _ & H). destruct c; try discriminate.
  apply bind_ret in H as (sid & _ & H). apply bindo_ret in H as (id & _ & H).
  apply bindo_ret in H as ([e a] & EV & H). unbind H. injection H as <-. cbn [un_timestamp un_event un_badges].
  split; [eapply tag_timestamp_fits; eauto|]. split; [eapply event_fits_parse; eauto|]. eapply tag_badges_consistent; eauto.
Qed.

(** ** C60 *)

(** Every timestamp that can occur survives the timestamp format. *)
Definition keeps_times (cd : codec) : Prop :=
  forall ms, (-8334601228800000 <= ms <= 8210266876799999)%Z -> time_de cd (time_ser cd ms) = Some ms.

(** The badges of a message. *)
Definition badges_of (t : typed) : list (badge cow) :=
  match t with
  | MGlobalUserState v => gus_badges v
  | MPrivmsg v => pm_badges v
  | MUserNotice v => un_badges v
  | MUserState v => us_badges v
  | MWhisper v => w_badges v
  | _ => []
  end.

(** Each subscriber badge has a number of months that fits in a [u64]. *)
Definition months_are_numbers (l : list (badge cow)) : Prop :=
  forall s, In (BSubscriber s) l -> exists n, is_u64 (deref (sb_months s)) n.

(** Deserialising the serialised message gives a message with the same strings and
    numbers (nothing is claimed for the two variants without serde support). *)
Definition comes_back (cd : codec) (t : typed) : Prop :=
  match t with
  | MClearChat v => de_clear_chat cd (ser_clear_chat cd v) = Some (clear_chat_map deref v)
  | MClearMsg v => de_clear_msg cd (ser_clear_msg cd v) = Some (clear_msg_map deref v)
  | MGlobalUserState v => de_global_user_state (ser_global_user_state v) = Some (global_user_state_map deref v)
  | MJoin v => de_join (ser_join v) = Some (join_map deref v)
  | MNotice v => de_notice (ser_notice v) = Some (notice_map deref v)
  | MPart v => de_part (ser_part v) = Some (part_map deref v)
  | MPing v => de_ping (ser_ping v) = Some (ping_map deref v)
  | MPong v => de_pong (ser_pong v) = Some (pong_map deref v)
  | MPrivmsg v => de_privmsg cd (ser_privmsg cd v) = Some (privmsg_map deref v)
  | MRoomState v => de_room_state (ser_room_state v) = Some (room_state_map deref v)
  | MUserNotice v => de_user_notice cd (ser_user_notice cd v) = Some (user_notice_map deref v)
  | MUserState v => de_user_state (ser_user_state v) = Some (user_state_map deref v)
  | MWhisper v => de_whisper (ser_whisper v) = Some (whisper_map deref v)
  | MReconnect => True
  | MOther _ => True
  end.

(** Deserialising the serialised message fails. *)
Definition is_lost (cd : codec) (t : typed) : Prop :=
  match t with
  | MGlobalUserState v => de_global_user_state (ser_global_user_state v) = None
  | MPrivmsg v => de_privmsg cd (ser_privmsg cd v) = None
  | MUserNotice v => de_user_notice cd (ser_user_notice cd v) = None
  | MUserState v => de_user_state (ser_user_state v) = None
  | MWhisper v => de_whisper (ser_whisper v) = None
  | _ => False
  end.

Lemma months_numeric (l : list (badge cow)) : months_are_numbers l <-> forallb numeric l = true.
Proof.
  rewrite forallb_forall. split.
  - intros M x I. destruct x as [| | | |s|]; try reflexivity. destruct (M s I) as [n K]. apply parse_u64_spec in K.
    cbn [numeric]. now rewrite K.
  - intros F s I. specialize (F _ I). cbn [numeric] in F. destruct (parse_u64 (deref (sb_months s))) as [n|] eqn:E; [|discriminate].
    exists n. now apply parse_u64_spec.
Qed.

Lemma either_way (cd : codec) (bd : build) (pf : profile) (line : str) (t : typed) :
  keeps_times cd -> message_parse bd pf line = Ret (Some t) ->
  if forallb numeric (badges_of t) then comes_back cd t else is_lost cd t.
Proof.
  intros KT H. unfold message_parse in H. apply bindo_ret in H as (m & _ & H).
  unfold from_irc in H. apply bind_ret in H as (c & _ & H). unfold into in H.
  destruct c; try (injection H as <-; exact I);
    apply bindo_ret in H as (v & P & H); injection H as <-; cbn [badges_of forallb comes_back is_lost].
  all: first
    [ solve [auto using de_join_ser, de_notice_ser, de_part_ser, de_ping_ser, de_pong_ser]
    | solve [apply de_clear_chat_ser; apply clear_chat_fits in P as [T A]; auto]
    | solve [apply de_clear_msg_ser; apply clear_msg_fits in P; auto]
    | solve [apply room_state_fits in P as [A B]; now apply de_room_state_ser]
    | solve [rewrite de_global_user_state_ser by (eapply global_user_state_fits; eauto); now destruct (forallb numeric (gus_badges v))]
    | solve [rewrite de_user_state_ser by (eapply user_state_fits; eauto); now destruct (forallb numeric (us_badges v))]
    | solve [rewrite de_whisper_ser by (eapply whisper_fits; eauto); now destruct (forallb numeric (w_badges v))]
    | solve [apply privmsg_fits in P as (A & B & C & D); rewrite de_privmsg_ser by auto; now destruct (forallb numeric (pm_badges v))]
    | solve [apply user_notice_fits in P as (A & B & C); rewrite de_user_notice_ser by auto; now destruct (forallb numeric (un_badges v))] ].
Qed.

(** C60. Deserialising the serialised form of a parsed message gives an equal message,
    if its subscriber badges carry numbers of months. *)
Lemma p_c60_comes_back :
  forall (cd : codec) (bd : build) (pf : profile) (line : str) (t : typed),
    keeps_times cd -> message_parse bd pf line = Ret (Some t) -> months_are_numbers (badges_of t) ->
    comes_back cd t.
Proof.
  intros cd bd pf line t KT H M. apply months_numeric in M. pose proof (either_way cd bd pf line t KT H) as E.
  now rewrite M in E.
Qed.

(** C60. Otherwise it fails. *)
Lemma p_c60_fails :
  forall (cd : codec) (bd : build) (pf : profile) (line : str) (t : typed),
    keeps_times cd -> message_parse bd pf line = Ret (Some t) -> ~ months_are_numbers (badges_of t) ->
    is_lost cd t.
Proof.
  intros cd bd pf line t KT H M. pose proof (either_way cd bd pf line t KT H) as E.
  destruct (forallb numeric (badges_of t)) eqn:N; [|exact E]. apply months_numeric in N. contradiction.
Qed.

Definition plain_times : codec := mk_codec DInt (fun d => match d with DInt z => Some z | _ => None end).

(** C60. So not every parsed message survives. *)
Lemma p_c60_every_message_refuted :
  exists (line : str) (v : privmsg cow),
    utf8_valid line = true /\ keeps_times plain_times /\
    message_parse Scalar Release line = Ret (Some (MPrivmsg v)) /\
    de_privmsg plain_times (ser_privmsg plain_times v) = None.
Proof.
  exists (b "@badge-info=subscriber/many;badges=subscriber/24;display-name=A;id=1;room-id=2;tmi-sent-ts=3;user-id=4 :ab!ab@ab PRIVMSG #c :hi").
  eexists. split; [reflexivity|]. split; [intros ms _; reflexivity|]. split; [vm_compute; reflexivity|]. vm_compute. reflexivity.
Qed.

Example ex_c60 :
  keeps_times plain_times /\
  exists t, message_parse (Simd Sse2 0) Debug chat_line = Ret (Some (MPrivmsg t)) /\ months_are_numbers (pm_badges t) /\
    (exists s, In (BSubscriber s) (pm_badges t)) /\ pm_pinned_chat t <> None /\ pm_reply_to t <> None /\
    exists l, ser_privmsg plain_times t = DMap l /\
      map fst l = [b "channel"; b "channel_id"; b "msg_id"; b "id"; b "sender"; b "reply_to"; b "pinned_chat"; b "text";
                   b "is_action"; b "badges"; b "color"; b "custom_reward_id"; b "bits"; b "emotes"; b "timestamp"].
Proof.
  split; [intros ms _; reflexivity|]. eexists. split; [vm_compute; reflexivity|].
  split; [apply months_numeric; vm_compute; reflexivity|]. split; [eexists; left; reflexivity|].
  split; [discriminate|]. split; [discriminate|]. eexists. split; [reflexivity|]. vm_compute. reflexivity.
Qed.

(** ** What deserialising produces *)

Lemma opt_bind_some {A B : Type} (o : option A) (f : A -> option B) (y : B) :
  opt_bind o f = Some y -> exists x, o = Some x /\ f x = Some y.
Proof. destruct o; [|discriminate]. cbn [opt_bind]. eauto. Qed.

Ltac unopt H :=
  repeat (let x := fresh "x" in let E := fresh "E" in apply opt_bind_some in H as (x & E & H)).

(** [x] was deserialised by [f] from something. *)
Definition made {A : Type} (f : data -> option A) (x : A) : Prop := exists d, f d = Some x.

Lemma field_made {A : Type} (f : data -> option A) (n : string) (l : list (str * data)) (x : A) :
  field f n l = Some x -> made f x.
Proof. unfold field. destruct (values n l) as [|d [|e r]]; try discriminate. now exists d. Qed.

Lemma de_opt_made {A : Type} (f : data -> option A) (d : data) (x : A) : de_opt f d = Some (Some x) -> made f x.
Proof.
  unfold de_opt. intros H. destruct d; try discriminate;
    match type of H with option_map Some (f ?d) = _ => destruct (f d) as [y|] eqn:E; [|discriminate]; exists d; cbn [option_map] in H; congruence end.
Qed.

Lemma opt_field_made {A : Type} (f : data -> option A) (n : string) (l : list (str * data)) (x : A) :
  opt_field f n l = Some (Some x) -> made f x.
Proof. unfold opt_field. destruct (values n l) as [|d [|e r]]; try discriminate. apply de_opt_made. Qed.

Lemma de_list_made {A : Type} (f : data -> option A) (d : data) (l : list A) : de_list f d = Some l -> Forall (made f) l.
Proof.
  destruct d as [| | | |k|]; try discriminate. cbn [de_list]. revert l. induction k as [|d k IH]; intros l H.
  - injection H as <-. constructor.
  - cbn [map all_some] in H. destruct (f d) as [x|] eqn:E; [|discriminate].
    destruct (all_some (map f k)) as [r|]; [|discriminate]. injection H as <-. constructor; [now exists d|auto].
Qed.

Lemma u64_made (n : N) : made de_u64 n -> (n <= u64_max)%N.
Proof.
  intros [d H]. unfold de_u64, de_uint in H. destruct d as [| |z| | |]; try discriminate.
  destruct ((0 <=? z) && (z <=? Z.of_N u64_max))%Z eqn:E; [|discriminate]. injection H as <-. lia.
Qed.

Lemma i64_made (z : Z) : made de_i64 z -> (i64_min <= z <= i64_max)%Z.
Proof.
  intros [d H]. unfold de_i64 in H. destruct d as [| |y| | |]; try discriminate.
  destruct ((i64_min <=? y) && (y <=? i64_max))%Z eqn:E; [|discriminate]. injection H as <-. lia.
Qed.

Lemma duration_made (n : duration) : made de_duration n -> (n <= u64_max)%N.
Proof.
  intros [d H]. unfold de_duration in H. unopt H.
  destruct ((x1 mod 1000000000 =? 0)%N && (x0 + x1 / 1000000000 <=? u64_max)%N) eqn:E2; [|discriminate].
  injection H as <-. lia.
Qed.

Lemma variant_made {A : Type} (f : data -> option A) (o : option data) (x : A) :
  newtype_variant f o = Some x -> made f x.
Proof. destruct o as [d|]; [|discriminate]. now exists d. Qed.

Lemma unit_made {A : Type} (x y : A) (o : option data) : unit_variant x o = Some y -> y = x.
Proof. destruct o as [[| | | | |]|]; cbn [unit_variant]; congruence. Qed.

Lemma badge_made (x : badge cow) : made de_badge (badge_map deref x) -> consistent x /\ numeric x = true.
Proof.
  intros [d H]. destruct x as [| | | |s|e]; try (split; exact I || reflexivity). cbn [badge_map] in H.
  unfold de_badge in H. apply opt_bind_some in H as ([k o] & _ & H).
  repeat match type of H with (if ?c then _ else _) = _ => destruct c; [try (apply unit_made in H; discriminate)|] end;
    [| |discriminate].
  - destruct (newtype_variant de_subscriber o) as [t|] eqn:V; [|discriminate]. injection H as ->.
    apply variant_made in V as [e V]. unfold de_subscriber in V. unopt V. injection V as V1 V2 V3. subst.
    cbn [consistent numeric]. rewrite E2. split; [congruence|reflexivity].
  - destruct (newtype_variant de_badge_data o); discriminate.
Qed.

Lemma badges_made (l : list (badge cow)) : Forall (made de_badge) (map (badge_map deref) l) ->
  Forall consistent l /\ forallb numeric l = true.
Proof.
  intros F. induction l as [|x l IH]; [split; [constructor|reflexivity]|]. inversion F as [|? ? M N]; subst.
  apply badge_made in M as [C K]. destruct (IH N) as [C' K']. split; [now constructor|]. cbn [forallb]. now rewrite K.
Qed.

Lemma action_made (a : action cow) : made de_action (action_map deref a) -> action_fits a.
Proof.
  intros [d H]. destruct a as [|u i|u i t]; try exact I. cbn [action_map action_fits] in *.
  unfold de_action in H. apply opt_bind_some in H as ([k o] & _ & H).
  repeat match type of H with (if ?c then _ else _) = _ => destruct c end; try discriminate.
  - apply unit_made in H. discriminate.
  - apply variant_made in H as [e H]. unfold de_ban in H. unopt H. discriminate.
  - apply variant_made in H as [e H]. unfold de_time_out in H. unopt H. injection H as -> -> ->.
    eapply duration_made, field_made; eauto.
Qed.

Lemma followers_made (f : followers_only) : made de_followers f -> followers_fits f.
Proof.
  intros [d H]. destruct f as [|[t|]]; try exact I. cbn [followers_fits].
  unfold de_followers in H. apply opt_bind_some in H as ([k o] & _ & H).
  repeat match type of H with (if ?c then _ else _) = _ => destruct c end; try discriminate.
  - apply unit_made in H. discriminate.
  - destruct (newtype_variant (de_opt de_duration) o) as [y|] eqn:V; [|discriminate]. injection H as ->.
    apply variant_made in V as [e V]. apply de_opt_made in V. now apply duration_made.
Qed.

Lemma pinned_made (p : pinned_chat cow) : made de_pinned (pinned_map deref p) -> pinned_fits p.
Proof.
  intros [d H]. unfold de_pinned in H. unopt H. destruct p. unfold pinned_map in H. cbn in H. injection H as -> -> -> -> ->.
  split; cbn; eapply i64_made, field_made; eauto.
Qed.

Lemma promo_made (p : promo cow) : made de_promo (promo_map deref p) -> promo_fits p.
Proof.
  intros [d H]. unfold de_promo in H. unopt H. destruct p. unfold promo_map in H. cbn in H. injection H as -> ->.
  eapply u64_made, field_made; eauto.
Qed.

Lemma event_made (e : event cow) : made de_event (event_map deref e) -> event_fits e.
Proof.
  intros [d H]. unfold de_event in H. apply opt_bind_some in H as ([k o] & _ & H).
  repeat match type of H with (if ?c then _ else _) = _ => destruct c end; try discriminate.
  all: first [apply variant_made in H as [e' H] | apply unit_made in H].
  all: unfold de_sub, de_raid, de_sub_gift, de_sub_mystery_gift, de_anon_sub_mystery_gift, de_gift_paid_upgrade,
    de_anon_gift_paid_upgrade, de_ritual, de_bits_badge_tier, de_announcement in H.
  all: unopt H; destruct e; cbn [event_map event_fits] in *; try discriminate; try exact I; injection H as H; subst.
  all: repeat split; eauto using u64_made, field_made.
  - intros n ->. eapply u64_made, opt_field_made; eauto.
  - intros p ->. eapply promo_made, opt_field_made; eauto.
  - intros p ->. eapply promo_made, opt_field_made; eauto.
Qed.

(** ** C63 *)

(** A timestamp that was read is written in a way that is read the same. *)
Definition settles (cd : codec) : Prop :=
  forall d ms, time_de cd d = Some ms -> time_de cd (time_ser cd ms) = Some ms.

Ltac opened H := unopt H; match type of H with Some _ = Some (_ _ ?y) => destruct y end; cbn in H; injection H as H; subst.

Lemma clear_msg_stable (cd : codec) (d : data) (y : clear_msg cow) : settles cd ->
  de_clear_msg cd d = Some (clear_msg_map deref y) -> de_clear_msg cd (ser_clear_msg cd y) = Some (clear_msg_map deref y).
Proof.
  intros S H. apply de_clear_msg_ser. unfold de_clear_msg in H. opened H.
  match goal with K : field (time_de cd) _ _ = Some _ |- _ => apply field_made in K as [t K] end. cbn. eauto.
Qed.

Lemma clear_chat_stable (cd : codec) (d : data) (y : clear_chat cow) : settles cd ->
  de_clear_chat cd d = Some (clear_chat_map deref y) -> de_clear_chat cd (ser_clear_chat cd y) = Some (clear_chat_map deref y).
Proof.
  intros S H. unfold de_clear_chat in H. unopt H. destruct y as [c i a t]. cbn in H. injection H as -> -> -> ->.
  apply de_clear_chat_ser.
  - apply field_made in E3 as [u K]. cbn. eauto.
  - eapply action_made, field_made; eauto.
Qed.

Lemma global_user_state_stable (d : data) (y : global_user_state cow) :
  de_global_user_state d = Some (global_user_state_map deref y) ->
  de_global_user_state (ser_global_user_state y) = Some (global_user_state_map deref y).
Proof.
  intros H. unfold de_global_user_state in H. unopt H. destruct y as [a c k e f]. cbn in H. injection H as -> -> -> -> ->.
  apply field_made in E2 as [u K]. apply de_list_made, badges_made in K as [C N].
  rewrite de_global_user_state_ser by exact C. cbn [gus_badges]. now rewrite N.
Qed.

Lemma user_state_stable (d : data) (y : user_state cow) :
  de_user_state d = Some (user_state_map deref y) -> de_user_state (ser_user_state y) = Some (user_state_map deref y).
Proof.
  intros H. unfold de_user_state in H. unopt H. destruct y as [a c k e f]. cbn in H. injection H as -> -> -> -> ->.
  apply field_made in E2 as [u K]. apply de_list_made, badges_made in K as [C N].
  rewrite de_user_state_ser by exact C. cbn [us_badges]. now rewrite N.
Qed.

Lemma whisper_stable (d : data) (y : whisper_msg cow) :
  de_whisper d = Some (whisper_map deref y) -> de_whisper (ser_whisper y) = Some (whisper_map deref y).
Proof.
  intros H. unfold de_whisper in H. unopt H. destruct y as [a c k e f g]. cbn in H. injection H as -> -> -> -> -> ->.
  apply field_made in E3 as [u K]. apply de_list_made, badges_made in K as [C N].
  rewrite de_whisper_ser by exact C. cbn [w_badges]. now rewrite N.
Qed.

Lemma room_state_stable (d : data) (y : room_state cow) :
  de_room_state d = Some (room_state_map deref y) -> de_room_state (ser_room_state y) = Some (room_state_map deref y).
Proof.
  intros H. unfold de_room_state in H. unopt H. destruct y. cbn in H. injection H as -> -> -> -> -> -> ->.
  apply de_room_state_ser; cbn.
  - intros f ->. eapply followers_made, opt_field_made; eauto.
  - intros f ->. eapply duration_made, opt_field_made; eauto.
Qed.

Lemma privmsg_stable (cd : codec) (d : data) (y : privmsg cow) : settles cd ->
  de_privmsg cd d = Some (privmsg_map deref y) -> de_privmsg cd (ser_privmsg cd y) = Some (privmsg_map deref y).
Proof.
  intros S H. unfold de_privmsg in H. unopt H. destruct y. cbn in H. injection H as H; subst.
  apply field_made in E9 as [u K]. apply de_list_made, badges_made in K as [C N].
  rewrite de_privmsg_ser; [cbn [MsgTypes.pm_badges]; now rewrite N| | | |exact C].
  - match goal with K : field (time_de cd) _ _ = Some _ |- _ => apply field_made in K as [t K] end. cbn. eauto.
  - cbn. intros p ->. eapply pinned_made, opt_field_made; eauto.
  - cbn. intros p ->. eapply u64_made, opt_field_made; eauto.
Qed.

Lemma user_notice_stable (cd : codec) (d : data) (y : user_notice cow) : settles cd ->
  de_user_notice cd d = Some (user_notice_map deref y) ->
  de_user_notice cd (ser_user_notice cd y) = Some (user_notice_map deref y).
Proof.
  intros S H. unfold de_user_notice in H. unopt H. destruct y. cbn in H. injection H as H; subst.
  apply field_made in E7 as [u K]. apply de_list_made, badges_made in K as [C N].
  rewrite de_user_notice_ser; [cbn; now rewrite N| | |exact C].
  - match goal with K : field (time_de cd) _ _ = Some _ |- _ => apply field_made in K as [t K] end. cbn. eauto.
  - cbn. eapply event_made, field_made; eauto.
Qed.

(** C63. A message that was deserialised from any data at all (with whichever of its
    strings borrowed) is serialised into data that deserialises to the same message. *)
Lemma p_c63_stable :
  forall (cd : codec) (d : data),
    settles cd ->
    (forall y, de_clear_chat cd d = Some (clear_chat_map deref y) ->
       de_clear_chat cd (ser_clear_chat cd y) = Some (clear_chat_map deref y)) /\
    (forall y, de_clear_msg cd d = Some (clear_msg_map deref y) ->
       de_clear_msg cd (ser_clear_msg cd y) = Some (clear_msg_map deref y)) /\
    (forall y, de_global_user_state d = Some (global_user_state_map deref y) ->
       de_global_user_state (ser_global_user_state y) = Some (global_user_state_map deref y)) /\
    (forall y, de_join d = Some (join_map deref y) -> de_join (ser_join y) = Some (join_map deref y)) /\
    (forall y, de_notice d = Some (notice_map deref y) -> de_notice (ser_notice y) = Some (notice_map deref y)) /\
    (forall y, de_part d = Some (part_map deref y) -> de_part (ser_part y) = Some (part_map deref y)) /\
    (forall y, de_ping d = Some (ping_map deref y) -> de_ping (ser_ping y) = Some (ping_map deref y)) /\
    (forall y, de_pong d = Some (pong_map deref y) -> de_pong (ser_pong y) = Some (pong_map deref y)) /\
    (forall y, de_privmsg cd d = Some (privmsg_map deref y) ->
       de_privmsg cd (ser_privmsg cd y) = Some (privmsg_map deref y)) /\
    (forall y, de_room_state d = Some (room_state_map deref y) ->
       de_room_state (ser_room_state y) = Some (room_state_map deref y)) /\
    (forall y, de_user_notice cd d = Some (user_notice_map deref y) ->
       de_user_notice cd (ser_user_notice cd y) = Some (user_notice_map deref y)) /\
    (forall y, de_user_state d = Some (user_state_map deref y) ->
       de_user_state (ser_user_state y) = Some (user_state_map deref y)) /\
    (forall y, de_whisper d = Some (whisper_map deref y) ->
       de_whisper (ser_whisper y) = Some (whisper_map deref y)).
Proof.
  intros cd d S.
  repeat split; intros y H;
    eauto using clear_chat_stable, clear_msg_stable, global_user_state_stable, de_join_ser, de_notice_ser, de_part_ser,
      de_ping_ser, de_pong_ser, privmsg_stable, room_state_stable, user_notice_stable, user_state_stable, whisper_stable.
Qed.

(** C63. In particular the number of months of a deserialised subscriber badge is the
    number its text says. *)
Lemma p_c63_months :
  forall (d : data) (s : subscriber str),
    de_badge d = Some (BSubscriber s) -> is_u64 (sb_months s) (sb_months_n s).
Proof.
  intros d s H. unfold de_badge in H. apply opt_bind_some in H as ([k o] & _ & H).
  repeat match type of H with (if ?c then _ else _) = _ => destruct c; [try (apply unit_made in H; discriminate)|] end;
    [| |discriminate].
  - destruct (newtype_variant de_subscriber o) as [t|] eqn:V; [|discriminate]. injection H as ->.
    apply variant_made in V as [e V]. unfold de_subscriber in V. unopt V. injection V as <-. cbn [sb_months sb_months_n].
    now apply parse_u64_spec.
  - destruct (newtype_variant de_badge_data o); discriminate.
Qed.

Example ex_c63 :
  settles plain_times /\
  let d := DMap [entry "version" (DStr (b "12")); entry "junk" DNull; entry "months" (DStr (b "+007"))] in
  de_badge (DMap [entry "subscriber" d]) = Some (BSubscriber (mk_subscriber (b "12") (b "+007") 7)) /\
  exists y, de_whisper (DSeq [DStr (b "me"); DSeq [DStr (b "1"); DStr (b "l"); DStr (b "n")]; DStr (b "text");
                              DSeq [DStr (b "staff"); DMap [entry "subscriber" d]]; DStr []; DNull])
            = Some (whisper_map deref y) /\ length (w_badges y) = 2.
Proof.
  split; [intros e ms; destruct e; discriminate || (intros [= ->]; reflexivity)|]. split; [reflexivity|].
  exists (mk_whisper (Borrowed (b "me")) (mk_user (Borrowed (b "1")) (Owned (b "l")) (Borrowed (b "n"))) (Borrowed (b "text"))
     [Staff; BSubscriber (mk_subscriber (Borrowed (b "12")) (Borrowed (b "+007")) 7)] (Borrowed []) None).
  split; reflexivity.
Qed.
