(** * NoticeFacts: the USERNOTICE parser meets its predicate of SpecMsg. *)

From Coq Require Import Lia ZifyBool ZifyNat ZifyN.
From Verif Require Import Base Tags Irc SpecIrc MsgBase MsgTypes MsgNotice Message SpecMsg.
From Verif Require Import BaseFacts IrcFacts IrcProofs LineProofs AccessProofs FieldFacts TypedFacts.

Inductive kind :=
| KSub | KResub | KRaid | KSubGift | KAnonSubGift | KSubMystery | KAnonSubMystery | KUpgrade
| KAnonUpgrade | KRitual | KTier | KAnnouncement.

Definition kinds : list (str * kind) :=
  combine known_events
    [KSub; KResub; KRaid; KSubGift; KAnonSubGift; KSubMystery; KAnonSubMystery; KUpgrade; KAnonUpgrade;
     KRitual; KTier; KAnnouncement].

Definition kind_of (id : str) : option kind := assoc id kinds.

Section Fun.
Context (v : view).
Let tag (n : string) : option str := lookup (b n) (v_tags v).
Let num (n : string) : option N := opt_bind (tag n) parse_u64.

Definition user_fun (id login name : string) : option (user_info str) :=
  opt_bind (tag id) (fun i => opt_bind (tag login) (fun l => opt_bind (tag name) (fun n =>
  Some (mk_user i l n)))).

Definition promo_fun : option (promo str) :=
  opt_bind (num "msg-param-promo-gift-total") (fun n =>
  opt_bind (tag "msg-param-promo-name") (fun p => Some (mk_promo n p))).

Definition from_anon : bool := is_anonymous_gifter (tag "user-id").

Definition sub_fun (resub : bool) : option (event str) :=
  opt_bind (num "msg-param-cumulative-months") (fun n =>
  opt_bind (tag "msg-param-sub-plan") (fun p =>
  opt_bind (tag "msg-param-sub-plan-name") (fun pn =>
  Some (SubOrResub resub n
    (opt_bind (num "msg-param-streak-months") (fun n => if (0 <? n)%N then Some n else None)) p pn)))).

Definition sub_gift_fun : option (event str) :=
  opt_bind (num "msg-param-months") (fun n =>
  opt_bind (user_fun "msg-param-recipient-id" "msg-param-recipient-user-name"
              "msg-param-recipient-display-name") (fun u =>
  opt_bind (tag "msg-param-sub-plan") (fun p =>
  opt_bind (tag "msg-param-sub-plan-name") (fun pn =>
  opt_bind (num "msg-param-gift-months") (fun g =>
  Some (SubGift n u p pn g)))))).

Definition anon_mystery_fun : option (event str) :=
  opt_bind (num "msg-param-mass-gift-count") (fun n =>
  opt_bind (tag "msg-param-sub-plan") (fun p => Some (AnonSubMysteryGift n p))).

Definition event_fun (id : str) : option (event str) :=
  match kind_of id with
  | Some KSub => sub_fun false
  | Some KResub => sub_fun true
  | Some KRaid =>
    opt_bind (num "msg-param-viewerCount") (fun n =>
    opt_bind (tag "msg-param-profileImageURL") (fun u => Some (Raid n u)))
  | Some KSubGift | Some KAnonSubGift => sub_gift_fun
  | Some KAnonSubMystery => anon_mystery_fun
  | Some KSubMystery =>
    if from_anon then anon_mystery_fun
    else opt_bind (num "msg-param-mass-gift-count") (fun n =>
         opt_bind (num "msg-param-sender-count") (fun t =>
         opt_bind (tag "msg-param-sub-plan") (fun p => Some (SubMysteryGift n t p))))
  | Some KUpgrade =>
    opt_bind (tag "msg-param-sender-login") (fun l =>
    opt_bind (tag "msg-param-sender-name") (fun n => Some (GiftPaidUpgrade l n promo_fun)))
  | Some KAnonUpgrade => Some (AnonGiftPaidUpgrade promo_fun)
  | Some KRitual => opt_bind (tag "msg-param-ritual-name") (fun n => Some (Ritual n))
  | Some KTier => opt_bind (num "msg-param-threshold") (fun n => Some (BitsBadgeTier n))
  | Some KAnnouncement => Some (Announcement (opt_default (b "PRIMARY") (tag "msg-param-color")))
  | None => Some UnknownEvent
  end.

Definition anon_fun (id : str) : bool :=
  match kind_of id with
  | Some KAnonSubGift | Some KAnonSubMystery | Some KAnonUpgrade => true
  | Some KSubGift | Some KSubMystery => from_anon
  | None => true
  | _ => false
  end.

Definition sender_fun (id : str) : option (option (user_info str)) :=
  if anon_fun id then Some None
  else option_map Some (user_fun "user-id" "login" "display-name").
End Fun.

Lemma kind_of_none (id : str) : kind_of id = None <-> ~ In id known_events.
Proof. unfold kind_of. rewrite assoc_not_in. reflexivity. Qed.

Lemma kind_of_some (id : str) (k : kind) :
  kind_of id = Some k ->
  id = match k with
       | KSub => b "sub" | KResub => b "resub" | KRaid => b "raid" | KSubGift => b "subgift"
       | KAnonSubGift => b "anonsubgift" | KSubMystery => b "submysterygift"
       | KAnonSubMystery => b "anonsubmysterygift" | KUpgrade => b "giftpaidupgrade"
       | KAnonUpgrade => b "anongiftpaidupgrade" | KRitual => b "ritual" | KTier => b "bitsbadgetier"
       | KAnnouncement => b "announcement"
       end.
Proof.
  intros H. apply assoc_in in H. cbn [kinds known_events combine In] in H.
  repeat (destruct H as [H|H]; [injection H as <- <-; reflexivity|]). destruct H.
Qed.

Ltac chain :=
  repeat (cbn [bindo bind option_map opt_bind];
          match goal with
          | |- match option_map _ ?o with _ => _ end = _ => destruct o; try reflexivity
          | |- match ?o with _ => _ end = _ => destruct o; try reflexivity
          end); try reflexivity.

Section Read.
Context {v : view} {m : msg_ref} (H : seen v m).

Ltac rd := rewrite ?(seen_tag_into H), ?(seen_u64 H), ?(sn_tag _ _ H); cbn [tag_as_str bind].

Lemma promo_read : parse_promotion m = Ret (option_map (promo_map Borrowed) (promo_fun v)).
Proof.
  unfold parse_promotion, promo_fun. rd.
  destruct (opt_bind (lookup (b "msg-param-promo-gift-total") (v_tags v)) parse_u64); cbn [opt_bind]; [|reflexivity].
  destruct (lookup (b "msg-param-promo-name") (v_tags v)); reflexivity.
Qed.

Lemma sub_read (id : str) (r : bool) : str_eqb id (b "resub") = r ->
  event_sub m id = Ret (option_map (event_map Borrowed) (sub_fun v r)).
Proof. intros R. unfold event_sub, sub_fun. rd. rewrite R. chain. Qed.

Lemma raid_read : event_raid m = Ret (option_map (event_map Borrowed) (event_fun v (b "raid"))).
Proof. unfold event_raid, event_fun. change (kind_of (b "raid")) with (Some KRaid). cbv iota. rd. chain. Qed.

Lemma sub_gift_read : event_sub_gift m = Ret (option_map (event_map Borrowed) (sub_gift_fun v)).
Proof. unfold event_sub_gift, sub_gift_fun, user_fun. rd. chain. Qed.

Lemma anon_mystery_read :
  event_anon_sub_mystery_gift m = Ret (option_map (event_map Borrowed) (anon_mystery_fun v)).
Proof. unfold event_anon_sub_mystery_gift, anon_mystery_fun. rd. chain. Qed.

Lemma mystery_read : from_anon v = false ->
  event_sub_mystery_gift m = Ret (option_map (event_map Borrowed) (event_fun v (b "submysterygift"))).
Proof.
  intros A. unfold event_sub_mystery_gift, event_fun.
  change (kind_of (b "submysterygift")) with (Some KSubMystery). cbv iota. rewrite A. rd. chain.
Qed.

Lemma upgrade_read :
  event_gift_paid_upgrade m = Ret (option_map (event_map Borrowed) (event_fun v (b "giftpaidupgrade"))).
Proof.
  unfold event_gift_paid_upgrade, event_fun. change (kind_of (b "giftpaidupgrade")) with (Some KUpgrade). cbv iota.
  rewrite promo_read. rd. chain.
Qed.

Lemma anon_upgrade_read :
  event_anon_gift_paid_upgrade m = Ret (option_map (event_map Borrowed) (event_fun v (b "anongiftpaidupgrade"))).
Proof.
  unfold event_anon_gift_paid_upgrade. rewrite promo_read. reflexivity.
Qed.

Lemma ritual_read : event_ritual m = Ret (option_map (event_map Borrowed) (event_fun v (b "ritual"))).
Proof. unfold event_ritual, event_fun. change (kind_of (b "ritual")) with (Some KRitual). cbv iota. rd. chain. Qed.

Lemma tier_read : event_bits_badge_tier m = Ret (option_map (event_map Borrowed) (event_fun v (b "bitsbadgetier"))).
Proof. unfold event_bits_badge_tier, event_fun. change (kind_of (b "bitsbadgetier")) with (Some KTier). cbv iota. rd. chain. Qed.

Lemma announcement_read :
  event_announcement m = Ret (option_map (event_map Borrowed) (event_fun v (b "announcement"))).
Proof. unfold event_announcement. rd. reflexivity. Qed.

Lemma event_read (id : str) :
  parse_event m (lookup (b "user-id") (v_tags v)) id =
  let? e := Ret (option_map (event_map Borrowed) (event_fun v id)) in Ret (Some (e, anon_fun v id)).
Proof.
  unfold parse_event. change (is_anonymous_gifter (lookup (b "user-id") (v_tags v))) with (from_anon v).
  destruct (str_eqb_spec id (b "sub")) as [->|N1]; cbn [orb].
  { rewrite (sub_read (b "sub") false eq_refl). reflexivity. }
  destruct (str_eqb_spec id (b "resub")) as [->|N2]; cbn [orb].
  { rewrite (sub_read (b "resub") true eq_refl). reflexivity. }
  destruct (str_eqb_spec id (b "raid")) as [->|N3]; cbn [orb].
  { rewrite raid_read. reflexivity. }
  destruct (str_eqb_spec id (b "subgift")) as [->|N4]; cbn [orb].
  { rewrite sub_gift_read. reflexivity. }
  destruct (str_eqb_spec id (b "anonsubgift")) as [->|N5]; cbn [orb].
  { rewrite sub_gift_read. reflexivity. }
  destruct (str_eqb_spec id (b "anonsubmysterygift")) as [->|N6]; cbn [orb].
  { rewrite anon_mystery_read. reflexivity. }
  destruct (str_eqb_spec id (b "submysterygift")) as [->|N7]; cbn [andb].
  { unfold anon_fun. change (kind_of (b "submysterygift")) with (Some KSubMystery). cbv iota.
    destruct (from_anon v) eqn:A.
    - rewrite anon_mystery_read. unfold event_fun. change (kind_of (b "submysterygift")) with (Some KSubMystery).
      cbv iota. rewrite A. reflexivity.
    - rewrite (mystery_read A). reflexivity. }
  destruct (str_eqb_spec id (b "giftpaidupgrade")) as [->|N8].
  { rewrite upgrade_read. reflexivity. }
  destruct (str_eqb_spec id (b "anongiftpaidupgrade")) as [->|N9].
  { rewrite anon_upgrade_read. reflexivity. }
  destruct (str_eqb_spec id (b "ritual")) as [->|N10].
  { rewrite ritual_read. reflexivity. }
  destruct (str_eqb_spec id (b "bitsbadgetier")) as [->|N11].
  { rewrite tier_read. reflexivity. }
  destruct (str_eqb_spec id (b "announcement")) as [->|N12].
  { rewrite announcement_read. reflexivity. }
  assert (K : kind_of id = None).
  { apply kind_of_none. cbn [known_events In]. intuition congruence. }
  unfold event_fun, anon_fun. rewrite K. reflexivity.
Qed.

Lemma sender_read (id : str) :
  parse_sender m (anon_fun v id) = Ret (option_map (option_map (user_map Borrowed)) (sender_fun v id)).
Proof.
  unfold parse_sender, sender_fun. destruct (anon_fun v id); cbn [negb]; [reflexivity|].
  unfold user_fun. rd. chain.
Qed.
End Read.

Lemma user_iff (v : view) (id login name : string) (u : user_info str) :
  user_of v id login name u <-> user_fun v id login name = Some u.
Proof.
  unfold user_of, user_fun. destruct u as [a c d]. cbn [u_id u_login u_name]. rewrite !has_iff. split.
  - intros (-> & -> & ->). reflexivity.
  - intros K. repeat (apply opt_bind_iff in K as (? & ? & K)). injection K as <- <- <-. auto.
Qed.

Lemma promo_iff (v : view) (o : option (promo str)) : opt (promo_of v) o <-> promo_fun v = o.
Proof.
  apply opt_iff. intros [n p]. unfold promo_of, promo_fun. cbn [pr_total_gifts pr_promo_name].
  rewrite has_iff, has_u64_iff. split.
  - intros (A & B). rewrite A, B. reflexivity.
  - intros K. repeat (apply opt_bind_iff in K as (? & ? & K)). injection K as <- <-. auto.
Qed.

Lemma from_anon_iff (v : view) : from_anonymous_account v <-> from_anon v = true.
Proof.
  unfold from_anonymous_account, from_anon, is_anonymous_gifter. rewrite has_iff.
  destruct (lookup (b "user-id") (v_tags v)) as [x|]; [|split; discriminate].
  destruct (str_eqb_spec x (b "274598607")) as [->|N]; split; auto; try discriminate. intros [= K]. now destruct N.
Qed.

Lemma streak_iff (v : view) (o : option N) :
  opt (fun n => has_u64 v "msg-param-streak-months" n /\ (0 < n)%N) o <->
  opt_bind (opt_bind (lookup (b "msg-param-streak-months") (v_tags v)) parse_u64)
    (fun n => if (0 <? n)%N then Some n else None) = o.
Proof.
  apply opt_iff. intros n. rewrite has_u64_iff. split.
  - intros [A B]. rewrite A. cbn [opt_bind]. now replace (0 <? n)%N with true by lia.
  - intros K. apply opt_bind_iff in K as (k & A & B). destruct (N.ltb_spec 0 k) as [L|L]; [|discriminate]. injection B as <-. auto.
Qed.

Lemma anonymous_iff (v : view) (id : str) : anonymous v id <-> anon_fun v id = true.
Proof.
  unfold anonymous, anon_fun. rewrite from_anon_iff, <- kind_of_none.
  destruct (kind_of id) as [k|] eqn:E; [|tauto]. pose proof (kind_of_some id k E) as K. subst id.
  destruct k; cbn [In];
    (split; [intros [A|[[A B]|A]]; [|try exact B|discriminate]; exfalso; clear -A;
             repeat (destruct A as [A|A]; [discriminate|]); exact A
            |intros A; try discriminate; tauto]) ||
    (split; [reflexivity|tauto]) ||
    (split; [intros [A|[[A B]|A]]; [|exact B|discriminate]; exfalso; clear -A;
             repeat (destruct A as [A|A]; [discriminate|]); exact A|intros A; right; left; split; [tauto|exact A]]).
Qed.

Lemma sender_iff (v : view) (id : str) (o : option (user_info str)) :
  match o with
  | None => anonymous v id
  | Some u => ~ anonymous v id /\ user_of v "user-id" "login" "display-name" u
  end <-> sender_fun v id = Some o.
Proof.
  unfold sender_fun. destruct o as [u|]; rewrite anonymous_iff.
  - rewrite user_iff. destruct (anon_fun v id).
    + split; [intros [A _]; now destruct A|discriminate].
    + rewrite option_map_some. split.
      * intros [_ K]. eauto.
      * intros (x & K & [= <-]). split; [discriminate|exact K].
  - destruct (anon_fun v id); [tauto|]. split; [discriminate|].
    destruct (user_fun _ _ _ _); discriminate.
Qed.

Ltac inv K := repeat (apply opt_bind_iff in K as (? & ? & K)); try discriminate; injection K.

Lemma event_iff (v : view) (id : str) (e : event str) : event_of v id e <-> event_fun v id = Some e.
Proof.
  split.
  - unfold event_of. destruct e as [r n s p pn|n u|n u p pn g|n t p|n p|l n p|p|n|n|c|];
      rewrite ?streak_iff, ?promo_iff, ?user_iff, ?has_iff, ?has_u64_iff, ?has_or_iff.
    + intros (-> & A & B & C & D). unfold event_fun.
      replace (kind_of (if r then b "resub" else b "sub")) with (Some (if r then KResub else KSub)) by now destruct r.
      enough (K : sub_fun v r = Some (SubOrResub r n s p pn)) by now destruct r.
      unfold sub_fun. rewrite A, B, C, D. reflexivity.
    + intros (-> & A & B). unfold event_fun. change (kind_of (b "raid")) with (Some KRaid). cbv iota.
      rewrite A, B. reflexivity.
    + intros (I & A & B & C & D & E). enough (K : sub_gift_fun v = Some (SubGift n u p pn g)).
      { cbn [In] in I. destruct I as [<-|[<-|[]]]; exact K. }
      unfold sub_gift_fun. rewrite A, B, C, D. cbn [opt_bind]. rewrite E. reflexivity.
    + intros (-> & N & A & B & C). rewrite from_anon_iff in N. apply Bool.not_true_is_false in N.
      unfold event_fun. change (kind_of (b "submysterygift")) with (Some KSubMystery). cbv iota.
      rewrite N, A, B, C. reflexivity.
    + intros (I & A & B). enough (K : anon_mystery_fun v = Some (AnonSubMysteryGift n p)).
      { destruct I as [->|[-> I]]; [exact K|]. apply from_anon_iff in I. unfold event_fun.
        change (kind_of (b "submysterygift")) with (Some KSubMystery). cbv iota. rewrite I. exact K. }
      unfold anon_mystery_fun. rewrite A, B. reflexivity.
    + intros (-> & A & B & C). unfold event_fun. change (kind_of (b "giftpaidupgrade")) with (Some KUpgrade). cbv iota.
      rewrite A, B, C. reflexivity.
    + intros (-> & A). unfold event_fun. change (kind_of (b "anongiftpaidupgrade")) with (Some KAnonUpgrade). cbv iota.
      rewrite A. reflexivity.
    + intros (-> & A). unfold event_fun. change (kind_of (b "ritual")) with (Some KRitual). cbv iota. now rewrite A.
    + intros (-> & A). unfold event_fun. change (kind_of (b "bitsbadgetier")) with (Some KTier). cbv iota. now rewrite A.
    + intros (-> & A). unfold event_fun. change (kind_of (b "announcement")) with (Some KAnnouncement). cbv iota.
      now rewrite A.
    + intros N. apply kind_of_none in N. unfold event_fun. now rewrite N.
  - unfold event_fun. destruct (kind_of id) as [k|] eqn:E.
    2: { intros [= <-]. now apply kind_of_none. }
    apply kind_of_some in E. subst id.
    assert (SG : sub_gift_fun v = Some e -> forall i, In i [b "subgift"; b "anonsubgift"] -> event_of v i e).
    { unfold sub_gift_fun. intros K i I. inv K. intros <-. unfold event_of. rewrite user_iff, !has_iff, !has_u64_iff. auto 8. }
    assert (AM : anon_mystery_fun v = Some e -> forall i,
      i = b "anonsubmysterygift" \/ i = b "submysterygift" /\ from_anonymous_account v -> event_of v i e).
    { unfold anon_mystery_fun. intros K i I. inv K. intros <-. unfold event_of. rewrite !has_iff, !has_u64_iff. auto 8. }
    assert (SB : forall r, sub_fun v r = Some e -> event_of v (if r then b "resub" else b "sub") e).
    { unfold sub_fun. intros r K. inv K. intros <-. unfold event_of. rewrite streak_iff, !has_iff, !has_u64_iff. auto 8. }
    destruct k; intros K.
    + now apply (SB false).
    + now apply (SB true).
    + inv K. intros <-. unfold event_of. rewrite !has_iff, !has_u64_iff. auto.
    + apply SG; [exact K|]. now left.
    + apply SG; [exact K|]. right. now left.
    + destruct (from_anon v) eqn:A.
      * apply AM; [exact K|]. right. split; [reflexivity|]. now apply from_anon_iff.
      * inv K. intros <-. unfold event_of. rewrite !has_iff, !has_u64_iff, from_anon_iff.
        repeat split; auto. congruence.
    + apply AM; [exact K|]. now left.
    + inv K. intros <-. unfold event_of. rewrite promo_iff, !has_iff. auto.
    + inv K. intros <-. unfold event_of. rewrite promo_iff. auto.
    + inv K. intros <-. unfold event_of. rewrite !has_iff. auto.
    + inv K. intros <-. unfold event_of. rewrite !has_u64_iff. auto.
    + inv K. intros <-. unfold event_of. rewrite !has_or_iff. auto.
Qed.

Lemma user_notice_iff (v : view) (m : msg_ref) (q : user_notice cow) :
  seen v m -> v_command v = b "USERNOTICE" ->
  (user_notice_parse m = Ret (Some q) <-> exists x, q = user_notice_map Borrowed x /\ user_notice_of v x).
Proof.
  intros H C. unfold user_notice_parse. look H C. split.
  - steps; try discriminate. rewrite (event_read H).
    destruct (event_fun v s) as [e|] eqn:EV; [|discriminate]. cbn [option_map bindo].
    rewrite (sender_read H). destruct (sender_fun v s) as [u|] eqn:ES; [|discriminate].
    steps; try discriminate. intros [= <-].
    eexists (mk_user_notice _ _ _ _ _ _ _ _ _ _ _ _). split; [reflexivity|].
    unfold user_notice_of, has_channel.
    cbn [un_channel un_channel_id un_sender un_text un_system_message un_event un_event_id un_badges un_emotes
         un_color un_message_id un_timestamp].
    rewrite sender_iff, event_iff. eqs. repeat split; eauto.
  - intros ([a1 a2 a3 a4 a5 a6 a7 a8 a9 a10 a11 a12] & -> & K). unfold user_notice_of, has_channel in K.
    cbn [un_channel un_channel_id un_sender un_text un_system_message un_event un_event_id un_badges un_emotes
         un_color un_message_id un_timestamp] in K.
    rewrite sender_iff, event_iff in K. eqs_in K.
    destruct K as (K1 & K2 & K3 & K4 & K5 & K6 & K7 & K8 & K9 & K10 & K11 & K12).
    rewrite K7. cbn [bindo]. rewrite (event_read H), K6. cbn [option_map bindo]. rewrite (sender_read H), K3.
    back.
Qed.
