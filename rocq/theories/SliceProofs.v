(** * SliceProofs: the property lemmas about the strings of typed messages, C85. *)

From Verif Require Import Base Wide Tags Irc MsgBase MsgTypes MsgNotice Message SpecIrc SpecMsg SpecSlice.
From Verif Require Import BaseFacts Utf8Facts IrcFacts IrcProofs LineProofs AccessProofs FieldFacts TypedFacts NoticeFacts TypedProofs MapFacts LiftFacts DbgLine HandshakeProofs PartsProofs.

Section Line.
Context (bd : build) (s : str) (v : view) (m : msg_ref) (P : parsed bd s v m).

Definition cutout (x : str) : Prop := infix x s /\ ok x.

Notation mine := (@piece_text s v).

Lemma cutout_up (x : str) : cutout x -> ups mine x.
Proof. intros [(l & r & E) U]. now exists (Stretch l x r E U). Qed.

Lemma cutout_cut (l r : str) (c : byte) : ascii c = true -> cutout (l ++ c :: r) -> cutout l /\ cutout r.
Proof.
  intros A [I U]. destruct (ok_cut _ _ _ A U) as [U1 U2]. split; (split; [|assumption]).
  - refine (infix_trans _ _ _ _ I). now exists [], (c :: r).
  - refine (infix_trans _ _ _ _ I). exists (l ++ [c]), []. now rewrite app_nil_r, <- app_assoc.
Qed.

Lemma cutout_parts (c : byte) (ws : list str) : ascii c = true -> cutout (join_by c ws) -> Forall cutout ws.
Proof.
  intros A. induction ws as [|w [|w' ws] IH]; intros H; [constructor|auto|].
  cbn [join_by] in H, IH. apply cutout_cut in H as [K R]; [|exact A]. auto.
Qed.

Lemma cutout_items (x : str) (l : list (str * str)) : cutout x -> comma_items x l ->
  Forall (fun kv => cutout (fst kv) /\ cutout (snd kv)) l.
Proof.
  intros H (ws & (_ & -> & _) & I). apply cutout_parts in H; [|reflexivity].
  induction I as [|w ws l N I IH|n x ws l N I IH]; [constructor| |]; inversion H as [|? ? W F]; subst; auto.
  constructor; [|auto]. cbn [fst snd]. now apply cutout_cut in W.
Qed.

Lemma cutout_tag (k x : str) : In (k, x) (v_tags v) -> cutout x.
Proof.
  destruct P as [U S F V E]. destruct (p_c10_accessors_view bd s m v U S E V) as [T _].
  destruct (T F) as [T' _]. pose proof (rd_raw m s v) as R.
  destruct (p_c10_recomposition bd s m U S E) as [W _].
  destruct (p_c10_parts_of_the_line m) as [Q _]; [now rewrite W|]. rewrite W in Q.
  intros I. destruct (Q _ _ _ T' I) as (_ & _ & A & B). now split.
Qed.

Lemma cutout_has (n : string) (x : str) : has v n x -> cutout x.
Proof. intros (l1 & l2 & E & _). apply (cutout_tag (b n)). rewrite E. apply in_app_iff. right. now left. Qed.

Lemma cutout_others :
  (forall x, has_channel v x -> cutout x) /\ (forall x, has_nick v x -> cutout x) /\
  (forall x, v_params v = Some x -> cutout x).
Proof.
  destruct P as [U S F V E]. destruct (p_c10_recomposition bd s m U S E) as [W _].
  destruct (p_c10_accessors_view bd s m v U S E V) as (_ & T2 & _ & _ & T5 & _).
  destruct (p_c10_parts_of_the_line m) as (_ & _ & Q2 & _ & _ & Q5 & _); [now rewrite W|]. rewrite W in *.
  split; [|split].
  - intros x H. pose proof (view_composed s v V) as (sec & pt & C & _).
    split; [|exact (ov_channel v (view_ok s v V U) x H)]. unfold has_channel in H. rewrite H in C.
    destruct C as (sp1 & sp2 & C & _). rewrite C.
    exists (marked "@" sec ++ marked ":" pt ++ v_command v ++ sp1), (sp2 ++ or_empty (v_params v)).
    cbn [or_empty]. now rewrite <- !app_assoc.
  - intros x (p & E1 & E2). rewrite E1 in T2. destruct (Q2 p T2) as (_ & Q & _). exact (Q x E2).
  - intros x H. apply Q5. now rewrite T5, H.
Qed.

Lemma cutout_text (x : str) : has_text v x -> cutout x.
Proof.
  intros (p & E & A). pose proof (proj2 (proj2 cutout_others) p E) as C.
  destruct A as [(l & -> & _)|[_ ->]]; [|exact C]. now apply cutout_cut in C.
Qed.

Lemma cutout_action (x : str) (f : bool) : (exists t, has_text v t /\ action_text t x f) -> cutout x.
Proof.
  intros (t & T & A). apply cutout_text in T. destruct f; cbn in A; [|now destruct A as [<- _]].
  rewrite A in T. change (cutout (([x01] ++ b "ACTION") ++ " "%byte :: (x ++ [x01]))) in T.
  apply cutout_cut in T as [_ T]; [|reflexivity]. now apply cutout_cut in T.
Qed.

Lemma cutout_badges (l : list (badge str)) : has_badges v l -> ups (map (badge_map mine)) l.
Proof.
  intros [(x & y & Hx & Hy & items & extras & Ix & Iy & F)|[_ ->]]; [|now exists []].
  pose proof (cutout_items _ _ (cutout_has _ _ Hx) Ix) as Cx. pose proof (cutout_items _ _ (cutout_has _ _ Hy) Iy) as Cy.
  assert (B0 : In (b "subscriber") (map fst items) -> first_tag (b "subscriber") extras None -> bare_subscriber v).
  { intros I1 I2. exists x, y, items, extras. repeat split; assumption. }
  clear Ix. apply ups_all.
  induction F as [|[n w] g items l (e & E & B) F IH]; [constructor|].
  inversion Cx as [|? ? [On Ow] Cx']; subst. constructor; [|apply IH; auto; intros K; apply B0; now right].
  clear IH F. cbn [fst snd] in *.
  assert (Oe : forall z, e = Some z -> cutout z).
  { intros z ->. destruct E as (l1 & l2 & -> & _). apply Forall_app in Cy as [_ Cy]. now apply Forall_inv in Cy. }
  destruct g as [| | | |[sv sm sn]|d]; cbn in B.
  - now exists Staff.
  - now exists Turbo.
  - now exists Broadcaster.
  - now exists Moderator.
  - destruct B as (-> & -> & B). destruct (cutout_up _ Ow) as [tw ->].
    assert (ups mine sm) as [tm ->].
    { destruct e as [e|]; destruct B as [-> _]; [apply cutout_up; auto|].
      assert (BS : bare_subscriber v) by (apply B0; [now left|exact E]). now exists (OneMonth BS). }
    now exists (BSubscriber (mk_subscriber tw tm sn)).
  - destruct B as (_ & ->). destruct (cutout_up _ On) as [tn ->], (cutout_up _ Ow) as [tw ->]. destruct e as [e|].
    + destruct (cutout_up e ltac:(auto)) as [te ->]. now exists (BOther (mk_badge_data tn tw (Some te))).
    + now exists (BOther (mk_badge_data tn tw None)).
Qed.

Lemma lifts_line : lifts v mine.
Proof.
  destruct cutout_others as (C1 & C2 & C3). split.
  - intros n x H. exact (cutout_up _ (cutout_has _ _ H)).
  - intros x H. exact (cutout_up _ (C1 _ H)).
  - intros x H. exact (cutout_up _ (C2 _ H)).
  - intros x H. exact (cutout_up _ (cutout_text _ H)).
  - intros x f H. exact (cutout_up _ (cutout_action _ _ H)).
  - intros p l r H ->. apply C3 in H. change (cutout (l ++ " "%byte :: ":"%byte :: r)) in H.
    apply cutout_cut in H as [K Q]; [|reflexivity]. apply (cutout_cut []) in Q as [_ Q]; [|reflexivity].
    split; now apply cutout_up.
  - intros n ws [(x & H & _ & -> & _)|[_ ->]]; [|now exists []]. apply cutout_has in H.
    apply cutout_parts in H; [|reflexivity]. apply ups_all. eapply Forall_impl; [|exact H]. exact cutout_up.
  - exact cutout_badges.
  - apply cutout_up. split; [now exists [], s|reflexivity].
  - intros x A [H|[N ->]]; [exact (cutout_up _ (cutout_has _ _ H))|]. now exists (Primary (conj A N)).
Qed.

Lemma room_state_slices (pf : profile) (q : room_state cow) :
  v_command v = b "ROOMSTATE" -> room_state_parse pf m = Ret (Some q) ->
  exists y, q = room_state_map (fun p => Borrowed (mine p)) y.
Proof.
  pose proof (parsed_seen bd s v m P) as H. pose proof lifts_line as L.
  intros C. unfold room_state_parse. look H C.
  destruct (v_channel v) as [ch|] eqn:E1; [|discriminate]. cbn [option_map bindo].
  destruct (lookup (b "room-id") (v_tags v)) as [id|] eqn:E2; [|discriminate]. cbn [option_map bindo].
  apply (li_channel v mine L) in E1 as [tc ->]. apply has_iff, (li_has v mine L) in E2 as [ti ->].
  match goal with |- bind ?f _ = _ -> _ => destruct f as [o| | |]; try discriminate end.
  intros [= <-]. eexists (mk_room_state tc ti _ _ _ _ _). reflexivity.
Qed.
End Line.

(** C85. The strings of a typed message are stretches of the line it was read
    from, borrowed and at character boundaries. Only the months of a subscriber
    badge without and the colour of an announcement without are made up. *)
Lemma p_c85_strings_of_the_line :
  forall (bd : build) (pf : profile) (s : str) (v : view) (m : msg_ref) (t : typed),
    parsed bd s v m -> In (v_command v) typed_words -> from_irc pf m = Ret (Some t) ->
    made_with (fun p : piece s v => Borrowed (piece_text p)) t.
Proof.
  intros bd pf s v m t P I K. pose proof (parsed_seen bd s v m P) as H. pose proof (lifts_line bd s v m P) as L.
  destruct P as [U S F V E] eqn:EP. pose proof (p_c22_variant_is_command bd pf s v m t U S V E K) as C.
  pose proof (dispatch (reads_command bd s v m U S V E) _ _ K) as D.
  destruct t; cbn [variant_word] in C; cbn [made_with]; try exact Logic.I; [..|tauto].
  - apply (clear_chat_iff v m _ H C) in D as (x & -> & X). apply (up_clear_chat v _ L) in X as [z ->].
    exists z. now rewrite !clear_chat_map_map.
  - apply (clear_msg_iff v m _ H C) in D as (x & -> & X). apply (up_clear_msg v _ L) in X as [z ->].
    exists z. now rewrite !clear_msg_map_map.
  - apply (global_user_state_iff v m _ H C) in D as (x & -> & X). apply (up_global_user_state v _ L) in X as [z ->].
    exists z. now rewrite !global_user_state_map_map.
  - apply (join_iff v m _ H C) in D as (x & -> & X). apply (up_join v _ L) in X as [z ->].
    exists z. now rewrite !join_map_map.
  - apply (notice_iff v m _ H C) in D as (x & -> & X). apply (up_notice v _ L) in X as [z ->].
    exists z. now rewrite !notice_map_map.
  - apply (part_iff v m _ H C) in D as (x & -> & X). apply (up_part v _ L) in X as [z ->].
    exists z. now rewrite !part_map_map.
  - apply (ping_iff v m _ H C) in D as (x & -> & X). apply (up_ping v _ L) in X as [z ->].
    exists z. now rewrite !ping_map_map.
  - apply (pong_iff v m _ H C) in D as (x & -> & X). apply (up_pong v _ L) in X as [z ->].
    exists z. now rewrite !pong_map_map.
  - apply (privmsg_iff v m _ H C) in D as (x & -> & X). apply (up_privmsg v _ L) in X as [z ->].
    exists z. now rewrite !privmsg_map_map.
  - apply (room_state_slices bd s v m P pf _ C D).
  - apply (user_notice_iff v m _ H C) in D as (x & -> & X). apply (up_user_notice v _ L) in X as [z ->].
    exists z. now rewrite !user_notice_map_map.
  - apply (user_state_iff v m _ H C) in D as (x & -> & X). apply (up_user_state v _ L) in X as [z ->].
    exists z. now rewrite !user_state_map_map.
  - apply (whisper_iff v m _ H C) in D as (x & -> & X). apply (up_whisper v _ L) in X as [z ->].
    exists z. now rewrite !whisper_map_map.
Qed.


Definition announcement_line : str :=
  b "@msg-id=announcement;room-id=7;user-id=8;login=a;display-name=A;system-msg=;id=9;tmi-sent-ts=5 :t USERNOTICE #c :hi".

(** C85. That every string comes from the line is false: the colour of an
    announcement need not. *)
Lemma p_c85_no_made_up_strings_refuted :
  exists (s : str) (v : view) (m : msg_ref) (t : typed),
    (forall bd, parsed bd s v m) /\ In (v_command v) typed_words /\
    (forall pf, from_irc pf m = Ret (Some t)) /\
    ~ made_with (fun p : {x : str | infix x s} => Borrowed (proj1_sig p)) t.
Proof.
  destruct (spec_view announcement_line) as [v|] eqn:V; [|vm_compute in V; discriminate].
  destruct (ref_parse Scalar announcement_line) as [[m|]| | |] eqn:E; try (vm_compute in E; discriminate).
  assert (P : parsed Scalar announcement_line v m).
  { split; auto; [reflexivity|now apply all_short_check]. }
  destruct (from_irc Debug m) as [[t|]| | |] eqn:F; try (vm_compute in E; injection E as <-; vm_compute in F; discriminate).
  exists announcement_line, v, m, t. split; [intros bd; now apply any_build|].
  split; [vm_compute in V; injection V as <-; cbn; tauto|].
  split; [intros []; [exact F|]; vm_compute in E; injection E as <-; vm_compute in F; injection F as <-; reflexivity|].
  vm_compute in E. injection E as <-. vm_compute in F. injection F as <-. cbn [made_with].
  intros ([a1 a2 a3 a4 a5 ev a7 a8 a9 a10 a11 a12] & Q). apply (f_equal un_event) in Q.
  cbn [user_notice_map un_event] in Q. destruct ev as [| | | | | | | | |[c C]|]; try discriminate Q.
  cbn [event_map proj1_sig] in Q. injection Q as <-.
  apply contains_spec in C. vm_compute in C. discriminate.
Qed.

Definition whisper_line : str :=
  b "@user-id=8;display-name=A\sB;badges=subscriber/3,vip/1;badge-info=vip/2;emotes=;color= :n!u@h WHISPER me :h:i".

Example ex_c85 :
  exists v m t, (forall bd, parsed bd whisper_line v m) /\ In (v_command v) typed_words /\
    (forall pf, from_irc pf m = Ret (Some t)) /\ bare_subscriber v /\
    t = MWhisper (mk_whisper (Borrowed (b "me"))
          (mk_user (Borrowed (b "8")) (Borrowed (b "n")) (Borrowed (b "A\sB"))) (Borrowed (b "h:i"))
          [BSubscriber (mk_subscriber (Borrowed (b "3")) (Borrowed (b "1")) 1);
           BOther (mk_badge_data (Borrowed (b "vip")) (Borrowed (b "1")) (Some (Borrowed (b "2"))))]
          (Borrowed []) None).
Proof.
  destruct (spec_view whisper_line) as [v|] eqn:V; [|vm_compute in V; discriminate].
  destruct (ref_parse Scalar whisper_line) as [[m|]| | |] eqn:E; try (vm_compute in E; discriminate).
  assert (P : parsed Scalar whisper_line v m).
  { split; auto; [reflexivity|now apply all_short_check]. }
  exists v, m. eexists. split; [intros bd; now apply any_build|].
  split; [vm_compute in V; injection V as <-; cbn; tauto|].
  split; [|split; [|reflexivity]].
  - intros []; vm_compute in E; injection E as <-; vm_compute; reflexivity.
  - exists (b "subscriber/3,vip/1"), (b "vip/2"), [(b "subscriber", b "3"); (b "vip", b "1")], [(b "vip", b "2")].
    vm_compute in V. injection V as <-. split; [now apply has_iff|]. split; [now apply has_iff|].
    split; [|split; [|split; [now left|]]].
    + exists [b "subscriber/3"; b "vip/1"]. split.
      * split; [discriminate|]. split; [reflexivity|]. repeat constructor; cbn; intuition discriminate.
      * apply (si_item (b "subscriber") (b "3")); [cbn; intuition discriminate|].
        apply (si_item (b "vip") (b "1")); [cbn; intuition discriminate|constructor].
    + exists [b "vip/2"]. split.
      * split; [discriminate|]. split; [reflexivity|]. repeat constructor; cbn; intuition discriminate.
      * apply (si_item (b "vip") (b "2")); [cbn; intuition discriminate|constructor].
    + apply lookup_first. reflexivity.
Qed.
