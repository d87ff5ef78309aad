(** * WriteProofs: the property lemmas about written messages, C81. *)

From Verif Require Import Base Wide Client Tags Irc Unescape SpecIrc SpecText MsgBase MsgTypes MsgNotice Message SpecMsg SpecWrite Samples.
From Coq Require Import Lia ZifyBool ZifyNat ZifyN.
From Verif Require Import BaseFacts IrcFacts IrcProofs LineProofs AccessProofs FieldFacts TypedFacts NoticeFacts TypedProofs FieldProofs DbgValues MapFacts WriteFacts WriteBack.

Open Scope nat_scope.

(** C81. Every typed message with values a line can carry is written as a line that parses to
    exactly this message, in every build and profile. *)
Lemma p_c81_written_message_is_read :
  forall (bd : build) (pf : profile) (c : content),
    able c -> wf_message (line c) -> Forall short_tag (m_tags (line c)) ->
    utf8_valid (render (line c)) = true -> below_4gib (render (line c)) ->
    message_parse bd pf (render (line c)) = Ret (Some (typed_of c)).
Proof.
  intros bd pf c A W F U S. destruct (parsed_render bd (line c) W U S (line_length c) F) as (r & P).
  unfold message_parse. rewrite (pd_parse _ _ _ _ P). cbn [bind bindo].
  pose proof (parsed_seen _ _ _ _ P) as H. unfold from_irc. rewrite (sn_command _ _ H). cbn [bind].
  destruct c; cbn [view_of line line_with m_command v_command];
    match goal with |- context [spec_command ?w] =>
      let k := eval vm_compute in (spec_command w) in change (spec_command w) with k end;
    cbn [typed_of]; unfold into; try reflexivity.
  - rewrite (proj2 (clear_chat_iff _ _ (clear_chat_map Borrowed x) H eq_refl)); [reflexivity|eauto using clear_chat_written].
  - rewrite (proj2 (clear_msg_iff _ _ (clear_msg_map Borrowed x) H eq_refl)); [reflexivity|eauto using clear_msg_written].
  - rewrite (proj2 (global_user_state_iff _ _ (global_user_state_map Borrowed x) H eq_refl)); [reflexivity|eauto using global_user_state_written].
  - rewrite (proj2 (join_iff _ _ (join_map Borrowed x) H eq_refl)); [reflexivity|eauto using join_written].
  - rewrite (proj2 (notice_iff _ _ (notice_map Borrowed x) H eq_refl)); [reflexivity|eauto using notice_written].
  - rewrite (proj2 (part_iff _ _ (part_map Borrowed x) H eq_refl)); [reflexivity|eauto using part_written].
  - rewrite (proj2 (ping_iff _ _ (ping_map Borrowed x) H eq_refl)); [reflexivity|eauto using ping_written].
  - rewrite (proj2 (pong_iff _ _ (pong_map Borrowed x) H eq_refl)); [reflexivity|eauto using pong_written].
  - rewrite (proj2 (privmsg_iff _ _ (privmsg_map Borrowed x) H eq_refl)); [reflexivity|eauto using privmsg_written].
  - destruct (room_state_written x A) as [X1 X2].
    rewrite (proj2 (room_state_iff pf _ _ (room_state_map Borrowed x) H eq_refl X2)); [reflexivity|eauto].
  - rewrite (proj2 (user_notice_iff _ _ (user_notice_map Borrowed x) H eq_refl)); [reflexivity|eauto using user_notice_written].
  - rewrite (proj2 (user_state_iff _ _ (user_state_map Borrowed x) H eq_refl)); [reflexivity|eauto using user_state_written].
  - rewrite (proj2 (whisper_iff _ _ (whisper_map Borrowed x) H eq_refl)); [reflexivity|eauto using whisper_written].
Qed.

Definition content_of (t : typed) : option content :=
  match t with
  | MClearChat x => Some (KClearChat (clear_chat_map deref x))
  | MClearMsg x => Some (KClearMsg (clear_msg_map deref x))
  | MGlobalUserState x => Some (KGlobalUserState (global_user_state_map deref x))
  | MJoin x => Some (KJoin (join_map deref x))
  | MNotice x => Some (KNotice (notice_map deref x))
  | MPart x => Some (KPart (part_map deref x))
  | MPing x => Some (KPing (ping_map deref x))
  | MPong x => Some (KPong (pong_map deref x))
  | MPrivmsg x => Some (KPrivmsg (privmsg_map deref x))
  | MRoomState x => Some (KRoomState (room_state_map deref x))
  | MUserNotice x => Some (KUserNotice (user_notice_map deref x))
  | MUserState x => Some (KUserState (user_state_map deref x))
  | MWhisper x => Some (KWhisper (whisper_map deref x))
  | MReconnect => Some KReconnect
  | MOther _ => None
  end.

Lemma content_typed (c : content) : content_of (typed_of c) = Some c.
Proof.
  destruct c; cbn [typed_of content_of]; f_equal; f_equal;
    [apply clear_chat_map_deref|apply clear_msg_map_deref|apply global_user_state_map_deref|apply join_map_deref|apply notice_map_deref|apply part_map_deref|apply ping_map_deref|apply pong_map_deref|apply privmsg_map_deref|apply room_state_map_deref|apply user_notice_map_deref|apply user_state_map_deref|apply whisper_map_deref].
Qed.

Lemma typed_of_inj (c c' : content) : typed_of c = typed_of c' -> c = c'.
Proof. intros E. pose proof (content_typed c) as K. rewrite E, content_typed in K. congruence. Qed.

(** C81. Two different messages are never written as the same line. *)
Lemma p_c81_messages_told_apart :
  forall c c' : content,
    able c -> able c' -> wf_message (line c) -> wf_message (line c') ->
    Forall short_tag (m_tags (line c)) -> Forall short_tag (m_tags (line c')) ->
    utf8_valid (render (line c)) = true -> below_4gib (render (line c)) ->
    render (line c) = render (line c') -> c = c'.
Proof.
  intros c c' A A' W W' F F' U S E. apply typed_of_inj.
  pose proof (p_c81_written_message_is_read Scalar Release c A W F U S) as R.
  rewrite E in U, S, R. rewrite (p_c81_written_message_is_read Scalar Release c' A' W' F' U S) in R. congruence.
Qed.

(** C81. Every typed message parsed from a line has only values a line can carry: its
    written form is a well-formed line. *)
Lemma p_c81_parsed_message_is_writable :
  forall (bd : build) (pf : profile) (s : str) (v : view) (m : msg_ref) (t : typed),
    parsed bd s v m -> followers_fit v -> from_irc pf m = Ret (Some t) ->
    t = MOther m \/
    exists c, t = typed_of c /\ able c /\ wf_message (line c) /\ utf8_valid (render (line c)) = true.
Proof.
  intros bd pf s v m t P FF E. pose proof (parsed_seen _ _ _ _ P) as H.
  pose proof (view_good s v (pd_view _ _ _ _ P) (pd_utf8 _ _ _ _ P)) as G.
  pose proof (p_c22_variant_is_command bd pf s v m t (pd_utf8 _ _ _ _ P) (pd_size _ _ _ _ P) (pd_view _ _ _ _ P)
    (pd_parse _ _ _ _ P) E) as W.
  apply (dispatch (sn_command _ _ H)) in E.
  assert (D : forall c, t = typed_of c -> able c /\ sound (line c) ->
    exists c, t = typed_of c /\ able c /\ wf_message (line c) /\ utf8_valid (render (line c)) = true).
  { intros c Q (A & B & C). exists c. auto. }
  assert (D' : forall c, t = typed_of c -> able c = True -> sound (line c) ->
    exists c, t = typed_of c /\ able c /\ wf_message (line c) /\ utf8_valid (render (line c)) = true).
  { intros c Q A B. apply (D c Q). split; [now rewrite A|exact B]. }
  destruct t; cbn [variant_word] in W; [right..|left; now destruct W].
  - apply (clear_chat_iff _ _ _ H W) in E as (x & -> & X). apply (D (KClearChat x) eq_refl). exact (clear_chat_back v G x X).
  - apply (clear_msg_iff _ _ _ H W) in E as (x & -> & X). apply (D (KClearMsg x) eq_refl). exact (clear_msg_back v G x X).
  - apply (global_user_state_iff _ _ _ H W) in E as (x & -> & X). apply (D (KGlobalUserState x) eq_refl).
    exact (global_user_state_back v G x X).
  - apply (join_iff _ _ _ H W) in E as (x & -> & X). apply (D' (KJoin x) eq_refl eq_refl). exact (join_back v G x X).
  - apply (notice_iff _ _ _ H W) in E as (x & -> & X). apply (D' (KNotice x) eq_refl eq_refl). exact (notice_back v G x X).
  - apply (part_iff _ _ _ H W) in E as (x & -> & X). apply (D' (KPart x) eq_refl eq_refl). exact (part_back v G x X).
  - apply (ping_iff _ _ _ H W) in E as (x & -> & X). apply (D' (KPing x) eq_refl eq_refl). exact (ping_back v G x X).
  - apply (pong_iff _ _ _ H W) in E as (x & -> & X). apply (D' (KPong x) eq_refl eq_refl). exact (pong_back v G x X).
  - apply (privmsg_iff _ _ _ H W) in E as (x & -> & X). apply (D (KPrivmsg x) eq_refl). exact (privmsg_back v G x X).
  - apply (D' KReconnect eq_refl eq_refl). exact reconnect_back.
  - apply (room_state_iff pf _ _ _ H W FF) in E as (x & -> & X). apply (D (KRoomState x) eq_refl).
    exact (room_state_back v G x FF X).
  - apply (user_notice_iff _ _ _ H W) in E as (x & -> & X). apply (D (KUserNotice x) eq_refl). exact (user_notice_back v G x X).
  - apply (user_state_iff _ _ _ H W) in E as (x & -> & X). apply (D (KUserState x) eq_refl). exact (user_state_back v G x X).
  - apply (whisper_iff _ _ _ H W) in E as (x & -> & X). apply (D (KWhisper x) eq_refl). exact (whisper_back v G x X).
Qed.

(** C81. Writing a parsed message and parsing the line again, in any build and profile,
    gives the same message. *)
Lemma p_c81_write_and_parse_again :
  forall (bd : build) (pf : profile) (s : str) (v : view) (m : msg_ref) (t : typed),
    parsed bd s v m -> followers_fit v -> from_irc pf m = Ret (Some t) -> t <> MOther m ->
    exists c, t = typed_of c /\
      (Forall short_tag (m_tags (line c)) -> below_4gib (render (line c)) ->
       forall (bd' : build) (pf' : profile), message_parse bd' pf' (render (line c)) = Ret (Some t)).
Proof.
  intros bd pf s v m t P FF E N.
  destruct (p_c81_parsed_message_is_writable bd pf s v m t P FF E) as [K|(c & -> & A & W & U)]; [congruence|].
  exists c. split; [reflexivity|]. intros F S bd' pf'. now apply p_c81_written_message_is_read.
Qed.

Lemma shorts (l : list (str * str)) :
  forallb (fun kv => (N.of_nat (length (fst kv)) <? 65536)%N && (N.of_nat (length (snd kv)) <? 65536)%N) l = true ->
  Forall short_tag l.
Proof.
  intros E. apply Forall_forall. intros kv I. rewrite forallb_forall in E. apply E, andb_true_iff in I as [A B].
  apply N.ltb_lt in A, B. now split.
Qed.

(** The chat message of [chat_line], with a reply, a pinned chat and badges. *)
Example ex_c81_chat :
  let c := KPrivmsg (mk_privmsg (b "#pajlada") (b "11148817") None (b "e9d998c3")
    (mk_user (b "29803735") (b "ab") (b "A\sB"))
    (Some (mk_reply (b "t1") (b "top") (b "p1") (mk_user (b "7") (b "op") (b "OP")) (b "hi\s:)")))
    (Some (mk_pinned 1400%Z (b "USD") 2%Z TWO false)) (b "Kappa one") false
    [BSubscriber (mk_subscriber (b "24") (b "25") 25%N); BOther (mk_badge_data (b "vip") (b "1") None)]
    (Some (b "#0000FF")) None (Some 100%N) (b "25:0-4") 1594545155039%Z) in
  (exists v m, parsed Scalar chat_line v m /\ followers_fit v /\ from_irc Debug m = Ret (Some (typed_of c))) /\
  able c /\ wf_message (line c) /\ utf8_valid (render (line c)) = true /\
  Forall short_tag (m_tags (line c)) /\ below_4gib (render (line c)) /\
  render (line c) = b "@badges=subscriber/24,vip/1;badge-info=subscriber/25;bits=100;color=#0000FF;display-name=A\sB;emotes=25:0-4;id=e9d998c3;room-id=11148817;tmi-sent-ts=1594545155039;user-id=29803735;reply-thread-parent-msg-id=t1;reply-thread-parent-user-login=top;reply-parent-msg-id=p1;reply-parent-user-id=7;reply-parent-user-login=op;reply-parent-display-name=OP;reply-parent-msg-body=hi\s:);pinned-chat-paid-amount=1400;pinned-chat-paid-currency=USD;pinned-chat-paid-exponent=2;pinned-chat-paid-level=TWO;pinned-chat-paid-is-system-message=0 :ab!user@tmi.twitch.tv PRIVMSG #pajlada :Kappa one".
Proof.
  intros c.
  assert (P : exists v m, parsed Scalar chat_line v m /\ followers_fit v /\ from_irc Debug m = Ret (Some (typed_of c))).
  { eexists _, _. split; [parsed_line|]. split; [|vm_compute; reflexivity].
    intros n (x & H & _). apply has_iff in H. vm_compute in H. discriminate. }
  split; [exact P|]. destruct P as (v & m & P & FF & E).
  destruct (p_c81_parsed_message_is_writable Scalar Debug chat_line v m _ P FF E) as [K|(c' & K & A & W & U)]; [discriminate|].
  apply typed_of_inj in K. subst c'. split; [exact A|]. split; [exact W|]. split; [exact U|].
  split; [apply shorts; vm_compute; reflexivity|]. split; vm_compute; reflexivity.
Qed.

(** A gift of five subscriptions without a sender, and a whisper to a name with a hash. *)
Example ex_c81_gift :
  let c := KUserNotice (mk_user_notice (b "#c") (b "4") None None None (AnonSubMysteryGift 5%N (b "1000"))
    (b "submysterygift") [] [] None (b "77") (-1)%Z) in
  able c /\ wf_message (line c) /\ utf8_valid (render (line c)) = true /\
  Forall short_tag (m_tags (line c)) /\ below_4gib (render (line c)) /\
  render (line c) = b "@user-id=274598607;emotes=;id=77;msg-id=submysterygift;room-id=4;tmi-sent-ts=-1;msg-param-mass-gift-count=5;msg-param-sub-plan=1000 :tmi.twitch.tv USERNOTICE #c" /\
  message_parse (Simd Avx2 3) Debug (render (line c)) = Ret (Some (typed_of c)) /\
  let w := KWhisper (mk_whisper (b "#me") (mk_user (b "1") (b "a!b") (b "A")) (b "x : y") [] [] None) in
  able w /\ wf_message (line w) /\
  render (line w) = b "@display-name=A;emotes=;user-id=1 :a!b!user@tmi.twitch.tv WHISPER # #me :x : y".
Proof.
  intros c.
  assert (NI : forall s x, existsb (Byte.eqb x) s = false -> ~ In x s).
  { intros s x E I. rewrite <- not_true_iff_false in E. apply E. apply existsb_exists. exists x.
    split; [exact I|]. now destruct (byte_eqb_spec x x). }
  split; [|split; [|split; [vm_compute; reflexivity|split; [|split; [vm_compute; reflexivity|split; [vm_compute; reflexivity|split; [vm_compute; reflexivity|]]]]]]].
  - split; [split; [constructor|intros ? ? []]|]. split; [discriminate|]. split; [discriminate|].
    split; [vm_compute; split; discriminate|]. split; [right; right; now left|]. split; [right; now split|reflexivity].
  - split; [repeat constructor; apply NI; reflexivity|]. split; [repeat split; apply NI; reflexivity|].
    split; [discriminate|]. split; [discriminate|]. split; [apply NI; reflexivity|].
    split; [split; [now eexists|apply NI; reflexivity]|discriminate].
  - apply shorts. vm_compute. reflexivity.
  - intros w. split; [|split; [|vm_compute; reflexivity]].
    + split; [split; [constructor|intros ? ? []]|]. split; [discriminate|]. intros (l & r & E).
      destruct l as [|c1 [|c2 [|c3 [|c4 l]]]]; discriminate.
    + split; [repeat constructor; apply NI; reflexivity|]. split; [repeat split; apply NI; reflexivity|].
      split; [discriminate|]. split; [discriminate|]. split; [apply NI; reflexivity|].
      split; [split; [now eexists|apply NI; reflexivity]|discriminate].
Qed.
