(** * GettersProofs: the property lemmas about the methods of typed messages, C70. *)

From Verif Require Import Base Wide Tags Irc Unescape SpecIrc SpecText MsgBase MsgTypes MsgNotice Message SpecMsg Samples Getters SpecGetters.
From Coq Require Import Lia ZifyBool ZifyNat ZifyN.
From Verif Require Import BaseFacts IrcFacts IrcProofs LineProofs AccessProofs UnescapeProofs FieldFacts TypedFacts NoticeFacts MapFacts TypedProofs FieldProofs.

(** ** The same strings *)

Lemma clone_deref (c : cow) : deref (maybe_clone c) = deref c.
Proof. now destruct c. Qed.

(** ** Texts *)

(** The values of the tags are texts. *)
Definition texts (v : view) : Prop := forall n x, has v n x -> utf8_valid x = true.

Lemma parsed_texts (bd : build) (s : str) (v : view) (m : msg_ref) : parsed bd s v m -> texts v.
Proof.
  intros P n x H. apply has_iff in H.
  pose proof (sn_tag _ _ (parsed_seen _ _ _ _ P) (TUnknown (b n))) as R.
  change (tag_as_str (TUnknown (b n))) with (b n) in R. rewrite H in R.
  destruct (parse_reads bd s m (pd_utf8 _ _ _ _ P) (pd_size _ _ _ _ P) (pd_parse _ _ _ _ P)) as (v' & V & RD).
  destruct (p_c10_parts_of_the_line m) as (_ & T & _); [rewrite (rd_raw _ _ _ RD); apply P|].
  now destruct (T _ _ R).
Qed.

Lemma reads_name (v : view) (n : string) (c : cow) : texts v -> has v n (deref c) -> unescapes v n (maybe_unescape c).
Proof.
  intros V H. destruct (p_c20_shown c (V _ _ H)) as (c' & E & N). exists (deref c), c'.
  split; [exact H|]. split; [exact E|]. now apply N.
Qed.

Lemma reads_user (v : view) (i l n : string) (u : user_info cow) :
  texts v -> user_of v i l n (user_map deref u) -> tells_user v i l n u.
Proof. intros V (A & B & C). split; [exact A|]. split; [exact B|]. now apply reads_name. Qed.

Lemma reads_promo (v : view) (o : option (promo cow)) :
  opt (promo_of v) (option_map (promo_map deref) o) ->
  match o with Some x => tells_promo v x | None => forall x, ~ promo_of v x end.
Proof. now destruct o. Qed.

(** ** Badges *)

Lemma plain_special (n : str) : ~ In n special_badges -> ~ In n plain_badges.
Proof. intros H K. apply H. cbn in K |- *. intuition. Qed.

Lemma reads_badge (n w : str) (e : option str) (x : badge cow) :
  is_badge n w e (badge_map deref x) -> tells_badge n w e x.
Proof.
  assert (P : forall k, let d := as_badge_data x in In k plain_badges -> k <> b "subscriber" ->
    get_badge_data_name d = k -> get_badge_data_version d = b "1" -> get_badge_data_extra d = None ->
    n = k -> tells_badge n w e x).
  { intros k d K1 K2 D1 D2 D3 ->. unfold tells_badge. fold d. repeat split; auto; try contradiction. }
  unfold is_badge. destruct x as [| | | |sb|d]; cbn [badge_map].
  - intros ->. now apply (P (b "staff")); [cbn; auto 6|discriminate| | | |].
  - intros ->. now apply (P (b "turbo")); [cbn; auto 6|discriminate| | | |].
  - intros ->. now apply (P (b "broadcaster")); [cbn; auto 6|discriminate| | | |].
  - intros ->. now apply (P (b "moderator")); [cbn; auto 6|discriminate| | | |].
  - intros (-> & V & M). unfold tells_badge. cbv zeta.
    assert (Q : ~ In (b "subscriber") plain_badges) by (cbn; intros [K|[K|[K|[K|[]]]]]; discriminate K).
    repeat split; try contradiction; auto. intros _. exists sb. split; [reflexivity|]. split; [exact V|].
    destruct e as [e|]; destruct M as (M1 & M2); cbn in M1, M2 |- *; rewrite M1; auto.
  - intros (S & D). unfold badge_data_map in D. injection D as D1 D2 D3.
    pose proof (plain_special n S) as Q. unfold tells_badge. cbv zeta.
    repeat split; try contradiction; auto. intros ->. exfalso. apply S. cbn. auto 8.
Qed.

Lemma reads_badges (v : view) (l : list (badge cow)) :
  has_badges v (map (badge_map deref) l) -> tells_badges v l (length l).
Proof.
  intros H. split; [reflexivity|]. destruct H as [(x & y & X & Y & items & extras & I & E & F)|(N & H)].
  - left. exists x, y, items, extras. repeat (split; [assumption|]). clear - F.
    remember (map (badge_map deref) l) as k eqn:K. revert l K. induction F as [|nv q items k Q F IH]; intros [|z l] K; try discriminate K; constructor.
    + injection K as -> _. destruct Q as (e & Q1 & Q2). exists e. split; [exact Q1|]. now apply reads_badge.
    + apply IH. now injection K.
  - right. split; [exact N|]. now destruct l.
Qed.

(** ** Messages *)

Lemma reads_join (v : view) (q : join_msg cow) : join_of v (join_map deref q) -> tells_join v q.
Proof. exact (fun H => H). Qed.

Lemma reads_part (v : view) (q : part_msg cow) : part_of v (part_map deref q) -> tells_part v q.
Proof. exact (fun H => H). Qed.

Lemma reads_ping (v : view) (q : ping_msg cow) : ping_of v (ping_map deref q) -> tells_ping v q.
Proof. exact (fun H => H). Qed.

Lemma reads_pong (v : view) (q : pong_msg cow) : pong_of v (pong_map deref q) -> tells_pong v q.
Proof. exact (fun H => H). Qed.

Lemma reads_notice (v : view) (q : notice_msg cow) : notice_of v (notice_map deref q) -> tells_notice v q.
Proof. exact (fun H => H). Qed.

Lemma reads_clear_msg (v : view) (q : clear_msg cow) : clear_msg_of v (clear_msg_map deref q) -> tells_clear_msg v q.
Proof. exact (fun H => H). Qed.

Lemma reads_room_state (v : view) (q : room_state cow) : room_state_of v (room_state_map deref q) -> tells_room_state v q.
Proof. exact (fun H => H). Qed.

Lemma reads_clear_chat (v : view) (q : clear_chat cow) : clear_chat_of v (clear_chat_map deref q) -> tells_clear_chat v q.
Proof.
  intros (A & B & C & D). split; [exact A|]. split; [exact B|]. split; [exact D|].
  unfold clear_chat_target, get_clear_chat_action. cbn [clear_chat_map cc_action] in C.
  destruct (cc_action q) as [|u i|u i d]; cbn [action_map action_of opt] in *.
  - split; [intros x (p & K & _); congruence|]. split; [reflexivity|]. split; contradiction.
  - destruct C as (C1 & C2 & C3). split; [exact C1|]. split; [|split].
    + intros K. destruct C1 as (p & C1 & _). congruence.
    + intros _ d K. now destruct (C3 d).
    + intros _ _. split; [reflexivity|]. exists (deref u), (deref i). auto.
  - destruct C as (C1 & C2 & C3). split; [exact C1|]. split; [|split].
    + intros K. destruct C1 as (p & C1 & _). congruence.
    + intros _ d' K. split; [reflexivity|]. split.
      * cbn. f_equal. apply has_u64_iff in C3, K. congruence.
      * exists (deref u), (deref i). auto.
    + intros _ K. now destruct (K d).
Qed.

Lemma reads_global_user_state (v : view) (q : global_user_state cow) :
  texts v -> global_user_state_of v (global_user_state_map deref q) -> tells_global_user_state v q.
Proof.
  intros TV (A & B & C & D & E). split; [exact A|]. split; [now apply reads_name|]. split; [now apply reads_badges|].
  split; [exact D|]. split; [|exact E]. symmetry. apply map_length.
Qed.

Lemma reads_user_state (v : view) (q : user_state cow) :
  user_state_of v (user_state_map deref q) -> tells_user_state v q.
Proof.
  intros (A & B & C & D & E). split; [exact A|]. split; [exact B|]. split; [now apply reads_badges|].
  split; [exact D|]. split; [|exact E]. symmetry. apply map_length.
Qed.

Lemma reads_whisper (v : view) (q : whisper_msg cow) : texts v -> whisper_of v (whisper_map deref q) -> tells_whisper v q.
Proof.
  intros TV (A & B & C & D & E & F & G). split; [exact A|]. split.
  - split; [exact B|]. split; [exact C|]. now apply reads_name.
  - split; [now apply reads_badges|]. split; assumption.
Qed.

Lemma reads_reply (v : view) (r : reply cow) : texts v -> reply_of v (reply_map deref r) -> tells_reply v r.
Proof.
  intros TV (A & B & C & D & E). split; [exact A|]. split; [exact B|]. split; [exact C|]. split; [now apply reads_user|].
  now apply reads_name.
Qed.

Lemma reads_privmsg (v : view) (q : privmsg cow) : texts v -> privmsg_of v (privmsg_map deref q) -> tells_privmsg v q.
Proof.
  intros TV (A1 & A2 & A3 & A4 & A5 & A6 & A7 & A8 & A9 & A10 & A11 & A12 & A13 & A14 & A15 & A16).
  unfold tells_privmsg. repeat (split; [assumption|]). split.
  { split; [exact A5|]. split; [exact A6|]. now apply reads_name. }
  split.
  { clear - A8 TV. unfold get_privmsg_reply_to. cbn [privmsg_map pm_reply_to] in A8.
    destruct (pm_reply_to q); [now apply reads_reply|exact A8]. }
  split.
  { clear - A9. unfold get_privmsg_pinned_chat. cbn [privmsg_map pm_pinned_chat] in A9.
    destruct (pm_pinned_chat q); exact A9. }
  split; [exact A10|]. split; [now apply reads_badges|]. repeat (split; [assumption|]). exact A16.
Qed.

(** Ends the cases with another message id. *)
Ltac wrong_id :=
  let K := fresh in
  intros K; exfalso; cbn [In] in K;
  repeat match type of K with _ \/ _ => destruct K as [K|K] end;
  try match type of K with _ /\ _ => destruct K as [K _] end;
  solve [discriminate K | destruct K].

Ltac each := repeat match goal with |- _ /\ _ => split end.

Ltac told := each; first [eassumption | reflexivity | now apply reads_name | now apply reads_user | now apply reads_promo | idtac].

Lemma reads_event (v : view) (id : str) (e : event cow) : texts v -> event_of v id (event_map deref e) -> tells_event v id e.
Proof.
  intros TV. unfold tells_event. destruct e; cbn [event_map event_of].
  - intros (-> & A & B & C & D). split; [|destruct is_resub; each; wrong_id].
    intros _. do 4 eexists. split; [now destruct is_resub|]. told.
  - intros (-> & A & B). each; try wrong_id. intros _. do 2 eexists. told.
  - intros (I & A & B & C & D & E). assert (J : id = b "subgift" \/ id = b "anonsubgift") by (cbn in I; intuition).
    destruct J as [-> | ->]; (each; try wrong_id); intros _; do 5 eexists; told.
  - intros (-> & N & A & B & C). each; try wrong_id.
    + intros _ _. do 3 eexists. told.
    + intros [K|[_ K]]; [discriminate K|contradiction].
  - intros (I & A & B). destruct I as [-> | (-> & I)]; (each; try wrong_id).
    + intros _. do 2 eexists. told.
    + intros _ N. contradiction.
    + intros _. do 2 eexists. told.
  - intros (-> & A & B & C). each; try wrong_id. intros _. do 3 eexists. told.
  - intros (-> & A). each; try wrong_id. intros _. eexists. told.
  - intros (-> & A). each; try wrong_id. intros _. eexists. told.
  - intros (-> & A). each; try wrong_id. intros _. eexists. told.
  - intros (-> & A). each; try wrong_id. intros _. eexists. told.
  - intros N.
    each; intros K; exfalso; cbn [In] in K; repeat match type of K with _ \/ _ => destruct K as [K|K] end;
      try match type of K with _ /\ _ => destruct K as [K _] end; try contradiction; subst id; apply N;
      unfold known_events; cbn [In]; auto 20.
Qed.

Lemma reads_user_notice (v : view) (q : user_notice cow) :
  texts v -> user_notice_of v (user_notice_map deref q) -> tells_user_notice v q.
Proof.
  intros TV (A1 & A2 & A3 & A4 & A5 & A6 & A7 & A8 & A9 & A10 & A11 & A12).
  unfold tells_user_notice. split; [exact A1|]. split; [exact A2|]. split; [exact A7|]. split.
  { clear - A3 TV. unfold get_user_notice_sender, get_user_notice_event_id. cbn [user_notice_map un_sender un_event_id] in A3.
    destruct (un_sender q); [|exact A3]. destruct A3 as (N & U). split; [exact N|]. now apply reads_user. }
  split; [exact A4|]. unfold user_notice_system_message. cbn [user_notice_map un_system_message] in A5. split; [|split].
  - intros x X. destruct (un_system_message q) as [c|]; cbn [option_map opt] in A5; [|now destruct (A5 x)].
    rewrite <- (same_tag _ _ _ _ (proj1 A5) (proj1 X)).
    destruct (p_c20_shown c (TV _ _ (proj1 A5))) as (r & R & D). exists r. split; [now rewrite R|]. now apply D.
  - intros N. destruct (un_system_message q) as [c|]; cbn [option_map opt] in A5; [now destruct (N (deref c))|reflexivity].
  - split; [now apply reads_event|]. split; [now apply reads_badges|]. repeat (split; [assumption|]). exact A12.
Qed.

(** ** C70 *)

(** C70. The methods of a JOIN return what its line says, also after [into_owned]. *)
Lemma p_c70_join :
  forall (bd : build) (s : str) (v : view) (m : msg_ref) (q : join_msg cow),
    parsed bd s v m -> v_command v = b "JOIN" -> join_parse m = Ret (Some q) ->
    tells_join v q /\ tells_join v (join_into_owned q).
Proof.
  intros bd s v m q P C Q. apply (p_c23_join bd s v m q P C) in Q as (x & -> & X).
  split; apply reads_join; [|rewrite join_owned, (join_map_map deref), (join_map_ext _ _ clone_deref)];
    now rewrite join_map_deref.
Qed.

(** C70. The methods of a PART return what its line says, also after [into_owned]. *)
Lemma p_c70_part :
  forall (bd : build) (s : str) (v : view) (m : msg_ref) (q : part_msg cow),
    parsed bd s v m -> v_command v = b "PART" -> part_parse m = Ret (Some q) ->
    tells_part v q /\ tells_part v (part_into_owned q).
Proof.
  intros bd s v m q P C Q. apply (p_c23_part bd s v m q P C) in Q as (x & -> & X).
  split; apply reads_part; [|rewrite part_owned, (part_map_map deref), (part_map_ext _ _ clone_deref)];
    now rewrite part_map_deref.
Qed.

(** C70. The methods of a PING return what its line says, also after [into_owned]. *)
Lemma p_c70_ping :
  forall (bd : build) (s : str) (v : view) (m : msg_ref) (q : ping_msg cow),
    parsed bd s v m -> v_command v = b "PING" -> ping_parse m = Ret (Some q) ->
    tells_ping v q /\ tells_ping v (ping_into_owned q).
Proof.
  intros bd s v m q P C Q. apply (p_c24_ping bd s v m q P C) in Q as (x & -> & X).
  split; apply reads_ping; [|rewrite ping_owned, (ping_map_map deref), (ping_map_ext _ _ clone_deref)];
    now rewrite ping_map_deref.
Qed.

(** C70. The methods of a PONG return what its line says, also after [into_owned]. *)
Lemma p_c70_pong :
  forall (bd : build) (s : str) (v : view) (m : msg_ref) (q : pong_msg cow),
    parsed bd s v m -> v_command v = b "PONG" -> pong_parse m = Ret (Some q) ->
    tells_pong v q /\ tells_pong v (pong_into_owned q).
Proof.
  intros bd s v m q P C Q. apply (p_c24_pong bd s v m q P C) in Q as (x & -> & X).
  split; apply reads_pong; [|rewrite pong_owned, (pong_map_map deref), (pong_map_ext _ _ clone_deref)];
    now rewrite pong_map_deref.
Qed.

(** C70. The methods of a NOTICE return what its line says, also after [into_owned]. *)
Lemma p_c70_notice :
  forall (bd : build) (s : str) (v : view) (m : msg_ref) (q : notice_msg cow),
    parsed bd s v m -> v_command v = b "NOTICE" -> notice_parse m = Ret (Some q) ->
    tells_notice v q /\ tells_notice v (notice_into_owned q).
Proof.
  intros bd s v m q P C Q. apply (p_c25_notice bd s v m q P C) in Q as (x & -> & X).
  split; apply reads_notice; [|rewrite notice_owned, (notice_map_map deref), (notice_map_ext _ _ clone_deref)];
    now rewrite notice_map_deref.
Qed.

(** C70. The methods of a CLEARMSG return what its line says, also after [into_owned]. *)
Lemma p_c70_clear_msg :
  forall (bd : build) (s : str) (v : view) (m : msg_ref) (q : clear_msg cow),
    parsed bd s v m -> v_command v = b "CLEARMSG" -> clear_msg_parse m = Ret (Some q) ->
    tells_clear_msg v q /\ tells_clear_msg v (clear_msg_into_owned q).
Proof.
  intros bd s v m q P C Q. apply (p_c27_clear_msg bd s v m q P C) in Q as (x & -> & X).
  split; apply reads_clear_msg; [|rewrite clear_msg_owned, (clear_msg_map_map deref), (clear_msg_map_ext _ _ clone_deref)];
    now rewrite clear_msg_map_deref.
Qed.

(** C70. The methods of a CLEARCHAT return what its line says, also after [into_owned]. *)
Lemma p_c70_clear_chat :
  forall (bd : build) (s : str) (v : view) (m : msg_ref) (q : clear_chat cow),
    parsed bd s v m -> v_command v = b "CLEARCHAT" -> clear_chat_parse m = Ret (Some q) ->
    tells_clear_chat v q /\ tells_clear_chat v (clear_chat_into_owned q).
Proof.
  intros bd s v m q P C Q. apply (p_c26_clear_chat bd s v m q P C) in Q as (x & -> & X).
  split; apply reads_clear_chat; [|rewrite clear_chat_owned, (clear_chat_map_map deref), (clear_chat_map_ext _ _ clone_deref)];
    now rewrite clear_chat_map_deref.
Qed.

(** C70. The methods of a GLOBALUSERSTATE return what its line says, also after [into_owned]. *)
Lemma p_c70_global_user_state :
  forall (bd : build) (s : str) (v : view) (m : msg_ref) (q : global_user_state cow),
    parsed bd s v m -> v_command v = b "GLOBALUSERSTATE" -> global_user_state_parse m = Ret (Some q) ->
    tells_global_user_state v q /\ tells_global_user_state v (global_user_state_into_owned q).
Proof.
  intros bd s v m q P C Q. apply (p_c32_global_user_state bd s v m q P C) in Q as (x & -> & X).
  split; apply reads_global_user_state; try exact (parsed_texts _ _ _ _ P); [|rewrite global_user_state_owned, (global_user_state_map_map deref), (global_user_state_map_ext _ _ clone_deref)];
    now rewrite global_user_state_map_deref.
Qed.

(** C70. The methods of a USERSTATE return what its line says, also after [into_owned]. *)
Lemma p_c70_user_state :
  forall (bd : build) (s : str) (v : view) (m : msg_ref) (q : user_state cow),
    parsed bd s v m -> v_command v = b "USERSTATE" -> user_state_parse m = Ret (Some q) ->
    tells_user_state v q /\ tells_user_state v (user_state_into_owned q).
Proof.
  intros bd s v m q P C Q. apply (p_c32_user_state bd s v m q P C) in Q as (x & -> & X).
  split; apply reads_user_state; [|rewrite user_state_owned, (user_state_map_map deref), (user_state_map_ext _ _ clone_deref)];
    now rewrite user_state_map_deref.
Qed.

(** C70. The methods of a WHISPER return what its line says, also after [into_owned]. *)
Lemma p_c70_whisper :
  forall (bd : build) (s : str) (v : view) (m : msg_ref) (q : whisper_msg cow),
    parsed bd s v m -> v_command v = b "WHISPER" -> whisper_parse m = Ret (Some q) ->
    tells_whisper v q /\ tells_whisper v (whisper_into_owned q).
Proof.
  intros bd s v m q P C Q. apply (p_c31_whisper bd s v m q P C) in Q as (x & -> & X).
  split; apply reads_whisper; try exact (parsed_texts _ _ _ _ P); [|rewrite whisper_owned, (whisper_map_map deref), (whisper_map_ext _ _ clone_deref)];
    now rewrite whisper_map_deref.
Qed.

(** C70. The methods of a PRIVMSG return what its line says, also after [into_owned]. *)
Lemma p_c70_privmsg :
  forall (bd : build) (s : str) (v : view) (m : msg_ref) (q : privmsg cow),
    parsed bd s v m -> v_command v = b "PRIVMSG" -> privmsg_parse m = Ret (Some q) ->
    tells_privmsg v q /\ tells_privmsg v (privmsg_into_owned q).
Proof.
  intros bd s v m q P C Q. apply (p_c28_privmsg bd s v m q P C) in Q as (x & -> & X).
  split; apply reads_privmsg; try exact (parsed_texts _ _ _ _ P); [|rewrite privmsg_owned, (privmsg_map_map deref), (privmsg_map_ext _ _ clone_deref)];
    now rewrite privmsg_map_deref.
Qed.

(** C70. The methods of a USERNOTICE return what its line says, also after [into_owned]. *)
Lemma p_c70_user_notice :
  forall (bd : build) (s : str) (v : view) (m : msg_ref) (q : user_notice cow),
    parsed bd s v m -> v_command v = b "USERNOTICE" -> user_notice_parse m = Ret (Some q) ->
    tells_user_notice v q /\ tells_user_notice v (user_notice_into_owned q).
Proof.
  intros bd s v m q P C Q. apply (p_c34_user_notice bd s v m q P C) in Q as (x & -> & X).
  split; apply reads_user_notice; try exact (parsed_texts _ _ _ _ P); [|rewrite user_notice_owned, (user_notice_map_map deref), (user_notice_map_ext _ _ clone_deref)];
    now rewrite user_notice_map_deref.
Qed.

(** C70. What belongs to one kind of event is there for no other. *)
Lemma p_c70_no_other_event :
  forall (bd : build) (s : str) (v : view) (m : msg_ref) (q : user_notice cow),
    parsed bd s v m -> v_command v = b "USERNOTICE" -> user_notice_parse m = Ret (Some q) ->
    only_its_event v (get_user_notice_event_id q) (get_user_notice_event q).
Proof.
  intros bd s v m q P C Q. apply (p_c34_user_notice bd s v m q P C) in Q as (x & -> & X).
  destruct X as (_ & _ & _ & _ & _ & E & _). unfold get_user_notice_event_id, get_user_notice_event, only_its_event.
  change (deref (un_event_id (user_notice_map Borrowed x))) with (un_event_id x).
  destruct x as [? ? ? ? ? e id]. cbn [un_event un_event_id user_notice_map] in *.
  destruct e as [[]| | | | | | | | | |]; cbn [event_of event_map] in E; cbn;
    repeat apply conj; intros K; try (exfalso; tauto); cbn [In] in *; intuition auto.
Qed.

(** C70. What belongs to a ban or to a timeout is there for nothing else. *)
Lemma p_c70_no_other_action :
  forall (bd : build) (s : str) (v : view) (m : msg_ref) (q : clear_chat cow),
    parsed bd s v m -> v_command v = b "CLEARCHAT" -> clear_chat_parse m = Ret (Some q) ->
    let a := get_clear_chat_action q in
    (is_clear a = true <-> v_params v = None) /\
    (is_ban a = true <-> v_params v <> None /\ forall d, ~ has_u64 v "ban-duration" d) /\
    (is_time_out a = true <-> v_params v <> None /\ exists d, has_u64 v "ban-duration" d) /\
    (get_ban_user a <> None \/ get_ban_id a <> None -> is_ban a = true) /\
    (get_time_out_user a <> None \/ get_time_out_id a <> None \/ get_time_out_duration a <> None -> is_time_out a = true).
Proof.
  intros bd s v m q P C Q a. apply (p_c26_clear_chat bd s v m q P C) in Q as (x & -> & X).
  destruct x as [ch id act tm]. destruct X as (_ & _ & X & _). cbn in X, a. subst a.
  destruct act as [|u i|u i d]; cbn in *; [|destruct X as ((p & E & _) & _ & X)..].
  - rewrite X. repeat split; try discriminate; intros; intuition congruence.
  - rewrite E. split; [split; discriminate|]. split; [split; [intros _; split; [discriminate|exact X]|reflexivity]|].
    split; [split; [discriminate|intros (_ & d & K); now destruct (X d)]|]. split; [reflexivity|]. intuition congruence.
  - rewrite E. split; [split; discriminate|]. split; [split; [discriminate|intros (_ & K); now destruct (K d)]|].
    split; [split; [intros _; split; [discriminate|eauto]|reflexivity]|]. split; [intuition congruence|reflexivity].
Qed.

(** C70. The methods of a ROOMSTATE return what its line says, also after [into_owned],
    while the followers-only minutes fit. *)
Lemma p_c70_room_state :
  forall (bd : build) (pf : profile) (s : str) (v : view) (m : msg_ref) (q : room_state cow),
    parsed bd s v m -> v_command v = b "ROOMSTATE" -> followers_fit v -> room_state_parse pf m = Ret (Some q) ->
    tells_room_state v q /\ tells_room_state v (room_state_into_owned q).
Proof.
  intros bd pf s v m q P C F Q. apply (p_c33_room_state bd pf s v m q P C F) in Q as (x & -> & X).
  split; apply reads_room_state; [|rewrite room_state_owned, (room_state_map_map deref), (room_state_map_ext _ _ clone_deref)];
    now rewrite room_state_map_deref.
Qed.

(** C70. The badge data of a badge does not always have the version written in the
    badges tag: the four badges with a variant of their own report version 1. *)
Lemma p_c70_badge_version_refuted :
  exists (s : str) (v : view) (m : msg_ref) (q : privmsg cow) (x : badge cow),
    parsed Scalar s v m /\ v_command v = b "PRIVMSG" /\ privmsg_parse m = Ret (Some q) /\
    has v "badges" (b "moderator/2") /\ get_privmsg_badges q = [x] /\
    get_badge_data_name (as_badge_data x) = b "moderator" /\ get_badge_data_version (as_badge_data x) <> b "2".
Proof.
  exists (b "@badge-info=;badges=moderator/2;display-name=A;id=1;room-id=2;tmi-sent-ts=5;user-id=3 :a!a@a PRIVMSG #c :x").
  eexists _, _, _, _. split; [parsed_line|]. split; [reflexivity|]. split; [vm_compute; reflexivity|].
  split; [apply has_iff; vm_compute; reflexivity|]. split; [reflexivity|]. split; [reflexivity|]. discriminate.
Qed.

Example ex_c70 :
  exists v m q r y, parsed Scalar chat_line v m /\ v_command v = b "PRIVMSG" /\ privmsg_parse m = Ret (Some q) /\
    get_privmsg_text q = b "Kappa one" /\ get_user_login (get_privmsg_sender q) = b "ab" /\
    user_name (get_privmsg_sender q) = Ret (Owned (b "A B")) /\
    get_privmsg_reply_to q = Some r /\ reply_text r = Ret (Owned (b "hi :)")) /\
    get_privmsg_num_badges q = 2 /\ get_privmsg_badges q = [BSubscriber y; BOther (mk_badge_data (Borrowed (b "vip")) (Borrowed (b "1")) None)] /\
    get_subscriber_version y = b "24" /\ get_subscriber_months y = 25%N /\
  exists v' m' q', parsed Scalar (sub_line (b "resub") (b "5")) v' m' /\ v_command v' = b "USERNOTICE" /\
    user_notice_parse m' = Ret (Some q') /\ user_notice_system_message q' = Ret (Some (Owned (b "x 5"))) /\
    get_sub_cumulative_months (get_user_notice_event q') = Some 5%N /\
    get_sub_streak_months (get_user_notice_event q') = Some None /\
  exists v2 m2 q2, parsed Scalar (b "@ban-duration=600;room-id=4;target-user-id=9;tmi-sent-ts=5 :tmi.twitch.tv CLEARCHAT #c :bob") v2 m2 /\
    v_command v2 = b "CLEARCHAT" /\ clear_chat_parse m2 = Ret (Some q2) /\
    get_time_out_user (get_clear_chat_action q2) = Some (b "bob") /\ get_ban_user (get_clear_chat_action q2) = None /\
    get_time_out_id (get_clear_chat_action (clear_chat_into_owned q2)) = Some (b "9").
Proof.
  eexists _, _, _, _, _. split; [parsed_line|]. split; [reflexivity|]. split; [vm_compute; reflexivity|].
  do 9 (split; [reflexivity|]).
  eexists _, _, _. split; [parsed_line|]. split; [reflexivity|]. split; [vm_compute; reflexivity|].
  do 3 (split; [reflexivity|]).
  eexists _, _, _. split; [parsed_line|]. split; [reflexivity|]. split; [vm_compute; reflexivity|].
  do 2 (split; [reflexivity|]). reflexivity.
Qed.
