(** * DbgProofs: the property lemmas about printed messages, C71. *)

From Verif Require Import Base Wide Common Client Tags Irc MsgBase MsgTypes MsgNotice Message SpecIrc SpecMsg SpecDbg Dbg Samples.
From Coq Require Import Lia ZifyBool ZifyNat ZifyN.
From Verif Require Import BaseFacts Utf8Facts IrcFacts IrcProofs LineProofs AccessProofs FieldFacts TypedFacts NoticeFacts TypedProofs MapFacts LiftFacts DbgFacts DbgValues DbgTyped DbgLine.

Open Scope nat_scope.

(** ** Typed messages *)

Lemma print_faithful {X Y Z : Type} (d : X -> dbg) (m : X -> Y) (r : Z -> Y) (shown : uchar -> bool) (alt : bool) :
  same d m -> (forall x z, m x = r z -> wf (d x)) ->
  faithful (texts m r) m (fun x => show shown alt (d x)).
Proof.
  intros S W x y [z Z1] [z' Z2]. rewrite <- (S x y). split; [|congruence].
  apply show_inj; eapply W; eassumption.
Qed.

(** C71. The printed form of a message, [{:?}] or [{:#?}], shows all of its
    contents and nothing else: two messages of one type print alike exactly if
    all their fields are equal. *)
Lemma p_c71_contents :
  forall (shown : uchar -> bool) (alt : bool),
    faithful (texts (join_map deref) (join_map raw)) (join_map deref) (fun x => show shown alt (dbg_join x)) /\
    faithful (texts (part_map deref) (part_map raw)) (part_map deref) (fun x => show shown alt (dbg_part x)) /\
    faithful (texts (ping_map deref) (ping_map raw)) (ping_map deref) (fun x => show shown alt (dbg_ping x)) /\
    faithful (texts (pong_map deref) (pong_map raw)) (pong_map deref) (fun x => show shown alt (dbg_pong x)) /\
    faithful (texts (notice_map deref) (notice_map raw)) (notice_map deref) (fun x => show shown alt (dbg_notice x)) /\
    faithful (texts (clear_msg_map deref) (clear_msg_map raw)) (clear_msg_map deref) (fun x => show shown alt (dbg_clear_msg x)) /\
    faithful (texts (clear_chat_map deref) (clear_chat_map raw)) (clear_chat_map deref) (fun x => show shown alt (dbg_clear_chat x)) /\
    faithful (texts (global_user_state_map deref) (global_user_state_map raw)) (global_user_state_map deref) (fun x => show shown alt (dbg_global_user_state x)) /\
    faithful (texts (user_state_map deref) (user_state_map raw)) (user_state_map deref) (fun x => show shown alt (dbg_user_state x)) /\
    faithful (texts (whisper_map deref) (whisper_map raw)) (whisper_map deref) (fun x => show shown alt (dbg_whisper x)) /\
    faithful (texts (room_state_map deref) (room_state_map raw)) (room_state_map deref) (fun x => show shown alt (dbg_room_state x)) /\
    faithful (texts (privmsg_map deref) (privmsg_map raw)) (privmsg_map deref) (fun x => show shown alt (dbg_privmsg x)) /\
    faithful (texts (user_notice_map deref) (user_notice_map raw)) (user_notice_map deref) (fun x => show shown alt (dbg_user_notice x)).
Proof.
  intros shown alt. repeat match goal with |- _ /\ _ => split end; apply print_faithful.
  - exact join_same.
  - exact wf_join.
  - exact part_same.
  - exact wf_part.
  - exact ping_same.
  - exact wf_ping.
  - exact pong_same.
  - exact wf_pong.
  - exact notice_same.
  - exact wf_notice.
  - exact clear_msg_same.
  - exact wf_clear_msg.
  - exact clear_chat_same.
  - exact wf_clear_chat.
  - exact global_user_state_same.
  - exact wf_global_user_state.
  - exact user_state_same.
  - exact wf_user_state.
  - exact whisper_same.
  - exact wf_whisper.
  - exact room_state_same.
  - exact wf_room_state.
  - exact privmsg_same.
  - exact wf_privmsg.
  - exact user_notice_same.
  - exact wf_user_notice.
Qed.

(** C71. Owned messages print as borrowed ones. *)
Lemma p_c71_owned :
  (forall x, dbg_join (join_into_owned x) = dbg_join x) /\
  (forall x, dbg_part (part_into_owned x) = dbg_part x) /\
  (forall x, dbg_ping (ping_into_owned x) = dbg_ping x) /\
  (forall x, dbg_pong (pong_into_owned x) = dbg_pong x) /\
  (forall x, dbg_notice (notice_into_owned x) = dbg_notice x) /\
  (forall x, dbg_clear_msg (clear_msg_into_owned x) = dbg_clear_msg x) /\
  (forall x, dbg_clear_chat (clear_chat_into_owned x) = dbg_clear_chat x) /\
  (forall x, dbg_global_user_state (global_user_state_into_owned x) = dbg_global_user_state x) /\
  (forall x, dbg_user_state (user_state_into_owned x) = dbg_user_state x) /\
  (forall x, dbg_whisper (whisper_into_owned x) = dbg_whisper x) /\
  (forall x, dbg_room_state (room_state_into_owned x) = dbg_room_state x) /\
  (forall x, dbg_privmsg (privmsg_into_owned x) = dbg_privmsg x) /\
  (forall x, dbg_user_notice (user_notice_into_owned x) = dbg_user_notice x).
Proof.
  repeat match goal with |- _ /\ _ => split end; intros x.
  - apply join_same. rewrite join_owned, join_map_map. apply join_map_ext. intros [t|t]; reflexivity.
  - apply part_same. rewrite part_owned, part_map_map. apply part_map_ext. intros [t|t]; reflexivity.
  - apply ping_same. rewrite ping_owned, ping_map_map. apply ping_map_ext. intros [t|t]; reflexivity.
  - apply pong_same. rewrite pong_owned, pong_map_map. apply pong_map_ext. intros [t|t]; reflexivity.
  - apply notice_same. rewrite notice_owned, notice_map_map. apply notice_map_ext. intros [t|t]; reflexivity.
  - apply clear_msg_same. rewrite clear_msg_owned, clear_msg_map_map. apply clear_msg_map_ext. intros [t|t]; reflexivity.
  - apply clear_chat_same. rewrite clear_chat_owned, clear_chat_map_map. apply clear_chat_map_ext. intros [t|t]; reflexivity.
  - apply global_user_state_same. rewrite global_user_state_owned, global_user_state_map_map. apply global_user_state_map_ext. intros [t|t]; reflexivity.
  - apply user_state_same. rewrite user_state_owned, user_state_map_map. apply user_state_map_ext. intros [t|t]; reflexivity.
  - apply whisper_same. rewrite whisper_owned, whisper_map_map. apply whisper_map_ext. intros [t|t]; reflexivity.
  - apply room_state_same. rewrite room_state_owned, room_state_map_map. apply room_state_map_ext. intros [t|t]; reflexivity.
  - apply privmsg_same. rewrite privmsg_owned, privmsg_map_map. apply privmsg_map_ext. intros [t|t]; reflexivity.
  - apply user_notice_same. rewrite user_notice_owned, user_notice_map_map. apply user_notice_map_ext. intros [t|t]; reflexivity.
Qed.

(** ** IRC messages *)

Lemma prefix_same (p q : prefix) : dbg_prefix p = dbg_prefix q <-> p = q.
Proof.
  split; [|congruence]. intros E. unfold dbg_prefix in E. peel. destruct p as [n u h], q as [n' u' h']. cbn [Irc.nick Irc.user Irc.host] in *.
  f_equal; first [now apply otext_same|now apply text_same].
Qed.

Lemma command_inj (c d : command) : dbg_command c = dbg_command d -> c = d.
Proof.
  destruct c, d; intros E; try reflexivity; try discriminate E.
  unfold dbg_command in E. apply tuple_eq in E as [_ E]. f_equal. congruence.
Qed.

Lemma pair_same (x y : str * str) : dbg_pair x = dbg_pair y <-> x = y.
Proof. destruct x, y. unfold dbg_pair. cbn [fst snd]. split; congruence. Qed.

Lemma pairs_same (l l' : list (str * str)) : dbg_list dbg_pair l = dbg_list dbg_pair l' <-> l = l'.
Proof. rewrite (list_same dbg_pair (fun x => x) pair_same l l'), !map_id. reflexivity. Qed.

Lemma oprefix_same (p q : option prefix) : dbg_option dbg_prefix p = dbg_option dbg_prefix q <-> p = q.
Proof. apply (option_id _ prefix_same). Qed.

Lemma parts_same (n : string) (t t' : list (str * str)) p p' c c' h h' q q' :
  dbg_parts n t p c h q = dbg_parts n t' p' c' h' q' <-> t = t' /\ p = p' /\ c = c' /\ h = h' /\ q = q'.
Proof.
  split; [|now intros (-> & -> & -> & -> & ->)]. intros E. unfold dbg_parts in E. peel.
  repeat split; [now apply pairs_same|now apply oprefix_same|now apply command_inj|now apply otext_same|now apply otext_same].
Qed.

Lemma wf_otext (o : option str) : (forall x, o = Some x -> ok x) -> wf (dbg_option DText o).
Proof.
  intros H. destruct o as [x|]; [|now constructor]. constructor; [reflexivity|discriminate|].
  repeat constructor. now apply H.
Qed.

Lemma wf_prefix (p : prefix) : ok_prefix p -> wf (dbg_prefix p).
Proof.
  intros (H & N & U). unfold dbg_prefix, dbg_struct. constructor; [reflexivity|discriminate|].
  repeat (constructor; [split; [reflexivity|]|]); cbn [fld snd]; [| | |constructor].
  - now apply wf_otext.
  - now apply wf_otext.
  - now constructor.
Qed.

Lemma wf_command (w : str) : ok w -> wf (dbg_command (spec_command w)).
Proof.
  intros O. unfold spec_command. destruct (assoc w known_commands) as [c|] eqn:E.
  - apply assoc_in in E. cbn [known_commands In] in E.
    repeat (destruct E as [E|E]; [injection E as <- <-; now constructor|]). destruct E.
  - constructor; [reflexivity|discriminate|]. repeat constructor. exact O.
Qed.

Lemma wf_parts (n : string) t p w h q : word (b n) = true ->
  Forall (fun kv => ok (fst kv) /\ ok (snd kv)) t -> (forall x, p = Some x -> ok_prefix x) -> ok w ->
  (forall x, h = Some x -> ok x) -> (forall x, q = Some x -> ok x) ->
  wf (dbg_parts n t p (spec_command w) h q).
Proof.
  intros N T P W H Q. unfold dbg_parts, dbg_struct. constructor; [exact N|discriminate|].
  repeat (constructor; [split; [reflexivity|]|]); cbn [fld snd]; [| | | | |constructor].
  - constructor. induction T as [|[k v] t [K V] T IH]; [constructor|]. constructor; [|exact IH].
    apply wf_pair. repeat constructor; assumption.
  - destruct p as [p|]; [|now constructor]. constructor; [reflexivity|discriminate|].
    constructor; [|constructor]. apply wf_prefix. auto.
  - now apply wf_command.
  - now apply wf_otext.
  - now apply wf_otext.
Qed.

Lemma channel_ok (v : view) : ok_view v -> forall x, spec_channel v = Some x -> ok x.
Proof.
  intros O x. assert (W : forall n, opt_bind (v_params v) (fun p => nth_error (split_whitespace p) n) = Some x -> ok x).
  { intros n E. destruct (v_params v) as [p|] eqn:P; [|discriminate]. cbn in E. apply nth_error_In in E.
    apply split_whitespace_infix in E; [apply E|]. exact (ov_params v O p P). }
  unfold spec_channel. destruct (str_eqb (v_command v) (b "353")); [apply W|].
  destruct (str_eqb (v_command v) (b "366")); [apply W|]. apply (ov_channel v O).
Qed.

(** The message printed as [n]. *)
Lemma parsed_parts (bd : build) (s : str) (v : view) (m : msg_ref) (n : string) :
  parsed bd s v m -> word (b n) = true ->
  ref_tags m = Ret (v_tags v) /\ ref_prefix m = Ret (v_prefix v) /\
  ref_command m = Ret (spec_command (v_command v)) /\ ref_channel m = Ret (spec_channel v) /\
  ref_params m = Ret (v_params v) /\
  wf (dbg_parts n (v_tags v) (v_prefix v) (spec_command (v_command v)) (spec_channel v) (v_params v)).
Proof.
  intros P N. pose proof (parsed_seen bd s v m P) as [_ C Pr Ch Pa _]. destruct P as [U S F V E].
  destruct (parse_tags bd s m U S E F) as [T _]. rewrite <- (view_tags s v V) in T.
  repeat match goal with |- _ /\ _ => split end; auto.
  pose proof (view_ok s v V U) as O. apply wf_parts; auto; try apply O. now apply channel_ok.
Qed.

(** C71. Printing a parsed message never fails, and it shows what the accessors
    return and nothing else. *)
Lemma p_c71_irc :
  forall (shown : uchar -> bool) (alt : bool) (bd bd' : build) (s s' : str) (v v' : view) (m m' : msg_ref),
    parsed bd s v m -> parsed bd' s' v' m' ->
    exists d d', dbg_ref m = Ret d /\ dbg_ref m' = Ret d' /\
      (show shown alt d = show shown alt d' <-> same_ref m m').
Proof.
  intros shown alt bd bd' s s' v v' m m' P P'.
  destruct (parsed_parts _ _ _ _ "Message" P eq_refl) as (T & Pr & C & Ch & Pa & W).
  destruct (parsed_parts _ _ _ _ "Message" P' eq_refl) as (T' & Pr' & C' & Ch' & Pa' & W').
  unfold dbg_ref, same_ref. rewrite T, Pr, C, Ch, Pa, T', Pr', C', Ch', Pa'. cbn [bind].
  eexists _, _. split; [reflexivity|]. split; [reflexivity|]. split.
  - intros E. apply show_inj in E; [|exact W|exact W']. apply parts_same in E as (-> & -> & -> & -> & ->). auto.
  - intros ([= ->] & [= ->] & [= ->] & [= ->] & [= ->]). reflexivity.
Qed.

(** C71. The same for owned messages. *)
Lemma p_c71_irc_owned :
  forall (shown : uchar -> bool) (alt : bool) (bd bd' : build) (s s' : str) (v v' : view) (m m' : msg_ref),
    parsed bd s v m -> parsed bd' s' v' m' ->
    exists o o' d d', own_parse bd s = Ret (Some o) /\ own_parse bd' s' = Ret (Some o') /\
      dbg_own o = Ret d /\ dbg_own o' = Ret d' /\
      (show shown alt d = show shown alt d' <-> same_ref m m').
Proof.
  intros shown alt bd bd' s s' v v' m m' P P'.
  destruct (parsed_parts _ _ _ _ "IrcMessage" P eq_refl) as (T & Pr & C & Ch & Pa & W).
  destruct (parsed_parts _ _ _ _ "IrcMessage" P' eq_refl) as (T' & Pr' & C' & Ch' & Pa' & W').
  pose proof (p_c15_owned_agrees bd s) as A. rewrite (pd_parse _ _ _ _ P) in A.
  pose proof (p_c15_owned_agrees bd' s') as A'. rewrite (pd_parse _ _ _ _ P') in A'.
  destruct A as (A1 & _ & _ & A2 & _ & A3 & A4 & A5 & A6). destruct A' as (B1 & _ & _ & B2 & _ & B3 & B4 & B5 & B6).
  exists (ref_into_owned m), (ref_into_owned m'). unfold dbg_own, same_ref.
  rewrite A2, A3, A4, A5, A6, B2, B3, B4, B5, B6. rewrite T, Pr, C, Ch, Pa, T', Pr', C', Ch', Pa'. cbn [bind].
  eexists _, _. split; [exact A1|]. split; [exact B1|]. split; [reflexivity|]. split; [reflexivity|]. split.
  - intros E. apply show_inj in E; [|exact W|exact W']. apply parts_same in E as (-> & -> & -> & -> & ->). auto.
  - intros ([= ->] & [= ->] & [= ->] & [= ->] & [= ->]). reflexivity.
Qed.

(** ** Any message read from a line *)

Lemma room_state_texts (pf : profile) (v : view) (m : msg_ref) (q : room_state cow) :
  seen v m -> ok_view v -> v_command v = b "ROOMSTATE" -> room_state_parse pf m = Ret (Some q) ->
  texts (room_state_map deref) (room_state_map raw) q.
Proof.
  intros H O C. unfold room_state_parse. look H C.
  destruct (v_channel v) as [ch|] eqn:E1; [|discriminate]. cbn [option_map bindo].
  destruct (lookup (b "room-id") (v_tags v)) as [id|] eqn:E2; [|discriminate]. cbn [option_map bindo].
  apply (up_channel v O) in E1 as [tc ->]. apply has_iff, (up_has v O) in E2 as [ti ->].
  match goal with |- bind ?f _ = _ -> _ => destruct f as [o| | |]; try discriminate end.
  intros [= <-]. eexists (mk_room_state tc ti _ _ _ _ _). reflexivity.
Qed.

(** What is read from a line has texts in UTF-8. *)
Lemma typed_texts (bd : build) (pf : profile) (s : str) (v : view) (m : msg_ref) (t : typed) :
  parsed bd s v m -> from_irc pf m = Ret (Some t) ->
  match t with
  | MReconnect => True
  | MOther m' => m' = m
  | MJoin x => texts (join_map deref) (join_map raw) x
  | MPart x => texts (part_map deref) (part_map raw) x
  | MPing x => texts (ping_map deref) (ping_map raw) x
  | MPong x => texts (pong_map deref) (pong_map raw) x
  | MNotice x => texts (notice_map deref) (notice_map raw) x
  | MClearMsg x => texts (clear_msg_map deref) (clear_msg_map raw) x
  | MClearChat x => texts (clear_chat_map deref) (clear_chat_map raw) x
  | MGlobalUserState x => texts (global_user_state_map deref) (global_user_state_map raw) x
  | MUserState x => texts (user_state_map deref) (user_state_map raw) x
  | MWhisper x => texts (whisper_map deref) (whisper_map raw) x
  | MRoomState x => texts (room_state_map deref) (room_state_map raw) x
  | MPrivmsg x => texts (privmsg_map deref) (privmsg_map raw) x
  | MUserNotice x => texts (user_notice_map deref) (user_notice_map raw) x
  end.
Proof.
  intros P K. pose proof (parsed_seen bd s v m P) as H. destruct P as [U S F V E].
  pose proof (view_ok s v V U) as O. pose proof (lifts_text v O) as L.
  pose proof (p_c22_variant_is_command bd pf s v m t U S V E K) as C.
  pose proof (dispatch (reads_command bd s v m U S V E) _ _ K) as D.
  destruct t; cbn [variant_word] in C; try exact I; [..|exact (proj1 D)].
  - apply (clear_chat_iff v m _ H C) in D as (x & -> & X). apply (up_clear_chat v raw L) in X as [z ->].
    exists z. now rewrite !clear_chat_map_map.
  - apply (clear_msg_iff v m _ H C) in D as (x & -> & X). apply (up_clear_msg v raw L) in X as [z ->].
    exists z. now rewrite !clear_msg_map_map.
  - apply (global_user_state_iff v m _ H C) in D as (x & -> & X). apply (up_global_user_state v raw L) in X as [z ->].
    exists z. now rewrite !global_user_state_map_map.
  - apply (join_iff v m _ H C) in D as (x & -> & X). apply (up_join v raw L) in X as [z ->].
    exists z. now rewrite !join_map_map.
  - apply (notice_iff v m _ H C) in D as (x & -> & X). apply (up_notice v raw L) in X as [z ->].
    exists z. now rewrite !notice_map_map.
  - apply (part_iff v m _ H C) in D as (x & -> & X). apply (up_part v raw L) in X as [z ->].
    exists z. now rewrite !part_map_map.
  - apply (ping_iff v m _ H C) in D as (x & -> & X). apply (up_ping v raw L) in X as [z ->].
    exists z. now rewrite !ping_map_map.
  - apply (pong_iff v m _ H C) in D as (x & -> & X). apply (up_pong v raw L) in X as [z ->].
    exists z. now rewrite !pong_map_map.
  - apply (privmsg_iff v m _ H C) in D as (x & -> & X). apply (up_privmsg v raw L) in X as [z ->].
    exists z. now rewrite !privmsg_map_map.
  - exact (room_state_texts pf v m _ H O C D).
  - apply (user_notice_iff v m _ H C) in D as (x & -> & X). apply (up_user_notice v raw L) in X as [z ->].
    exists z. now rewrite !user_notice_map_map.
  - apply (user_state_iff v m _ H C) in D as (x & -> & X). apply (up_user_state v raw L) in X as [z ->].
    exists z. now rewrite !user_state_map_map.
  - apply (whisper_iff v m _ H C) in D as (x & -> & X). apply (up_whisper v raw L) in X as [z ->].
    exists z. now rewrite !whisper_map_map.
Qed.

(** The tree of a message with texts in UTF-8. *)
Lemma typed_wf (bd : build) (pf : profile) (s : str) (v : view) (m : msg_ref) (t : typed) :
  parsed bd s v m -> from_irc pf m = Ret (Some t) -> exists d, dbg_typed t = Ret d /\ wf d.
Proof.
  intros P K. pose proof (typed_texts bd pf s v m t P K) as X.
  destruct t; cbn [dbg_typed];
    try (lazymatch type of X with texts _ _ _ => idtac end; destruct X as [z X]; eexists; split; [reflexivity|]; constructor; [reflexivity|discriminate|];
         constructor; [|constructor]; eauto using wf_join, wf_part, wf_ping, wf_pong, wf_notice, wf_clear_msg, wf_clear_chat, wf_global_user_state, wf_user_state, wf_whisper, wf_room_state, wf_privmsg, wf_user_notice).
  - eexists. split; [reflexivity|]. now constructor.
  - subst. destruct (parsed_parts _ _ _ _ "Message" P eq_refl) as (T & Pr & C & Ch & Pa & W).
    unfold dbg_ref. rewrite T, Pr, C, Ch, Pa. cbn [bind]. eexists. split; [reflexivity|].
    constructor; [reflexivity|discriminate|]. constructor; [exact W|constructor].
Qed.

Lemma ret_tuple (n n' : str) (d d' : dbg) : Ret (DTuple n [d]) = Ret (DTuple n' [d']) -> n = n' /\ d = d'.
Proof. intros E. split; congruence. Qed.

Lemma other_tree (m : msg_ref) (d : dbg) : (let! e := dbg_ref m in Ret (DTuple (b "Other") [e])) = Ret d ->
  exists e, dbg_ref m = Ret e /\ d = DTuple (b "Other") [e].
Proof. intros H. destruct (dbg_ref m) as [e| | |]; try discriminate H. exists e. split; [reflexivity|]. cbn [bind] in H. congruence. Qed.

(** C71. The message of a line is always printed, and two lines print alike
    exactly if they have the same variant with the same contents. *)
Lemma p_c71_message :
  forall (shown : uchar -> bool) (alt : bool) (bd bd' : build) (pf pf' : profile) (s s' : str) (v v' : view)
         (m m' : msg_ref) (t t' : typed),
    parsed bd s v m -> from_irc pf m = Ret (Some t) -> parsed bd' s' v' m' -> from_irc pf' m' = Ret (Some t') ->
    exists d d', dbg_typed t = Ret d /\ dbg_typed t' = Ret d' /\
      (show shown alt d = show shown alt d' <-> same_message t t').
Proof.
  intros shown alt bd bd' pf pf' s s' v v' m m' t t' P K P' K'.
  destruct (typed_wf _ _ _ _ _ _ P K) as (d & D & W). destruct (typed_wf _ _ _ _ _ _ P' K') as (d' & D' & W').
  exists d, d'. split; [exact D|]. split; [exact D'|].
  assert (Q : show shown alt d = show shown alt d' <-> d = d').
  { split; [now apply show_inj|congruence]. }
  rewrite Q. clear Q W W'.
  assert (R : forall x y e e', t = MOther x -> t' = MOther y -> dbg_ref x = Ret e -> dbg_ref y = Ret e' ->
              (e = e' <-> same_ref x y)).
  { intros x y e e' -> -> E E'. pose proof (typed_texts _ _ _ _ _ _ P K) as X.
    pose proof (typed_texts _ _ _ _ _ _ P' K') as X'. cbn in X, X'. subst x y.
    destruct (parsed_parts _ _ _ _ "Message" P eq_refl) as (T & Pr & C & Ch & Pa & _).
    destruct (parsed_parts _ _ _ _ "Message" P' eq_refl) as (T' & Pr' & C' & Ch' & Pa' & _).
    unfold dbg_ref, same_ref in *. rewrite T, Pr, C, Ch, Pa in *. rewrite T', Pr', C', Ch', Pa' in *. cbn [bind] in *.
    assert (Xe : dbg_parts "Message" (v_tags v) (v_prefix v) (spec_command (v_command v)) (spec_channel v) (v_params v) = e) by congruence. rewrite <- Xe.
    assert (Xe' : dbg_parts "Message" (v_tags v') (v_prefix v') (spec_command (v_command v')) (spec_channel v') (v_params v') = e') by congruence. rewrite <- Xe'.
    rewrite parts_same. split.
    - now intros (-> & -> & -> & -> & ->).
    - intros ([= ->] & [= ->] & [= ->] & [= ->] & [= ->]). auto. }
  clear P K P' K'. split.
  - intros <-. assert (E : dbg_typed t = dbg_typed t') by congruence.
    destruct t, t'; cbn [dbg_typed] in E, D, D';
      try (apply other_tree in D as (e & D & _); rewrite D in E);
      try (apply other_tree in D' as (e' & D' & _); rewrite D' in E);
      cbn [bind] in E; try discriminate E;
      try (apply ret_tuple in E as [E1 E]; try discriminate E1); constructor.
    all: try now (first [apply join_same in E | apply part_same in E | apply ping_same in E | apply pong_same in E | apply notice_same in E | apply clear_msg_same in E | apply clear_chat_same in E | apply global_user_state_same in E | apply user_state_same in E | apply whisper_same in E | apply room_state_same in E | apply privmsg_same in E | apply user_notice_same in E]).
    exact (proj1 (R _ _ _ _ eq_refl eq_refl D D') E).
  - intros S. destruct S; cbn [dbg_typed] in D, D';
      try (match goal with H : _ _ _ = _ _ _ |- _ => first [apply join_same in H | apply part_same in H | apply ping_same in H | apply pong_same in H | apply notice_same in H | apply clear_msg_same in H | apply clear_chat_same in H | apply global_user_state_same in H | apply user_state_same in H | apply whisper_same in H | apply room_state_same in H | apply privmsg_same in H | apply user_notice_same in H] end; congruence).
    + congruence.
    + apply other_tree in D as (e & D & ->). apply other_tree in D' as (e' & D' & ->).
      do 2 f_equal. now apply (R _ _ _ _ eq_refl eq_refl D D').
Qed.

(** C71. On one line ([{:?}]) there are no control characters, in particular no
    line breaks, whatever the line contained. *)
Lemma p_c71_one_line :
  forall (shown : uchar -> bool) (bd : build) (pf : profile) (s : str) (v : view) (m : msg_ref),
    parsed bd s v m ->
    (exists d, dbg_ref m = Ret d /\ Forall visible (show shown false d)) /\
    (exists o d, own_parse bd s = Ret (Some o) /\ dbg_own o = Ret d /\ Forall visible (show shown false d)) /\
    (forall t, from_irc pf m = Ret (Some t) -> exists d, dbg_typed t = Ret d /\ Forall visible (show shown false d)).
Proof.
  intros shown bd pf s v m P. split; [|split].
  - destruct (parsed_parts _ _ _ _ "Message" P eq_refl) as (T & Pr & C & Ch & Pa & W).
    unfold dbg_ref. rewrite T, Pr, C, Ch, Pa. cbn [bind]. eexists. split; [reflexivity|]. now apply show_visible.
  - destruct (parsed_parts _ _ _ _ "IrcMessage" P eq_refl) as (T & Pr & C & Ch & Pa & W).
    pose proof (p_c15_owned_agrees bd s) as A. rewrite (pd_parse _ _ _ _ P) in A.
    destruct A as (A1 & _ & _ & A2 & _ & A3 & A4 & A5 & A6).
    exists (ref_into_owned m). unfold dbg_own. rewrite A2, A3, A4, A5, A6, T, Pr, C, Ch, Pa. cbn [bind].
    eexists. split; [exact A1|]. split; [reflexivity|]. now apply show_visible.
  - intros t K. destruct (typed_wf _ _ _ _ _ _ P K) as (d & D & W). exists d. split; [exact D|]. now apply show_visible.
Qed.

(** ** Times *)

Open Scope Z_scope.

Lemma next_day_inj (x y : date) : is_date x -> is_date y -> next_day x = next_day y -> x = y.
Proof.
  destruct x as [[a m] d], y as [[a' m'] d']. unfold is_date, next_day. intros X Y E.
  pose proof (month_max a m). pose proof (month_max a' m').
  assert (M : forall y, month_days y 12 = 31) by reflexivity.
  destruct (Z.ltb_spec d (month_days a m)), (Z.ltb_spec d' (month_days a' m'));
    [|destruct (Z.ltb_spec m' 12)|destruct (Z.ltb_spec m 12)|destruct (Z.ltb_spec m 12), (Z.ltb_spec m' 12)];
    injection E; intros; clear E; try (exfalso; lia).
  - subst. f_equal; lia.
  - assert (m = m') by lia. subst m' a'. f_equal; lia.
  - assert (m = 12) by lia. assert (m' = 12) by lia. assert (a = a') by lia. subst a' m m'. rewrite !M in *. f_equal; lia.
Qed.

Lemma calendar_civil (k : Z) (x : date) : calendar k x -> x = civil k.
Proof.
  induction 1 as [|k x C IH|k x D C IH]; [reflexivity| |].
  - rewrite (proj1 (civil_next k)). now f_equal.
  - destruct (civil_next k) as [E F]. rewrite E in IH. now apply next_day_inj.
Qed.

(** C71. Times are printed as the date and time of day in UTC, of any year. *)
Lemma p_c71_time : forall ms : Z, time_text ms (time_debug ms).
Proof. exact time_debug_text. Qed.

(** C71. Each day has exactly one date, another for each day. *)
Lemma p_c71_calendar :
  (forall k : Z, exists! x, calendar k x) /\
  (forall (k : Z) (x : date), calendar k x -> is_date x) /\
  (forall (k k' : Z) (x : date), calendar k x -> calendar k' x -> k = k').
Proof.
  split; [|split].
  - intros k. exists (civil k). split; [apply civil_calendar|]. intros x C. symmetry. now apply calendar_civil.
  - intros k x C. rewrite (calendar_civil k x C). apply civil_next.
  - intros k k' x C C'. apply civil_inj. now rewrite <- (calendar_civil k x C), <- (calendar_civil k' x C').
Qed.

(** C71. Different times print differently. *)
Lemma p_c71_times_differ : forall ms ms' : Z, time_debug ms = time_debug ms' -> ms = ms'.
Proof. exact time_inj. Qed.

Close Scope Z_scope.

(** ** Configuration *)

Lemma wf_config (cf : config) : utf8_valid (login (cf_credentials cf)) = true -> wf (dbg_config cf).
Proof.
  intros U. unfold dbg_config, dbg_credentials, dbg_backoff, dbg_struct.
  constructor; [reflexivity|discriminate|].
  repeat (constructor; [split; [reflexivity|]|]); cbn [fld snd]; [| | |constructor].
  - constructor; [reflexivity|discriminate|]. repeat (constructor; [split; [reflexivity|]|]); [|constructor]. now constructor.
  - apply wf_nanos.
  - constructor; [reflexivity|discriminate|].
    repeat (constructor; [split; [reflexivity|]|]); cbn [fld snd]; [| | | |constructor];
      [apply wf_some, wf_u64|apply wf_nanos|apply wf_u64|apply wf_nanos].
Qed.

(** C71. A printed configuration shows everything but the token. *)
Lemma p_c71_config :
  forall (shown : uchar -> bool) (alt : bool) (cf cf' : config),
    utf8_valid (login (cf_credentials cf)) = true -> utf8_valid (login (cf_credentials cf')) = true ->
    (show shown alt (dbg_config cf) = show shown alt (dbg_config cf') <->
     login (cf_credentials cf) = login (cf_credentials cf') /\ cf_timeout cf = cf_timeout cf' /\
     cf_backoff cf = cf_backoff cf').
Proof.
  intros shown alt cf cf' U U'. split.
  - intros E. apply show_inj in E; [|now apply wf_config|now apply wf_config].
    unfold dbg_config in E. peel. split; [|split].
    + match goal with H : dbg_credentials _ = dbg_credentials _ |- _ =>
        exact (f_equal (fun d => match d with DStruct _ [(_, DText x)] _ => x | _ => [] end) H) end.
    + now apply nanos_same.
    + destruct (cf_backoff cf), (cf_backoff cf'). unfold dbg_backoff in *. cbn [Client.max_tries Client.initial_delay Client.delay_multiplier Client.max_delay] in *.
      peel. f_equal; first [now apply ou64_same | now apply nanos_same | now apply u64_same].
  - intros (E1 & E2 & E3). unfold dbg_config, dbg_credentials. now rewrite E1, E2, E3.
Qed.

(** ** Strings *)

(** C71. A printed text is in quotes, shows which text it is, and has no control
    characters. *)
Lemma p_c71_text :
  forall (shown : uchar -> bool) (s s' : str), utf8_valid s = true -> utf8_valid s' = true ->
    (str_debug shown s = str_debug shown s' -> s = s') /\
    Forall visible (str_debug shown s) /\ exists t, str_debug shown s = [x22] ++ t ++ [x22].
Proof.
  intros shown s s' U U'. split; [|split].
  - intros E. apply (str_debug_inj shown s s' [] [] U U'). now rewrite E.
  - now apply str_debug_visible.
  - eexists. reflexivity.
Qed.

(** C71. A channel is printed with its name. *)
Lemma p_c71_channel :
  forall (shown : uchar -> bool) (alt : bool) (c c' : str), utf8_valid c = true -> utf8_valid c' = true ->
    (show shown alt (dbg_channel_ref c) = show shown alt (dbg_channel_ref c') <-> c = c').
Proof.
  intros shown alt c c' U U'. split; [|congruence]. intros E. apply show_inj in E.
  - unfold dbg_channel_ref in E. congruence.
  - constructor; [reflexivity|discriminate|]. repeat constructor. exact U.
  - constructor; [reflexivity|discriminate|]. repeat constructor. exact U'.
Qed.

(** C71. What is printed does not show the line: two lines can print alike. *)
Lemma p_c71_line_shown_refuted :
  exists (s s' : str) (v v' : view) (m m' : msg_ref) (d : dbg),
    parsed Scalar s v m /\ parsed Scalar s' v' m' /\ s <> s' /\ dbg_ref m = Ret d /\ dbg_ref m' = Ret d.
Proof.
  exists (b "PING"), (b "PING "). eexists _, _, _, _, _.
  split; [parsed_line|]. split; [parsed_line|]. split; [discriminate|]. split; vm_compute; reflexivity.
Qed.

(** ** Examples *)

(** All characters beyond ASCII printed as they are. *)
Definition all_shown (c : uchar) : bool := true.

Example ex_c71_message :
  exists (v v' : view) (m m' : msg_ref) (t t' : typed) (d d' : dbg),
    parsed Scalar (b ":a!b@c JOIN #x") v m /\ from_irc Release m = Ret (Some t) /\
    parsed (Simd Sse2 3) (b "@x=1;y :a!z@h JOIN #x ") v' m' /\ from_irc Release m' = Ret (Some t') /\
    same_message t t' /\ dbg_typed t = Ret d /\ dbg_typed t' = Ret d' /\
    show all_shown false d = b "Join(Join { channel: ""#x"", user: ""a"" })" /\
    show all_shown false d' = show all_shown false d.
Proof.
  eexists _, _, _, _, _, _, _, _. split; [parsed_line|]. split; [vm_compute; reflexivity|].
  split; [parsed_line|]. split; [vm_compute; reflexivity|].
  split; [constructor; reflexivity|]. do 2 (split; [vm_compute; reflexivity|]). split; vm_compute; reflexivity.
Qed.

Example ex_c71_one_line :
  exists (v : view) (m : msg_ref) (d : dbg),
    parsed Scalar (b "PING :a" ++ [x0a; x1b] ++ b "[31m ""é\") v m /\
    dbg_ref m = Ret d /\
    show all_shown false d =
      b "Message { tags: [], prefix: None, command: Ping, channel: None, params: Some("":a\n\u{1b}[31m \""é\\"") }".
Proof.
  eexists _, _, _. split; [parsed_line|]. split; [vm_compute; reflexivity|]. vm_compute. reflexivity.
Qed.

(** A message and its owned copy, and one that differs in one field. *)
Example ex_c71_contents :
  let x := mk_clear_chat (Borrowed (b "#c")) (Borrowed (b "1")) (TimeOut (Borrowed (b "bob")) (Borrowed (b "2")) 60%N) 0%Z in
  let y := mk_clear_chat (Borrowed (b "#c")) (Borrowed (b "1")) (TimeOut (Borrowed (b "bob")) (Borrowed (b "2")) 61%N) 0%Z in
  texts (clear_chat_map deref) (clear_chat_map raw) x /\
  show all_shown false (dbg_clear_chat x) =
    b "ClearChat { channel: ""#c"", channel_id: ""1"", action: TimeOut(TimeOut { user: ""bob"", id: ""2"", duration: 60s }), timestamp: 1970-01-01T00:00:00Z }" /\
  show all_shown false (dbg_clear_chat (clear_chat_into_owned x)) = show all_shown false (dbg_clear_chat x) /\
  show all_shown false (dbg_clear_chat y) <> show all_shown false (dbg_clear_chat x).
Proof.
  cbv zeta. split.
  - pose (t := fun s (H : utf8_valid s = true) => exist (fun s => utf8_valid s = true) s H : text).
    exists (mk_clear_chat (t (b "#c") eq_refl) (t (b "1") eq_refl) (TimeOut (t (b "bob") eq_refl) (t (b "2") eq_refl) 60%N) 0%Z).
    reflexivity.
  - split; [vm_compute; reflexivity|]. split; [vm_compute; reflexivity|]. vm_compute. discriminate.
Qed.

Example ex_c71_time :
  time_debug 1709164800001 = b "2024-02-29T00:00:00.001Z" /\ time_debug (-1) = b "1969-12-31T23:59:59.999Z" /\
  calendar (-1) (1969, 12, 31)%Z.
Proof.
  split; [vm_compute; reflexivity|]. split; [vm_compute; reflexivity|].
  apply day_before; [vm_compute; intuition discriminate|]. exact epoch.
Qed.

Example ex_c71_config :
  let cf t := mk_config (mk_credentials (b "me") (Some t)) default_timeout backoff_default in
  show all_shown false (dbg_config (cf (b "secret"))) =
    b "Config { credentials: Credentials { nick: ""me"", .. }, timeout: 30s, backoff: Backoff { max_tries: Some(8), initial_delay: 1s, delay_multiplier: 3, max_delay: 12s } }" /\
  show all_shown false (dbg_config (cf (b "other"))) = show all_shown false (dbg_config (cf (b "secret"))).
Proof. split; vm_compute; reflexivity. Qed.

Example ex_c71_text : str_debug all_shown (b "it's é" ++ [x09]) = [x22] ++ b "it's é\t" ++ [x22].
Proof. vm_compute. reflexivity. Qed.
