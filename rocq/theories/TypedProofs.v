(** * TypedProofs: the property lemmas about typed messages, C22-C29 and C31-C35. *)

From Verif Require Import Base Wide Tags Irc Unescape SpecIrc SpecText MsgBase MsgTypes MsgNotice Message SpecMsg Samples.
From Coq Require Import Lia ZifyBool ZifyNat ZifyN.
From Verif Require Import BaseFacts IrcFacts IrcProofs LineProofs AccessProofs UnescapeProofs FieldFacts TypedFacts NoticeFacts MapFacts.

Lemma all_short_check (s : str) :
  forallb (fun kv : str * str => (N.of_nat (length (fst kv)) <? 65536)%N && (N.of_nat (length (snd kv)) <? 65536)%N)
    (fst (spec_tags s)) = true -> all_short s.
Proof.
  intros K. apply all_short_spec, Forall_forall. intros kv I. rewrite forallb_forall in K. apply K in I.
  unfold short. lia.
Qed.

Ltac parsed_line :=
  split; [vm_compute; reflexivity | vm_compute; reflexivity
         | apply all_short_check; vm_compute; reflexivity
         | vm_compute; reflexivity | vm_compute; reflexivity].

(** ** C22 *)

Lemma word_of_command (w : str) (c : command) :
  spec_command w = c -> (exists x, c = Other x) \/ In (w, c) known_commands.
Proof.
  unfold spec_command. destruct (assoc w known_commands) as [k|] eqn:E.
  - intros <-. right. now apply assoc_in.
  - intros <-. left. eauto.
Qed.

Ltac wrong_word :=
  let K := fresh "K" in
  match goal with
  | E : spec_command ?w = _, N : ?w <> _ |- _ =>
    exfalso; apply N; apply word_of_command in E as [[? K]|K]; [discriminate|];
    cbn [known_commands In] in K;
    repeat (destruct K as [K|K]; [try discriminate K; injection K as <-; reflexivity|]); destruct K
  end.

Section Dispatch.
Context {v : view} {m : msg_ref} (C : ref_command m = Ret (spec_command (v_command v))).

Ltac refuse := intros N; rewrite C; cbn [bind];
  destruct (spec_command (v_command v)) eqn:E; try reflexivity; wrong_word.

Lemma join_refuses : v_command v <> b "JOIN" -> join_parse m = Ret None.
Proof. unfold join_parse. refuse. Qed.
Lemma part_refuses : v_command v <> b "PART" -> part_parse m = Ret None.
Proof. unfold part_parse. refuse. Qed.
Lemma ping_refuses : v_command v <> b "PING" -> ping_parse m = Ret None.
Proof. unfold ping_parse. refuse. Qed.
Lemma pong_refuses : v_command v <> b "PONG" -> pong_parse m = Ret None.
Proof. unfold pong_parse. refuse. Qed.
Lemma notice_refuses : v_command v <> b "NOTICE" -> notice_parse m = Ret None.
Proof. unfold notice_parse. refuse. Qed.
Lemma clear_msg_refuses : v_command v <> b "CLEARMSG" -> clear_msg_parse m = Ret None.
Proof. unfold clear_msg_parse. refuse. Qed.
Lemma clear_chat_refuses : v_command v <> b "CLEARCHAT" -> clear_chat_parse m = Ret None.
Proof. unfold clear_chat_parse. refuse. Qed.
Lemma global_user_state_refuses : v_command v <> b "GLOBALUSERSTATE" -> global_user_state_parse m = Ret None.
Proof. unfold global_user_state_parse. refuse. Qed.
Lemma user_state_refuses : v_command v <> b "USERSTATE" -> user_state_parse m = Ret None.
Proof. unfold user_state_parse. refuse. Qed.
Lemma whisper_refuses : v_command v <> b "WHISPER" -> whisper_parse m = Ret None.
Proof. unfold whisper_parse. refuse. Qed.
Lemma room_state_refuses (pf : profile) : v_command v <> b "ROOMSTATE" -> room_state_parse pf m = Ret None.
Proof. unfold room_state_parse. refuse. Qed.
Lemma privmsg_refuses : v_command v <> b "PRIVMSG" -> privmsg_parse m = Ret None.
Proof. unfold privmsg_parse. refuse. Qed.
Lemma user_notice_refuses : v_command v <> b "USERNOTICE" -> user_notice_parse m = Ret None.
Proof. unfold user_notice_parse. refuse. Qed.

Lemma into_some {A : Type} (f : A -> typed) (r : res (option A)) (t : typed) :
  into f r = Ret (Some t) <-> exists x, r = Ret (Some x) /\ t = f x.
Proof.
  unfold into. destruct r as [[x|]| | |]; cbn [bindo]; split; try discriminate.
  - intros [= <-]. eauto.
  - intros (y & [= ->] & ->). reflexivity.
  - intros (y & [=] & _).
  - intros (y & [=] & _).
  - intros (y & [=] & _).
  - intros (y & [=] & _).
Qed.

Lemma not_typed : ~ In (v_command v) typed_words ->
  forall pf, from_irc pf m = Ret (Some (MOther m)).
Proof.
  intros N pf. unfold from_irc. rewrite C. cbn [bind].
  destruct (spec_command (v_command v)) eqn:E; try reflexivity; exfalso; apply N;
    apply word_of_command in E as [[? E]|E]; try discriminate E; cbn [known_commands In] in E;
    repeat (destruct E as [E|E]; [try discriminate E; injection E as <-; cbn [typed_words In]; tauto|]); destruct E.
Qed.

Lemma dispatch (pf : profile) (t : typed) :
  from_irc pf m = Ret (Some t) ->
  match t with
  | MClearChat x => clear_chat_parse m = Ret (Some x)
  | MClearMsg x => clear_msg_parse m = Ret (Some x)
  | MGlobalUserState x => global_user_state_parse m = Ret (Some x)
  | MJoin x => join_parse m = Ret (Some x)
  | MNotice x => notice_parse m = Ret (Some x)
  | MPart x => part_parse m = Ret (Some x)
  | MPing x => ping_parse m = Ret (Some x)
  | MPong x => pong_parse m = Ret (Some x)
  | MPrivmsg x => privmsg_parse m = Ret (Some x)
  | MReconnect => v_command v = b "RECONNECT"
  | MRoomState x => room_state_parse pf m = Ret (Some x)
  | MUserNotice x => user_notice_parse m = Ret (Some x)
  | MUserState x => user_state_parse m = Ret (Some x)
  | MWhisper x => whisper_parse m = Ret (Some x)
  | MOther m' => m' = m /\ ~ In (v_command v) typed_words
  end.
Proof.
  unfold from_irc. rewrite C. cbn [bind].
  destruct (in_dec (list_eq_dec Byte.byte_eq_dec) (v_command v) typed_words) as [I|N].
  - destruct (spec_command (v_command v)) eqn:E; intros K;
      try (apply into_some in K as (x & K & ->); exact K);
      try (exfalso; cbn [typed_words In] in I;
           repeat (destruct I as [I|I]; [rewrite <- I in E; vm_compute in E; discriminate E|]); exact I).
    injection K as <-. apply word_of_command in E as [[? E]|E]; [discriminate|]. cbn [known_commands In] in E.
    repeat (destruct E as [E|E]; [try discriminate E; injection E as <-; reflexivity|]). destruct E.
  - pose proof (not_typed N pf) as K. unfold from_irc in K. rewrite C in K. cbn [bind] in K. rewrite K.
    intros [= <-]. auto.
Qed.
End Dispatch.

Lemma reads_command (bd : build) (s : str) (v : view) (m : msg_ref) :
  utf8_valid s = true -> below_4gib s -> spec_view s = Some v -> ref_parse bd s = Ret (Some m) ->
  ref_command m = Ret (spec_command (v_command v)).
Proof.
  intros U S V E. destruct (parse_reads bd s m U S E) as (v' & V' & [_ _ R _ _ _]). congruence.
Qed.

(** C22. Each variant is produced exactly when its own parser accepts the
    message; [Reconnect] and [Other] exactly for their commands. *)
Lemma p_c22_variants :
  forall (bd : build) (pf : profile) (s : str) (v : view) (m : msg_ref),
    utf8_valid s = true -> below_4gib s -> spec_view s = Some v -> ref_parse bd s = Ret (Some m) ->
    let is t := from_irc pf m = Ret (Some t) in
    (forall x, is (MClearChat x) <-> clear_chat_parse m = Ret (Some x)) /\
    (forall x, is (MClearMsg x) <-> clear_msg_parse m = Ret (Some x)) /\
    (forall x, is (MGlobalUserState x) <-> global_user_state_parse m = Ret (Some x)) /\
    (forall x, is (MJoin x) <-> join_parse m = Ret (Some x)) /\
    (forall x, is (MNotice x) <-> notice_parse m = Ret (Some x)) /\
    (forall x, is (MPart x) <-> part_parse m = Ret (Some x)) /\
    (forall x, is (MPing x) <-> ping_parse m = Ret (Some x)) /\
    (forall x, is (MPong x) <-> pong_parse m = Ret (Some x)) /\
    (forall x, is (MPrivmsg x) <-> privmsg_parse m = Ret (Some x)) /\
    (forall x, is (MRoomState x) <-> room_state_parse pf m = Ret (Some x)) /\
    (forall x, is (MUserNotice x) <-> user_notice_parse m = Ret (Some x)) /\
    (forall x, is (MUserState x) <-> user_state_parse m = Ret (Some x)) /\
    (forall x, is (MWhisper x) <-> whisper_parse m = Ret (Some x)) /\
    (is MReconnect <-> v_command v = b "RECONNECT") /\
    (forall m', is (MOther m') <-> ~ In (v_command v) typed_words /\ m' = m).
Proof.
  intros bd pf s v m U S V E is. pose proof (reads_command bd s v m U S V E) as C. unfold is.
  Ltac one C :=
    let K := fresh "K" in let EC := fresh "EC" in
    intros x; split; [intros K; exact (dispatch C _ _ K)|];
    intros K; unfold from_irc; rewrite C; cbn [bind];
    match goal with
    | |- context [spec_command ?w] => destruct (spec_command w) eqn:EC
    end;
    first [ now rewrite K
          | exfalso; cbv beta delta [clear_chat_parse clear_msg_parse
            global_user_state_parse join_parse notice_parse part_parse ping_parse pong_parse privmsg_parse
            room_state_parse user_notice_parse user_state_parse whisper_parse] in K;
            rewrite C in K; discriminate K ].
  split; [one C|].
  repeat match goal with |- _ /\ _ => split end; try solve [one C].
  - split; [intros K; exact (dispatch C _ _ K)|]. intros K. unfold from_irc. rewrite C, K. reflexivity.
  - intros m'. split.
    + intros K. apply (dispatch C) in K as [-> N]. auto.
    + intros [N ->]. now apply (not_typed C).
Qed.

(** C22. The variant is always the one of the command, [Other] holds the message
    itself and stands for every command without a typed form. *)
Lemma p_c22_variant_is_command :
  forall (bd : build) (pf : profile) (s : str) (v : view) (m : msg_ref) (t : typed),
    utf8_valid s = true -> below_4gib s -> spec_view s = Some v -> ref_parse bd s = Ret (Some m) ->
    from_irc pf m = Ret (Some t) ->
    match variant_word t with
    | Some w => v_command v = w
    | None => t = MOther m /\ ~ In (v_command v) typed_words
    end.
Proof.
  intros bd pf s v m t U S V E K. pose proof (reads_command bd s v m U S V E) as C.
  apply (dispatch C) in K.
  Ltac word C v := match goal with
    | |- v_command v = ?w => destruct (list_eq_dec Byte.byte_eq_dec (v_command v) w) as [|N]; [assumption|exfalso] end.
  destruct t; cbn [variant_word]; try (word C v).
  - rewrite (clear_chat_refuses C N) in K. discriminate.
  - rewrite (clear_msg_refuses C N) in K. discriminate.
  - rewrite (global_user_state_refuses C N) in K. discriminate.
  - rewrite (join_refuses C N) in K. discriminate.
  - rewrite (notice_refuses C N) in K. discriminate.
  - rewrite (part_refuses C N) in K. discriminate.
  - rewrite (ping_refuses C N) in K. discriminate.
  - rewrite (pong_refuses C N) in K. discriminate.
  - rewrite (privmsg_refuses C N) in K. discriminate.
  - now apply N.
  - rewrite (room_state_refuses C _ N) in K. discriminate.
  - rewrite (user_notice_refuses C N) in K. discriminate.
  - rewrite (user_state_refuses C N) in K. discriminate.
  - rewrite (whisper_refuses C N) in K. discriminate.
  - destruct K as [-> K]. auto.
Qed.

(** C22. RECONNECT and the commands without a typed form cannot fail. *)
Lemma p_c22_never_fail :
  forall (bd : build) (pf : profile) (s : str) (v : view) (m : msg_ref),
    utf8_valid s = true -> below_4gib s -> spec_view s = Some v -> ref_parse bd s = Ret (Some m) ->
    (v_command v = b "RECONNECT" -> from_irc pf m = Ret (Some MReconnect)) /\
    (~ In (v_command v) typed_words -> from_irc pf m = Ret (Some (MOther m))).
Proof.
  intros bd pf s v m U S V E. pose proof (reads_command bd s v m U S V E) as C. split.
  - intros K. unfold from_irc. rewrite C, K. reflexivity.
  - intros N. now apply (not_typed C).
Qed.

(** C22. Each [X::from_irc] refuses every other command. *)
Lemma p_c22_refuse_other_commands :
  forall (bd : build) (pf : profile) (s : str) (v : view) (m : msg_ref),
    utf8_valid s = true -> below_4gib s -> spec_view s = Some v -> ref_parse bd s = Ret (Some m) ->
    (v_command v <> b "CLEARCHAT" -> clear_chat_parse m = Ret None) /\
    (v_command v <> b "CLEARMSG" -> clear_msg_parse m = Ret None) /\
    (v_command v <> b "GLOBALUSERSTATE" -> global_user_state_parse m = Ret None) /\
    (v_command v <> b "JOIN" -> join_parse m = Ret None) /\
    (v_command v <> b "NOTICE" -> notice_parse m = Ret None) /\
    (v_command v <> b "PART" -> part_parse m = Ret None) /\
    (v_command v <> b "PING" -> ping_parse m = Ret None) /\
    (v_command v <> b "PONG" -> pong_parse m = Ret None) /\
    (v_command v <> b "PRIVMSG" -> privmsg_parse m = Ret None) /\
    (v_command v <> b "ROOMSTATE" -> room_state_parse pf m = Ret None) /\
    (v_command v <> b "USERNOTICE" -> user_notice_parse m = Ret None) /\
    (v_command v <> b "USERSTATE" -> user_state_parse m = Ret None) /\
    (v_command v <> b "WHISPER" -> whisper_parse m = Ret None).
Proof.
  intros bd pf s v m U S V E. pose proof (reads_command bd s v m U S V E) as C.
  split; [apply (clear_chat_refuses C)|]. split; [apply (clear_msg_refuses C)|].
  split; [apply (global_user_state_refuses C)|]. split; [apply (join_refuses C)|].
  split; [apply (notice_refuses C)|]. split; [apply (part_refuses C)|]. split; [apply (ping_refuses C)|].
  split; [apply (pong_refuses C)|]. split; [apply (privmsg_refuses C)|]. split; [apply (room_state_refuses C)|].
  split; [apply (user_notice_refuses C)|]. split; [apply (user_state_refuses C)|]. apply (whisper_refuses C).
Qed.

(** C22. [Message::parse] and both [as_typed] give the same result, and parse
    failure of the line is the only other failure. *)
Lemma p_c22_entry_points :
  forall (bd : build) (pf : profile) (s : str),
    match ref_parse bd s with
    | Ret (Some m) =>
      message_parse bd pf s = from_irc pf m /\ ref_as_typed pf m = from_irc pf m /\
      exists o, own_parse bd s = Ret (Some o) /\ own_as_typed pf o = from_irc pf m
    | Ret None => message_parse bd pf s = Ret None
    | _ => message_parse bd pf s = Panic
    end.
Proof.
  intros bd pf s. pose proof (p_c15_owned_agrees bd s) as O. unfold message_parse.
  destruct (ref_parse bd s) as [[m|]| | |]; cbn [bindo]; auto; try now destruct O.
  destruct O as (O1 & O2 & _). split; [reflexivity|]. split; [reflexivity|].
  exists (ref_into_owned m). split; [exact O1|]. unfold own_as_typed. now rewrite O2.
Qed.

Example ex_c22 :
  exists v m, parsed (Simd Sse2 0) (b ":tmi.twitch.tv RECONNECT") v m /\
    from_irc Debug m = Ret (Some MReconnect) /\
    exists v' m', parsed Scalar (b "001 nick :Welcome, GLHF!") v' m' /\
      ~ In (v_command v') typed_words /\ from_irc Release m' = Ret (Some (MOther m')).
Proof.
  eexists _, _. split; [parsed_line|]. split; [vm_compute; reflexivity|].
  eexists _, _. split; [parsed_line|]. split; [|vm_compute; reflexivity].
  cbn [v_command typed_words In]. intros I. repeat (destruct I as [I|I]; [discriminate I|]). exact I.
Qed.

(** ** Totality and acceptance *)

Lemma accepts {A : Type} (r : res (option A)) (req : Prop) :
  (exists o, r = Ret o) -> ((exists q, r = Ret (Some q)) <-> req) ->
  (req -> exists q, r = Ret (Some q)) /\ (~ req -> r = Ret None).
Proof.
  intros (o & ->) K. split; [apply K|]. intros N. destruct o as [q|]; [|reflexivity].
  exfalso. apply N, K. eauto.
Qed.

(** Every field of a typed parser reads something, so the parser returns. *)
Ltac returns :=
  repeat (cbn [bind bindo option_map rmap];
    match goal with
    | |- exists o, Ret _ = Ret o => eexists; reflexivity
    | |- exists o, match option_map _ ?x with Some _ => _ | None => _ end = _ => destruct x
    | |- exists o, match ?x with Some _ => _ | None => _ end = _ => destruct x
    | |- exists o, (let (_, _) := ?x in _) = _ => destruct x
    | |- exists o, bindo (Ret (option_map _ ?x)) _ = _ => destruct x
    | |- exists o, bindo (Ret ?x) _ = _ => destruct x
    | |- exists o, bindo (match ?x with Some _ => _ | None => _ end) _ = _ => destruct x
    | |- exists o, bindo (match option_map _ ?x with Some _ => _ | None => _ end) _ = _ => destruct x
    end).

(** The optional fields of a described message exist in any case. *)
Ltac fill :=
  repeat match goal with |- _ /\ _ => split end;
  try eassumption; cbn; try eassumption;
  try (apply opt_has_iff; reflexivity); try (apply opt_filled_iff; reflexivity);
  try (apply opt_u64_iff; reflexivity); try (apply opt_flag_iff; reflexivity);
  try (apply opt_text_iff; reflexivity); try (apply opt_channel_iff; reflexivity);
  try (apply has_or_iff; reflexivity); try (apply has_list_iff; reflexivity);
  try (apply has_badges_iff; reflexivity); try (apply reply_iff; reflexivity);
  try (apply pinned_iff; reflexivity); try (apply opt_followers_iff; reflexivity).

Section Returns.
Context {v : view} {m : msg_ref} (H : seen v m).

Lemma join_returns : exists o, join_parse m = Ret o.
Proof.
  destruct (list_eq_dec Byte.byte_eq_dec (v_command v) (b "JOIN")) as [C|N];
    [|rewrite (join_refuses (sn_command _ _ H) N); eauto].
  unfold join_parse. look H C. returns.
Qed.

Lemma part_returns : exists o, part_parse m = Ret o.
Proof.
  destruct (list_eq_dec Byte.byte_eq_dec (v_command v) (b "PART")) as [C|N];
    [|rewrite (part_refuses (sn_command _ _ H) N); eauto].
  unfold part_parse. look H C. returns.
Qed.

Lemma ping_returns : exists o, ping_parse m = Ret o.
Proof.
  destruct (list_eq_dec Byte.byte_eq_dec (v_command v) (b "PING")) as [C|N];
    [|rewrite (ping_refuses (sn_command _ _ H) N); eauto].
  unfold ping_parse. look H C. returns.
Qed.

Lemma pong_returns : exists o, pong_parse m = Ret o.
Proof.
  destruct (list_eq_dec Byte.byte_eq_dec (v_command v) (b "PONG")) as [C|N];
    [|rewrite (pong_refuses (sn_command _ _ H) N); eauto].
  unfold pong_parse. look H C. returns.
Qed.

Lemma notice_returns : exists o, notice_parse m = Ret o.
Proof.
  destruct (list_eq_dec Byte.byte_eq_dec (v_command v) (b "NOTICE")) as [C|N];
    [|rewrite (notice_refuses (sn_command _ _ H) N); eauto].
  unfold notice_parse. look H C. returns.
Qed.

Lemma clear_msg_returns : exists o, clear_msg_parse m = Ret o.
Proof.
  destruct (list_eq_dec Byte.byte_eq_dec (v_command v) (b "CLEARMSG")) as [C|N];
    [|rewrite (clear_msg_refuses (sn_command _ _ H) N); eauto].
  unfold clear_msg_parse. look H C. returns.
Qed.

Lemma clear_chat_returns : exists o, clear_chat_parse m = Ret o.
Proof.
  destruct (list_eq_dec Byte.byte_eq_dec (v_command v) (b "CLEARCHAT")) as [C|N];
    [|rewrite (clear_chat_refuses (sn_command _ _ H) N); eauto].
  unfold clear_chat_parse. look H C. returns.
Qed.

Lemma global_user_state_returns : exists o, global_user_state_parse m = Ret o.
Proof.
  destruct (list_eq_dec Byte.byte_eq_dec (v_command v) (b "GLOBALUSERSTATE")) as [C|N];
    [|rewrite (global_user_state_refuses (sn_command _ _ H) N); eauto].
  unfold global_user_state_parse. look H C. returns.
Qed.

Lemma user_state_returns : exists o, user_state_parse m = Ret o.
Proof.
  destruct (list_eq_dec Byte.byte_eq_dec (v_command v) (b "USERSTATE")) as [C|N];
    [|rewrite (user_state_refuses (sn_command _ _ H) N); eauto].
  unfold user_state_parse. look H C. returns.
Qed.

Lemma whisper_returns : exists o, whisper_parse m = Ret o.
Proof.
  destruct (list_eq_dec Byte.byte_eq_dec (v_command v) (b "WHISPER")) as [C|N];
    [|rewrite (whisper_refuses (sn_command _ _ H) N); eauto].
  unfold whisper_parse. look H C. returns.
Qed.

Lemma privmsg_returns : exists o, privmsg_parse m = Ret o.
Proof.
  destruct (list_eq_dec Byte.byte_eq_dec (v_command v) (b "PRIVMSG")) as [C|N];
    [|rewrite (privmsg_refuses (sn_command _ _ H) N); eauto].
  unfold privmsg_parse. look H C. rewrite (reply_read v m H), (pinned_read v m H). returns.
Qed.

Lemma user_notice_returns : exists o, user_notice_parse m = Ret o.
Proof.
  destruct (list_eq_dec Byte.byte_eq_dec (v_command v) (b "USERNOTICE")) as [C|N];
    [|rewrite (user_notice_refuses (sn_command _ _ H) N); eauto].
  unfold user_notice_parse. look H C. 
  destruct (lookup (b "msg-id") (v_tags v)) as [id|]; [|returns]. cbn [option_map bindo].
  rewrite (event_read H). destruct (event_fun v id); [|returns]. cbn [option_map bindo].
  rewrite (sender_read H). returns.
Qed.

Lemma room_state_returns (pf : profile) : pf = Release \/ followers_fit v ->
  exists o, room_state_parse pf m = Ret o.
Proof.
  intros K. destruct (list_eq_dec Byte.byte_eq_dec (v_command v) (b "ROOMSTATE")) as [C|N];
    [|rewrite (room_state_refuses (sn_command _ _ H) pf N); eauto].
  destruct K as [-> | K].
  - unfold room_state_parse. look H C.
    destruct (v_channel v); [|returns]. destruct (lookup (b "room-id") (v_tags v)); [|returns].
    cbn [option_map bindo]. destruct (opt_bind (lookup (b "followers-only") (v_tags v)) parse_i64) as [n|]; [|returns].
    unfold followers_only_from. destruct (0 <? n)%Z; [|destruct (n =? 0)%Z; returns].
    unfold i64_mul. destruct ((i64_min <=? n * 60) && (n * 60 <=? i64_max))%Z; returns.
  - rewrite (room_state_read pf v m H C K). returns.
Qed.

Lemma from_irc_returns (pf : profile) : pf = Release \/ followers_fit v ->
  exists o, from_irc pf m = Ret o.
Proof.
  intros K.
  assert (I : forall (A : Type) (f : A -> typed) r, (exists o, r = Ret o) -> exists o, into f r = Ret o)
    by (intros A f r ([x|] & ->); cbn; eauto).
  unfold from_irc. rewrite (sn_command _ _ H). cbn [bind].
  destruct (spec_command (v_command v)); eauto using join_returns, part_returns, ping_returns, pong_returns,
    notice_returns, clear_msg_returns, clear_chat_returns, global_user_state_returns, user_state_returns,
    whisper_returns, privmsg_returns, user_notice_returns, room_state_returns.
Qed.
End Returns.

(** C22. Typing a parsed message never panics, except for the followers-only
    overflow of debug builds (see C33). *)
Lemma p_c22_no_panic :
  forall (bd : build) (pf : profile) (s : str) (v : view) (m : msg_ref),
    parsed bd s v m -> pf = Release \/ followers_fit v ->
    exists o, from_irc pf m = Ret o.
Proof. intros bd pf s v m P. apply from_irc_returns. exact (parsed_seen _ _ _ _ P). Qed.

(** C23. A JOIN is read as its channel and the nick of its prefix. *)
Lemma p_c23_join :
  forall (bd : build) (s : str) (v : view) (m : msg_ref) (q : join_msg cow),
    parsed bd s v m -> v_command v = b "JOIN" ->
    (join_parse m = Ret (Some q) <-> exists x, q = join_map Borrowed x /\ join_of v x).
Proof.
  intros bd s v m q P C. apply join_iff; [exact (parsed_seen _ _ _ _ P)|exact C].
Qed.

(** C23. A PART is read as its channel and the nick of its prefix. *)
Lemma p_c23_part :
  forall (bd : build) (s : str) (v : view) (m : msg_ref) (q : part_msg cow),
    parsed bd s v m -> v_command v = b "PART" ->
    (part_parse m = Ret (Some q) <-> exists x, q = part_map Borrowed x /\ part_of v x).
Proof.
  intros bd s v m q P C. apply part_iff; [exact (parsed_seen _ _ _ _ P)|exact C].
Qed.

(** C23. A JOIN is accepted exactly with a channel and a nick. *)
Lemma p_c23_join_accepted :
  forall (bd : build) (s : str) (v : view) (m : msg_ref),
    parsed bd s v m -> v_command v = b "JOIN" ->
    let needed := exists channel nick, has_channel v channel /\ has_nick v nick in
    (needed -> exists q, join_parse m = Ret (Some q)) /\ (~ needed -> join_parse m = Ret None).
Proof.
  intros bd s v m P C needed. pose proof (parsed_seen _ _ _ _ P) as H.
  apply accepts; [apply (join_returns H)|]. unfold needed. split.
  - intros (q & Q). apply (join_iff _ _ q H C) in Q as (x & _ & X). unfold join_of in X.
    destruct X. eauto.
  - intros (ch & n & A & B).
    eexists. apply (join_iff v m _ H C). eexists (mk_join ch n). split; [reflexivity|]. unfold join_of. fill.
Qed.

(** C23. A PART is accepted exactly with a channel and a nick. *)
Lemma p_c23_part_accepted :
  forall (bd : build) (s : str) (v : view) (m : msg_ref),
    parsed bd s v m -> v_command v = b "PART" ->
    let needed := exists channel nick, has_channel v channel /\ has_nick v nick in
    (needed -> exists q, part_parse m = Ret (Some q)) /\ (~ needed -> part_parse m = Ret None).
Proof.
  intros bd s v m P C needed. pose proof (parsed_seen _ _ _ _ P) as H.
  apply accepts; [apply (part_returns H)|]. unfold needed. split.
  - intros (q & Q). apply (part_iff _ _ q H C) in Q as (x & _ & X). unfold part_of in X.
    destruct X. eauto.
  - intros (ch & n & A & B).
    eexists. apply (part_iff v m _ H C). eexists (mk_part ch n). split; [reflexivity|]. unfold part_of. fill.
Qed.

Example ex_c23 :
  exists v m, parsed (Simd Avx2 3) (b ":ronni!ronni@ronni.tmi.twitch.tv JOIN #dallas") v m /\
    v_command v = b "JOIN" /\
    join_parse m = Ret (Some (mk_join (Borrowed (b "#dallas")) (Borrowed (b "ronni")))) /\
    exists v' m', parsed Scalar (b "PART #dallas") v' m' /\ v_command v' = b "PART" /\ part_parse m' = Ret None.
Proof.
  eexists _, _. split; [parsed_line|]. split; [reflexivity|]. split; [vm_compute; reflexivity|].
  eexists _, _. split; [parsed_line|]. split; [reflexivity|]. vm_compute. reflexivity.
Qed.

(** C24. A PING is read as its text. *)
Lemma p_c24_ping :
  forall (bd : build) (s : str) (v : view) (m : msg_ref) (q : ping_msg cow),
    parsed bd s v m -> v_command v = b "PING" ->
    (ping_parse m = Ret (Some q) <-> exists x, q = ping_map Borrowed x /\ ping_of v x).
Proof.
  intros bd s v m q P C. apply ping_iff; [exact (parsed_seen _ _ _ _ P)|exact C].
Qed.

(** C24. A PONG is read as its text. *)
Lemma p_c24_pong :
  forall (bd : build) (s : str) (v : view) (m : msg_ref) (q : pong_msg cow),
    parsed bd s v m -> v_command v = b "PONG" ->
    (pong_parse m = Ret (Some q) <-> exists x, q = pong_map Borrowed x /\ pong_of v x).
Proof.
  intros bd s v m q P C. apply pong_iff; [exact (parsed_seen _ _ _ _ P)|exact C].
Qed.

(** C24. Every PING line is accepted. *)
Lemma p_c24_ping_accepted :
  forall (bd : build) (s : str) (v : view) (m : msg_ref),
    parsed bd s v m -> v_command v = b "PING" -> exists q, ping_parse m = Ret (Some q).
Proof.
  intros bd s v m P C. pose proof (parsed_seen _ _ _ _ P) as H.
  eexists. apply (ping_iff v m _ H C). eexists (mk_ping (spec_text v)). split; [reflexivity|].
  apply opt_text_iff. reflexivity.
Qed.

(** C24. Every PONG line is accepted. *)
Lemma p_c24_pong_accepted :
  forall (bd : build) (s : str) (v : view) (m : msg_ref),
    parsed bd s v m -> v_command v = b "PONG" -> exists q, pong_parse m = Ret (Some q).
Proof.
  intros bd s v m P C. pose proof (parsed_seen _ _ _ _ P) as H.
  eexists. apply (pong_iff v m _ H C). eexists (mk_pong (spec_text v)). split; [reflexivity|].
  apply opt_text_iff. reflexivity.
Qed.

Example ex_c24 :
  exists v m, parsed Scalar (b ":tmi.twitch.tv PING :nonce 1") v m /\ v_command v = b "PING" /\
    ping_parse m = Ret (Some (mk_ping (Some (Borrowed (b "nonce 1"))))) /\
    exists v' m', parsed Scalar (b "PONG") v' m' /\ v_command v' = b "PONG" /\
      pong_parse m' = Ret (Some (mk_pong None)).
Proof.
  eexists _, _. split; [parsed_line|]. split; [reflexivity|]. split; [vm_compute; reflexivity|].
  eexists _, _. split; [parsed_line|]. split; [reflexivity|]. vm_compute. reflexivity.
Qed.

(** C25. A NOTICE is read as its text, optional channel and optional message id. *)
Lemma p_c25_notice :
  forall (bd : build) (s : str) (v : view) (m : msg_ref) (q : notice_msg cow),
    parsed bd s v m -> v_command v = b "NOTICE" ->
    (notice_parse m = Ret (Some q) <-> exists x, q = notice_map Borrowed x /\ notice_of v x).
Proof.
  intros bd s v m q P C. apply notice_iff; [exact (parsed_seen _ _ _ _ P)|exact C].
Qed.

(** C25. A NOTICE is accepted exactly with parameters. *)
Lemma p_c25_notice_accepted :
  forall (bd : build) (s : str) (v : view) (m : msg_ref),
    parsed bd s v m -> v_command v = b "NOTICE" ->
    (v_params v <> None -> exists q, notice_parse m = Ret (Some q)) /\
    (v_params v = None -> notice_parse m = Ret None).
Proof.
  intros bd s v m P C. pose proof (parsed_seen _ _ _ _ P) as H. split; intros K.
  - destruct (spec_text v) as [t|] eqn:T; [|now apply spec_text_none in T].
    eexists. apply (notice_iff v m _ H C).
    eexists (mk_notice (v_channel v) t (lookup (b "msg-id") (v_tags v))). split; [reflexivity|].
    unfold notice_of. cbn. apply has_text_iff in T. fill.
  - apply spec_text_none in K. unfold notice_parse. look H C. now rewrite K.
Qed.

Example ex_c25 :
  exists v m, parsed Scalar (b "@msg-id=msg_banned :tmi.twitch.tv NOTICE #forsen :You are banned.") v m /\
    v_command v = b "NOTICE" /\ v_params v <> None /\
    notice_parse m = Ret (Some (mk_notice (Some (Borrowed (b "#forsen"))) (Borrowed (b "You are banned."))
                                 (Some (Borrowed (b "msg_banned"))))) /\
    exists v' m', parsed Scalar (b "NOTICE #forsen") v' m' /\ v_command v' = b "NOTICE" /\
      v_params v' = None /\ notice_parse m' = Ret None.
Proof.
  eexists _, _. split; [parsed_line|]. split; [reflexivity|]. split; [discriminate|].
  split; [vm_compute; reflexivity|].
  eexists _, _. split; [parsed_line|]. split; [reflexivity|]. split; [reflexivity|]. vm_compute. reflexivity.
Qed.

(** C26. A CLEARCHAT is read as channel, room id, time and action. An unreadable
    ban-duration makes the action a permanent [Ban]. *)
Lemma p_c26_clear_chat :
  forall (bd : build) (s : str) (v : view) (m : msg_ref) (q : clear_chat cow),
    parsed bd s v m -> v_command v = b "CLEARCHAT" ->
    (clear_chat_parse m = Ret (Some q) <-> exists x, q = clear_chat_map Borrowed x /\ clear_chat_of v x).
Proof.
  intros bd s v m q P C. apply clear_chat_iff; [exact (parsed_seen _ _ _ _ P)|exact C].
Qed.

(** C26. A CLEARCHAT is accepted exactly with a channel, a room id, a readable
    time and, if it has a text, a target user id. *)
Lemma p_c26_clear_chat_accepted :
  forall (bd : build) (s : str) (v : view) (m : msg_ref),
    parsed bd s v m -> v_command v = b "CLEARCHAT" ->
    let needed :=
      (exists channel room ms, has_channel v channel /\ has v "room-id" room /\ has_time v ms) /\
      (v_params v <> None -> exists id, has v "target-user-id" id) in
    (needed -> exists q, clear_chat_parse m = Ret (Some q)) /\ (~ needed -> clear_chat_parse m = Ret None).
Proof.
  intros bd s v m P C needed. pose proof (parsed_seen _ _ _ _ P) as H.
  apply accepts; [apply (clear_chat_returns H)|]. unfold needed. split.
  - intros (q & Q). apply (clear_chat_iff _ _ q H C) in Q as (x & _ & X). unfold clear_chat_of in X.
    destruct X as (X1 & X2 & X3 & X4). split; [eauto 6|]. intros N.
    destruct (cc_action x); cbn [action_of] in X3; [contradiction|destruct X3 as (_ & X3 & _); eauto..].
  - intros [(ch & r & ms & A & B & T) K].
    assert (exists a, action_of v a) as (a & X).
    { destruct (spec_text v) as [t|] eqn:E.
      - destruct K as (id & K); [intros N; apply spec_text_none in N; congruence|]. apply has_text_iff in E.
        destruct (opt_bind (lookup (b "ban-duration") (v_tags v)) parse_u64) as [d|] eqn:D.
        + exists (TimeOut t id d). cbn [action_of]. apply has_u64_iff in D. auto.
        + exists (Ban t id). cbn [action_of]. split; [exact E|]. split; [exact K|].
          intros d D'. apply has_u64_iff in D'. congruence.
      - exists Clear. now apply spec_text_none. }
    eexists. apply (clear_chat_iff v m _ H C). exists (mk_clear_chat ch r a ms). split; [reflexivity|].
    unfold clear_chat_of. fill.
Qed.

(** C26. [target] is the text. *)
Lemma p_c26_target :
  forall (bd : build) (s : str) (v : view) (m : msg_ref) (q : clear_chat cow),
    parsed bd s v m -> v_command v = b "CLEARCHAT" -> clear_chat_parse m = Ret (Some q) ->
    opt (has_text v) (clear_chat_target q) /\
    (is_clear (cc_action q) = true <-> v_params v = None) /\
    (is_time_out (cc_action q) = true <-> v_params v <> None /\ exists d, has_u64 v "ban-duration" d) /\
    (is_ban (cc_action q) = true <-> v_params v <> None /\ forall d, ~ has_u64 v "ban-duration" d).
Proof.
  intros bd s v m q P C Q. pose proof (parsed_seen _ _ _ _ P) as H.
  apply (clear_chat_iff _ _ q H C) in Q as (x & -> & X). destruct X as (_ & _ & X & _).
  unfold clear_chat_target. destruct x as [c r [|u i|u i d] t]; cbn in X |- *.
  - split; [|split; [tauto|split; split; [discriminate|tauto|discriminate|tauto]]].
    intros y K. apply has_text_iff in K. apply spec_text_none in X. congruence.
  - destruct X as (T & I & D). split; [exact T|].
    assert (v_params v <> None) by (destruct T as (p & -> & _); discriminate).
    split; [split; [discriminate|contradiction]|]. split; [|split; auto].
    split; [discriminate|intros [_ [d K]]; now apply D in K].
  - destruct X as (T & I & D). split; [exact T|].
    assert (v_params v <> None) by (destruct T as (p & -> & _); discriminate).
    split; [split; [discriminate|contradiction]|]. split; [split; eauto|].
    split; [discriminate|intros [_ K]; now apply K in D].
Qed.

(** C26. A ban-duration that is not a u64 is silently reported as a permanent ban. *)
Lemma p_c26_timeout_reported_refuted :
  exists (s : str) (v : view) (m : msg_ref) (q : clear_chat cow),
    parsed Scalar s v m /\ v_command v = b "CLEARCHAT" /\ has v "ban-duration" (b "60.5") /\
    clear_chat_parse m = Ret (Some q) /\ is_ban (cc_action q) = true.
Proof.
  exists (b "@ban-duration=60.5;room-id=1;target-user-id=2;tmi-sent-ts=1642715756806 CLEARCHAT #c :bob").
  eexists _, _, _. split; [parsed_line|]. split; [reflexivity|]. split.
  - apply has_iff. vm_compute. reflexivity.
  - split; vm_compute; reflexivity.
Qed.

Example ex_c26 :
  exists v m, parsed Scalar (b "@ban-duration=600;room-id=1;target-user-id=2;tmi-sent-ts=1642715756806 :tmi.twitch.tv CLEARCHAT #c :bob") v m /\
    v_command v = b "CLEARCHAT" /\
    clear_chat_parse m = Ret (Some (mk_clear_chat (Borrowed (b "#c")) (Borrowed (b "1"))
       (TimeOut (Borrowed (b "bob")) (Borrowed (b "2")) 600%N) 1642715756806%Z)) /\
    exists v' m', parsed Scalar (b "@room-id=1;tmi-sent-ts=1642715756806 :tmi.twitch.tv CLEARCHAT #c") v' m' /\
      v_command v' = b "CLEARCHAT" /\
      clear_chat_parse m' = Ret (Some (mk_clear_chat (Borrowed (b "#c")) (Borrowed (b "1")) Clear 1642715756806%Z)).
Proof.
  eexists _, _. split; [parsed_line|]. split; [reflexivity|]. split; [vm_compute; reflexivity|].
  eexists _, _. split; [parsed_line|]. split; [reflexivity|]. vm_compute. reflexivity.
Qed.

(** C27. A CLEARMSG is read as its channel, room id, sender, target message, time
    and text without the /me wrapper. *)
Lemma p_c27_clear_msg :
  forall (bd : build) (s : str) (v : view) (m : msg_ref) (q : clear_msg cow),
    parsed bd s v m -> v_command v = b "CLEARMSG" ->
    (clear_msg_parse m = Ret (Some q) <-> exists x, q = clear_msg_map Borrowed x /\ clear_msg_of v x).
Proof.
  intros bd s v m q P C. apply clear_msg_iff; [exact (parsed_seen _ _ _ _ P)|exact C].
Qed.

(** C27. The fields a CLEARMSG must have. *)
Lemma p_c27_clear_msg_accepted :
  forall (bd : build) (s : str) (v : view) (m : msg_ref),
    parsed bd s v m -> v_command v = b "CLEARMSG" ->
    let needed :=
      v_params v <> None /\ exists channel room login target ms,
        has_channel v channel /\ has v "room-id" room /\ has v "login" login /\
        has v "target-msg-id" target /\ has_time v ms in
    (needed -> exists q, clear_msg_parse m = Ret (Some q)) /\ (~ needed -> clear_msg_parse m = Ret None).
Proof.
  intros bd s v m P C needed. pose proof (parsed_seen _ _ _ _ P) as H.
  apply accepts; [apply (clear_msg_returns H)|]. unfold needed. split.
  - intros (q & Q). apply (clear_msg_iff _ _ q H C) in Q as (x & _ & X). unfold clear_msg_of in X.
    destruct X as (X1 & X2 & X3 & X4 & (t & (p & X5 & _) & _) & X6). split; [congruence|eauto 12].
  - intros (N & ch & r & l & tg & ms & A1 & A2 & A3 & A4 & A5).
    destruct (spec_text v) as [t|] eqn:T; [|now apply spec_text_none in T].
    destruct (parse_message_text t) as [body f] eqn:M.
    assert (exists t, has_text v t /\ action_text t body f)
      by (apply action_iff; rewrite T; cbn; now rewrite M).
    eexists. apply (clear_msg_iff v m _ H C). exists (mk_clear_msg ch r l tg body f ms).
    split; [reflexivity|]. unfold clear_msg_of. fill.
Qed.

Example ex_c27 :
  exists v m, parsed Scalar (b "@login=bob;room-id=;target-msg-id=94e6c7ff-bf98-4faa-af5d-7ad633a158a9;tmi-sent-ts=1642720582342 :tmi.twitch.tv CLEARMSG #c :" ++ [x01] ++ b "ACTION waves" ++ [x01]) v m /\
    v_command v = b "CLEARMSG" /\
    clear_msg_parse m = Ret (Some (mk_clear_msg (Borrowed (b "#c")) (Borrowed []) (Borrowed (b "bob"))
       (Borrowed (b "94e6c7ff-bf98-4faa-af5d-7ad633a158a9")) (Borrowed (b "waves")) true 1642720582342%Z)) /\
    exists v' m', parsed Scalar (b "@login=bob;room-id=1;tmi-sent-ts=1642720582342 CLEARMSG #c :hi") v' m' /\
      v_command v' = b "CLEARMSG" /\ clear_msg_parse m' = Ret None.
Proof.
  eexists _, _. split; [parsed_line|]. split; [reflexivity|]. split; [vm_compute; reflexivity|].
  eexists _, _. split; [parsed_line|]. split; [reflexivity|]. vm_compute. reflexivity.
Qed.

(** C28. A PRIVMSG is read as exactly the fields of its line, required and optional. *)
Lemma p_c28_privmsg :
  forall (bd : build) (s : str) (v : view) (m : msg_ref) (q : privmsg cow),
    parsed bd s v m -> v_command v = b "PRIVMSG" ->
    (privmsg_parse m = Ret (Some q) <-> exists x, q = privmsg_map Borrowed x /\ privmsg_of v x).
Proof.
  intros bd s v m q P C. apply privmsg_iff; [exact (parsed_seen _ _ _ _ P)|exact C].
Qed.

(** C28. The fields a PRIVMSG must have; no other part of the line matters. *)
Lemma p_c28_privmsg_accepted :
  forall (bd : build) (s : str) (v : view) (m : msg_ref),
    parsed bd s v m -> v_command v = b "PRIVMSG" ->
    let needed :=
      v_params v <> None /\ exists channel nick room id user name ms,
        has_channel v channel /\ has_nick v nick /\ has v "room-id" room /\ has v "id" id /\
        has v "user-id" user /\ has v "display-name" name /\ has_time v ms in
    (needed -> exists q, privmsg_parse m = Ret (Some q)) /\ (~ needed -> privmsg_parse m = Ret None).
Proof.
  intros bd s v m P C needed. pose proof (parsed_seen _ _ _ _ P) as H.
  apply accepts; [apply (privmsg_returns H)|]. unfold needed. split.
  - intros (q & Q). apply (privmsg_iff _ _ q H C) in Q as (x & _ & X). unfold privmsg_of in X.
    destruct X as (X1 & X2 & X3 & X4 & X5 & X6 & X7 & X8 & X9 & (t & (p & X10 & _) & _) & X11).
    split; [congruence|]. exists (pm_channel x), (u_login (pm_sender x)), (pm_channel_id x), (pm_id x),
      (u_id (pm_sender x)), (u_name (pm_sender x)), (pm_timestamp x). intuition.
  - intros (N & ch & n & r & i & u & nm & ms & A1 & A2 & A3 & A4 & A5 & A6 & A7).
    destruct (spec_text v) as [t|] eqn:T; [|now apply spec_text_none in T].
    destruct (parse_message_text t) as [body f] eqn:M.
    assert (exists t, has_text v t /\ action_text t body f)
      by (apply action_iff; rewrite T; cbn; now rewrite M).
    eexists. apply (privmsg_iff v m _ H C).
    eexists (mk_privmsg ch r _ i (mk_user u n nm) _ _ body f _ _ _ _ _ ms).
    split; [reflexivity|]. unfold privmsg_of. fill.
Qed.

(** C28. The sender's name getter undoes the tag escaping. *)
Lemma p_c28_sender_name :
  forall (bd : build) (s : str) (v : view) (m : msg_ref) (q : privmsg cow) (t : str),
    parsed bd s v m -> v_command v = b "PRIVMSG" -> privmsg_parse m = Ret (Some q) ->
    utf8_valid t = true -> ~ infix comma_mark t -> has v "display-name" (escape t) ->
    exists c, user_name (pm_sender q) = Ret c /\ deref c = t.
Proof.
  intros bd s v m q t P C Q U M D. pose proof (parsed_seen _ _ _ _ P) as H.
  apply (privmsg_iff _ _ q H C) in Q as (x & -> & X).
  destruct X as (_ & _ & _ & _ & _ & _ & X & _). apply has_iff in X, D.
  unfold user_name. cbn [privmsg_map pm_sender user_map u_name].
  replace (u_name (pm_sender x)) with (escape t) by congruence.
  apply (proj2 (p_c19_unescape_escape t U M)). reflexivity.
Qed.

Example ex_c28 :
  exists v m q, parsed (Simd Sse2 9) chat_line v m /\ v_command v = b "PRIVMSG" /\
    privmsg_parse m = Ret (Some q) /\ has v "display-name" (escape (b "A B")) /\
    deref (u_login (pm_sender q)) = b "ab" /\ deref (pm_text q) = b "Kappa one" /\
    exists v' m', parsed Scalar (b "@display-name=A;id=1;tmi-sent-ts=1594545155039;user-id=2 :ab!ab@ab PRIVMSG #c :no room") v' m' /\
      v_command v' = b "PRIVMSG" /\ privmsg_parse m' = Ret None.
Proof.
  eexists _, _, _. split; [parsed_line|]. split; [reflexivity|]. split; [vm_compute; reflexivity|].
  split; [apply has_iff; vm_compute; reflexivity|]. split; [reflexivity|]. split; [reflexivity|].
  eexists _, _. split; [parsed_line|]. split; [reflexivity|]. vm_compute. reflexivity.
Qed.

(** C29. Each optional field is present exactly with its tags, and read from them. *)
Lemma p_c29_privmsg_optional :
  forall (bd : build) (s : str) (v : view) (m : msg_ref) (q : privmsg cow),
    parsed bd s v m -> v_command v = b "PRIVMSG" -> privmsg_parse m = Ret (Some q) ->
    let x := privmsg_map deref q in
    opt (reply_of v) (pm_reply_to x) /\ opt (pinned_of v) (pm_pinned_chat x) /\
    opt (has_u64 v "bits") (pm_bits x) /\ opt (has_filled v "color") (pm_color x) /\
    opt (has_filled v "custom-reward-id") (pm_custom_reward_id x) /\ opt (has v "msg-id") (pm_msg_id x) /\
    has_or v "emotes" [] (pm_emotes x) /\ has_badges v (pm_badges x).
Proof.
  intros bd s v m q P C Q. pose proof (parsed_seen _ _ _ _ P) as H.
  apply (privmsg_iff _ _ q H C) in Q as (x & -> & X). rewrite privmsg_map_deref. unfold privmsg_of in X.
  cbv zeta. intuition.
Qed.

(** C29. Presence, spelled out: a reply needs all seven of its tags, a pinned chat
    all five of its own, numbers and level readable. *)
Lemma p_c29_presence :
  forall (bd : build) (s : str) (v : view) (m : msg_ref) (q : privmsg cow),
    parsed bd s v m -> v_command v = b "PRIVMSG" -> privmsg_parse m = Ret (Some q) ->
    (pm_reply_to q <> None <->
       forall name, In name ["reply-thread-parent-msg-id"; "reply-thread-parent-user-login";
         "reply-parent-msg-id"; "reply-parent-user-id"; "reply-parent-user-login";
         "reply-parent-display-name"; "reply-parent-msg-body"]%string -> exists x, has v name x) /\
    (pm_pinned_chat q <> None <->
       (exists n, has_i64 v "pinned-chat-paid-amount" n) /\ (exists n, has_i64 v "pinned-chat-paid-exponent" n) /\
       (exists x, has v "pinned-chat-paid-currency" x) /\
       (exists x, has v "pinned-chat-paid-is-system-message" x) /\
       (exists n l, In (n, l) level_names /\ has v "pinned-chat-paid-level" (b n))) /\
    (pm_bits q <> None <-> exists n, has_u64 v "bits" n) /\
    (pm_color q <> None <-> exists x, has v "color" x /\ x <> []) /\
    (pm_custom_reward_id q <> None <-> exists x, has v "custom-reward-id" x /\ x <> []) /\
    (pm_badges q <> [] -> (exists x, has v "badges" x) /\ exists x, has v "badge-info" x).
Proof.
  intros bd s v m q P C Q.
  destruct (p_c29_privmsg_optional bd s v m q P C Q) as (R & PC & B & CO & CR & _ & _ & BA).
  cbn [privmsg_map pm_reply_to pm_pinned_chat pm_bits pm_color pm_custom_reward_id pm_badges] in *.
  split; [|split; [|split; [|split; [|split]]]].
  - destruct (pm_reply_to q) as [r|]; cbn [option_map opt] in R.
    + destruct R as (R1 & R2 & R3 & (R4 & R5 & R6) & R7).
      split; [|discriminate]. intros _ name I. cbn [In] in I.
      repeat (destruct I as [<-|I]; [eauto|]). destruct I.
    + split; [now intros []|]. intros K. exfalso.
      destruct (K "reply-thread-parent-msg-id"%string) as (x1 & K1); [cbn; tauto|].
      destruct (K "reply-thread-parent-user-login"%string) as (x2 & K2); [cbn; tauto|].
      destruct (K "reply-parent-msg-id"%string) as (x3 & K3); [cbn; tauto|].
      destruct (K "reply-parent-user-id"%string) as (x4 & K4); [cbn; tauto|].
      destruct (K "reply-parent-user-login"%string) as (x5 & K5); [cbn; tauto|].
      destruct (K "reply-parent-display-name"%string) as (x6 & K6); [cbn; tauto|].
      destruct (K "reply-parent-msg-body"%string) as (x7 & K7); [cbn; tauto|].
      apply (R (mk_reply x1 x2 x3 (mk_user x4 x5 x6) x7)). repeat split; assumption.
  - destruct (pm_pinned_chat q) as [r|]; cbn [option_map opt] in PC.
    + destruct PC as (R1 & R2 & R3 & (n & R4 & R4') & (y & R5 & _)). split; [|discriminate]. eauto 12.
    + split; [now intros []|]. intros ((a & K1) & (e & K2) & (c & K3) & (y & K4) & n & l & K5 & K6).
      exfalso. apply (PC (mk_pinned a c e l (parse_bool y))).
      split; [exact K1|]. split; [exact K3|]. split; [exact K2|]. split; [exists n; auto|].
      exists y. split; [exact K4|]. now apply parse_bool_spec.
  - destruct (pm_bits q) as [n|]; cbn in B; (split; [intros; eauto|intros [n' K]]); try discriminate; try contradiction.
    now apply B in K.
  - destruct (pm_color q) as [n|]; cbn in CO; (split; [intros; eauto|intros [n' K]]); try discriminate; try contradiction.
    now apply CO in K.
  - destruct (pm_custom_reward_id q) as [n|]; cbn in CR; (split; [intros; eauto|intros [n' K]]); try discriminate; try contradiction.
    now apply CR in K.
  - intros N. destruct BA as [(x & y & A1 & A2 & _)|[_ E]]; [eauto|]. apply map_eq_nil in E. contradiction.
Qed.

Example ex_c29 :
  exists v m q, parsed Scalar chat_line v m /\ v_command v = b "PRIVMSG" /\
    privmsg_parse m = Ret (Some q) /\
    pm_reply_to (privmsg_map deref q) =
      Some (mk_reply (b "t1") (b "top") (b "p1") (mk_user (b "7") (b "op") (b "OP")) (b "hi\s:)")) /\
    pm_pinned_chat (privmsg_map deref q) = Some (mk_pinned 1400%Z (b "USD") 2%Z TWO false) /\
    pm_bits q = Some 100%N /\ pm_custom_reward_id q = None /\ pm_color q <> None /\ pm_badges q <> [].
Proof.
  eexists _, _, _. split; [parsed_line|]. split; [reflexivity|]. split; [vm_compute; reflexivity|].
  repeat split; try reflexivity; discriminate.
Qed.

(** C31. A WHISPER is read as the texts around the first " :" and its sender;
    badges need both badge tags. *)
Lemma p_c31_whisper :
  forall (bd : build) (s : str) (v : view) (m : msg_ref) (q : whisper_msg cow),
    parsed bd s v m -> v_command v = b "WHISPER" ->
    (whisper_parse m = Ret (Some q) <-> exists x, q = whisper_map Borrowed x /\ whisper_of v x).
Proof.
  intros bd s v m q P C. apply whisper_iff; [exact (parsed_seen _ _ _ _ P)|exact C].
Qed.

(** C31. The fields a WHISPER must have. *)
Lemma p_c31_whisper_accepted :
  forall (bd : build) (s : str) (v : view) (m : msg_ref),
    parsed bd s v m -> v_command v = b "WHISPER" ->
    let needed :=
      (exists p, v_params v = Some p /\ infix (b " :") p) /\
      exists user nick name, has v "user-id" user /\ has_nick v nick /\ has v "display-name" name in
    (needed -> exists q, whisper_parse m = Ret (Some q)) /\ (~ needed -> whisper_parse m = Ret None).
Proof.
  intros bd s v m P C needed. pose proof (parsed_seen _ _ _ _ P) as H.
  apply accepts; [apply (whisper_returns H)|]. unfold needed. split.
  - intros (q & Q). apply (whisper_iff _ _ q H C) in Q as (x & _ & X). unfold whisper_of in X.
    destruct X as ((p & X1 & X2 & _) & X3 & X4 & X5 & _). split; [|eauto 8].
    exists p. split; [exact X1|]. rewrite X2. unfold infix. eauto.
  - intros ((p & A1 & l & r & A2) & u & n & nm & A3 & A4 & A5).
    destruct (split_once (b " :") p) as [[l' r']|] eqn:E.
    + apply split_once_around in E.
      eexists. apply (whisper_iff v m _ H C). eexists (mk_whisper l' (mk_user u n nm) r' _ _ _).
      split; [reflexivity|]. unfold whisper_of. fill. exists p. auto.
    + exfalso. apply split_once_none in E. apply E. unfold infix. eauto.
Qed.

(** C31. Badges are dropped whenever the badge-info tag is missing. *)
Lemma p_c31_badges_dropped :
  forall (bd : build) (s : str) (v : view) (m : msg_ref) (q : whisper_msg cow),
    parsed bd s v m -> v_command v = b "WHISPER" -> whisper_parse m = Ret (Some q) ->
    (forall x, ~ has v "badge-info" x) -> w_badges q = [].
Proof.
  intros bd s v m q P C Q N. pose proof (parsed_seen _ _ _ _ P) as H.
  apply (whisper_iff _ _ q H C) in Q as (x & -> & X).
  destruct X as (_ & _ & _ & _ & [(a & c & _ & K & _)|[_ E]] & _); [now apply N in K|].
  cbn [whisper_map w_badges]. now rewrite E.
Qed.

(** C31. In particular a real whisper line, which has no badge-info tag, loses its badges. *)
Lemma p_c31_badges_kept_refuted :
  exists (s : str) (v : view) (m : msg_ref) (q : whisper_msg cow),
    parsed Scalar s v m /\ v_command v = b "WHISPER" /\ has v "badges" (b "moderator/1") /\
    whisper_parse m = Ret (Some q) /\ w_badges q = [].
Proof.
  exists (b "@badges=moderator/1;color=;display-name=HotBear;emotes=;user-id=1 :hotbear!hotbear@x WHISPER me :hi").
  eexists _, _, _. split; [parsed_line|]. split; [reflexivity|]. split.
  - apply has_iff. vm_compute. reflexivity.
  - split; vm_compute; reflexivity.
Qed.

Example ex_c31 :
  exists v m q, parsed Scalar (b "@badge-info=;badges=moderator/1;display-name=HotBear;user-id=1 :hotbear!hotbear@x WHISPER me :a :b") v m /\
    v_command v = b "WHISPER" /\ whisper_parse m = Ret (Some q) /\
    deref (w_recipient q) = b "me" /\ deref (w_text q) = b "a :b" /\ w_badges q = [Moderator].
Proof.
  eexists _, _, _. split; [parsed_line|]. split; [reflexivity|]. split; [vm_compute; reflexivity|].
  repeat split; reflexivity.
Qed.

(** C32. A GLOBALUSERSTATE is read as user id, name, badges, emote sets and color. *)
Lemma p_c32_global_user_state :
  forall (bd : build) (s : str) (v : view) (m : msg_ref) (q : global_user_state cow),
    parsed bd s v m -> v_command v = b "GLOBALUSERSTATE" ->
    (global_user_state_parse m = Ret (Some q) <-> exists x, q = global_user_state_map Borrowed x /\ global_user_state_of v x).
Proof.
  intros bd s v m q P C. apply global_user_state_iff; [exact (parsed_seen _ _ _ _ P)|exact C].
Qed.

(** C32. A USERSTATE is read as channel, name, badges, emote sets and color. *)
Lemma p_c32_user_state :
  forall (bd : build) (s : str) (v : view) (m : msg_ref) (q : user_state cow),
    parsed bd s v m -> v_command v = b "USERSTATE" ->
    (user_state_parse m = Ret (Some q) <-> exists x, q = user_state_map Borrowed x /\ user_state_of v x).
Proof.
  intros bd s v m q P C. apply user_state_iff; [exact (parsed_seen _ _ _ _ P)|exact C].
Qed.

(** C32. The fields a GLOBALUSERSTATE must have. *)
Lemma p_c32_global_user_state_accepted :
  forall (bd : build) (s : str) (v : view) (m : msg_ref),
    parsed bd s v m -> v_command v = b "GLOBALUSERSTATE" ->
    let needed := exists id name, has v "user-id" id /\ has v "display-name" name in
    (needed -> exists q, global_user_state_parse m = Ret (Some q)) /\ (~ needed -> global_user_state_parse m = Ret None).
Proof.
  intros bd s v m P C needed. pose proof (parsed_seen _ _ _ _ P) as H.
  apply accepts; [apply (global_user_state_returns H)|]. unfold needed. split.
  - intros (q & Q). apply (global_user_state_iff _ _ q H C) in Q as (x & _ & X). unfold global_user_state_of in X.
    destruct X as (X1 & X2 & _). eauto.
  - intros (i & n & A & B).
    eexists. apply (global_user_state_iff v m _ H C). eexists (mk_gus i n _ _ _). split; [reflexivity|]. unfold global_user_state_of. fill.
Qed.

(** C32. The fields a USERSTATE must have. *)
Lemma p_c32_user_state_accepted :
  forall (bd : build) (s : str) (v : view) (m : msg_ref),
    parsed bd s v m -> v_command v = b "USERSTATE" ->
    let needed := exists channel name, has_channel v channel /\ has v "display-name" name in
    (needed -> exists q, user_state_parse m = Ret (Some q)) /\ (~ needed -> user_state_parse m = Ret None).
Proof.
  intros bd s v m P C needed. pose proof (parsed_seen _ _ _ _ P) as H.
  apply accepts; [apply (user_state_returns H)|]. unfold needed. split.
  - intros (q & Q). apply (user_state_iff _ _ q H C) in Q as (x & _ & X). unfold user_state_of in X.
    destruct X as (X1 & X2 & _). eauto.
  - intros (i & n & A & B).
    eexists. apply (user_state_iff v m _ H C). eexists (mk_user_state i n _ _ _). split; [reflexivity|]. unfold user_state_of. fill.
Qed.

Example ex_c32 :
  exists v m q, parsed Scalar (b "@color=;display-name=bob;emote-sets=0,33,50;user-id=4 :tmi.twitch.tv GLOBALUSERSTATE") v m /\
    v_command v = b "GLOBALUSERSTATE" /\ global_user_state_parse m = Ret (Some q) /\
    map deref (gus_emote_sets q) = [b "0"; b "33"; b "50"] /\ gus_color q = None /\
    exists v' m' q', parsed Scalar (b "@color=#1;display-name=bob;emote-sets= :tmi.twitch.tv USERSTATE #c") v' m' /\
      v_command v' = b "USERSTATE" /\ user_state_parse m' = Ret (Some q') /\
      us_emote_sets q' = [Borrowed []] /\ us_color q' = Some (Borrowed (b "#1")).
Proof.
  eexists _, _, _. split; [parsed_line|]. split; [reflexivity|]. split; [vm_compute; reflexivity|].
  split; [reflexivity|]. split; [reflexivity|].
  eexists _, _, _. split; [parsed_line|]. split; [reflexivity|]. split; [vm_compute; reflexivity|].
  split; reflexivity.
Qed.

(** C33. A ROOMSTATE is read as a partial update, while the followers-only minutes
    fit (60 times their number is at most 2^63 - 1). *)
Lemma p_c33_room_state :
  forall (bd : build) (pf : profile) (s : str) (v : view) (m : msg_ref) (q : room_state cow),
    parsed bd s v m -> v_command v = b "ROOMSTATE" -> followers_fit v ->
    (room_state_parse pf m = Ret (Some q) <-> exists x, q = room_state_map Borrowed x /\ room_state_of v x).
Proof.
  intros bd pf s v m q P C. apply room_state_iff; [exact (parsed_seen _ _ _ _ P)|exact C].
Qed.

(** C33. The fields a ROOMSTATE must have. *)
Lemma p_c33_room_state_accepted :
  forall (bd : build) (pf : profile) (s : str) (v : view) (m : msg_ref),
    parsed bd s v m -> v_command v = b "ROOMSTATE" -> followers_fit v ->
    let needed := exists channel room, has_channel v channel /\ has v "room-id" room in
    (needed -> exists q, room_state_parse pf m = Ret (Some q)) /\ (~ needed -> room_state_parse pf m = Ret None).
Proof.
  intros bd pf s v m P C O needed. pose proof (parsed_seen _ _ _ _ P) as H.
  apply accepts; [apply (room_state_returns H pf); right; exact O|]. unfold needed. split.
  - intros (q & Q). apply (room_state_iff pf _ _ q H C O) in Q as (x & _ & X). unfold room_state_of in X.
    destruct X as (X1 & X2 & _). eauto.
  - intros (i & n & A & B).
    eexists. apply (room_state_iff pf v m _ H C O). eexists (mk_room_state i n _ _ _ _ _). split; [reflexivity|]. unfold room_state_of. fill.
Qed.

(** C33. With more followers-only minutes a debug build panics and a release build
    reports the seconds modulo 2^64. *)
Lemma p_c33_followers_overflow :
  forall (bd : build) (s : str) (v : view) (m : msg_ref) (channel room : str) (n : Z),
    parsed bd s v m -> v_command v = b "ROOMSTATE" -> has_channel v channel -> has v "room-id" room ->
    has_i64 v "followers-only" n -> (60 * n > 2 ^ 63 - 1)%Z ->
    room_state_parse Debug m = Panic /\
    exists q, room_state_parse Release m = Ret (Some q) /\
      rs_followers_only q = Some (Enabled (Some (Z.to_N ((60 * n) mod 2 ^ 64)))).
Proof.
  intros bd s v m ch r n P C A R F L. pose proof (parsed_seen _ _ _ _ P) as H.
  apply has_iff in R. apply has_i64_iff in F. unfold has_channel in A.
  unfold room_state_parse. split.
  - look H C. rewrite A, R, F. cbn [option_map bindo]. unfold followers_only_from.
    replace (0 <? n)%Z with true by lia. unfold i64_mul.
    replace ((i64_min <=? n * 60) && (n * 60 <=? i64_max))%Z with false by (unfold i64_max in *; lia).
    reflexivity.
  - eexists. look H C. rewrite A, R, F. cbn [option_map bindo]. unfold followers_only_from.
    replace (0 <? n)%Z with true by lia. unfold i64_mul.
    replace ((i64_min <=? n * 60) && (n * 60 <=? i64_max))%Z with false by (unfold i64_max in *; lia).
    cbn [rmap bind]. split; [reflexivity|]. cbn [rs_followers_only]. unfold as_u64.
    do 4 f_equal. change (2 ^ 64)%Z with 18446744073709551616%Z.
    rewrite Zplus_mod_idemp_l. f_equal. lia.
Qed.

(** C33. So the reading of [p_c33_room_state] fails without the bound. *)
Lemma p_c33_room_state_refuted :
  exists (s : str) (v : view) (m : msg_ref) (q : room_state cow),
    parsed Scalar s v m /\ v_command v = b "ROOMSTATE" /\ has_i64 v "followers-only" (2 ^ 62) /\
    room_state_parse Debug m = Panic /\ room_state_parse Release m = Ret (Some q) /\
    ~ room_state_of v (room_state_map deref q).
Proof.
  exists (b "@followers-only=4611686018427387904;room-id=1 ROOMSTATE #c").
  eexists _, _, _. split; [parsed_line|]. split; [reflexivity|].
  assert (F : forall v, lookup (b "followers-only") (v_tags v) = Some (b "4611686018427387904") ->
     has_i64 v "followers-only" (2 ^ 62)) by (intros v K; apply has_i64_iff; rewrite K; vm_compute; reflexivity).
  split; [apply F; vm_compute; reflexivity|].
  split; [vm_compute; reflexivity|]. split; [vm_compute; reflexivity|].
  intros (_ & _ & _ & K & _). cbn [room_state_map rs_followers_only opt] in K.
  destruct K as (n & K1 & K2). apply has_i64_iff in K1. vm_compute in K1. injection K1 as <-.
  destruct K2 as [[K2 _]|[[K2 _]|[_ K2]]]; [lia|lia|]. vm_compute in K2. discriminate K2.
Qed.

Example ex_c33 :
  exists v m, parsed Scalar (b "@emote-only=0;followers-only=10;r9k=1;room-id=4;slow=x :tmi.twitch.tv ROOMSTATE #c") v m /\
    v_command v = b "ROOMSTATE" /\ followers_fit v /\
    room_state_parse Debug m = Ret (Some (mk_room_state (Borrowed (b "#c")) (Borrowed (b "4")) (Some false)
      (Some (Enabled (Some 600%N))) (Some true) None None)).
Proof.
  eexists _, _. split; [parsed_line|]. split; [reflexivity|]. split; [|vm_compute; reflexivity].
  intros n K. apply has_i64_iff in K. vm_compute in K. injection K as <-. lia.
Qed.

(** C34. A USERNOTICE is read as exactly the fields of its line: its event from its
    message id, and a sender unless the notice is anonymous. *)
Lemma p_c34_user_notice :
  forall (bd : build) (s : str) (v : view) (m : msg_ref) (q : user_notice cow),
    parsed bd s v m -> v_command v = b "USERNOTICE" ->
    (user_notice_parse m = Ret (Some q) <-> exists x, q = user_notice_map Borrowed x /\ user_notice_of v x).
Proof.
  intros bd s v m q P C. apply user_notice_iff; [exact (parsed_seen _ _ _ _ P)|exact C].
Qed.

(** C34. The sender is missing exactly for the anonymous notices; the event id is
    the message id. *)
Lemma p_c34_anonymity :
  forall (bd : build) (s : str) (v : view) (m : msg_ref) (q : user_notice cow) (id : str),
    parsed bd s v m -> v_command v = b "USERNOTICE" -> user_notice_parse m = Ret (Some q) ->
    has v "msg-id" id ->
    deref (un_event_id q) = id /\
    (un_sender q = None <->
      id = b "anonsubgift" \/ id = b "anonsubmysterygift" \/ id = b "anongiftpaidupgrade" \/
      ((id = b "subgift" \/ id = b "submysterygift") /\ has v "user-id" (b "274598607")) \/
      ~ In id known_events) /\
    (forall u, un_sender q = Some u ->
      has v "user-id" (deref (u_id u)) /\ has v "login" (deref (u_login u)) /\
      has v "display-name" (deref (u_name u))).
Proof.
  intros bd s v m q id P C Q I. pose proof (parsed_seen _ _ _ _ P) as H.
  apply (user_notice_iff _ _ q H C) in Q as (x & -> & X). unfold user_notice_of in X.
  destruct X as (_ & _ & S & _ & _ & _ & I' & _). apply has_iff in I, I'.
  assert (E : un_event_id x = id) by congruence. rewrite E in S. clear I I'.
  split; [exact E|]. cbn [user_notice_map un_sender].
  destruct (un_sender x) as [u|]; cbn [option_map]; split.
  - split; [discriminate|]. intros K. exfalso. apply (proj1 S). unfold anonymous, from_anonymous_account.
    cbn [In]. intuition auto.
  - intros u' [= <-]. cbn. exact (proj2 S).
  - split; [|reflexivity]. intros _. unfold anonymous, from_anonymous_account in S. cbn [In] in S. intuition auto.
  - discriminate.
Qed.

(** C34. Which event a notice is, by its message id; the one choice left is whether a
    submysterygift comes from the anonymous account. *)
Lemma p_c34_event_kind :
  forall (bd : build) (s : str) (v : view) (m : msg_ref) (q : user_notice cow) (id : str),
    parsed bd s v m -> v_command v = b "USERNOTICE" -> user_notice_parse m = Ret (Some q) ->
    has v "msg-id" id ->
    match un_event q with
    | SubOrResub is_resub _ _ _ _ => id = b "sub" /\ is_resub = false \/ id = b "resub" /\ is_resub = true
    | Raid _ _ => id = b "raid"
    | SubGift _ _ _ _ _ => id = b "subgift" \/ id = b "anonsubgift"
    | SubMysteryGift _ _ _ => id = b "submysterygift" /\ ~ has v "user-id" (b "274598607")
    | AnonSubMysteryGift _ _ =>
      id = b "anonsubmysterygift" \/ id = b "submysterygift" /\ has v "user-id" (b "274598607")
    | GiftPaidUpgrade _ _ _ => id = b "giftpaidupgrade"
    | AnonGiftPaidUpgrade _ => id = b "anongiftpaidupgrade"
    | Ritual _ => id = b "ritual"
    | BitsBadgeTier _ => id = b "bitsbadgetier"
    | Announcement _ => id = b "announcement"
    | UnknownEvent => ~ In id known_events
    end.
Proof.
  intros bd s v m q id P C Q I. pose proof (parsed_seen _ _ _ _ P) as H.
  apply (user_notice_iff _ _ q H C) in Q as (x & -> & X). unfold user_notice_of in X.
  destruct X as (_ & _ & _ & _ & _ & E & I' & _). apply has_iff in I, I'.
  assert (K : un_event_id x = id) by congruence. rewrite K in E. clear I I' K.
  cbn [user_notice_map un_event]. destruct (un_event x) as [r| | | | | | | | | |];
    cbn [event_map event_of] in E |- *; unfold from_anonymous_account in *; try tauto.
  - destruct r; tauto.
  - destruct E as [E _]. cbn [In] in E. intuition auto.
Qed.

Example ex_c34 :
  exists v m q, parsed Scalar (sub_line (b "subgift") (b "274598607")) v m /\ v_command v = b "USERNOTICE" /\
    user_notice_parse m = Ret (Some q) /\ has v "msg-id" (b "subgift") /\ un_sender q = None /\
    exists v' m' q', parsed Scalar (sub_line (b "submysterygift") (b "5")) v' m' /\ v_command v' = b "USERNOTICE" /\
    user_notice_parse m' = Ret (Some q') /\ has v' "msg-id" (b "submysterygift") /\
    un_sender q' = Some (mk_user (Borrowed (b "5")) (Borrowed (b "bob")) (Borrowed (b "Bob"))) /\
    un_event q' = SubMysteryGift 3 8 (Borrowed (b "1000")).
Proof.
  eexists _, _, _. split; [parsed_line|]. split; [reflexivity|]. split; [vm_compute; reflexivity|].
  split; [apply has_iff; vm_compute; reflexivity|]. split; [reflexivity|].
  eexists _, _, _. split; [parsed_line|]. split; [reflexivity|]. split; [vm_compute; reflexivity|].
  split; [apply has_iff; vm_compute; reflexivity|]. split; reflexivity.
Qed.

(** C35. The event is the one described by the tags of the line. *)
Lemma p_c35_payload :
  forall (bd : build) (s : str) (v : view) (m : msg_ref) (q : user_notice cow) (id : str),
    parsed bd s v m -> v_command v = b "USERNOTICE" -> user_notice_parse m = Ret (Some q) ->
    has v "msg-id" id ->
    event_of v id (event_map deref (un_event q)).
Proof.
  intros bd s v m q id P C Q I. pose proof (parsed_seen _ _ _ _ P) as H.
  apply (user_notice_iff _ _ q H C) in Q as (x & -> & X). unfold user_notice_of in X.
  destruct X as (_ & _ & _ & _ & _ & E & I' & _). apply has_iff in I, I'.
  assert (K : un_event_id x = id) by congruence. rewrite K in E. clear I I' K.
  cbn [user_notice_map un_event]. now rewrite event_map_deref.
Qed.

(** C35. A USERNOTICE is accepted exactly with channel, room id, message id, id, a
    readable time, the sender's three tags unless anonymous, and everything its
    event needs. *)
Lemma p_c35_accepted :
  forall (bd : build) (s : str) (v : view) (m : msg_ref),
    parsed bd s v m -> v_command v = b "USERNOTICE" ->
    let needed := exists channel room id msg ms e,
      has_channel v channel /\ has v "room-id" room /\ has v "id" msg /\ has v "msg-id" id /\ has_time v ms /\
      (anonymous v id \/ exists u l n, has v "user-id" u /\ has v "login" l /\ has v "display-name" n) /\
      event_of v id e in
    (needed -> exists q, user_notice_parse m = Ret (Some q)) /\ (~ needed -> user_notice_parse m = Ret None).
Proof.
  intros bd s v m P C needed. pose proof (parsed_seen _ _ _ _ P) as H.
  apply accepts; [apply (user_notice_returns H)|]. unfold needed. split.
  - intros (q & Q). apply (user_notice_iff _ _ q H C) in Q as (x & _ & X). unfold user_notice_of in X.
    destruct X as (X1 & X2 & X3 & _ & _ & X4 & X5 & _ & _ & _ & X6 & X7).
    exists (un_channel x), (un_channel_id x), (un_event_id x), (un_message_id x), (un_timestamp x), (un_event x).
    repeat (split; [assumption|]). split; [|exact X4].
    destruct (un_sender x) as [u|]; [right|left; exact X3]. destruct X3 as (_ & A & B & D). eauto 6.
  - intros (ch & r & id & msg & ms & e & A1 & A2 & A3 & A4 & A5 & A6 & A7).
    assert (exists o, match o with None => anonymous v id
              | Some u => ~ anonymous v id /\ user_of v "user-id" "login" "display-name" u end) as (o & S).
    { destruct (anon_fun v id) eqn:E; [exists None; now apply anonymous_iff|].
      assert (N : ~ anonymous v id) by (intros K; apply anonymous_iff in K; congruence).
      destruct A6 as [K|(u & l & n & K1 & K2 & K3)]; [contradiction|].
      exists (Some (mk_user u l n)). repeat split; assumption. }
    eexists. apply (user_notice_iff v m _ H C).
    eexists (mk_user_notice ch r o _ _ e id _ _ _ msg ms). split; [reflexivity|].
    unfold user_notice_of.
    cbn [un_channel un_channel_id un_sender un_text un_system_message un_event un_event_id un_badges un_emotes
         un_color un_message_id un_timestamp].
    split; [exact A1|]. split; [exact A2|]. split; [exact S|]. fill.
Qed.

(** C35. A required number that is missing or unreadable makes the parse fail. *)
Lemma p_c35_bad_number_fails :
  forall (bd : build) (s : str) (v : view) (m : msg_ref) (id : str) (name : string),
    parsed bd s v m -> v_command v = b "USERNOTICE" -> has v "msg-id" id ->
    In (id, name)
      [(b "sub", "msg-param-cumulative-months"); (b "resub", "msg-param-cumulative-months");
       (b "raid", "msg-param-viewerCount"); (b "subgift", "msg-param-months");
       (b "subgift", "msg-param-gift-months"); (b "anonsubgift", "msg-param-months");
       (b "anonsubgift", "msg-param-gift-months"); (b "submysterygift", "msg-param-mass-gift-count");
       (b "anonsubmysterygift", "msg-param-mass-gift-count"); (b "bitsbadgetier", "msg-param-threshold")]%string \/
    (id = b "submysterygift" /\ name = "msg-param-sender-count"%string /\ ~ from_anonymous_account v) ->
    (forall n, ~ has_u64 v name n) -> user_notice_parse m = Ret None.
Proof.
  intros bd s v m id name P C I T N. pose proof (parsed_seen _ _ _ _ P) as H.
  destruct (p_c35_accepted bd s v m P C) as [_ R]. apply R. clear R.
  intros (ch & r & id' & msg & ms & e & _ & _ & _ & I' & _ & _ & E).
  apply has_iff in I, I'. assert (id' = id) by congruence. subst id'. clear I I'.
  destruct T as [T|(-> & -> & A)].
  2: { destruct e as [[]| | | | | | | | | |]; cbn [event_of] in E;
       repeat match goal with K : _ /\ _ |- _ => destruct K end;
       try discriminate; try (now eapply N; eassumption);
       try match goal with K : In _ _ |- _ => cbn [In] in K; destruct K as [K|[K|[]]]; discriminate K end;
       try match goal with K : _ \/ _ |- _ => destruct K as [K|[K J]]; [discriminate K|first [discriminate K|exact (A J)]] end;
       match goal with K : ~ In _ known_events |- _ => apply K; cbn; tauto end. }
  cbn [In] in T.
  repeat (destruct T as [T|T];
    [injection T as <- <-; destruct e as [[]| | | | | | | | | |]; cbn [event_of] in E;
     repeat match goal with K : _ /\ _ |- _ => destruct K end;
     try discriminate; try (now eapply N; eassumption);
     try match goal with K : In _ _ |- _ => cbn [In] in K; destruct K as [K|[K|[]]]; discriminate K end;
     try match goal with K : _ \/ _ |- _ => destruct K as [K|[K _]]; discriminate K end;
     match goal with K : ~ In _ known_events |- _ => apply K; cbn; tauto end|]).
  destruct T.
Qed.

(** C35. Streak months 0 are reported as none. *)
Lemma p_c35_streak :
  forall (bd : build) (s : str) (v : view) (m : msg_ref) (q : user_notice cow)
         (r : bool) (n : N) (k : option N) (p pn : cow),
    parsed bd s v m -> v_command v = b "USERNOTICE" -> user_notice_parse m = Ret (Some q) ->
    un_event q = SubOrResub r n k p pn ->
    k <> Some 0%N /\ forall i, (0 < i)%N -> (k = Some i <-> has_u64 v "msg-param-streak-months" i).
Proof.
  intros bd s v m q r n k p pn P C Q E. pose proof (parsed_seen _ _ _ _ P) as H.
  apply (user_notice_iff _ _ q H C) in Q as (x & -> & X). unfold user_notice_of in X.
  destruct X as (_ & _ & _ & _ & _ & X & _). cbn [user_notice_map un_event] in E.
  destruct (un_event x) as [r' n' k' p' pn'| | | | | | | | | |]; try discriminate. injection E as -> -> -> _ _.
  cbn [event_of] in X. destruct X as (_ & _ & K & _). destruct k as [k|]; cbn [opt] in K.
  - split; [intros [= ->]; lia|]. intros i L. split; [now intros [= <-]|].
    intros F. destruct K as [K _]. apply has_u64_iff in K, F. congruence.
  - split; [discriminate|]. intros i L. split; [discriminate|]. intros F. exfalso. now apply (K i).
Qed.

Example ex_c35 :
  exists v m q, parsed Scalar (sub_line (b "resub") (b "5")) v m /\ v_command v = b "USERNOTICE" /\
    user_notice_parse m = Ret (Some q) /\
    un_event q = SubOrResub true 5 None (Borrowed (b "1000")) (Borrowed (b "Plan")) /\
    exists v' m', parsed Scalar (sub_line (b "raid") (b "5")) v' m' /\ v_command v' = b "USERNOTICE" /\
      has v' "msg-id" (b "raid") /\ (forall n, ~ has_u64 v' "msg-param-viewerCount" n) /\
      user_notice_parse m' = Ret None.
Proof.
  eexists _, _, _. split; [parsed_line|]. split; [reflexivity|]. split; [vm_compute; reflexivity|].
  split; [reflexivity|].
  eexists _, _. split; [parsed_line|]. split; [reflexivity|]. split; [apply has_iff; vm_compute; reflexivity|].
  split; [|vm_compute; reflexivity]. intros n K. apply has_u64_iff in K. vm_compute in K. discriminate K.
Qed.
