(** * PropsWrite: property theorems (generated from WriteProofs.v by tools/gen_props.py).

    Only statements; each is closed by the lemma of the same name. *)

From Verif Require Import Base Wide Client Tags Irc Unescape SpecIrc SpecText MsgBase MsgTypes MsgNotice Message SpecMsg SpecWrite Samples WriteProofs.

(** C81. Every typed message with values a line can carry is written as a line that parses to
    exactly this message, in every build and profile. *)
Theorem c81_written_message_is_read :
  forall (bd : build) (pf : profile) (c : content),
    able c -> wf_message (line c) -> Forall short_tag (m_tags (line c)) ->
    utf8_valid (render (line c)) = true -> below_4gib (render (line c)) ->
    message_parse bd pf (render (line c)) = Ret (Some (typed_of c)).
Proof. exact p_c81_written_message_is_read. Qed.
Print Assumptions c81_written_message_is_read.

(** C81. Two different messages are never written as the same line. *)
Theorem c81_messages_told_apart :
  forall c c' : content,
    able c -> able c' -> wf_message (line c) -> wf_message (line c') ->
    Forall short_tag (m_tags (line c)) -> Forall short_tag (m_tags (line c')) ->
    utf8_valid (render (line c)) = true -> below_4gib (render (line c)) ->
    render (line c) = render (line c') -> c = c'.
Proof. exact p_c81_messages_told_apart. Qed.
Print Assumptions c81_messages_told_apart.

(** C81. Every typed message parsed from a line has only values a line can carry: its
    written form is a well-formed line. *)
Theorem c81_parsed_message_is_writable :
  forall (bd : build) (pf : profile) (s : str) (v : view) (m : msg_ref) (t : typed),
    parsed bd s v m -> followers_fit v -> from_irc pf m = Ret (Some t) ->
    t = MOther m \/
    exists c, t = typed_of c /\ able c /\ wf_message (line c) /\ utf8_valid (render (line c)) = true.
Proof. exact p_c81_parsed_message_is_writable. Qed.
Print Assumptions c81_parsed_message_is_writable.

(** C81. Writing a parsed message and parsing the line again, in any build and profile,
    gives the same message. *)
Theorem c81_write_and_parse_again :
  forall (bd : build) (pf : profile) (s : str) (v : view) (m : msg_ref) (t : typed),
    parsed bd s v m -> followers_fit v -> from_irc pf m = Ret (Some t) -> t <> MOther m ->
    exists c, t = typed_of c /\
      (Forall short_tag (m_tags (line c)) -> below_4gib (render (line c)) ->
       forall (bd' : build) (pf' : profile), message_parse bd' pf' (render (line c)) = Ret (Some t)).
Proof. exact p_c81_write_and_parse_again. Qed.
Print Assumptions c81_write_and_parse_again.

(** The chat message of [chat_line], with a reply, a pinned chat and badges. *)
Example example_c81_chat :
  let c := KPrivmsg (mk_privmsg (b "#pajlada") (b "11148817") None (b "e9d998c3")
    (mk_user (b "29803735") (b "ab") (b "A\sB"))
    (Some (mk_reply (b "t1") (b "top") (b "p1") (mk_user (b "7") (b "op") (b "OP")) (b "hi\s:)")))
    (Some (mk_pinned 1400%Z (b "USD") 2%Z TWO false)) (b "Kappa one") false
    [BSubscriber (mk_subscriber (b "24") (b "25") 25%N); BOther (mk_badge_data (b "vip") (b "1") None)]
    (Some (b "#0000FF")) None (Some 100%N) (b "25:0-4") 1594545155039%Z) in
  (exists v m, parsed Scalar chat_line v m /\ followers_fit v /\ from_irc Debug m = Ret (Some (typed_of c))) /\
  able c /\ wf_message (line c) /\ utf8_valid (render (line c)) = true /\
  Forall short_tag (m_tags (line c)) /\ below_4gib (render (line c)) /\
  render (line c) = b "@badges=subscriber/24,vip/1;badge-info=subscriber/25;bits=100;color=#0000FF;display-name=A\sB;emotes=25:0-4;id=e9d998c3;room-id=11148817;tmi-sent-ts=1594545155039;user-id=29803735;reply-thread-parent-msg-id=t1;reply-thread-parent-user-login=top;reply-parent-msg-id=p1;reply-parent-user-id=7;reply-parent-user-login=op;reply-parent-display-name=OP;reply-parent-msg-body=hi\s:);pinned-chat-paid-amount=1400;pinned-chat-paid-currency=USD;pinned-chat-paid-exponent=2;pinned-chat-paid-level=TWO;pinned-chat-paid-is-system-message=0 :ab!user@tmi.twitch.tv PRIVMSG #pajlada :Kappa one".
Proof. exact ex_c81_chat. Qed.

(** A gift of five subscriptions without a sender, and a whisper to a name with a hash. *)
Example example_c81_gift :
  let c := KUserNotice (mk_user_notice (b "#c") (b "4") None None None (AnonSubMysteryGift 5%N (b "1000"))
    (b "submysterygift") [] [] None (b "77") (-1)%Z) in
  able c /\ wf_message (line c) /\ utf8_valid (render (line c)) = true /\
  Forall short_tag (m_tags (line c)) /\ below_4gib (render (line c)) /\
  render (line c) = b "@user-id=274598607;emotes=;id=77;msg-id=submysterygift;room-id=4;tmi-sent-ts=-1;msg-param-mass-gift-count=5;msg-param-sub-plan=1000 :tmi.twitch.tv USERNOTICE #c" /\
  message_parse (Simd Avx2 3) Debug (render (line c)) = Ret (Some (typed_of c)) /\
  let w := KWhisper (mk_whisper (b "#me") (mk_user (b "1") (b "a!b") (b "A")) (b "x : y") [] [] None) in
  able w /\ wf_message (line w) /\
  render (line w) = b "@display-name=A;emotes=;user-id=1 :a!b!user@tmi.twitch.tv WHISPER # #me :x : y".
Proof. exact ex_c81_gift. Qed.
