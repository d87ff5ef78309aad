(** * PropsAlike: property theorems (generated from AlikeProofs.v by tools/gen_props.py).

    Only statements; each is closed by the lemma of the same name. *)

From Verif Require Import Base Wide Common Client Tags Irc MsgBase MsgTypes MsgNotice Message SpecIrc SpecMsg SpecDbg Serde Dbg SpecAlike Samples AlikeProofs.

(** C95. For every type of message the printed and the serialised form have the same
    fields with the same contents under the same names. *)
Theorem c95_same_shown :
  forall cd : codec,
    (forall x, alike cd (dbg_join x) (ser_join x)) /\
    (forall x, alike cd (dbg_part x) (ser_part x)) /\
    (forall x, alike cd (dbg_ping x) (ser_ping x)) /\
    (forall x, alike cd (dbg_pong x) (ser_pong x)) /\
    (forall x, alike cd (dbg_notice x) (ser_notice x)) /\
    (forall x, alike cd (dbg_clear_msg x) (ser_clear_msg cd x)) /\
    (forall x, alike cd (dbg_clear_chat x) (ser_clear_chat cd x)) /\
    (forall x, alike cd (dbg_global_user_state x) (ser_global_user_state x)) /\
    (forall x, alike cd (dbg_user_state x) (ser_user_state x)) /\
    (forall x, alike cd (dbg_whisper x) (ser_whisper x)) /\
    (forall x, alike cd (dbg_room_state x) (ser_room_state x)) /\
    (forall x, alike cd (dbg_privmsg x) (ser_privmsg cd x)) /\
    (forall x, alike cd (dbg_user_notice x) (ser_user_notice cd x)).
Proof. exact p_c95_same_shown. Qed.
Print Assumptions c95_same_shown.

(** C95. The printed form of a message begins with the name of its type, twice, and that
    name in capitals is the command of the line. *)
Theorem c95_type_is_command :
  forall (shown : uchar -> bool) (bd : build) (pf : profile) (s : str) (v : view) (m : msg_ref) (t : typed),
    utf8_valid s = true -> below_4gib s -> spec_view s = Some v -> ref_parse bd s = Ret (Some m) ->
    from_irc pf m = Ret (Some t) -> In (v_command v) typed_words ->
    exists d name, dbg_typed t = Ret d /\ map capital name = v_command v /\
      (v_command v = b "RECONNECT" -> show shown false d = name) /\
      (v_command v <> b "RECONNECT" -> exists rest, show shown false d = name ++ b "(" ++ name ++ b " { " ++ rest ++ b " })").
Proof. exact p_c95_type_is_command. Qed.
Print Assumptions c95_type_is_command.

(** A subscriber badge: the number of months is printed, but not serialised. *)
Example example_c95 :
  let cd := mk_codec (fun ms => DInt ms) (fun _ => None) in
  let badge := BSubscriber (mk_subscriber (Borrowed (b "3024")) (Borrowed (b "28")) 28) in
  alike cd (dbg_badge badge) (ser_badge badge) /\
  show (fun _ => true) false (dbg_badge badge) =
    b "Subscriber(Subscriber { version: ""3024"", months: ""28"", months_n: 28 })" /\
  ser_badge badge = DMap [(b "subscriber", DMap [(b "version", DStr (b "3024")); (b "months", DStr (b "28"))])] /\
  ~ alike cd (dbg_badge badge) (ser_badge Moderator).
Proof. exact ex_c95. Qed.

Example example_c95_command :
  exists (s : str) (v : view) (m : msg_ref) (t : typed),
    parsed (Simd Sse2 0) s v m /\ from_irc Debug m = Ret (Some t) /\ In (v_command v) typed_words /\
    exists d, dbg_typed t = Ret d /\
      show (fun _ => true) false d = b "Join(Join { channel: ""#c"", user: ""u"" })".
Proof. exact ex_c95_command. Qed.
