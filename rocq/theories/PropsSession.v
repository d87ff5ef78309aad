(** * PropsSession: property theorems (generated from SessionProofs.v by tools/gen_props.py).

    Only statements; each is closed by the lemma of the same name. *)

From Verif Require Import Base Wide Tags Irc SpecIrc MsgBase MsgTypes MsgNotice Message SpecMsg SpecWrite Common Client SpecClient SpecSession Samples SessionProofs.

(** C82. Typed messages sent one per line are received as exactly these messages, in order,
    whatever the chunks in which the bytes arrive and whatever follows. *)
Theorem c82_stream_is_received :
  forall (bd : nat -> build) (ct : list content) (reads tail : list read),
    Forall sendable ct -> chunked (stream ct) reads ->
    exists r ms,
      recvs bd (length ct) (mk_reader [] (reads ++ tail) false) = Ret (r, map (fun m => Some (Ok m)) ms) /\
      Forall2 (fun c m => forall pf, own_as_typed pf m = Ret (Some (typed_of c))) ct ms.
Proof. exact p_c82_stream_is_received. Qed.
Print Assumptions c82_stream_is_received.

(** C82. Two different sequences of typed messages are never the same bytes. *)
Theorem c82_stream_is_unambiguous :
  forall (ct ct' : list content),
    Forall sendable ct -> Forall sendable ct' -> stream ct = stream ct' -> map typed_of ct = map typed_of ct'.
Proof. exact p_c82_stream_is_unambiguous. Qed.
Print Assumptions c82_stream_is_unambiguous.

(** C82. A whole session: the server acknowledges the capabilities, welcomes the client and
    sends typed messages, in any chunks. The client connects, having written its greeting,
    and receives exactly these messages. *)
Theorem c82_session :
  forall (cf : config) (h : handshake_out) (elapsed : bool) (bd : nat -> build) (ct : list content) (more tail : list read),
    delivered h -> serves h more ct ->
    exists c, connect cf TlsOk OpOk h elapsed = Ret (Done (Ok c)) /\ greeting (cf_credentials cf) (c_wire c) /\
      exists r ms,
        recvs bd (length ct) (arrive (c_reader c) (more ++ tail)) = Ret (r, map (fun m => Some (Ok m)) ms) /\
        Forall2 (fun c m => forall pf, own_as_typed pf m = Ret (Some (typed_of c))) ct ms.
Proof. exact p_c82_session. Qed.
Print Assumptions c82_session.

(** C82. The same after a reconnect: whatever was going on before, and whatever was left of
    the old connection, what the server sends on the new one is what is received. *)
Theorem c82_session_after_reconnect :
  forall (fuel k : nat) (oracle : nat -> attempt) (c c' : client) (tr : list event) (bd : nat -> build)
    (ct : list content) (more tail : list read),
    reconnect fuel oracle c = Ret (c', tr, Finished (Ok tt)) -> attempts tr = S k ->
    serves (a_handshake (oracle k)) more ct ->
    exists r ms,
      recvs bd (length ct) (arrive (c_reader c') (more ++ tail)) = Ret (r, map (fun m => Some (Ok m)) ms) /\
      Forall2 (fun c m => forall pf, own_as_typed pf m = Ret (Some (typed_of c))) ct ms.
Proof. exact p_c82_session_after_reconnect. Qed.
Print Assumptions c82_session_after_reconnect.

(** A session cut into three reads at odd places: a gift, a ping and the order to reconnect. *)
Example example_c82 :
  let gift := KUserNotice (mk_user_notice (b "#c") (b "4") None None None (AnonSubMysteryGift 5%N (b "1000"))
    (b "submysterygift") [] [] None (b "77") (-1)%Z) in
  let ct := [gift; KPing (mk_ping (Some (b "tmi"))); KReconnect] in
  let l1 := b ":tmi.twitch.tv CAP * ACK :twitch.tv/tags" in
  let l2 := b ":tmi.twitch.tv 001 me :Welcome, GLHF!" in
  let bytes := l1 ++ crlf ++ l2 ++ crlf ++ stream ct in
  let h := mk_handshake_out WOk FOk (mk_wait [Got (firstn 41 bytes); Got (firstn 9 (skipn 41 bytes))] false Scalar)
    (mk_wait [Got (firstn 40 (skipn 50 bytes))] false (Simd Sse2 5)) in
  let more := [Got (skipn 90 bytes)] in
  delivered h /\ serves h more ct /\
  stream [KPing (mk_ping (Some (b "tmi"))); KReconnect] =
    b "PING :tmi" ++ crlf ++ b ":tmi.twitch.tv RECONNECT" ++ crlf /\
  exists c r m1 m2 m3,
    connect (config_default 12345) TlsOk OpOk h false = Ret (Done (Ok c)) /\
    recvs (fun _ => Scalar) 3 (arrive (c_reader c) more) = Ret (r, [Some (Ok m1); Some (Ok m2); Some (Ok m3)]) /\
    own_raw m2 = b "PING :tmi" /\ own_as_typed Debug m1 = Ret (Some (typed_of gift)) /\
    own_as_typed Release m3 = Ret (Some MReconnect).
Proof. exact ex_c82. Qed.
