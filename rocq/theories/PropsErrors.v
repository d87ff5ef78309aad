(** * PropsErrors: property theorems (generated from ErrorsProofs.v by tools/gen_props.py).

    Only statements; each is closed by the lemma of the same name. *)

From Verif Require Import Base Wide Common Client SpecClient Tags Irc MsgBase MsgTypes MsgNotice Message SpecIrc SpecMsg SpecDbg Dbg Errors SpecErrors Samples HandshakeProofs ErrorsProofs.

(** C72. Every error of connecting has a text that begins by saying so. *)
Theorem c72_text :
  forall (F : foreign) (e : connect_error), printable e ->
    exists r, connect_error_text F e = Ret (b "failed to connect: " ++ r).
Proof. exact p_c72_text. Qed.
Print Assumptions c72_text.

(** C72. The text tells what happened: two errors have the same text exactly if they
    are the same failure, with the same contents. *)
Theorem c72_tells :
  forall (F : foreign) (e e' : connect_error), ordinary F -> printable e -> printable e' ->
    (connect_error_text F e = connect_error_text F e' <-> same_error F e e').
Proof. exact p_c72_tells. Qed.
Print Assumptions c72_tells.

(** C72. Whatever makes connecting fail can be printed, as long as the tags of the
    message that caused it are within the parser's limit. *)
Theorem c72_connect :
  forall (F : foreign) (cf : config) (tls : tls_out) (o : open_out) (h : handshake_out) (elapsed : bool) (e : connect_error),
    small_answers reader_new h -> connect cf tls o h elapsed = Ret (Done (Err e)) ->
    (forall m, e = CWelcome m \/ e = CNotice m -> all_short (own_raw m)) ->
    printable e /\ exists r, connect_error_text F e = Ret (b "failed to connect: " ++ r).
Proof. exact p_c72_connect. Qed.
Print Assumptions c72_connect.

(** C72. Otherwise printing it can panic: the first answer has a tag value of 65537 bytes. *)
Theorem c72_printing_panics_refuted :
  exists (h : handshake_out) (m : msg_own),
    small_answers reader_new h /\
    (forall cf, connect cf TlsOk OpOk h false = Ret (Done (Err (CWelcome m)))) /\
    (forall F, connect_error_text F (CWelcome m) = Panic).
Proof. exact p_c72_printing_panics_refuted. Qed.
Print Assumptions c72_printing_panics_refuted.

(** C72. The text is one line without control characters, unless it quotes a line that
    has some. *)
Theorem c72_one_line :
  forall (F : foreign) (e : connect_error), visible_foreign F -> printable e ->
    exists t, connect_error_text F e = Ret t /\
      (Forall visible t <-> forall s, e = CRead (RecvParse s) -> Forall visible s).
Proof. exact p_c72_one_line. Qed.
Print Assumptions c72_one_line.

(** C72. Such a line can come from the server: the text then carries its control
    characters to wherever it is printed. *)
Theorem c72_control_characters_refuted :
  exists (h : handshake_out) (e : connect_error) (t : str),
    small_answers reader_new h /\ visible_foreign sample_foreign /\
    (forall cf, connect cf TlsOk OpOk h false = Ret (Done (Err e))) /\
    connect_error_text sample_foreign e = Ret t /\ ~ Forall visible t.
Proof. exact p_c72_control_characters_refuted. Qed.
Print Assumptions c72_control_characters_refuted.

(** C72. The error of [reconnect] quotes its source; that is the error of the last
    attempt, if there was one. *)
Theorem c72_reconnect :
  forall (F : foreign) (fuel : nat) (oracle : nat -> attempt) (c c' : client) (tr : list Client.event) (o : outcome)
         (err : reconnect_error),
    small_oracle oracle -> reconnect fuel oracle c = Ret (c', tr, o) -> returned o = Some err ->
    exists e, reconnect_source err = Some e /\
      (forall t, connect_error_text F e = Ret t ->
         reconnect_error_text F err = Ret (b "all reconnect attempts failed. last error was: " ++ t)) /\
      (attempts tr = 0 -> e = CTimeout) /\
      (forall j, attempts tr = S j -> attempt_error (oracle j) e).
Proof. exact p_c72_reconnect. Qed.
Print Assumptions c72_reconnect.

(** C72. The text is wrong when there was no attempt: it reports a timeout. *)
Theorem c72_last_error_refuted :
  exists (c c' : client) (err : reconnect_error),
    reconnect 9 (fun _ => accepted) c = Ret (c', [], Finished (Err (re_cause err))) /\
    returned (Finished (Err (re_cause err))) = Some err /\
    forall F, reconnect_error_text F err =
      Ret (b "all reconnect attempts failed. last error was: failed to connect: connection timed out").
Proof. exact p_c72_last_error_refuted. Qed.
Print Assumptions c72_last_error_refuted.

(** C72. It says that all attempts failed even though seven of eight were never made. *)
Theorem c72_all_attempts_refuted :
  exists (oracle : nat -> attempt) (c c' : client) (tr : list Client.event) (err : reconnect_error),
    max_tries (cf_backoff (c_config c)) = Some 8%N /\
    settles (oracle 1) (Finished (Ok tt)) /\
    reconnect 9 oracle c = Ret (c', tr, Finished (Err (re_cause err))) /\ attempts tr = 1 /\
    forall F, reconnect_error_text F err =
      Ret (b "all reconnect attempts failed. last error was: failed to connect: failed to read message: stream closed").
Proof. exact p_c72_all_attempts_refuted. Qed.
Print Assumptions c72_all_attempts_refuted.

(** C72. A server that refuses the capabilities is reported as invalid credentials,
    before it has answered anything about them. *)
Theorem c72_credentials_refuted :
  exists (h : handshake_out) (e : connect_error),
    delivered h /\ h_second h = mk_wait [] false Scalar /\
    (forall cf, connect cf TlsOk OpOk h false = Ret (Done (Err e))) /\
    forall F, connect_error_text F e = Ret (b "failed to connect: invalid credentials").
Proof. exact p_c72_credentials_refuted. Qed.
Print Assumptions c72_credentials_refuted.

(** C72. A server whose first message is [001] is told that [001] was expected. *)
Theorem c72_expected_refuted :
  exists (h : handshake_out) (e : connect_error),
    delivered h /\ (forall cf, connect cf TlsOk OpOk h false = Ret (Done (Err e))) /\
    connect_error_text sample_foreign e =
      Ret (b "failed to connect: expected `NOTICE` or `001` as first message, instead received: " ++
           b "IrcMessage { tags: [], prefix: None, command: RplWelcome, channel: None, params: Some(""me"") }").
Proof. exact p_c72_expected_refuted. Qed.
Print Assumptions c72_expected_refuted.

(** C72. A failed send names the I/O error, or says that the text was not terminated;
    the latter only for raw texts that are not. *)
Theorem c72_send :
  forall (F : foreign) (c c' : client) (k : call) (w : write_out) (e : send_error),
    run_call c k w = (c', Done (Err e)) ->
    (exists n kind, w = WErr n kind /\ send_error_text F e = b "failed to write message: " ++ io_text F kind) \/
    (exists s, k = CallRaw s /\ ~ ends_crlf s /\ c' = c /\
       send_error_text F e =
         b "failed to write message: message was incorrectly formatted, not terminated by ""\r\n""").
Proof. exact p_c72_send. Qed.
Print Assumptions c72_send.

(** C72. The texts of errors of sending tell them apart in the same way. *)
Theorem c72_send_tells :
  forall (F : foreign) (e e' : send_error), ordinary F ->
    (send_error_text F e = send_error_text F e' <-> same_send F e e').
Proof. exact p_c72_send_tells. Qed.
Print Assumptions c72_send_tells.

(** C72. A failed [recv] names the I/O error, quotes the rejected line, or says that
    the stream is closed. *)
Theorem c72_recv :
  forall (F : foreign) (bd : build) (r r' : reader) (e : recv_error),
    recv bd r = Ret (r', Some (Err e)) ->
    (exists k, e = RecvIo k /\ recv_error_text F e = b "failed to read message: " ++ io_text F k) \/
    (exists l, e = RecvParse l /\ own_parse bd l = Ret None /\
       recv_error_text F e = b "failed to read message: invalid message `" ++ l ++ b "`") \/
    (e = RecvStreamClosed /\ recv_error_text F e = b "failed to read message: stream closed").
Proof. exact p_c72_recv. Qed.
Print Assumptions c72_recv.

Example example_c72_tells :
  ordinary sample_foreign /\ visible_foreign sample_foreign /\
  printable CTimeout /\ (exists m, own_parse Scalar (b ":tmi.twitch.tv NOTICE * :Improperly formatted auth") = Ret (Some m) /\
    printable (CNotice m) /\
    connect_error_text sample_foreign (CNotice m) =
      Ret (b "failed to connect: received unrecognized notice: IrcMessage { tags: [], " ++
           b "prefix: Some(Prefix { nick: None, user: None, host: ""tmi.twitch.tv"" }), command: Notice, channel: None, " ++
           b "params: Some(""* :Improperly formatted auth"") }")) /\
  connect_error_text sample_foreign (COpen ConnectionRefused) =
    Ret (b "failed to connect: failed to open tls stream: connection refused").
Proof. exact ex_c72_tells. Qed.

Example example_c72_reconnect :
  let c := sample_client (credentials_anon 12345) backoff_default in
  small_oracle (fun _ => refused) /\
  exists c' tr err, reconnect 9 (fun _ => refused) c = Ret (c', tr, Finished (Err (re_cause err))) /\ attempts tr = 8 /\
    reconnect_error_text sample_foreign err =
      Ret (b "all reconnect attempts failed. last error was: failed to connect: " ++
           b "failed to open tls stream: connection refused").
Proof. exact ex_c72_reconnect. Qed.

Example example_c72_send :
  let c := sample_client (credentials_anon 12345) backoff_default in
  run_call c (CallRaw (b "PING")) WOk = (c, Done (Err SendInvalidMessage)) /\
  snd (run_call c (CallPing (b "x")) (WErr 2 BrokenPipe)) = Done (Err (SendIo BrokenPipe)) /\
  send_error_text sample_foreign (SendIo BrokenPipe) = b "failed to write message: other error" /\
  exists r, recv Scalar (mk_reader [] [Got (b ":a " ++ crlf)] false) = Ret (r, Some (Err (RecvParse (b ":a ")))) /\
    recv_error_text sample_foreign (RecvParse (b ":a ")) = b "failed to read message: invalid message `:a `".
Proof. exact ex_c72_send. Qed.
