(** * PropsConnect: property theorems (generated from ConnectProofs.v by tools/gen_props.py).

    Only statements; each is closed by the lemma of the same name. *)

From Verif Require Import Base Wide Tags Irc SpecIrc MsgBase MsgTypes SpecMsg Common Client SpecClient HandshakeProofs ConnectProofs.

(** C64. The connection succeeds exactly if everything was in time and the server's
    answers say so. *)
Theorem c64_success :
  forall (cf : config) (tls : tls_out) (o : open_out) (h : handshake_out) (elapsed : bool),
    small_answers reader_new h ->
    ((exists c, connect cf tls o h elapsed = Ret (Done (Ok c))) <->
     tls = TlsOk /\ o = OpOk /\ delivered h /\ verdict reader_new h (Done (Ok tt))).
Proof. exact p_c64_success. Qed.
Print Assumptions c64_success.

(** C64. It fails exactly for one of the listed reasons, with the error that names it. *)
Theorem c64_failure :
  forall (cf : config) (tls : tls_out) (o : open_out) (h : handshake_out) (elapsed : bool) (e : connect_error),
    small_answers reader_new h ->
    (connect cf tls o h elapsed = Ret (Done (Err e)) <-> connect_fails tls o h elapsed e).
Proof. exact p_c64_failure. Qed.
Print Assumptions c64_failure.

(** C64. The new client has the given configuration; the connection got exactly the
    greeting, of which nothing was logged; nothing is left in the buffer. *)
Theorem c64_new_client :
  forall (cf : config) (tls : tls_out) (o : open_out) (h : handshake_out) (elapsed : bool) (c : client),
    connect cf tls o h elapsed = Ret (Done (Ok c)) ->
    c_config c = cf /\ greeting (cf_credentials cf) (c_wire c) /\ c_log c = [] /\ c_scratch c = [].
Proof. exact p_c64_new_client. Qed.
Print Assumptions c64_new_client.

(** C64. What follows the two answers on the connection is what is received next,
    however it arrived: nothing is lost. *)
Theorem c64_nothing_lost :
  forall (cf : config) (tls : tls_out) (o : open_out) (h : handshake_out) (elapsed : bool) (c : client)
    (bd : nat -> build) (n : nat) (more : list read) (r : reader) (os : list (option (result msg_own recv_error))),
    connect cf tls o h elapsed = Ret (Done (Ok c)) -> recvs bd n (arrive (c_reader c) more) = Ret (r, os) ->
    exists m1 m2,
      recvs (after_answers h bd) (2 + n)
        (mk_reader [] (w_reads (h_first h) ++ w_reads (h_second h) ++ more) false) =
      Ret (r, Some (Ok m1) :: Some (Ok m2) :: os).
Proof. exact p_c64_nothing_lost. Qed.
Print Assumptions c64_nothing_lost.

(** C64. The settings of the builder: each sets its own part, the last one counts;
    what is not set has the documented default. *)
Theorem c64_builder :
  (forall cr cf, let cf' := with_credentials cr cf in
     cf_credentials cf' = cr /\ cf_timeout cf' = cf_timeout cf /\ cf_backoff cf' = cf_backoff cf) /\
  (forall t cf, let cf' := with_timeout t cf in
     cf_credentials cf' = cf_credentials cf /\ cf_timeout cf' = t /\ cf_backoff cf' = cf_backoff cf) /\
  (forall bk cf, let cf' := with_backoff bk cf in
     cf_credentials cf' = cf_credentials cf /\ cf_timeout cf' = cf_timeout cf /\ cf_backoff cf' = bk) /\
  (forall n, in_anon_range n ->
     is_anon (cf_credentials (builder_new n)) = true /\ cf_timeout (builder_new n) = 30000000000%N /\
     let bk := cf_backoff (builder_new n) in
     max_tries bk = Some 8%N /\ initial_delay bk = 1000000000%N /\ delay_multiplier bk = 3%N /\ max_delay bk = 12000000000%N).
Proof. exact p_c64_builder. Qed.
Print Assumptions c64_builder.

(** C64. Connecting anonymously is connecting with the defaults. *)
Theorem c64_anonymous :
  forall (n : N) (tls : tls_out) (o : open_out) (h : handshake_out) (elapsed : bool) (c : client),
    in_anon_range n -> connect_anonymous n tls o h elapsed = Ret (Done (Ok c)) ->
    exists ds, length ds = 5 /\ numeral ds n /\
      c_wire c = b "CAP REQ :twitch.tv/commands twitch.tv/tags twitch.tv/membership" ++ crlf ++
                 b "PASS oauth:just_a_lil_guy" ++ crlf ++ b "NICK justinfan" ++ ds ++ crlf.
Proof. exact p_c64_anonymous. Qed.
Print Assumptions c64_anonymous.

Example example_c64 :
  let cf := with_timeout (secs 10) (with_credentials (credentials_new (b "me") (b "tok")) (builder_new 12345)) in
  let l1 := b ":tmi.twitch.tv CAP * ACK :twitch.tv/tags" ++ crlf in
  let l2 := b ":tmi.twitch.tv 001 me :Welcome, GLHF!" ++ crlf in
  let l3 := b ":tmi.twitch.tv 002 me :Your host" ++ crlf in
  let h := mk_handshake_out WOk FOk (mk_wait [Got (l1 ++ l2 ++ l3)] false Scalar) (mk_wait [] false Scalar) in
  small_answers reader_new h /\
  (exists c r m, connect cf TlsOk OpOk h false = Ret (Done (Ok c)) /\
     recvs (fun _ => Scalar) 1 (c_reader c) = Ret (r, [Some (Ok m)]) /\
     own_raw m = b ":tmi.twitch.tv 002 me :Your host" /\ cf_timeout (c_config c) = secs 10) /\
  connect_fails TlsOk (OpErr ConnectionRefused) h false (COpen ConnectionRefused) /\
  connect cf TlsOk (OpErr ConnectionRefused) h false = Ret (Done (Err (COpen ConnectionRefused))).
Proof. exact ex_c64. Qed.

(** C65. After a successful reconnect, what is received next is what the connection of
    the last attempt delivered after its two answers: nothing of it is lost, and nothing
    comes from an earlier connection. *)
Theorem c65_only_the_new_connection :
  forall (fuel : nat) (oracle : nat -> attempt) (c c' : client) (tr : list event),
    reconnect fuel oracle c = Ret (c', tr, Finished (Ok tt)) ->
    exists k, S k = attempts tr /\
      forall (bd : nat -> build) (n : nat) (more : list read) (r : reader) (os : list (option (result msg_own recv_error))),
        recvs bd n (arrive (c_reader c') more) = Ret (r, os) ->
        let h := a_handshake (oracle k) in
        exists m1 m2,
          recvs (after_answers h bd) (2 + n)
            (mk_reader [] (w_reads (h_first h) ++ w_reads (h_second h) ++ more) false) =
          Ret (r, Some (Ok m1) :: Some (Ok m2) :: os).
Proof. exact p_c65_only_the_new_connection. Qed.
Print Assumptions c65_only_the_new_connection.

(** C65. A reconnect that never opens a connection leaves the client as it was. *)
Theorem c65_not_opened :
  forall (fuel : nat) (oracle : nat -> attempt) (c c' : client) (tr : list event) (o : outcome),
    (forall j, a_open (oracle j) <> OpOk) -> reconnect fuel oracle c = Ret (c', tr, o) -> c' = c.
Proof. exact p_c65_not_opened. Qed.
Print Assumptions c65_not_opened.

Example example_c65 :
  let r := mk_reader (b "PING :old" ++ crlf) [Got (b "half a li")] false in
  let c := set_reader (sample_client (credentials_new (b "me") (b "tok")) backoff_default) r in
  let h := sample_handshake (b ":tmi.twitch.tv CAP * ACK :x") (b ":tmi.twitch.tv 001 me :Hi" ++ crlf ++ b "PING :new") in
  let oracle := fun j => if j <? 1 then refused else mk_attempt true OpOk h false in
  (exists c' tr r' m, reconnect 9 oracle c = Ret (c', tr, Finished (Ok tt)) /\ attempts tr = 2 /\
     recvs (fun _ => Scalar) 1 (c_reader c') = Ret (r', [Some (Ok m)]) /\ own_raw m = b "PING :new") /\
  exists c' tr e, reconnect 9 (fun _ => refused) c = Ret (c', tr, Finished (Err e)) /\ c_reader c' = r.
Proof. exact ex_c65. Qed.

(** C66. Two clients that differ only in their tokens, going through the same session in
    which every greeting is delivered in one piece, return the same results, wait and
    connect alike, log the same, and put the same bytes on the wire, but for the greeting
    at the start of the connection. *)
Theorem c66_token_only_in_greeting :
  forall (f1 f2 : config) (g1 g2 x : str) (l : list str) (r : reader) (ops : list op) (c1 : client) (seen1 : list seen),
    same_but_token f1 f2 -> greeting (cf_credentials f1) g1 -> greeting (cf_credentials f2) g2 ->
    Forall greets_whole ops ->
    run_ops (mk_client [] (g1 ++ x) l r f1) ops = Ret (c1, seen1) ->
    exists c2 seen2,
      run_ops (mk_client [] (g2 ++ x) l r f2) ops = Ret (c2, seen2) /\
      map but_greetings seen1 = map but_greetings seen2 /\ c_log c1 = c_log c2 /\ c_reader c1 = c_reader c2 /\
      exists y, c_wire c1 = g1 ++ y /\ c_wire c2 = g2 ++ y.
Proof. exact p_c66_token_only_in_greeting. Qed.
Print Assumptions c66_token_only_in_greeting.

(** C66. Without the restriction it is false: after a greeting that could not be written,
    the log tells the tokens apart. *)
Theorem c66_any_session_refuted :
  exists (f1 f2 : config) (ops : list op) (c1 c2 : client) (seen1 seen2 : list seen),
    same_but_token f1 f2 /\
    run_ops (mk_client [] (handshake_text (cf_credentials f1)) [] reader_new f1) ops = Ret (c1, seen1) /\
    run_ops (mk_client [] (handshake_text (cf_credentials f2)) [] reader_new f2) ops = Ret (c2, seen2) /\
    c_log c1 <> c_log c2.
Proof. exact p_c66_any_session_refuted. Qed.
Print Assumptions c66_any_session_refuted.

Example example_c66 :
  let f t := mk_config (credentials_new (b "me") t) default_timeout backoff_default in
  let ops := [OpSend (CallPing (b "x")) (WErr 3 BrokenPipe); OpReconnect 9 sample_oracle; OpSend (CallJoin (b "c")) WOk;
              OpRecv Scalar [Got (b "PING :y" ++ crlf)]] in
  same_but_token (f (b "one")) (f (b "oauth:two")) /\ Forall greets_whole ops /\
  exists c seen, run_ops (mk_client [] (handshake_text (cf_credentials (f (b "one")))) [] reader_new (f (b "one"))) ops = Ret (c, seen) /\
    c_log c = [b "PING :x" ++ crlf; b "JOIN #c" ++ crlf] /\ length seen = 4.
Proof. exact ex_c66. Qed.
