(** * PropsConn: property theorems (generated from ConnProofs.v by tools/gen_props.py).

    Only statements; each is closed by the lemma of the same name. *)

From Verif Require Import Base Wide Tags Irc SpecIrc MsgBase MsgTypes SpecMsg Common Client SpecClient HandshakeProofs Conn SpecConn ConnProofs.

(** C77. The TLS configuration is made of all certificates of the system: a single one
    that is not acceptable, or failing to load them, is an error. *)
Theorem c77_load :
  forall (pl : platform) (name : str),
    (forall t, tls_load pl name = Ok t <-> tc_name t = name /\ all_roots pl (tc_roots t)) /\
    (forall e, tls_load pl name = Err (TlsIo e) <-> pl_certs pl = Err e) /\
    (forall e, tls_load pl name = Err (TlsRustls e) <->
       exists pre x post, pl_certs pl = Ok (pre ++ x :: post) /\ Forall (fun y => pl_refuses pl y = None) pre /\
         pl_refuses pl x = Some e).
Proof. exact p_c77_load. Qed.
Print Assumptions c77_load.

(** C77. Opening succeeds if both steps do; a failure of one is the error, and running out
    of time or being dropped in one ends opening in the same way. *)
Theorem c77_open :
  forall (t : tls_config) (tcp th : step), opening_is tcp th (snd (conn_open t tcp th)).
Proof. exact p_c77_open. Qed.
Print Assumptions c77_open.

(** C77. The first connection goes to Twitch's server, whose name TLS checks against all
    certificates of the system. Without them there is no connection at all. *)
Theorem c77_connect :
  forall (pl : platform) (cf : config) (tcp th : step) (h : handshake_out) (elapsed : bool)
    (evs : list net_event) (t : option tls_config) (r : fin (result client connect_error)),
    net_connect pl cf tcp th h elapsed = Ret (evs, t, r) ->
    (evs = [] /\ t = None /\ (r = Done (Err CDns) /\ pl_name pl (b "irc.chat.twitch.tv") = false \/
                              r = Done (Err CTls) /\ ~ exists roots, all_roots pl roots)) \/
    (exists roots, all_roots pl roots /\ t = Some (mk_tls roots (b "irc.chat.twitch.tv")) /\
       (tcp = StepOk /\ evs = to_twitch roots \/ tcp <> StepOk /\ evs = firstn 1 (to_twitch roots)) /\
       forall c, r = Done (Ok c) -> tcp = StepOk /\ th = StepOk).
Proof. exact p_c77_connect. Qed.
Print Assumptions c77_connect.

(** C77. Its result is otherwise what C64 says. *)
Theorem c77_connect_same :
  forall (pl : platform) (cf : config) (tcp th : step) (h : handshake_out) (elapsed : bool)
    (evs : list net_event) (t : option tls_config) (r : fin (result client connect_error)),
    net_connect pl cf tcp th h elapsed = Ret (evs, t, r) ->
    exists tls o, connect cf tls o h elapsed = Ret r /\
      (tls = TlsBadName <-> pl_name pl (b "irc.chat.twitch.tv") = false) /\
      (tls = TlsOk <-> pl_name pl (b "irc.chat.twitch.tv") = true /\ exists roots, all_roots pl roots) /\
      (tls = TlsOk -> opening_is tcp th o).
Proof. exact p_c77_connect_same. Qed.
Print Assumptions c77_connect_same.

(** C77. So do all later ones, with the same certificates. TLS starts on a TCP connection
    that is there, and bytes are sent only once TLS is there too. *)
Theorem c77_reconnect :
  forall (pl : platform) (cf : config) (tcp th : step) (h : handshake_out) (elapsed : bool) (evs : list net_event)
    (t : tls_config) (r : fin (result client connect_error))
    (fuel : nat) (opens : nat -> step * step) (oracle : nat -> attempt) (c c' : client) (tr : list full_event) (o : outcome),
    net_connect pl cf tcp th h elapsed = Ret (evs, Some t, r) ->
    net_reconnect fuel t opens oracle c = Ret (c', tr, o) ->
    exists roots, all_roots pl roots /\
      forall pre e post, tr = pre ++ e :: post ->
        match e with
        | Net (NetTcp host port) => host = b "irc.chat.twitch.tv" /\ port = 6697%N
        | Net (NetTls rs name) =>
          rs = roots /\ name = b "irc.chat.twitch.tv" /\
          exists pre', pre = pre' ++ [Net (NetTcp (b "irc.chat.twitch.tv") 6697)] /\ fst (opens (dials pre')) = StepOk
        | Sent' _ => exists pre', pre = pre' ++ map Net (to_twitch roots) /\ opens (dials pre') = (StepOk, StepOk)
        | Slept' _ => True
        end.
Proof. exact p_c77_reconnect. Qed.
Print Assumptions c77_reconnect.

(** C77. Reconnecting is otherwise what C50 to C54 say, an attempt ending as its
    two steps do, and each attempt dials once. *)
Theorem c77_reconnect_same :
  forall (fuel : nat) (t : tls_config) (opens : nat -> step * step) (oracle : nat -> attempt) (c c' : client)
    (tr : list full_event) (o : outcome),
    net_reconnect fuel t opens oracle c = Ret (c', tr, o) ->
    exists oracle' tr', reconnect fuel oracle' c = Ret (c', tr', o) /\ dials tr = attempts tr' /\
      (forall w, In (Sent' w) tr <-> In (Sent w) tr') /\ (forall d, In (Slept' d) tr <-> In (Slept d) tr') /\
      forall j, a_sleeps (oracle' j) = a_sleeps (oracle j) /\ a_handshake (oracle' j) = a_handshake (oracle j) /\
        a_elapsed (oracle' j) = a_elapsed (oracle j) /\ opening_is (fst (opens j)) (snd (opens j)) (a_open (oracle' j)).
Proof. exact p_c77_reconnect_same. Qed.
Print Assumptions c77_reconnect_same.

(** C77. As the host is a host name, the error for an invalid name never occurs. *)
Theorem c77_no_dns_error :
  forall (pl : platform) (cf : config) (tcp th : step) (h : handshake_out) (elapsed : bool)
    (evs : list net_event) (t : option tls_config) (r : fin (result client connect_error)),
    (forall s, host_name s -> pl_name pl s = true) -> small_answers reader_new h ->
    net_connect pl cf tcp th h elapsed = Ret (evs, t, r) -> r <> Done (Err CDns).
Proof. exact p_c77_no_dns_error. Qed.
Print Assumptions c77_no_dns_error.

Example example_c77 :
  let pl := mk_platform (Ok [b "one"; b "two"]) (fun x => if starts_with (b "bad") x then Some (b "bad certificate") else None) (fun _ => true) in
  let cf := mk_config (credentials_new (b "me") (b "tok")) default_timeout backoff_default in
  let h := sample_handshake (b ":tmi.twitch.tv CAP * ACK :x") (b ":tmi.twitch.tv 001 me :Hi") in
  let t := mk_tls [b "one"; b "two"] (b "irc.chat.twitch.tv") in
  let opens := fun j => match j with 0 => (StepErr ConnectionRefused, StepOk) | 1 => (StepOk, StepErr BrokenPipe) | _ => (StepOk, StepOk) end in
  all_roots pl [b "one"; b "two"] /\ small_answers reader_new h /\
  (exists c, net_connect pl cf StepOk StepOk h false = Ret (to_twitch [b "one"; b "two"], Some t, Done (Ok c)) /\
   exists c' d1 d2 d3 w, net_reconnect 9 t opens (fun _ => mk_attempt true OpDrop h false) c =
     Ret (c', [Slept' d1; Net (NetTcp HOST PORT); Slept' d2; Net (NetTcp HOST PORT); Net (NetTls [b "one"; b "two"] HOST);
               Slept' d3; Net (NetTcp HOST PORT); Net (NetTls [b "one"; b "two"] HOST); Sent' w], Finished (Ok tt))) /\
  tls_load (mk_platform (Ok [b "one"; b "bad"; b "two"]) (pl_refuses pl) (pl_name pl)) HOST = Err (TlsRustls (b "bad certificate")).
Proof. exact ex_c77. Qed.
