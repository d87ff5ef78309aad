(** * Conn: opening connections.

    src/client/conn.rs, and the parts of [connect] and [reconnect] that use it. What the
    operating system, rustls and the network do is given. *)

From Verif Require Import Base Wide Tags Irc MsgBase MsgTypes Common Client.

(** conn.rs:9-10 *)
Definition HOST : str := b "irc.chat.twitch.tv".
Definition PORT : N := 6697.

(** The certificates of the operating system ([load_native_certs]); whether rustls takes
    a certificate as a root ([RootCertStore::add], [Some]: the error); whether a text is
    a server name ([ServerName::try_from]). *)
Record platform := mk_platform
  { pl_certs : result (list str) io_kind;
    pl_refuses : str -> option str;
    pl_name : str -> bool }.

(** [TlsConfig]: conn.rs:49-53. [RootCertStore] is the list of its certificates. *)
Record tls_config := mk_tls { tc_roots : list str; tc_name : str }.

(** [TlsConfigError]: conn.rs:84-90. *)
Inductive tls_config_error := TlsIo (e : io_kind) | TlsRustls (e : str).

(** The loop of [load]: conn.rs:60-62. *)
Fixpoint add_roots (pl : platform) (roots certs : list str) : result (list str) tls_config_error :=
  match certs with
  | [] => Ok roots
  | cert :: certs' =>
    match pl_refuses pl cert with
    | Some e => Err (TlsRustls e)
    | None => add_roots pl (roots ++ [cert]) certs'
    end
  end.

(** [TlsConfig::load]: conn.rs:56-71. *)
Definition tls_load (pl : platform) (server_name : str) : result tls_config tls_config_error :=
  match pl_certs pl with
  | Err e => Err (TlsIo e)
  | Ok native_certs =>
    match add_roots pl [] native_certs with
    | Err e => Err e
    | Ok root_store => Ok (mk_tls root_store server_name)
    end
  end.

(** What is asked of the network: a TCP connection; TLS on it, which accepts the peer
    only if one of the roots vouches for the name. *)
Inductive net_event := NetTcp (host : str) (port : N) | NetTls (roots : list str) (name : str).

(** How an await ends: it succeeds, fails, or is interrupted, by the timer or the caller. *)
Inductive step := StepOk | StepErr (e : io_kind) | StepElapsed | StepDrop.

Definition step_out (s : step) : open_out :=
  match s with StepOk => OpOk | StepErr e => OpErr e | StepElapsed => OpElapsed | StepDrop => OpDrop end.

(** [open]: conn.rs:14-24, awaited with a timeout. The arguments of the outer [connect]
    are evaluated first. *)
Definition conn_open (tls : tls_config) (tcp tls_handshake : step) : list net_event * open_out :=
  match tcp with
  | StepOk => ([NetTcp HOST PORT; NetTls (tc_roots tls) (tc_name tls)], step_out tls_handshake)
  | _ => ([NetTcp HOST PORT], step_out tcp)
  end.

(** [Client::connect]: client.rs:262-278, with what it asks of the network and the
    [TlsConfig] the client keeps. *)
Definition net_connect (pl : platform) (cf : config) (tcp tls_handshake : step) (h : handshake_out) (elapsed : bool)
  : res (list net_event * option tls_config * fin (result client connect_error)) :=
  if pl_name pl HOST then
    match tls_load pl HOST with
    | Err _ => let! r := connect cf TlsFailed OpDrop h elapsed in Ret ([], None, r)
    | Ok tls =>
      let '(evs, o) := conn_open tls tcp tls_handshake in
      let! r := connect cf TlsOk o h elapsed in
      Ret (evs, Some tls, r)
    end
  else let! r := connect cf TlsBadName OpDrop h elapsed in Ret ([], None, r).

(** The events of [reconnect], with those of [conn::open] in their place: client.rs:296. *)
Inductive full_event := Net (e : net_event) | Slept' (d : duration) | Sent' (wire : str).

Fixpoint expand (tls : tls_config) (opens : nat -> step * step) (i : nat) (tr : list event) : list full_event :=
  match tr with
  | [] => []
  | Slept d :: tr' => Slept' d :: expand tls opens i tr'
  | Sent w :: tr' => Sent' w :: expand tls opens i tr'
  | Opening :: tr' =>
    map Net (fst (conn_open tls (fst (opens i)) (snd (opens i)))) ++ expand tls opens (i + 1) tr'
  end.

(** [Client::reconnect] with the client's [TlsConfig]. *)
Definition net_reconnect (fuel : nat) (tls : tls_config) (opens : nat -> step * step) (oracle : nat -> attempt) (c : client)
  : res (client * list full_event * outcome) :=
  let oracle' i :=
    let a := oracle i in
    mk_attempt (a_sleeps a) (snd (conn_open tls (fst (opens i)) (snd (opens i)))) (a_handshake a) (a_elapsed a) in
  let! (c, tr, o) := reconnect fuel oracle' c in
  Ret (c, expand tls opens 0 tr, o).
