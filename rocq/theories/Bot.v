(** * Bot: the example program, examples/basic.rs (model, no proofs).

    What the program prints is modelled as the list of lines given to [println!].
    Reading the command line ([clap]), the signal handler, and the scheduling by
    [tokio::spawn] are not modelled: the program may be stopped at any await. *)

From Verif Require Import Base Tags Irc MsgBase MsgTypes MsgNotice Message Common Client.

(** The errors that end the program ([anyhow::Error]): the errors of [recv],
    [as_typed], of sending, and of (re)connecting. *)
Inductive bot_error :=
| BotRecv (e : recv_error)
| BotMessage
| BotSend (e : send_error)
| BotConnect (e : connect_error).

(** [?] on the result of a send. *)
Definition sent_or_stop (c : client) (out : list str) (r : fin (result unit send_error))
  : client * list str * fin (result unit bot_error) :=
  match r with
  | Dropped => (c, out, Dropped)
  | Done (Err e) => (c, out, Done (Err (BotSend e)))
  | Done (Ok _) => (c, out, Done (Ok tt))
  end.

(** [on_msg]: basic.rs:77-97; [w] is the outcome of the write, if there is one. *)
Definition on_msg (c : client) (msg : privmsg cow) (w : write_out)
  : res (client * list str * fin (result unit bot_error)) :=
  let! name := user_name (pm_sender msg) in
  let out := [deref name ++ b ": " ++ deref (pm_text msg)] in
  if is_anon (cf_credentials (c_config c)) then Ret (c, out, Done (Ok tt))
  else if negb (starts_with (b "!yo") (deref (pm_text msg))) then Ret (c, out, Done (Ok tt))
  else
    let '(c, r) := send_privmsg c (deref (pm_channel msg)) (b "yo") (Some (deref (pm_id msg))) None w in
    let '(c, out, r) := sent_or_stop c out r in
    match r with
    | Done (Ok _) => Ret (c, out ++ [b "< " ++ deref (pm_channel msg) ++ b " yo"], Done (Ok tt))
    | _ => Ret (c, out, r)
    end.

(** What happens during one turn of the loop: the reads until a line is there, the
    outcome of the write if something is sent, the attempts of [reconnect]. *)
Record turn := mk_turn
  { t_build : build; t_reads : list read; t_write : write_out;
    t_fuel : nat; t_oracle : nat -> attempt }.

(** The body of the loop in [run]: basic.rs:63-74.  [Dropped]: the program is
    stopped while it waits. *)
Definition bot_turn (pf : profile) (channels : list str) (c : client) (x : turn)
  : res (client * list str * fin (result unit bot_error)) :=
  let! (r, o) := recv (t_build x) (arrive (c_reader c) (t_reads x)) in
  let c := set_reader c r in
  match o with
  | None => Ret (c, [], Dropped)
  | Some (Err e) => Ret (c, [], Done (Err (BotRecv e)))
  | Some (Ok msg) =>
    let! t := own_as_typed pf msg in
    match t with
    | None => Ret (c, [], Done (Err BotMessage))
    | Some (MPrivmsg msg) => on_msg c msg (t_write x)
    | Some MReconnect =>
      let! (c, _, o) := reconnect (t_fuel x) (t_oracle x) c in
      match o with
      | Finished (Ok _) =>
        let '(c, r) := send_join_all c channels (t_write x) in
        Ret (sent_or_stop c [] r)
      | Finished (Err e) => Ret (c, [], Done (Err (BotConnect e)))
      | Abandoned | Running => Ret (c, [], Dropped)
      end
    | Some (MPing ping) =>
      let '(c, r) := send_pong c ping (t_write x) in
      Ret (sent_or_stop c [] r)
    | Some _ => Ret (c, [], Done (Ok tt))
    end
  end.

(** How the loop stands after some turns: still going, stopped while waiting, or
    ended with an error. *)
Inductive bot_state := Going | Stopped | Failed (e : bot_error).

(** [run]: basic.rs:62-75. *)
Fixpoint bot_run (pf : profile) (channels : list str) (c : client) (turns : list turn)
  : res (client * list str * bot_state) :=
  match turns with
  | [] => Ret (c, [], Going)
  | x :: turns' =>
    let! (c, out, r) := bot_turn pf channels c x in
    match r with
    | Dropped => Ret (c, out, Stopped)
    | Done (Err e) => Ret (c, out, Failed e)
    | Done (Ok _) =>
      let! (c, out', s) := bot_run pf channels c turns' in
      Ret (c, out ++ out', s)
    end
  end.

(** The credentials chosen in [main]: basic.rs:37-40; [n] is the number drawn. *)
Definition bot_credentials (login token : option str) (n : N) : credentials :=
  match login, token with
  | Some login, Some token => credentials_new login token
  | _, _ => credentials_anon n
  end.

(** [<[String]>::join] of the standard library. *)
Fixpoint slice_join (sep : str) (l : list str) : str :=
  match l with
  | [] => []
  | [x] => x
  | x :: l' => x ++ sep ++ slice_join sep l'
  end.

(** [main]: basic.rs:32-60, up to the loop and then the loop; [w] is the outcome of
    writing the JOIN. *)
Definition bot_main (pf : profile) (login token : option str) (n : N) (channels : list str)
           (tls : tls_out) (o : open_out) (h : handshake_out) (elapsed : bool) (w : write_out)
           (turns : list turn) : res (option client * list str * bot_state) :=
  let credentials := bot_credentials login token n in
  let out := [b "Connecting as " ++ Client.login credentials] in
  let! r := connect (with_credentials credentials (builder_new n)) tls o h elapsed in
  match r with
  | Dropped => Ret (None, out, Stopped)
  | Done (Err e) => Ret (None, out, Failed (BotConnect e))
  | Done (Ok c) =>
    let '(c, r) := send_join_all c channels w in
    match r with
    | Dropped => Ret (Some c, out, Stopped)
    | Done (Err e) => Ret (Some c, out, Failed (BotSend e))
    | Done (Ok _) =>
      let! (c, out', s) := bot_run pf channels c turns in
      Ret (Some c, out ++ [b "Joined the following channels: " ++ slice_join (b ", ") channels] ++ out', s)
    end
  end.
