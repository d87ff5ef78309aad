(** * Readme: the program in README.md, the front page of the documentation
    (src/lib.rs:1) (model, no proofs).

    Simplified as in Bot. *)

From Verif Require Import Base Tags Irc MsgBase MsgTypes MsgNotice Message Common Client Bot.

(** [CHANNELS]: README.md:17. *)
Definition CHANNELS : list str := [b "#forsen"].

(** The body of the loop: README.md:25-38. *)
Definition readme_turn (pf : profile) (c : client) (x : turn)
  : res (client * list str * fin (result unit bot_error)) :=
  let! (r, o) := recv (t_build x) (arrive (c_reader c) (t_reads x)) in
  let c := set_reader c r in
  match o with
  | None => Ret (c, [], Dropped)
  | Some (Err e) => Ret (c, [], Done (Err (BotRecv e)))
  | Some (Ok msg) =>
    let! t := own_as_typed pf msg in
    match t with
    | None => Ret (c, [], Done (Err BotMessage))
    | Some (MPrivmsg msg) =>
      let! name := user_name (pm_sender msg) in
      Ret (c, [deref name ++ b ": " ++ deref (pm_text msg)], Done (Ok tt))
    | Some MReconnect =>
      let! (c, _, o) := reconnect (t_fuel x) (t_oracle x) c in
      match o with
      | Finished (Ok _) =>
        let '(c, r) := send_join_all c CHANNELS (t_write x) in
        Ret (sent_or_stop c [] r)
      | Finished (Err e) => Ret (c, [], Done (Err (BotConnect e)))
      | Abandoned | Running => Ret (c, [], Dropped)
      end
    | Some (MPing ping) =>
      let '(c, r) := send_pong c ping (t_write x) in
      Ret (sent_or_stop c [] r)
    | Some _ => Ret (c, [], Done (Ok tt))
    end
  end.

(** The loop: README.md:24-39. *)
Fixpoint readme_run (pf : profile) (c : client) (turns : list turn)
  : res (client * list str * bot_state) :=
  match turns with
  | [] => Ret (c, [], Going)
  | x :: turns' =>
    let! (c, out, r) := readme_turn pf c x in
    match r with
    | Dropped => Ret (c, out, Stopped)
    | Done (Err e) => Ret (c, out, Failed e)
    | Done (Ok _) =>
      let! (c, out', s) := readme_run pf c turns' in
      Ret (c, out ++ out', s)
    end
  end.

(** [main]: README.md:20-40; [n] is the number drawn, [w] the outcome of writing the
    JOIN. *)
Definition readme_main (pf : profile) (n : N) (tls : tls_out) (o : open_out) (h : handshake_out)
           (elapsed : bool) (w : write_out) (turns : list turn) : res (option client * list str * bot_state) :=
  let! r := connect_anonymous n tls o h elapsed in
  match r with
  | Dropped => Ret (None, [], Stopped)
  | Done (Err e) => Ret (None, [], Failed (BotConnect e))
  | Done (Ok c) =>
    let '(c, r) := send_join_all c CHANNELS w in
    match r with
    | Dropped => Ret (Some c, [], Stopped)
    | Done (Err e) => Ret (Some c, [], Failed (BotSend e))
    | Done (Ok _) =>
      let! (c, out, s) := readme_run pf c turns in
      Ret (Some c, out, s)
    end
  end.
