(** * Timed: the same functions against the clock.

    Client.v takes the outcome of every await as given, including which timer fired.
    Here the network is given with times, and the timers decide.  An [Instant] is a
    number of nanoseconds; computing takes no time.  When a timer fires is a parameter:
    tokio rounds up to milliseconds, the operating system may be late, and a deadline
    beyond the range of [Instant] is replaced by one in 30 years.  As tokio's [timeout]
    polls the future before the timer, a result that is there at the moment the timer
    fires is taken. *)

From Verif Require Import Base Wide Tags Irc MsgBase MsgTypes Common Client.

Definition instant := N.

(** When the timer set at some moment for some time fires: tokio's [sleep] and [timeout]
    (client.rs:267, 276, 290, 297, 307, 347, 365, util.rs:5-13). *)
Definition timers := instant -> duration -> instant.

(** One completed write: some bytes accepted, or an error. *)
Inductive wrote := Wrote (k : nat) | WriteFault (e : io_kind).

(** What the network does during one attempt: how long opening takes ([None]: it does
    not end), how long each write takes, how long flushing takes, when each read
    completes (counted from the moment the connection was there).  The last two are the
    parsers (addresses) of the two answers. *)
Record peer := mk_peer
  { p_open : option (duration * result unit io_kind);
    p_writes : list (duration * wrote);
    p_flush : option (duration * result unit io_kind);
    p_reads : list (duration * read);
    p_build1 : build; p_build2 : build }.

(** tokio's [WriteAll::poll], dropped at [until]: the bytes accepted and the result. *)
Fixpoint t_write_all (until now : instant) (data : str) (ws : list (duration * wrote))
  : instant * str * fin (result unit io_kind) :=
  match data with
  | [] => (now, [], Done (Ok tt))
  | _ :: _ =>
    match ws with
    | [] => (until, [], Dropped)
    | (d, w) :: ws' =>
      if (until <? now + d)%N then (until, [], Dropped)
      else
        let now := (now + d)%N in
        match w with
        | WriteFault e => (now, [], Done (Err e))
        | Wrote k =>
          if Nat.min k (length data) =? 0 then (now, [], Done (Err WriteZero))
          else
            let '(t, acc, r) := t_write_all until now (skipn k data) ws' in
            (t, firstn k data ++ acc, r)
        end
    end
  end.

(** An await that takes a while, dropped at [until]. *)
Definition t_wait {A : Type} (until now : instant) (w : option (duration * A)) : instant * fin A :=
  match w with
  | None => (until, Dropped)
  | Some (d, x) => if (until <? now + d)%N then (until, Dropped) else ((now + d)%N, Done x)
  end.

(** [Client::recv] awaited, dropped at [until]: it is polled whenever a read completes. *)
Fixpoint t_recv (bd : build) (until now : instant) (r : reader) (script : list (instant * read))
  : res (instant * reader * list (instant * read) * option (result msg_own recv_error)) :=
  let! (r, o) := recv bd r in
  match o with
  | Some x => Ret (now, r, script, Some x)
  | None =>
    match script with
    | [] => Ret (until, r, script, None)
    | (t, x) :: script' =>
      if (until <? N.max now t)%N then Ret (until, r, script, None)
      else t_recv bd until (N.max now t) (arrive r [x]) script'
    end
  end.

(** [self.recv().timeout(Duration::from_secs(5)).await??]: client.rs:350, client.rs:368,
    itself dropped at [until]. *)
Definition t_recv_timeout (fire : timers) (bd : build) (until now : instant) (c : client) (script : list (instant * read))
  : res (instant * client * list (instant * read) * fin (result msg_own connect_error)) :=
  let due := fire now (secs 5) in
  let! (now, r, script, o) := t_recv bd (N.min due until) now (c_reader c) script in
  let c := set_reader c r in
  match o with
  | Some (Ok m) => Ret (now, c, script, Done (Ok m))
  | Some (Err e) => Ret (now, c, script, Done (Err (CRead e)))
  | None => if (due <=? until)%N then Ret (now, c, script, Done (Err CTimeout)) else Ret (now, c, script, Dropped)
  end.

(** The second half of [handshake]: client.rs:349-391. *)
Definition t_verdict (fire : timers) (until now : instant) (c : client) (p : peer) (script : list (instant * read))
  : res (instant * client * fin (result unit connect_error)) :=
  let! (now, c, script, o) := t_recv_timeout fire (p_build1 p) until now c script in
  match o with
  | Dropped => Ret (now, c, Dropped)
  | Done (Err e) => Ret (now, c, Done (Err e))
  | Done (Ok message) =>
    let! cmd := own_command message in
    match cmd with
    | Capability =>
      let! params := own_params message in
      if match params with Some v => starts_with (b "* ACK") v | None => false end then
        let! (now, c, script, o) := t_recv_timeout fire (p_build2 p) until now c script in
        match o with
        | Dropped => Ret (now, c, Dropped)
        | Done (Err e) => Ret (now, c, Done (Err e))
        | Done (Ok message) =>
          let! cmd := own_command message in
          match cmd with
          | RplWelcome => Ret (now, c, Done (Ok tt))
          | Notice =>
            let! params := own_params message in
            if match params with Some v => contains (b "authentication failed") v | None => false end
            then Ret (now, c, Done (Err CAuth))
            else Ret (now, c, Done (Err (CNotice message)))
          | _ => Ret (now, c, Done (Err (CWelcome message)))
          end
        end
      else Ret (now, c, Done (Err CAuth))
    | _ => Ret (now, c, Done (Err (CWelcome message)))
    end
  end.

(** [Client::handshake]: client.rs:321-392, dropped at [until]. *)
Definition t_handshake (fire : timers) (until now : instant) (c : client) (p : peer)
  : res (instant * client * fin (result unit connect_error)) :=
  let script := map (fun '(d, x) => ((now + d)%N, x)) (p_reads p) in
  let c := set_scratch c (c_scratch c ++ handshake_text (cf_credentials (c_config c))) in
  let '(now, accepted, r) := t_write_all until now (c_scratch c) (p_writes p) in
  let c := set_wire c (c_wire c ++ accepted) in
  match r with
  | Dropped => Ret (now, c, Dropped)
  | Done (Err e) => Ret (now, c, Done (Err (CIo e)))
  | Done (Ok _) =>
    match t_wait until now (p_flush p) with
    | (now, Dropped) => Ret (now, c, Dropped)
    | (now, Done (Err e)) => Ret (now, c, Done (Err (CIo e)))
    | (now, Done (Ok _)) =>
      let c := set_scratch c [] in
      t_verdict fire until now c p script
    end
  end.

(** [Client::connect]: client.rs:262-278; [tls]: how long loading the certificates
    takes (before any timer runs), and its outcome. *)
Definition t_connect (fire : timers) (now : instant) (cf : config) (tls : duration * tls_out) (p : peer)
  : res (instant * result client connect_error) :=
  let now := (now + fst tls)%N in
  match snd tls with
  | TlsBadName => Ret (now, Err CDns)
  | TlsFailed => Ret (now, Err CTls)
  | TlsOk =>
    match t_wait (fire now (cf_timeout cf)) now (p_open p) with
    | (now, Dropped) => Ret (now, Err CTimeout)
    | (now, Done (Err e)) => Ret (now, Err (COpen e))
    | (now, Done (Ok _)) =>
      let! (now, c, r) := t_handshake fire (fire now (cf_timeout cf)) now (mk_client [] [] [] reader_new cf) p in
      match r with
      | Dropped => Ret (now, Err CTimeout)
      | Done (Err e) => Ret (now, Err e)
      | Done (Ok _) => Ret (now, Ok c)
      end
    end
  end.

(** The loop of [Client::reconnect]: client.rs:289-318; [None]: still running after
    [fuel] iterations. *)
Fixpoint t_reconnect_loop (fire : timers) (fuel : nat) (bk : backoff) (timeout : duration) (peers : nat -> peer) (i : nat)
         (tries : option N) (delay : duration) (cause : connect_error) (now : instant) (c : client)
  : res (instant * client * list event * option (result unit connect_error)) :=
  match fuel with
  | 0 => Ret (now, c, [], None)
  | S fuel' =>
    if tries_left tries then
      let pre := [Slept delay] in
      let now := fire now delay in
      let tries := option_map (fun n => (n - 1)%N) tries in
      let! product := duration_mul delay (delay_multiplier bk) in
      let delay := N.min (max_delay bk) product in
      let pre := pre ++ [Opening] in
      match t_wait (fire now timeout) now (p_open (peers i)) with
      | (now, Dropped) => Ret (now, c, pre, Some (Err CTimeout))
      | (now, Done (Err e)) =>
        let! (now, c, tr, o) := t_reconnect_loop fire fuel' bk timeout peers (i + 1) tries delay (COpen e) now c in
        Ret (now, c, pre ++ tr, o)
      | (now, Done (Ok _)) =>
        let c := new_connection c in
        let! (now, c, r) := t_handshake fire (fire now timeout) now c (peers i) in
        let pre := pre ++ [Sent (c_wire c)] in
        match r with
        | Dropped => Ret (now, c, pre, Some (Err CTimeout))
        | Done (Err e) =>
          if should_retry e then
            let! (now, c, tr, o) := t_reconnect_loop fire fuel' bk timeout peers (i + 1) tries delay e now c in
            Ret (now, c, pre ++ tr, o)
          else Ret (now, c, pre, Some (Err e))
        | Done (Ok _) => Ret (now, c, pre, Some (Ok tt))
        end
      end
    else Ret (now, c, [], Some (Err cause))
  end.

(** [Client::reconnect]: client.rs:281-319, for at most [fuel] iterations. *)
Definition t_reconnect (fire : timers) (fuel : nat) (peers : nat -> peer) (now : instant) (c : client)
  : res (instant * client * list event * option (result unit connect_error)) :=
  let bk := cf_backoff (c_config c) in
  t_reconnect_loop fire fuel bk (cf_timeout (c_config c)) peers 0 (max_tries bk) (initial_delay bk) CTimeout now c.
