(** * Client: src/client.rs, src/client/read.rs, src/client/write.rs,
    src/client/macros.rs (model, no proofs).

    Async code is a function of what happens at its await points: each await gets,
    as an argument, its outcome (completed, failed, or dropped: the future was
    cancelled there).  TLS and TCP are not modelled: a connection is the bytes it
    accepted and the chunks of bytes it delivers. *)

From Verif Require Import Base Wide Tags Irc MsgBase MsgTypes Common.

(** ** Results *)

(** [std::io::ErrorKind], with one constructor for all kinds not listed. *)
Inductive io_kind :=
| NotFound | PermissionDenied | ConnectionRefused | ConnectionReset | ConnectionAborted
| NotConnected | AddrInUse | AddrNotAvailable | BrokenPipe | AlreadyExists | WouldBlock
| InvalidInput | InvalidData | TimedOut | WriteZero | Interrupted | Unsupported
| UnexpectedEof | OutOfMemory | OtherKind (n : nat).

Inductive result (A E : Type) := Ok (a : A) | Err (e : E).
Arguments Ok {A E} a.
Arguments Err {A E} e.

(** A future ran to completion, or was dropped before. *)
Inductive fin (A : Type) := Done (a : A) | Dropped.
Arguments Done {A} a.
Arguments Dropped {A}.

(** [SendError]: write.rs:191-201. *)
Inductive send_error := SendIo (e : io_kind) | SendStreamClosed | SendInvalidMessage.

(** [RecvError]: read.rs:25-34. *)
Inductive recv_error := RecvIo (e : io_kind) | RecvParse (s : str) | RecvStreamClosed.

(** [ConnectError]: client.rs:452-480.  [Dns] and [Tls] only arise before the
    first connection. *)
Inductive connect_error :=
| CRead (e : recv_error) | CIo (e : io_kind) | CDns | CTls | COpen (e : io_kind)
| CTimeout | CWelcome (m : msg_own) | CAuth | CNotice (m : msg_own).

(** ** Credentials: client.rs:75-143 *)

(** [Credentials]: client.rs:78-82. *)
Record credentials := mk_credentials { login : str; token : option str }.

(** Decimal digits of a number ([Display for u32], core). *)
Fixpoint show_uint (u : Decimal.uint) : str :=
  match u with
  | Decimal.Nil => []
  | Decimal.D0 u => "0"%byte :: show_uint u
  | Decimal.D1 u => "1"%byte :: show_uint u
  | Decimal.D2 u => "2"%byte :: show_uint u
  | Decimal.D3 u => "3"%byte :: show_uint u
  | Decimal.D4 u => "4"%byte :: show_uint u
  | Decimal.D5 u => "5"%byte :: show_uint u
  | Decimal.D6 u => "6"%byte :: show_uint u
  | Decimal.D7 u => "7"%byte :: show_uint u
  | Decimal.D8 u => "8"%byte :: show_uint u
  | Decimal.D9 u => "9"%byte :: show_uint u
  end.

Definition show_N (n : N) : str := show_uint (N.to_uint n).

(** [ANON_RANGE]: client.rs:85: [10000..99999], the upper end excluded. *)
Definition in_anon_range (n : N) : Prop := (10000 <= n < 99999)%N.

(** [Credentials::new]: client.rs:96-101. *)
Definition credentials_new (login token : str) : credentials := mk_credentials login (Some token).

(** [Credentials::anon]: client.rs:111-116; [n] is the random number drawn. *)
Definition credentials_anon (n : N) : credentials :=
  mk_credentials (b "justinfan" ++ show_N n) None.

(** [is_anon]: client.rs:118-120. *)
Definition is_anon (c : credentials) : bool :=
  match token c with None => true | Some _ => false end.

(** [Debug for Credentials]: client.rs:137-143; [dbg] is [Debug for str] (core). *)
Definition credentials_debug (dbg : str -> str) (c : credentials) : str :=
  b "Credentials { nick: " ++ dbg (login c) ++ b ", .. }".

(** ** Configuration: client.rs:145-193 *)

(** A [Duration], in nanoseconds. *)
Definition duration := N.

(** [Duration::MAX] in nanoseconds, plus one. *)
Definition duration_limit : N := (2 ^ 64 * 1000000000)%N.

Definition secs (n : N) : duration := (n * 1000000000)%N.

(** [Duration * u32] (core): panics on overflow. *)
Definition duration_mul (d : duration) (k : N) : res duration :=
  if (d * k <? duration_limit)%N then Ret (d * k)%N else Panic.

(** [Backoff]: client.rs:146-159. *)
Record backoff := mk_backoff
  { max_tries : option N; initial_delay : duration; delay_multiplier : N; max_delay : duration }.

(** [Backoff::default]: client.rs:161-170. *)
Definition backoff_default : backoff := mk_backoff (Some 8%N) (secs 1) 3 (secs 12).

(** [DEFAULT_TIMEOUT]: client.rs:73. *)
Definition default_timeout : duration := secs 30.

(** [Config]: client.rs:173-183.  When a timer fires is part of the outcomes given to
    the functions below (Timed.v derives it from the [timeout]). *)
Record config := mk_config { cf_credentials : credentials; cf_timeout : duration; cf_backoff : backoff }.

(** [Config::default]: client.rs:185-193; [n] is the random number drawn for the
    anonymous credentials (client.rs:131-135). *)
Definition config_default (n : N) : config := mk_config (credentials_anon n) default_timeout backoff_default.

(** [ClientBuilder]: client.rs:196-218, the setters; [Client::builder]: client.rs:250-254. *)
Definition builder_new (n : N) : config := config_default n.
Definition with_credentials (cr : credentials) (cf : config) : config :=
  mk_config cr (cf_timeout cf) (cf_backoff cf).
Definition with_timeout (t : duration) (cf : config) : config :=
  mk_config (cf_credentials cf) t (cf_backoff cf).
Definition with_backoff (bk : backoff) (cf : config) : config :=
  mk_config (cf_credentials cf) (cf_timeout cf) bk.

(** ** The reading side: client/read.rs and tokio's [Lines] *)

(** Result of one read from the connection; no bytes at all is the end of the
    stream. *)
Inductive read := Got (bytes : str) | Fault (e : io_kind).

(** [Fuse<LinesStream<BufReader<..>>>]: the bytes read but not yet handed out, the
    results of the reads to come, and whether the stream has ended. *)
Record reader := mk_reader { rd_buf : str; rd_reads : list read; rd_ended : bool }.

Definition lf : byte := x0a.
Definition cr : byte := x0d.
Definition crlf : str := [x0d; x0a].

(** [String::from_utf8] and the removal of the line ending in tokio's
    [Lines::poll_next_line]. *)
Definition finish_line (bytes : str) : result str io_kind :=
  if utf8_valid bytes then
    match strip_suffix [lf] bytes with
    | Some l => match strip_suffix [cr] l with Some l' => Ok l' | None => Ok l end
    | None => Ok bytes
    end
  else Err InvalidData.

(** What polling the line stream gives: nothing yet, or an item ([None] at the
    end of the stream). *)
Inductive polled := Pending | Item (i : option (result str io_kind)).

(** tokio's [Lines::poll_next_line] over [BufReader]: reads until a line feed, the
    end of the stream or an error (which loses the line begun). *)
Fixpoint poll_line (buf : str) (reads : list read) {struct reads} : str * list read * polled :=
  match find_byte lf buf with
  | Some i => (skipn (i + 1) buf, reads, Item (Some (finish_line (firstn (i + 1) buf))))
  | None =>
    match reads with
    | [] => (buf, [], Pending)
    | Fault e :: reads' => ([], reads', Item (Some (Err e)))
    | Got [] :: reads' =>
      match buf with
      | [] => ([], reads', Item None)
      | _ :: _ => ([], reads', Item (Some (finish_line buf)))
      end
    | Got (c :: chunk) :: reads' => poll_line (buf ++ c :: chunk) reads'
    end
  end.

(** [Fuse::poll_next] (futures_util): once ended, always ended. *)
Definition poll_next (r : reader) : reader * polled :=
  if rd_ended r then (r, Item None)
  else
    let '(buf, reads, p) := poll_line (rd_buf r) (rd_reads r) in
    match p with
    | Item None => (mk_reader buf reads true, p)
    | _ => (mk_reader buf reads false, p)
    end.

(** More data arrives. *)
Definition arrive (r : reader) (reads : list read) : reader :=
  mk_reader (rd_buf r) (rd_reads r ++ reads) (rd_ended r).

(** [Client::recv]: read.rs:14-21; [None]: not ready. *)
Definition recv (bd : build) (r : reader) : res (reader * option (result msg_own recv_error)) :=
  let '(r, p) := poll_next r in
  match p with
  | Pending => Ret (r, None)
  | Item None => Ret (r, Some (Err RecvStreamClosed))
  | Item (Some (Err e)) => Ret (r, Some (Err (RecvIo e)))
  | Item (Some (Ok message)) =>
    let! m := own_parse bd message in
    match m with
    | Some m => Ret (r, Some (Ok m))
    | None => Ret (r, Some (Err (RecvParse message)))
    end
  end.

(** [RecvError::is_disconnect]: read.rs:38-51. *)
Definition is_disconnect (e : recv_error) : bool :=
  match e with
  | RecvStreamClosed => true
  | RecvIo UnexpectedEof | RecvIo ConnectionAborted | RecvIo TimedOut => true
  | _ => false
  end.

(** ** The client: client.rs:240-248 *)

(** [c_wire]: the bytes accepted by the current connection; [c_log]: the texts
    given to the [trace!] of [send_raw] (write.rs:86). *)
Record client := mk_client
  { c_scratch : str; c_wire : str; c_log : list str; c_reader : reader; c_config : config }.

Definition set_scratch (c : client) (s : str) : client :=
  mk_client s (c_wire c) (c_log c) (c_reader c) (c_config c).
Definition set_wire (c : client) (s : str) : client :=
  mk_client (c_scratch c) s (c_log c) (c_reader c) (c_config c).
Definition set_reader (c : client) (r : reader) : client :=
  mk_client (c_scratch c) (c_wire c) (c_log c) r (c_config c).
Definition add_log (c : client) (s : str) : client :=
  mk_client (c_scratch c) (c_wire c) (c_log c ++ [s]) (c_reader c) (c_config c).

(** Outcome of awaiting [write_all]: everything accepted; or an error, or the
    future dropped, after the first [k] bytes were accepted. *)
Inductive write_out := WOk | WErr (k : nat) (e : io_kind) | WDrop (k : nat).

(** tokio's [AsyncWriteExt::write_all] on the connection. *)
Definition write_all (c : client) (data : str) (w : write_out) : client * fin (result unit io_kind) :=
  match w with
  | WOk => (set_wire c (c_wire c ++ data), Done (Ok tt))
  | WErr k e => (set_wire c (c_wire c ++ firstn k data), Done (Err e))
  | WDrop k => (set_wire c (c_wire c ++ firstn k data), Dropped)
  end.

(** ** Sending: client/write.rs *)

(** [RawMessage::try_from]: write.rs:282-287. *)
Definition raw_message (data : str) : option str :=
  match ends_with crlf data with
  | true => Some data
  | false => None
  end.

(** [Client::send_raw]: write.rs:80-89. *)
Definition send_raw (c : client) (s : str) (w : write_out) : client * fin (result unit send_error) :=
  match raw_message s with
  | None => (c, Done (Err SendInvalidMessage))
  | Some data =>
    let c := add_log c data in
    let '(c, r) := write_all c data w in
    match r with
    | Dropped => (c, Dropped)
    | Done (Err e) => (c, Done (Err (SendIo e)))
    | Done (Ok _) => (c, Done (Ok tt))
    end
  end.

(** [with_scratch!]: macros.rs:1-11, for a body that formats into the scratch
    buffer ([fill]) and then awaits [send_raw].  [early]: the body leaves the
    surrounding function on an error (the [?] of write.rs:148), so that the buffer
    is not put back; [std::mem::take] left an empty one. *)
Definition with_scratch (c : client) (fill : str -> str) (early : bool) (w : write_out)
  : client * fin (result unit send_error) :=
  let scratch := c_scratch c in
  let c := set_scratch c [] in
  let scratch := fill scratch in
  let '(c, r) := send_raw c scratch w in
  match r with
  | Dropped => (c, Dropped)
  | Done (Err e) =>
    if early then (c, Done (Err e))
    else
      let scratch := [] in
      (set_scratch c scratch, Done (Err e))
  | Done (Ok _) =>
    let scratch := [] in
    (set_scratch c scratch, Done (Ok tt))
  end.

(** [Display for Tag]: write.rs:23-29. *)
Definition wire_tag_display (key value : str) : str := key ++ b "=" ++ value.

(** [Option::iter]. *)
Definition opt_list {A : Type} (o : option A) : list A :=
  match o with Some a => [a] | None => [] end.

(** [write!(f, "@{tags} ")] with the joined tags: write.rs:57-66. *)
Definition write_tags (reply nonce : option str) (f : str) : str :=
  let reply := option_map (wire_tag_display (b "reply-parent-msg-id")) reply in
  let nonce := option_map (wire_tag_display (b "client-nonce")) nonce in
  let tags := join_new (opt_list reply ++ opt_list nonce) (b ";") in
  let '(_, sk, ok) := join_fmt tags (mk_sink (f ++ b "@") None) in
  if ok then sk_out sk ++ b " " else sk_out sk.

(** The body of [Privmsg::send] up to the send: write.rs:52-68. *)
Definition privmsg_fill (channel text : str) (reply nonce : option str) (f : str) : str :=
  let has_tags :=
    match reply with Some _ => true | None => false end ||
    match nonce with Some _ => true | None => false end in
  let f := if has_tags then write_tags reply nonce f else f in
  f ++ b "PRIVMSG " ++ channel ++ b " :" ++ text ++ crlf.

(** [Privmsg::send]: write.rs:42-71. *)
Definition send_privmsg (c : client) (channel text : str) (reply nonce : option str) (w : write_out) :=
  with_scratch c (privmsg_fill channel text reply nonce) false w.

(** [Client::ping]: write.rs:120-125. *)
Definition send_ping (c : client) (nonce : str) (w : write_out) :=
  with_scratch c (fun f => f ++ b "PING :" ++ nonce ++ crlf) false w.

(** [Client::pong]: write.rs:128-137. *)
Definition send_pong (c : client) (ping : ping_msg cow) (w : write_out) :=
  with_scratch c (fun f =>
    match pi_nonce ping with
    | Some nonce => f ++ b "PONG :" ++ deref nonce ++ crlf
    | None => f ++ b "PONG" ++ crlf
    end) false w.

(** [Display for Channel]: write.rs:180-188. *)
Definition wire_channel (channel : str) : str :=
  if starts_with (b "#") channel then channel else b "#" ++ channel.

(** [Client::join]: write.rs:144-150. *)
Definition send_join (c : client) (channel : str) (w : write_out) :=
  with_scratch c (fun f => f ++ b "JOIN " ++ wire_channel channel ++ crlf) true w.

(** [Client::join_all]: write.rs:158-175. *)
Definition join_all_fill (channels : list str) (f : str) : str :=
  let f := f ++ b "JOIN " in
  match channels with
  | [] => f ++ crlf
  | channel :: rest =>
    fold_left (fun f channel => f ++ b "," ++ wire_channel channel) rest (f ++ wire_channel channel)
      ++ crlf
  end.

Definition send_join_all (c : client) (channels : list str) (w : write_out) :=
  with_scratch c (join_all_fill channels) false w.

(** Any of the sending functions, with its arguments. *)
Inductive call :=
| CallRaw (s : str)
| CallPrivmsg (channel text : str) (reply nonce : option str)
| CallPing (nonce : str)
| CallPong (ping : ping_msg cow)
| CallJoin (channel : str)
| CallJoinAll (channels : list str).

Definition run_call (c : client) (k : call) (w : write_out) : client * fin (result unit send_error) :=
  match k with
  | CallRaw s => send_raw c s w
  | CallPrivmsg ch t r n => send_privmsg c ch t r n w
  | CallPing n => send_ping c n w
  | CallPong p => send_pong c p w
  | CallJoin ch => send_join c ch w
  | CallJoinAll chs => send_join_all c chs w
  end.

(** ** Same-message bypass: write.rs:236-263 *)

(** [get]: write.rs:246-255; the state is [append]. *)
Definition bypass_get (append : bool) : bool * str :=
  let out := match append with
             | false => []
             | true => b " " ++ [xe2; xa0; x80]
             end in
  (negb append, out).

(** [Default]: write.rs:259-263. *)
Definition bypass_default : bool := false.

(** ** Handshake: client.rs:321-392 *)

(** Outcome of awaiting [flush]. *)
Inductive flush_out := FOk | FErr (e : io_kind) | FDrop.

(** Outcome of awaiting [recv] under the 5 second timer: the reads that complete
    until it returns, the timer fires, or the future is dropped. *)
Record wait_out := mk_wait { w_reads : list read; w_dropped : bool; w_build : build }.

Record handshake_out := mk_handshake_out
  { h_write : write_out; h_flush : flush_out; h_first : wait_out; h_second : wait_out }.

(** [self.recv().timeout(5s).await??]: client.rs:350 and client.rs:368. *)
Definition recv_timeout (c : client) (w : wait_out)
  : res (client * fin (result msg_own connect_error)) :=
  let! (r, o) := recv (w_build w) (arrive (c_reader c) (w_reads w)) in
  let c := set_reader c r in
  match o with
  | Some (Ok m) => Ret (c, Done (Ok m))
  | Some (Err e) => Ret (c, Done (Err (CRead e)))
  | None => if w_dropped w then Ret (c, Dropped) else Ret (c, Done (Err CTimeout))
  end.

(** The text written to the scratch buffer: client.rs:324-343. *)
Definition handshake_text (cr : credentials) : str :=
  let token := match token cr with Some t => t | None => b "just_a_lil_guy" end in
  let oauth := if starts_with (b "oauth:") token then [] else b "oauth:" in
  b "CAP REQ :twitch.tv/commands twitch.tv/tags twitch.tv/membership" ++ crlf ++
  b "PASS " ++ oauth ++ token ++ crlf ++
  b "NICK " ++ login cr ++ crlf.

(** Second half of the handshake: client.rs:349-391. *)
Definition handshake_verdict (c : client) (h : handshake_out)
  : res (client * fin (result unit connect_error)) :=
  let! (c, o) := recv_timeout c (h_first h) in
  match o with
  | Dropped => Ret (c, Dropped)
  | Done (Err e) => Ret (c, Done (Err e))
  | Done (Ok message) =>
    let! cmd := own_command message in
    match cmd with
    | Capability =>
      let! params := own_params message in
      if match params with Some v => starts_with (b "* ACK") v | None => false end then
        let! (c, o) := recv_timeout c (h_second h) in
        match o with
        | Dropped => Ret (c, Dropped)
        | Done (Err e) => Ret (c, Done (Err e))
        | Done (Ok message) =>
          let! cmd := own_command message in
          match cmd with
          | RplWelcome => Ret (c, Done (Ok tt))
          | Notice =>
            let! params := own_params message in
            if match params with Some v => contains (b "authentication failed") v | None => false end
            then Ret (c, Done (Err CAuth))
            else Ret (c, Done (Err (CNotice message)))
          | _ => Ret (c, Done (Err (CWelcome message)))
          end
        end
      else Ret (c, Done (Err CAuth))
    | _ => Ret (c, Done (Err (CWelcome message)))
    end
  end.

(** [Client::handshake]: client.rs:321-392. *)
Definition handshake (c : client) (h : handshake_out)
  : res (client * fin (result unit connect_error)) :=
  let c := set_scratch c (c_scratch c ++ handshake_text (cf_credentials (c_config c))) in
  let '(c, r) := write_all c (c_scratch c) (h_write h) in
  match r with
  | Dropped => Ret (c, Dropped)
  | Done (Err e) => Ret (c, Done (Err (CIo e)))
  | Done (Ok _) =>
    match h_flush h with
    | FDrop => Ret (c, Dropped)
    | FErr e => Ret (c, Done (Err (CIo e)))
    | FOk =>
      let c := set_scratch c [] in
      handshake_verdict c h
    end
  end.

(** ** Connecting: client.rs:262-278 *)

(** Outcome of awaiting [conn::open(..).timeout(..)]. *)
Inductive open_out := OpOk | OpErr (e : io_kind) | OpElapsed | OpDrop.

(** The reading half of a new connection: [split], client.rs:407-414. *)
Definition reader_new : reader := mk_reader [] [] false.

(** Outcome of [ServerName::try_from(HOST)?] and [TlsConfig::load(..)?]: client.rs:264. *)
Inductive tls_out := TlsOk | TlsBadName | TlsFailed.

(** [Client::connect]: the [TlsConfig] could be loaded or not, the connection is
    opened, and a new client does the handshake; [elapsed]: if the handshake was
    interrupted, the timer did it (otherwise the caller). *)
Definition connect (cf : config) (tls : tls_out) (o : open_out) (h : handshake_out)
           (elapsed : bool) : res (fin (result client connect_error)) :=
  match tls with
  | TlsBadName => Ret (Done (Err CDns))
  | TlsFailed => Ret (Done (Err CTls))
  | TlsOk =>
    match o with
    | OpDrop => Ret Dropped
    | OpElapsed => Ret (Done (Err CTimeout))
    | OpErr e => Ret (Done (Err (COpen e)))
    | OpOk =>
      let! (c, r) := handshake (mk_client [] [] [] reader_new cf) h in
      match r with
      | Dropped => if elapsed then Ret (Done (Err CTimeout)) else Ret Dropped
      | Done (Err e) => Ret (Done (Err e))
      | Done (Ok _) => Ret (Done (Ok c))
      end
    end
  end.

(** [Client::anonymous]: client.rs:257-259. *)
Definition connect_anonymous (n : N) := connect (config_default n).

(** ** Reconnecting: client.rs:281-319 *)

(** [should_retry]: client.rs:483-485. *)
Definition should_retry (e : connect_error) : bool :=
  match e with
  | COpen _ | CIo _ => true
  | _ => false
  end.

(** What happens during one iteration of the loop; [a_sleeps]: the sleep
    completes (otherwise the caller drops the future there). *)
Record attempt := mk_attempt
  { a_sleeps : bool; a_open : open_out; a_handshake : handshake_out; a_elapsed : bool }.

(** What the loop does, as seen from outside: waiting, trying to open a
    connection, and what a connection that was opened accepted. *)
Inductive event := Slept (d : duration) | Opening | Sent (wire : str).

(** How [reconnect] ends; [Running]: not yet after the given number of
    iterations (artefact of the model). *)
Inductive outcome := Finished (r : result unit connect_error) | Abandoned | Running.

(** [split] and assignment of both halves: client.rs:304. *)
Definition new_connection (c : client) : client := set_reader (set_wire c []) reader_new.

(** [matches!(tries, None | Some(1..))]. *)
Definition tries_left (tries : option N) : bool :=
  match tries with None => true | Some n => (1 <=? n)%N end.

Fixpoint reconnect_loop (fuel : nat) (bk : backoff) (oracle : nat -> attempt) (i : nat)
         (tries : option N) (delay : duration) (cause : connect_error) (c : client)
  : res (client * list event * outcome) :=
  match fuel with
  | 0 => Ret (c, [], Running)
  | S fuel' =>
    if tries_left tries then
      let a := oracle i in
      if a_sleeps a then
        let pre := [Slept delay] in
        let tries := option_map (fun n => (n - 1)%N) tries in
        let! product := duration_mul delay (delay_multiplier bk) in
        let delay := N.min (max_delay bk) product in
        let pre := pre ++ [Opening] in
        match a_open a with
        | OpDrop => Ret (c, pre, Abandoned)
        | OpElapsed => Ret (c, pre, Finished (Err CTimeout))
        | OpErr e =>
          let! (c, tr, o) := reconnect_loop fuel' bk oracle (i + 1) tries delay (COpen e) c in
          Ret (c, pre ++ tr, o)
        | OpOk =>
          let c := new_connection c in
          let! (c, r) := handshake c (a_handshake a) in
          let pre := pre ++ [Sent (c_wire c)] in
          match r with
          | Dropped =>
            if a_elapsed a then Ret (c, pre, Finished (Err CTimeout)) else Ret (c, pre, Abandoned)
          | Done (Err e) =>
            if should_retry e then
              let! (c, tr, o) := reconnect_loop fuel' bk oracle (i + 1) tries delay e c in
              Ret (c, pre ++ tr, o)
            else Ret (c, pre, Finished (Err e))
          | Done (Ok _) => Ret (c, pre, Finished (Ok tt))
          end
        end
      else Ret (c, [Slept delay], Abandoned)
    else Ret (c, [], Finished (Err cause))
  end.

(** [Client::reconnect]: client.rs:281-319, for at most [fuel] iterations. *)
Definition reconnect (fuel : nat) (oracle : nat -> attempt) (c : client)
  : res (client * list event * outcome) :=
  let bk := cf_backoff (c_config c) in
  reconnect_loop fuel bk oracle 0 (max_tries bk) (initial_delay bk) CTimeout c.
