(** * SpecClient: what the client should send and receive, stated on bytes.

    The argument and result types are imported from the model, its functions are
    not. *)

From Verif Require Import Base Tags Irc SpecIrc MsgBase MsgTypes SpecMsg Common Client.

(** ** Lines *)

(** [framed s ls]: the lines of a complete stream [s].  A line ends with a line
    feed; one carriage return before it is dropped.  Text after the last line feed
    is a line too (kept as it is), if there is any. *)
Definition chomp (l : str) (l' : str) : Prop :=
  l = l' ++ [cr] \/ (l = l' /\ forall x, l <> x ++ [cr]).

Inductive framed : str -> list str -> Prop :=
| fr_end : framed [] []
| fr_rest l : l <> [] -> ~ In lf l -> framed l [l]
| fr_line l l' s ls :
    ~ In lf l -> chomp l l' -> framed s ls -> framed (l ++ [lf] ++ s) (l' :: ls).

(** The same, as far as complete lines go: [s] is the lines [ls] followed by
    [rest] without line feed. *)
Inductive lines_then : str -> list str -> str -> Prop :=
| lt_rest s : ~ In lf s -> lines_then s [] s
| lt_line l l' s ls rest :
    ~ In lf l -> chomp l l' -> lines_then s ls rest ->
    lines_then (l ++ [lf] ++ s) (l' :: ls) rest.

(** What [recv] returns for a line: the parsed message, the line itself if it is
    rejected, and an I/O error if it is not text. *)
Definition line_result (bd : build) (l : str) (o : result msg_own recv_error) : Prop :=
  (utf8_valid l = false /\ o = Err (RecvIo InvalidData)) \/
  (utf8_valid l = true /\
   ((exists m, own_parse bd l = Ret (Some m) /\ o = Ok m) \/
    (own_parse bd l = Ret None /\ o = Err (RecvParse l)))).

(** The results for several lines; [bd i] is the build used for line [i] (the
    address of the copied line may differ). *)
Inductive results (bd : nat -> build) : list str -> list (result msg_own recv_error) -> Prop :=
| rs_nil : results bd [] []
| rs_cons l ls o os :
    line_result (bd 0) l o -> results (fun i => bd (S i)) ls os -> results bd (l :: ls) (o :: os).

(** The bytes of a sequence of successful, non-empty reads. *)
Definition chunked (s : str) (reads : list read) : Prop :=
  exists cs, reads = map Got cs /\ Forall (fun c => c <> []) cs /\ s = concat cs.

(** ** Sending *)

Definition with_hash (ch : str) : str :=
  match ch with
  | c :: _ => if Byte.eqb c "#" then ch else b "#" ++ ch
  | [] => b "#"
  end.

(** The bytes of one call. *)
Definition call_line (k : call) : str :=
  match k with
  | CallRaw s => s
  | CallPrivmsg ch t None None => b "PRIVMSG " ++ ch ++ b " :" ++ t ++ crlf
  | CallPrivmsg ch t (Some r) None =>
    b "@reply-parent-msg-id=" ++ r ++ b " PRIVMSG " ++ ch ++ b " :" ++ t ++ crlf
  | CallPrivmsg ch t None (Some n) =>
    b "@client-nonce=" ++ n ++ b " PRIVMSG " ++ ch ++ b " :" ++ t ++ crlf
  | CallPrivmsg ch t (Some r) (Some n) =>
    b "@reply-parent-msg-id=" ++ r ++ b ";client-nonce=" ++ n ++
    b " PRIVMSG " ++ ch ++ b " :" ++ t ++ crlf
  | CallPing n => b "PING :" ++ n ++ crlf
  | CallPong p =>
    match pi_nonce p with
    | Some n => b "PONG :" ++ deref n ++ crlf
    | None => b "PONG" ++ crlf
    end
  | CallJoin ch => b "JOIN " ++ with_hash ch ++ crlf
  | CallJoinAll chs => b "JOIN " ++ join_by "," (map with_hash chs) ++ crlf
  end.

(** Sent in one piece, or only an initial part. *)
Definition part_of (s x : str) : Prop := exists r, s = x ++ r.

Definition ends_crlf (s : str) : Prop := exists p, s = p ++ crlf.

(** The texts a call is given. *)
Definition call_args (k : call) : list str :=
  match k with
  | CallRaw s => [s]
  | CallPrivmsg ch t r n => [ch; t] ++ opt_list r ++ opt_list n
  | CallPing n => [n]
  | CallPong p => map deref (opt_list (pi_nonce p))
  | CallJoin ch => [ch]
  | CallJoinAll chs => chs
  end.

Definition is_raw (k : call) : Prop := exists s, k = CallRaw s.

(** [s] is exactly one line. *)
Definition one_line (s : str) : Prop := exists l, s = l ++ crlf /\ ~ In lf l.

(** ** Reading back what was sent *)

(** The message a call stands for. *)
Definition call_message (k : call) : option message :=
  match k with
  | CallRaw _ => None
  | CallPrivmsg ch t r n =>
    Some (mk_message
      (map (fun x => (b "reply-parent-msg-id", x)) (opt_list r) ++
       map (fun x => (b "client-nonce", x)) (opt_list n))
      None (b "PRIVMSG") (Some ch) (Some (b ":" ++ t)))
  | CallPing n => Some (mk_message [] None (b "PING") None (Some (b ":" ++ n)))
  | CallPong p =>
    Some (mk_message [] None (b "PONG") None
      (option_map (fun n => b ":" ++ deref n) (pi_nonce p)))
  | CallJoin ch => Some (mk_message [] None (b "JOIN") (Some (with_hash ch)) None)
  | CallJoinAll [] => Some (mk_message [] None (b "JOIN") None None)
  | CallJoinAll chs =>
    Some (mk_message [] None (b "JOIN") (Some (join_by "," (map with_hash chs))) None)
  end.

(** The text after the colon. *)
Definition call_text (k : call) : option str :=
  match k with
  | CallPrivmsg _ t _ _ => Some t
  | CallPing n => Some n
  | CallPong p => option_map deref (pi_nonce p)
  | _ => None
  end.

(** The received message [m] has the parts of [x]. *)
Definition shows (m : msg_own) (x : message) (text : option str) : Prop :=
  own_tags m = Ret (m_tags x) /\ own_prefix m = Ret None /\
  own_command m = Ret (spec_command (m_command x)) /\
  own_channel m = Ret (m_channel x) /\ own_params m = Ret (m_params x) /\
  own_text m = Ret text /\ ref_text (own_as_ref m) = Ret text.

Definition no_space (s : str) : Prop := ~ In " "%byte s.

(** Values that can stand in a tag without escaping. *)
Definition plain_value (s : str) : Prop :=
  ~ In " "%byte s /\ ~ In ";"%byte s /\ (N.of_nat (length s) < 65536)%N.

(** Arguments that the other side can read back: text (not more than 4 GiB per
    line), without line feed; channels without space, starting with [#] in
    [privmsg]; tag values plain. *)
Definition good_call (k : call) : Prop :=
  Forall (fun x => utf8_valid x = true /\ ~ In lf x) (call_args k) /\
  (N.of_nat (length (call_line k)) < 4294967296)%N /\
  match k with
  | CallRaw _ => False
  | CallPrivmsg ch t r n =>
    starts "#" ch /\ no_space ch /\ Forall plain_value (opt_list r ++ opt_list n)
  | CallJoin ch => no_space ch
  | CallJoinAll chs => Forall no_space chs
  | CallPing _ | CallPong _ => True
  end.

(** Several calls, one after the other, each with the outcome of its write. *)
Fixpoint run_calls (c : client) (l : list (call * write_out)) : client :=
  match l with
  | [] => c
  | (k, w) :: l' => run_calls (fst (run_call c k w)) l'
  end.

(** Several [recv], one after the other. *)
Fixpoint recvs (bd : nat -> build) (n : nat) (r : reader)
  : res (reader * list (option (result msg_own recv_error))) :=
  match n with
  | 0 => Ret (r, [])
  | S n' =>
    let! (r, o) := recv (bd 0) r in
    let! (r, os) := recvs (fun i => bd (S i)) n' r in
    Ret (r, o :: os)
  end.

(** ** Handshake *)

(** The password line carries the token behind exactly one [oauth:]. *)
Definition password (tok pass : str) : Prop :=
  exists t, pass = b "oauth:" ++ t /\
    (tok = b "oauth:" ++ t \/ (tok = t /\ forall x, tok <> b "oauth:" ++ x)).

Definition greeting (cr : credentials) (s : str) : Prop :=
  exists pass,
    password (match token cr with Some t => t | None => b "just_a_lil_guy" end) pass /\
    s = b "CAP REQ :twitch.tv/commands twitch.tv/tags twitch.tv/membership" ++ crlf ++
        b "PASS " ++ pass ++ crlf ++ b "NICK " ++ login cr ++ crlf.

Definition copies (n : nat) (s : str) : str := concat (repeat s n).

(** A CAP acknowledgement. *)
Definition acknowledges (v : view) : Prop :=
  v_command v = b "CAP" /\ exists r, v_params v = Some (b "* ACK" ++ r).

(** A NOTICE about failed authentication. *)
Definition denies (v : view) : Prop :=
  v_command v = b "NOTICE" /\ exists p, v_params v = Some p /\ infix (b "authentication failed") p.

(** A line that parses, as far as the parser's limits go. *)
Definition fit_line (bd : build) (l : str) : Prop :=
  utf8_valid l = true /\ below_4gib l /\ length (fst (spec_tags l)) <= 128 /\
  (bd = Scalar -> ~ unterminated_tags l).

(** How waiting for a message (at most 5 seconds) ends. *)
Inductive waits (r : reader) (w : wait_out) : reader -> fin (result msg_own connect_error) -> Prop :=
| wt_message r' m :
    recv (w_build w) (arrive r (w_reads w)) = Ret (r', Some (Ok m)) -> waits r w r' (Done (Ok m))
| wt_failed r' e :
    recv (w_build w) (arrive r (w_reads w)) = Ret (r', Some (Err e)) -> waits r w r' (Done (Err (CRead e)))
| wt_time r' :
    recv (w_build w) (arrive r (w_reads w)) = Ret (r', None) -> w_dropped w = false ->
    waits r w r' (Done (Err CTimeout))
| wt_dropped r' :
    recv (w_build w) (arrive r (w_reads w)) = Ret (r', None) -> w_dropped w = true -> waits r w r' Dropped.

(** What the answers of the server mean. *)
Inductive verdict (r : reader) (h : handshake_out) : fin (result unit connect_error) -> Prop :=
| vd_first_failed r1 e : waits r (h_first h) r1 (Done (Err e)) -> verdict r h (Done (Err e))
| vd_first_dropped r1 : waits r (h_first h) r1 Dropped -> verdict r h Dropped
| vd_not_cap r1 m v :
    waits r (h_first h) r1 (Done (Ok m)) -> spec_view (own_raw m) = Some v ->
    v_command v <> b "CAP" -> verdict r h (Done (Err (CWelcome m)))
| vd_refused r1 m v :
    waits r (h_first h) r1 (Done (Ok m)) -> spec_view (own_raw m) = Some v ->
    v_command v = b "CAP" -> ~ acknowledges v -> verdict r h (Done (Err CAuth))
| vd_acknowledged r1 m v o :
    waits r (h_first h) r1 (Done (Ok m)) -> spec_view (own_raw m) = Some v ->
    acknowledges v -> second_verdict r1 h o -> verdict r h o
with second_verdict (r : reader) (h : handshake_out) : fin (result unit connect_error) -> Prop :=
| vd_second_failed r1 e : waits r (h_second h) r1 (Done (Err e)) -> second_verdict r h (Done (Err e))
| vd_second_dropped r1 : waits r (h_second h) r1 Dropped -> second_verdict r h Dropped
| vd_welcome r1 m v :
    waits r (h_second h) r1 (Done (Ok m)) -> spec_view (own_raw m) = Some v ->
    v_command v = b "001" -> second_verdict r h (Done (Ok tt))
| vd_denied r1 m v :
    waits r (h_second h) r1 (Done (Ok m)) -> spec_view (own_raw m) = Some v ->
    denies v -> second_verdict r h (Done (Err CAuth))
| vd_notice r1 m v :
    waits r (h_second h) r1 (Done (Ok m)) -> spec_view (own_raw m) = Some v ->
    v_command v = b "NOTICE" -> ~ denies v -> second_verdict r h (Done (Err (CNotice m)))
| vd_other r1 m v :
    waits r (h_second h) r1 (Done (Ok m)) -> spec_view (own_raw m) = Some v ->
    v_command v <> b "001" -> v_command v <> b "NOTICE" -> second_verdict r h (Done (Err (CWelcome m))).

(** The number of bytes in some reads. *)
Fixpoint read_size (reads : list read) : nat :=
  match reads with
  | [] => 0
  | Got bytes :: reads' => length bytes + read_size reads'
  | Fault _ :: reads' => read_size reads'
  end.

(** The answers to the handshake have less than 4 GiB. *)
Definition small_answers (r : reader) (h : handshake_out) : Prop :=
  (N.of_nat (length (rd_buf r) + read_size (rd_reads r) + read_size (w_reads (h_first h)) +
             read_size (w_reads (h_second h))) < 4294967296)%N.

(** A line on which parsing panics: more than 128 tags, or, without the vector code, a
    tag section without an end. *)
Definition hostile (bd : build) (l : str) : Prop :=
  (bd = Scalar /\ unterminated_tags l) \/
  exists sec rest tags, has_section l sec rest /\ tag_section sec tags /\ 128 < length tags.

(** The next line that arrives. *)
Definition next_line (r : reader) (reads : list read) (r' : reader) (l : str) : Prop :=
  poll_next (arrive r reads) = (r', Item (Some (Ok l))).

(** One of the answers waited for is such a line. *)
Inductive chokes (r : reader) (h : handshake_out) : Prop :=
| ck_first r1 l : next_line r (w_reads (h_first h)) r1 l -> hostile (w_build (h_first h)) l -> chokes r h
| ck_second r1 m v r2 l :
    waits r (h_first h) r1 (Done (Ok m)) -> spec_view (own_raw m) = Some v -> acknowledges v ->
    next_line r1 (w_reads (h_second h)) r2 l -> hostile (w_build (h_second h)) l -> chokes r h.

(** The bytes were written and flushed. *)
Definition delivered (h : handshake_out) : Prop := h_write h = WOk /\ h_flush h = FOk.

(** The handshake was interrupted. *)
Definition cut_short (h : handshake_out) : Prop :=
  (exists n, h_write h = WDrop n) \/
  (h_write h = WOk /\ h_flush h = FDrop) \/
  (delivered h /\ verdict reader_new h Dropped).

(** Why the first connection fails. *)
Inductive connect_fails (tls : tls_out) (o : open_out) (h : handshake_out) (elapsed : bool) : connect_error -> Prop :=
| cf_name : tls = TlsBadName -> connect_fails tls o h elapsed CDns
| cf_tls : tls = TlsFailed -> connect_fails tls o h elapsed CTls
| cf_open e : tls = TlsOk -> o = OpErr e -> connect_fails tls o h elapsed (COpen e)
| cf_open_time : tls = TlsOk -> o = OpElapsed -> connect_fails tls o h elapsed CTimeout
| cf_write n e : tls = TlsOk -> o = OpOk -> h_write h = WErr n e -> connect_fails tls o h elapsed (CIo e)
| cf_flush e : tls = TlsOk -> o = OpOk -> h_write h = WOk -> h_flush h = FErr e -> connect_fails tls o h elapsed (CIo e)
| cf_time : tls = TlsOk -> o = OpOk -> cut_short h -> elapsed = true -> connect_fails tls o h elapsed CTimeout
| cf_verdict e :
    tls = TlsOk -> o = OpOk -> delivered h -> verdict reader_new h (Done (Err e)) -> connect_fails tls o h elapsed e.

(** ** Everything that may happen to a client *)

Inductive history : client -> client -> Prop :=
| hs_start c : history c c
| hs_send c c1 k w : history c c1 -> history c (fst (run_call c1 k w))
| hs_recv c c1 bd reads r o :
    history c c1 -> recv bd (arrive (c_reader c1) reads) = Ret (r, o) -> history c (set_reader c1 r)
| hs_reconnect c c1 fuel oracle c2 tr o :
    history c c1 -> reconnect fuel oracle c1 = Ret (c2, tr, o) -> history c c2.

(** The same as a program: operations with what happens during each, and what the
    caller gets to see. *)
Inductive op :=
| OpSend (k : call) (w : write_out)
| OpRecv (bd : build) (reads : list read)
| OpReconnect (fuel : nat) (oracle : nat -> attempt).

Inductive seen :=
| SeenSend (r : fin (result unit send_error))
| SeenRecv (r : option (result msg_own recv_error))
| SeenReconnect (tr : list event) (o : outcome).

Definition run_op (c : client) (x : op) : res (client * seen) :=
  match x with
  | OpSend k w => let '(c, r) := run_call c k w in Ret (c, SeenSend r)
  | OpRecv bd reads =>
    let! (r, o) := recv bd (arrive (c_reader c) reads) in Ret (set_reader c r, SeenRecv o)
  | OpReconnect fuel oracle =>
    let! (c, tr, o) := reconnect fuel oracle c in Ret (c, SeenReconnect tr o)
  end.

Fixpoint run_ops (c : client) (l : list op) : res (client * list seen) :=
  match l with
  | [] => Ret (c, [])
  | x :: l' =>
    let! (c, s) := run_op c x in
    let! (c, ss) := run_ops c l' in
    Ret (c, s :: ss)
  end.

(** Without the bytes of the greetings. *)
Definition but_greetings (s : seen) : seen :=
  match s with
  | SeenReconnect tr o => SeenReconnect (filter (fun e => match e with Sent _ => false | _ => true end) tr) o
  | _ => s
  end.

(** Every greeting of the session is delivered in one piece. *)
Definition greets_whole (x : op) : Prop :=
  match x with
  | OpReconnect _ oracle => forall j, a_open (oracle j) = OpOk -> delivered (a_handshake (oracle j))
  | _ => True
  end.

(** Two configurations that differ at most in the token. *)
Definition same_but_token (f g : config) : Prop :=
  login (cf_credentials f) = login (cf_credentials g) /\
  cf_timeout f = cf_timeout g /\ cf_backoff f = cf_backoff g.

(** ** Reconnecting *)

Definition is_opening (e : event) : bool := match e with Opening => true | _ => false end.

(** Number of connection attempts. *)
Definition attempts (tr : list event) : nat := length (filter is_opening tr).

(** The delays, in order. *)
Definition delays (tr : list event) : list duration :=
  flat_map (fun e => match e with Slept d => [d] | _ => [] end) tr.

(** What the opened connections accepted, in order. *)
Definition sent (tr : list event) : list str :=
  flat_map (fun e => match e with Sent s => [s] | _ => [] end) tr.

(** The delay before attempt [k] (counted from 0). *)
Fixpoint nth_delay (bk : backoff) (k : nat) : duration :=
  match k with
  | 0 => initial_delay bk
  | S k' => N.min (max_delay bk) (nth_delay bk k' * delay_multiplier bk)
  end.

(** The product computed after attempt [k] is a [Duration]. *)
Definition delay_fits (bk : backoff) (k : nat) : Prop :=
  (nth_delay bk k * delay_multiplier bk < duration_limit)%N.

(** An attempt that fails with an I/O error while opening or writing. *)
Definition retried (a : attempt) (e : connect_error) : Prop :=
  a_sleeps a = true /\
  ((exists k, a_open a = OpErr k /\ e = COpen k) \/
   (a_open a = OpOk /\
    ((exists n k, h_write (a_handshake a) = WErr n k /\ e = CIo k) \/
     (h_write (a_handshake a) = WOk /\ exists k, h_flush (a_handshake a) = FErr k /\ e = CIo k)))).

(** Any other attempt, and what [reconnect] does then. *)
Inductive settles (a : attempt) : outcome -> Prop :=
| st_asleep : a_sleeps a = false -> settles a Abandoned
| st_open_dropped : a_sleeps a = true -> a_open a = OpDrop -> settles a Abandoned
| st_open_elapsed : a_sleeps a = true -> a_open a = OpElapsed -> settles a (Finished (Err CTimeout))
| st_cut_short :
    a_sleeps a = true -> a_open a = OpOk ->
    ((exists n, h_write (a_handshake a) = WDrop n) \/
     (h_write (a_handshake a) = WOk /\ h_flush (a_handshake a) = FDrop) \/
     (delivered (a_handshake a) /\ verdict reader_new (a_handshake a) Dropped)) ->
    settles a (if a_elapsed a then Finished (Err CTimeout) else Abandoned)
| st_answered x :
    a_sleeps a = true -> a_open a = OpOk -> delivered (a_handshake a) ->
    verdict reader_new (a_handshake a) (Done x) -> settles a (Finished x).

(** Attempt [k] is within the limit. *)
Definition within (tries : option N) (k : nat) : Prop :=
  match tries with None => True | Some n => (N.of_nat k < n)%N end.

(** ** Unfinished [recv]s *)

(** Each step: some reads complete, and [recv] is tried; if it is not ready, its
    future is dropped. *)
Fixpoint tries_to_recv (bd : build) (steps : list (list read)) (r : reader)
  : res (reader * list (option (result msg_own recv_error))) :=
  match steps with
  | [] => Ret (r, [])
  | reads :: steps' =>
    let! (r, o) := recv bd (arrive r reads) in
    let! (r, os) := tries_to_recv bd steps' r in
    Ret (r, o :: os)
  end.

(** The results among them. *)
Definition completed {A : Type} (os : list (option A)) : list (option A) :=
  filter (fun o => match o with Some _ => true | None => false end) os.

(** ** Joined items *)

(** The items in order, with [sep] between them. *)
Fixpoint interleave (sep : str) (items : list str) : str :=
  match items with
  | [] => []
  | [x] => x
  | x :: items' => x ++ sep ++ interleave sep items'
  end.

(** ** Channel names *)

(** The channel names a program can obtain. *)
Inductive made_ref : channel_ref -> Prop :=
| mr_parse s c : channel_ref_parse s = Some c -> made_ref c
| mr_de o c : channel_ref_deserialize o = Some c -> made_ref c
| mr_as_ref c : made c -> made_ref (channel_as_ref c)
with made : channel -> Prop :=
| md_parse s c : channel_parse_owned s = Some c -> made c
| md_de o c : channel_deserialize o = Some c -> made c
| md_to_owned c : made_ref c -> made (channel_to_owned c).

Scheme made_ref_ind2 := Induction for made_ref Sort Prop
  with made_ind2 := Induction for made Sort Prop.

Definition offered_text (o : offered) : str := match o with Slice s => s | Copied s => s end.

(** ** Same-message bypass *)

(** The results of [n] successive [get]s. *)
Fixpoint gets (n : nat) (append : bool) : list str :=
  match n with
  | 0 => []
  | S n' => let '(append, out) := bypass_get append in out :: gets n' append
  end.

(** A space and U+2800. *)
Definition invisible : str := [x20; xe2; xa0; x80].
