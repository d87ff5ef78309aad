(** * PropsRecv: property theorems (generated from RecvProofs.v by tools/gen_props.py).

    Only statements; each is closed by the lemma of the same name. *)

From Verif Require Import Base Wide Tags Irc SpecIrc MsgBase MsgTypes SpecMsg Common Client SpecClient RecvProofs.

(** C55. What is received depends on the bytes only, not on how they are split
    into reads; whatever follows them (the end of the stream, an error, more
    data), and however many times one receives. *)
Theorem c55_chunking_irrelevant :
  forall (bd : nat -> build) (s : str) (reads reads' rest : list read) (n : nat),
    chunked s reads -> chunked s reads' ->
    rmap snd (recvs bd n (mk_reader [] (reads ++ rest) false)) =
    rmap snd (recvs bd n (mk_reader [] (reads' ++ rest) false)).
Proof. exact p_c55_chunking_irrelevant. Qed.
Print Assumptions c55_chunking_irrelevant.

(** C55. Every complete line received gives its result, in order, whatever follows. *)
Theorem c55_lines :
  forall (bd : nat -> build) (s : str) (ls : list str) (rest : str) (reads tail : list read)
    (os : list (result msg_own recv_error)),
    chunked s reads -> lines_then s ls rest -> results bd ls os ->
    exists r, recvs bd (length ls) (mk_reader [] (reads ++ tail) false) = Ret (r, map Some os).
Proof. exact p_c55_lines. Qed.
Print Assumptions c55_lines.

(** C55. A whole stream: one result per line, a last line without line feed
    included, and then [StreamClosed] for ever. *)
Theorem c55_stream :
  forall (bd : nat -> build) (s : str) (ls : list str) (reads : list read)
    (os : list (result msg_own recv_error)) (k : nat),
    chunked s reads -> framed s ls -> results bd ls os ->
    exists r, recvs bd (length ls + k) (mk_reader [] (reads ++ [Got []; Got []]) false) =
      Ret (r, map Some os ++ repeat (Some (Err RecvStreamClosed)) k).
Proof. exact p_c55_stream. Qed.
Print Assumptions c55_stream.

(** C55. The lines of a stream are unique. *)
Theorem c55_framing_unique :
  forall s : str, exists! ls, framed s ls.
Proof. exact p_c55_framing_unique. Qed.
Print Assumptions c55_framing_unique.

(** C55. A failed read gives an I/O error after the lines received before. *)
Theorem c55_read_error :
  forall (bd : nat -> build) (s : str) (ls : list str) (rest : str) (reads tail : list read)
    (os : list (result msg_own recv_error)) (e : io_kind),
    chunked s reads -> lines_then s ls rest -> results bd ls os ->
    exists r, recvs bd (length ls + 1) (mk_reader [] (reads ++ [Fault e] ++ tail) false) =
      Ret (r, map Some os ++ [Some (Err (RecvIo e))]).
Proof. exact p_c55_read_error. Qed.
Print Assumptions c55_read_error.

(** C55. Dropping an unfinished [recv] loses nothing: the results obtained are those
    of receiving everything at once. *)
Theorem c55_cancel_safe :
  forall (bd : build) (steps : list (list read)) (r r' : reader) (os : list (option (result msg_own recv_error))),
    tries_to_recv bd steps r = Ret (r', os) ->
    exists r'', recvs (fun _ => bd) (length (completed os)) (arrive r (concat steps)) = Ret (r'', completed os).
Proof. exact p_c55_cancel_safe. Qed.
Print Assumptions c55_cancel_safe.

(** C59. The errors that count as a disconnect. *)
Theorem c59_is_disconnect :
  forall e : recv_error,
    is_disconnect e = true <->
    e = RecvStreamClosed \/ e = RecvIo UnexpectedEof \/ e = RecvIo ConnectionAborted \/ e = RecvIo TimedOut.
Proof. exact p_c59_is_disconnect. Qed.
Print Assumptions c59_is_disconnect.

(** C59. That every error after which nothing more can be received counts is false:
    a connection reset by the peer does not. *)
Theorem c59_any_lost_connection_refuted :
  exists (bd : build) (r r' : reader) (e : recv_error),
    recv bd r = Ret (r', Some (Err e)) /\ (e = RecvIo ConnectionReset \/ e = RecvIo BrokenPipe) /\
    is_disconnect e = false.
Proof. exact p_c59_any_lost_connection_refuted. Qed.
Print Assumptions c59_any_lost_connection_refuted.

Example example_c59 : is_disconnect (RecvIo TimedOut) = true /\ is_disconnect (RecvParse (b "x")) = false.
Proof. exact ex_c59. Qed.

Example example_c55 :
  exists r m1 m2,
    chunked (b "PING :a" ++ crlf ++ b " bad" ++ [lf] ++ b "JOIN #c") (map Got [b "PI"; b "NG :a" ++ [cr]; [lf]; b " bad" ++ [lf] ++ b "JOIN #c"]) /\
    framed (b "PING :a" ++ crlf ++ b " bad" ++ [lf] ++ b "JOIN #c") [b "PING :a"; b " bad"; b "JOIN #c"] /\
    recvs (fun _ => Scalar) 5
      (mk_reader [] (map Got [b "PI"; b "NG :a" ++ [cr]; [lf]; b " bad" ++ [lf] ++ b "JOIN #c"] ++ [Got []; Got []]) false) =
    Ret (r, [Some (Ok m1); Some (Err (RecvParse (b " bad"))); Some (Ok m2);
             Some (Err RecvStreamClosed); Some (Err RecvStreamClosed)]) /\
    own_raw m1 = b "PING :a" /\ own_raw m2 = b "JOIN #c".
Proof. exact ex_c55. Qed.
