(** * PropsKeep: property theorems (generated from KeepProofs.v by tools/gen_props.py).

    Only statements; each is closed by the lemma of the same name. *)

From Verif Require Import Base Wide Tags Irc SpecIrc MsgBase MsgTypes SpecMsg Common Client SpecClient SpecKeep KeepProofs.

(** C91. [recv] is not ready exactly if the connection is still open and all that has
    come since the last line has no line feed in it; it then keeps all of it. *)
Theorem c91_waits :
  forall (bd : build) (r r' : reader),
    recv bd r = Ret (r', None) <->
    rd_ended r = false /\ ~ In lf (rd_buf r) /\ Forall inside_line (rd_reads r) /\
    r' = mk_reader (rd_buf r ++ bytes_of (rd_reads r)) [] false.
Proof. exact p_c91_waits. Qed.
Print Assumptions c91_waits.

(** C91. A result uses no read that it does not need: none if there is a line in what
    is kept; otherwise those up to the first that brings a line feed, the end or an
    error, and what comes after the line feed is kept. *)
Theorem c91_reads_no_more :
  forall (bd : build) (r r' : reader) (x : result msg_own recv_error),
    recv bd r = Ret (r', Some x) ->
    (rd_ended r = true /\ r' = r) \/
    (exists l, rd_buf r = l ++ lf :: rd_buf r' /\ rd_reads r' = rd_reads r) \/
    (~ In lf (rd_buf r) /\
     exists pre last, rd_reads r = pre ++ last :: rd_reads r' /\ Forall inside_line pre /\
       match last with
       | Got [] | Fault _ => rd_buf r' = []
       | Got bytes => exists l, bytes = l ++ lf :: rd_buf r' /\ ~ In lf l
       end).
Proof. exact p_c91_reads_no_more. Qed.
Print Assumptions c91_reads_no_more.

(** C91. However the bytes come and however often [recv] is tried: what is kept is the
    end of what has been read. It is less than one line, or no more than one read
    brought; it is no more than that after every result. *)
Theorem c91_kept :
  forall (bd : build) (k : nat) (steps : list (list read)) (r : reader) (os : list (option (result msg_own recv_error))),
    Forall (Forall (at_most k)) steps ->
    tries_to_recv bd steps reader_new = Ret (r, os) ->
    (exists used, bytes_of (concat steps) = used ++ rd_buf r ++ bytes_of (rd_reads r)) /\
    (~ In lf (rd_buf r) \/ length (rd_buf r) <= k) /\
    (last os None <> None -> length (rd_buf r) <= k).
Proof. exact p_c91_kept. Qed.
Print Assumptions c91_kept.

(** C91. There is no bound on it: without a line feed all is kept, one byte after the other. *)
Theorem c91_bound_refuted :
  forall (bd : build) (n : nat), exists steps r os,
    Forall (Forall (at_most 1)) steps /\ tries_to_recv bd steps reader_new = Ret (r, os) /\
    Forall (fun o => o = None) os /\ length (rd_buf r) = n.
Proof. exact p_c91_bound_refuted. Qed.
Print Assumptions c91_bound_refuted.

(** Two tries, the first without result; two reads of at most 8 bytes are left over
    in part. *)
Example example_c91 :
  let steps := [[Got (b "PIN")]; [Got (b "G" ++ crlf ++ b "PONG"); Got (crlf ++ b "X")]] in
  Forall (Forall (at_most 8)) steps /\
  exists m, tries_to_recv Scalar steps reader_new =
    Ret (mk_reader (b "PONG") [Got (crlf ++ b "X")] false, [None; Some (Ok m)]) /\ own_command m = Ret Ping.
Proof. exact ex_c91. Qed.
