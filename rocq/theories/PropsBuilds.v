(** * PropsBuilds: property theorems (generated from BuildsProofs.v by tools/gen_props.py).

    Only statements; each is closed by the lemma of the same name. *)

From Verif Require Import Base Wide Tags Irc SpecIrc SpecText MsgBase MsgTypes MsgNotice Message SpecMsg Common Client SpecClient Bot SpecBot Readme SpecReadme SpecBuilds HandshakeProofs Samples BuildsProofs.

(** C92. What is received is the same in every build, unless it panics. *)
Theorem c92_received :
  forall (n : nat) (bd bd' : nat -> build) (r : reader),
    (forall i, as_safe (bd i) (bd' i)) -> recvs bd n r = Panic \/ recvs bd n r = recvs bd' n r.
Proof. exact p_c92_received. Qed.
Print Assumptions c92_received.

(** C92. The example program and the program of the front page do the same in every
    build, unless they panic: same output, same bytes sent, same end. *)
Theorem c92_programs :
  forall (pf pf' : profile) (xs xs' : list turn) (name tok : option str) (n : N) (chs : list str) (tls : tls_out)
         (o : open_out) (h : handshake_out) (elapsed : bool) (w : write_out),
    as_lenient pf pf' -> Forall2 rebuilt xs xs' ->
    (bot_main pf name tok n chs tls o h elapsed w xs = Panic \/
     bot_main pf name tok n chs tls o h elapsed w xs = bot_main pf' name tok n chs tls o h elapsed w xs') /\
    (readme_main pf n tls o h elapsed w xs = Panic \/
     readme_main pf n tls o h elapsed w xs = readme_main pf' n tls o h elapsed w xs').
Proof. exact p_c92_programs. Qed.
Print Assumptions c92_programs.

(** C92. A debug build panics on a typed message exactly if it is a ROOMSTATE with too
    many minutes; otherwise the two profiles give the same. A release build never does. *)
Theorem c92_profiles :
  forall (bd : build) (s : str) (v : view) (m : msg_ref), parsed bd s v m ->
    (from_irc Debug m = Panic <->
     v_command v = b "ROOMSTATE" /\ (exists channel room, has_channel v channel /\ has v "room-id" room) /\
     exists n, has_i64 v "followers-only" n /\ (60 * n > 2 ^ 63 - 1)%Z) /\
    (from_irc Debug m = Panic \/ from_irc Debug m = from_irc Release m) /\
    from_irc Release m <> Panic.
Proof. exact p_c92_profiles. Qed.
Print Assumptions c92_profiles.

(** C92. The builds do not always do the same: a debug build stops at such a line, a
    scalar build at a line that is nothing but the beginning of tags. *)
Theorem c92_always_the_same_refuted :
  let cf := config_default 1 in
  let run pf bd l := bot_run pf [] (mk_client [] [] [] (mk_reader [] [Got (l ++ crlf)] false) cf)
                       [mk_turn bd [] WOk 0 (fun _ => refused)] in
  exists l l' c c' out out',
    run Debug Scalar l = Panic /\ run Release Scalar l = Ret (c, out, Going) /\
    run Debug Scalar l' = Panic /\ run Debug (Simd Sse2 0) l' = Ret (c', out', Going).
Proof. exact p_c92_always_the_same_refuted. Qed.
Print Assumptions c92_always_the_same_refuted.

Example example_c92 :
  let cf := config_default 1 in
  let c := mk_client [] [] [] (mk_reader [] [Got (b "PING :x" ++ crlf ++ chat_line ++ crlf)] false) cf in
  let x bd := mk_turn bd [] WOk 0 (fun _ => refused) in
  Forall2 rebuilt [x Scalar; x (Simd Neon 5)] [x (Simd Avx2 1); x (Simd Sse2 0)] /\
  exists c', bot_run Debug [] c [x Scalar; x (Simd Neon 5)] = Ret (c', [b "A B: Kappa one"], Going) /\
    c_log c' = [b "PONG :x" ++ crlf].
Proof. exact ex_c92. Qed.
