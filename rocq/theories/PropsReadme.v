(** * PropsReadme: property theorems (generated from ReadmeProofs.v by tools/gen_props.py).

    Only statements; each is closed by the lemma of the same name. *)

From Verif Require Import Base Wide Tags Irc SpecIrc SpecText MsgBase MsgTypes MsgNotice Message SpecMsg Common Client SpecClient Bot SpecBot Readme SpecReadme HandshakeProofs ConnectProofs BotProofs Samples ReadmeProofs.

(** C78. It joins the channel behind the anonymous greeting, and then runs. *)
Theorem c78_start :
  forall (pf : profile) (n : N) (tls : tls_out) (o : open_out) (h : handshake_out) (elapsed : bool) (c0 : client) (g : str),
    greeting (credentials_anon n) g ->
    connect_anonymous n tls o h elapsed = Ret (Done (Ok c0)) ->
    exists c1, c_wire c1 = g ++ join_line /\ c_log c1 = [join_line] /\
      c_scratch c1 = [] /\ c_reader c1 = c_reader c0 /\ c_config c1 = config_default n /\
      forall turns,
        readme_main pf n tls o h elapsed WOk turns =
        let! (c, out, s) := readme_run pf c1 turns in Ret (Some c, out, s).
Proof. exact p_c78_start. Qed.
Print Assumptions c78_start.

(** C78. If connecting or joining fails, it ends with that error and prints nothing. *)
Theorem c78_start_fails :
  forall (pf : profile) (n : N) (tls : tls_out) (o : open_out) (h : handshake_out) (elapsed : bool) (w : write_out)
    (turns : list turn),
    (forall e, connect_anonymous n tls o h elapsed = Ret (Done (Err e)) ->
       readme_main pf n tls o h elapsed w turns = Ret (None, [], Failed (BotConnect e))) /\
    (forall c0 k e, connect_anonymous n tls o h elapsed = Ret (Done (Ok c0)) -> w = WErr k e ->
       exists c, readme_main pf n tls o h elapsed w turns = Ret (Some c, [], Failed (BotSend (SendIo e))) /\
         c_wire c = c_wire c0 ++ firstn k join_line).
Proof. exact p_c78_start_fails. Qed.
Print Assumptions c78_start_fails.

(** C78. Whatever the chunks in which the lines arrive, it sends exactly the PONGs that
    are due, prints who says what for each message, and goes on. *)
Theorem c78_answers :
  forall (pf : profile) (n : N) (c : client) (s rest : str) (ls os : list str) (reads tail : list read) (xs : list turn),
    c_config c = config_default n ->
    c_scratch c = [] -> c_reader c = mk_reader [] (reads ++ tail) false -> chunked s reads -> lines_then s ls rest ->
    answers pf true xs ls os ->
    exists c' out, readme_run pf c xs = Ret (c', out, Going) /\
      c_wire c' = c_wire c ++ concat os /\ c_log c' = c_log c ++ filter non_empty os /\ all_printed true ls out.
Proof. exact p_c78_answers. Qed.
Print Assumptions c78_answers.

(** C78. The first line that cannot be read, is not the message it should be, or whose
    PONG cannot be written, ends it with that error; nothing is sent after. *)
Theorem c78_stops :
  forall (pf : profile) (n : N) (c : client) (s rest : str) (ls more os : list str) (l a : str) (e : bot_error)
    (reads tail : list read) (xs ys : list turn) (x : turn),
    c_config c = config_default n ->
    c_scratch c = [] -> c_reader c = mk_reader [] (reads ++ tail) false -> chunked s reads ->
    lines_then s (ls ++ l :: more) rest -> answers pf true xs ls os -> fatal pf true x l a e ->
    exists c' out, readme_run pf c (xs ++ x :: ys) = Ret (c', out, Failed e) /\
      c_wire c' = c_wire c ++ concat os ++ a /\
      exists out1 out2, out = out1 ++ out2 /\ all_printed true ls out1 /\ last_printed true l e out2.
Proof. exact p_c78_stops. Qed.
Print Assumptions c78_stops.

(** C78. After a RECONNECT and a successful reconnect it joins the channel again, behind
    the greeting of the new connection. *)
Theorem c78_rejoins :
  forall (pf : profile) (n : N) (c c2 : client) (l : str) (v : view) (g : str)
    (tr : list event) (x : turn) (ys : list turn) (m : msg_ref) (r : reader),
    c_config c = config_default n -> c_scratch c = [] ->
    parsed (t_build x) l v m -> v_command v = b "RECONNECT" -> greeting (credentials_anon n) g -> t_write x = WOk ->
    recv (t_build x) (arrive (c_reader c) (t_reads x)) = Ret (r, Some (Ok (ref_into_owned m))) ->
    reconnect (t_fuel x) (t_oracle x) (set_reader c r) = Ret (c2, tr, Finished (Ok tt)) ->
    exists c3 k, c_wire c3 = copies (S k) g ++ join_line /\ c_scratch c3 = [] /\ c_reader c3 = c_reader c2 /\
      c_config c3 = config_default n /\ readme_run pf c (x :: ys) = readme_run pf c3 ys.
Proof. exact p_c78_rejoins. Qed.
Print Assumptions c78_rejoins.

(** C78. In every run, however it goes and ends, all it sends on its connections after
    the greetings is the line that joins the channel and PONGs, first the former; and it
    stays anonymous. *)
Theorem c78_only_polite :
  forall (pf : profile) (n : N) (tls : tls_out) (o : open_out) (h : handshake_out) (elapsed : bool) (w : write_out)
    (turns : list turn) (c : client) (out : list str) (s : bot_state),
    readme_main pf n tls o h elapsed w turns = Ret (Some c, out, s) ->
    c_config c = config_default n /\ exists ss, c_log c = join_line :: ss /\ Forall polite ss.
Proof. exact p_c78_only_polite. Qed.
Print Assumptions c78_only_polite.

(** C78. It does what the example program does when started with no login and the
    channel [#forsen], except that it does not print its two first lines. *)
Theorem c78_like_example :
  forall (pf : profile) (n : N) (tls : tls_out) (o : open_out) (h : handshake_out) (elapsed : bool) (w : write_out)
    (turns : list turn) (c : option client) (out : list str) (s : bot_state),
    readme_main pf n tls o h elapsed w turns = Ret (c, out, s) ->
    exists first, length first <= 2 /\
      bot_main pf None None n [b "#forsen"] tls o h elapsed w turns = Ret (c, first ++ out, s).
Proof. exact p_c78_like_example. Qed.
Print Assumptions c78_like_example.

Example example_c78 :
  let s := b "PING :x" ++ crlf ++ yo_line ++ crlf ++ b "RECONNECT" ++ crlf in
  let l1 := b ":tmi.twitch.tv CAP * ACK :twitch.tv/tags" ++ crlf in
  let l2 := b ":tmi.twitch.tv 001 me :Welcome, GLHF!" ++ crlf in
  let h := mk_handshake_out WOk FOk (mk_wait [Got (l1 ++ l2 ++ s)] false Scalar) (mk_wait [] false Scalar) in
  let x := mk_turn Scalar [] WOk 9 sample_oracle in
  (exists c, readme_main Debug 12345 TlsOk OpOk h false WOk [x; x; x] = Ret (Some c, [b "A: !yo bot"], Going) /\
     c_log c = [join_line; b "PONG :x" ++ crlf; join_line]) /\
  answers Debug true [x; x] [b "PING :x"; yo_line] [b "PONG :x" ++ crlf; []] /\
  fatal Debug true (mk_turn Scalar [] (WErr 3 BrokenPipe) 9 sample_oracle) (b "PING :x") (b "PON") (BotSend (SendIo BrokenPipe)).
Proof. exact ex_c78. Qed.
