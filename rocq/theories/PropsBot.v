(** * PropsBot: property theorems (generated from BotProofs.v by tools/gen_props.py).

    Only statements; each is closed by the lemma of the same name. *)

From Verif Require Import Base Wide Tags Irc SpecIrc SpecText MsgBase MsgTypes MsgNotice Message SpecMsg Common Client SpecClient Bot SpecBot HandshakeProofs ConnectProofs Samples BotProofs.

(** C67. Whatever the chunks in which the lines arrive, the program sends exactly the
    answers to the lines, in order, prints what it should for each, and goes on. *)
Theorem c67_answers :
  forall (pf : profile) (chs : list str) (c : client) (s rest : str) (ls os : list str) (reads tail : list read)
    (xs : list turn),
    c_scratch c = [] -> c_reader c = mk_reader [] (reads ++ tail) false -> chunked s reads -> lines_then s ls rest ->
    answers pf (is_anon (cf_credentials (c_config c))) xs ls os ->
    exists c' out, bot_run pf chs c xs = Ret (c', out, Going) /\
      c_wire c' = c_wire c ++ concat os /\ c_log c' = c_log c ++ filter non_empty os /\
      all_printed (is_anon (cf_credentials (c_config c))) ls out.
Proof. exact p_c67_answers. Qed.
Print Assumptions c67_answers.

(** C67. Every line it can go on after has exactly one answer, RECONNECT aside. *)
Theorem c67_one_answer :
  forall (bd : build) (pf : profile) (l : str) (v : view) (anon : bool),
    readable bd pf l v -> v_command v <> b "RECONNECT" -> exists! a, answer anon v a.
Proof. exact p_c67_one_answer. Qed.
Print Assumptions c67_one_answer.

(** C67. The first line that cannot be read, is not the message it should be, or whose
    answer cannot be written, ends the program with that error; nothing is sent after. *)
Theorem c67_stops :
  forall (pf : profile) (chs : list str) (c : client) (s rest : str) (ls more os : list str) (l a : str) (e : bot_error)
    (reads tail : list read) (xs ys : list turn) (x : turn),
    c_scratch c = [] -> c_reader c = mk_reader [] (reads ++ tail) false -> chunked s reads ->
    lines_then s (ls ++ l :: more) rest ->
    answers pf (is_anon (cf_credentials (c_config c))) xs ls os ->
    fatal pf (is_anon (cf_credentials (c_config c))) x l a e ->
    exists c' out, bot_run pf chs c (xs ++ x :: ys) = Ret (c', out, Failed e) /\
      c_wire c' = c_wire c ++ concat os ++ a /\
      exists out1 out2, out = out1 ++ out2 /\ all_printed (is_anon (cf_credentials (c_config c))) ls out1 /\
        last_printed (is_anon (cf_credentials (c_config c))) l e out2.
Proof. exact p_c67_stops. Qed.
Print Assumptions c67_stops.

(** C67. A reply is one line, and is received as a message to the channel of the message
    it answers, with the text [yo] and the id of that message as its only tag: nothing
    in the message can make the program send anything else. *)
Theorem c67_reply :
  forall (bd bd' : build) (pf : profile) (l : str) (v : view) (a : str) (rest : list read),
    readable bd pf l v -> ~ In lf l -> (N.of_nat (length l) < 4294000000)%N ->
    v_command v = b "PRIVMSG" -> answer false v a -> a <> [] ->
    one_line a /\
    exists ch id, v_channel v = Some ch /\ has v "id" id /\
      forall reads, chunked a reads ->
      exists r m, recv bd' (mk_reader [] (reads ++ rest) false) = Ret (r, Some (Ok m)) /\
        own_command m = Ret Privmsg /\ own_channel m = Ret (Some ch) /\ own_text m = Ret (Some (b "yo")) /\
        own_tags m = Ret [(b "reply-parent-msg-id", id)].
Proof. exact p_c67_reply. Qed.
Print Assumptions c67_reply.

(** C67. Logged in anonymously, it sends nothing but PONGs. *)
Theorem c67_anonymous_only_pongs :
  forall (v : view) (a : str), answer true v a ->
    a = [] \/ (v_command v = b "PING" /\ exists x, a = b "PONG" ++ x).
Proof. exact p_c67_anonymous_only_pongs. Qed.
Print Assumptions c67_anonymous_only_pongs.

(** C67. It joins its channels again on the new connection after a RECONNECT, behind the
    greeting. *)
Theorem c67_rejoins :
  forall (pf : profile) (chs : list str) (c c2 : client) (l : str) (v : view) (g : str)
    (tr : list event) (x : turn) (ys : list turn) (m : msg_ref) (r : reader),
    c_scratch c = [] -> parsed (t_build x) l v m -> v_command v = b "RECONNECT" ->
    greeting (cf_credentials (c_config c)) g -> t_write x = WOk ->
    recv (t_build x) (arrive (c_reader c) (t_reads x)) = Ret (r, Some (Ok (ref_into_owned m))) ->
    reconnect (t_fuel x) (t_oracle x) (set_reader c r) = Ret (c2, tr, Finished (Ok tt)) ->
    exists c3 k, c_wire c3 = copies (S k) g ++ b "JOIN " ++ join_by "," (map with_hash chs) ++ crlf /\
      c_scratch c3 = [] /\ c_reader c3 = c_reader c2 /\
      bot_run pf chs c (x :: ys) = bot_run pf chs c3 ys.
Proof. exact p_c67_rejoins. Qed.
Print Assumptions c67_rejoins.

(** C67. At the start it logs in with the given name and token if both are given, and
    otherwise anonymously; it sends the greeting and joins the channels, and then runs. *)
Theorem c67_start :
  forall (pf : profile) (name tok : option str) (n : N) (chs : list str) (o : open_out) (h : handshake_out)
    (elapsed : bool) (tls : tls_out) (c0 : client) (creds : credentials) (g : str),
    (forall x y, name = Some x -> tok = Some y -> creds = credentials_new x y) ->
    (name = None \/ tok = None -> creds = credentials_anon n) ->
    greeting creds g ->
    connect (mk_config creds default_timeout backoff_default) tls o h elapsed = Ret (Done (Ok c0)) ->
    exists c1, c_wire c1 = g ++ b "JOIN " ++ join_by "," (map with_hash chs) ++ crlf /\
      c_scratch c1 = [] /\ c_reader c1 = c_reader c0 /\ c_config c1 = mk_config creds default_timeout backoff_default /\
      forall turns,
        bot_main pf name tok n chs tls o h elapsed WOk turns =
        let! (c, out, s) := bot_run pf chs c1 turns in
        Ret (Some c, (b "Connecting as " ++ login creds) :: (b "Joined the following channels: " ++ listed chs) :: out, s).
Proof. exact p_c67_start. Qed.
Print Assumptions c67_start.

(** C67. If connecting or joining fails, it ends with that error, having printed only as
    whom it connects. *)
Theorem c67_start_fails :
  forall (pf : profile) (name tok : option str) (n : N) (chs : list str) (o : open_out) (h : handshake_out)
    (elapsed : bool) (tls : tls_out) (creds : credentials) (w : write_out) (turns : list turn),
    (forall x y, name = Some x -> tok = Some y -> creds = credentials_new x y) ->
    (name = None \/ tok = None -> creds = credentials_anon n) ->
    (forall e, connect (mk_config creds default_timeout backoff_default) tls o h elapsed = Ret (Done (Err e)) ->
       bot_main pf name tok n chs tls o h elapsed w turns =
       Ret (None, [b "Connecting as " ++ login creds], Failed (BotConnect e))) /\
    (forall c0 k e, connect (mk_config creds default_timeout backoff_default) tls o h elapsed = Ret (Done (Ok c0)) ->
       w = WErr k e ->
       exists c, bot_main pf name tok n chs tls o h elapsed w turns =
         Ret (Some c, [b "Connecting as " ++ login creds], Failed (BotSend (SendIo e))) /\
         c_wire c = c_wire c0 ++ firstn k (b "JOIN " ++ join_by "," (map with_hash chs) ++ crlf)).
Proof. exact p_c67_start_fails. Qed.
Print Assumptions c67_start_fails.

(** C67. It does not survive every IRC line: an untagged PRIVMSG parses, and ends it. *)
Theorem c67_survives_refuted :
  exists (pf : profile) (c : client) (l : str) (x : turn) (m : msg_own) (c' : client),
    own_parse (t_build x) l = Ret (Some m) /\ own_command m = Ret Privmsg /\
    c_reader c = mk_reader [] [Got (l ++ crlf)] false /\ t_write x = WOk /\
    bot_run pf [] c [x] = Ret (c', [], Failed BotMessage).
Proof. exact p_c67_survives_refuted. Qed.
Print Assumptions c67_survives_refuted.

Example example_c67 :
  let cf := mk_config (credentials_new (b "me") (b "tok")) default_timeout backoff_default in
  let yo := yo_line in
  let s := b "PING :x" ++ crlf ++ yo ++ crlf ++ chat_line ++ crlf in
  let c := mk_client [] [] [] (mk_reader [] [Got (firstn 100 s); Got (skipn 100 s); Got (b "RECONNECT" ++ crlf)] false) cf in
  let x := mk_turn Scalar [] WOk 9 sample_oracle in
  (exists os, chunked s [Got (firstn 100 s); Got (skipn 100 s)] /\
     answers Debug false [x; x; x] [b "PING :x"; yo; chat_line] os /\
     concat os = b "PONG :x" ++ crlf ++ b "@reply-parent-msg-id=77 PRIVMSG #c :yo" ++ crlf) /\
  (exists c' out, bot_run Debug [b "c"; b "d"] c [x; x; x; x] = Ret (c', out, Going) /\
     c_log c' = [b "PONG :x" ++ crlf; b "@reply-parent-msg-id=77 PRIVMSG #c :yo" ++ crlf; b "JOIN #c,#d" ++ crlf] /\
     out = [b "A: !yo bot"; b "< #c yo"; b "A B: Kappa one"]) /\
  fatal Debug false x (b "PRIVMSG #c :hi") [] BotMessage /\
  fatal Debug false (mk_turn Scalar [] (WErr 3 BrokenPipe) 9 sample_oracle) (b "PING :x") (b "PON") (BotSend (SendIo BrokenPipe)).
Proof. exact ex_c67. Qed.
