(** * PropsSend: property theorems (generated from SendProofs.v by tools/gen_props.py).

    Only statements; each is closed by the lemma of the same name. *)

From Verif Require Import Base Wide Tags Irc SpecIrc MsgBase MsgTypes SpecMsg Common Client SpecClient SendProofs.

(** C43. [send_raw] gives the connection its argument, whole and unchanged, exactly if
    that ends with CRLF; otherwise it reports an invalid message and does nothing. *)
Theorem c43_send_raw :
  forall (c : client) (s : str) (w : write_out),
    (ends_crlf s ->
     send_raw c s WOk =
       (mk_client (c_scratch c) (c_wire c ++ s) (c_log c ++ [s]) (c_reader c) (c_config c), Done (Ok tt)) /\
     exists x, part_of s x /\ c_wire (fst (send_raw c s w)) = c_wire c ++ x /\
       (snd (send_raw c s w) = Done (Ok tt) -> x = s) /\
       snd (send_raw c s w) <> Done (Err SendInvalidMessage)) /\
    (~ ends_crlf s -> send_raw c s w = (c, Done (Err SendInvalidMessage))).
Proof. exact p_c43_send_raw. Qed.
Print Assumptions c43_send_raw.

Example example_c43 :
  forall c, ends_crlf (b "PING" ++ crlf) /\
    snd (send_raw c (b "PING" ++ crlf) WOk) = Done (Ok tt) /\
    send_raw c (b "PING") WOk = (c, Done (Err SendInvalidMessage)).
Proof. exact ex_c43. Qed.

(** C48. After any history of calls, each with any outcome, a further call gives the
    connection exactly its own bytes (an initial part of them if it fails), and logs
    just them. *)
Theorem c48_own_bytes_only :
  forall (c : client) (history : list (call * write_out)) (k : call) (w : write_out),
    c_scratch c = [] -> (is_raw k -> ends_crlf (call_line k)) ->
    let c1 := run_calls c history in
    let '(c2, o) := run_call c1 k w in
    c_scratch c1 = [] /\ c_scratch c2 = [] /\ c_log c2 = c_log c1 ++ [call_line k] /\
    exists x, c_wire c2 = c_wire c1 ++ x /\ part_of (call_line k) x /\
      (o = Done (Ok tt) <-> w = WOk) /\ (o = Done (Ok tt) -> x = call_line k).
Proof. exact p_c48_own_bytes_only. Qed.
Print Assumptions c48_own_bytes_only.

(** C48. All that is on the wire is, in order, for each call its bytes or an initial
    part of them. *)
Theorem c48_wire_is_the_history :
  forall (c : client) (history : list (call * write_out)),
    c_scratch c = [] ->
    exists parts, c_wire (run_calls c history) = c_wire c ++ concat parts /\
      Forall2 (fun kw x => part_of (call_line (fst kw)) x /\
                 (snd kw = WOk -> (is_raw (fst kw) -> ends_crlf (call_line (fst kw))) -> x = call_line (fst kw)))
        history parts.
Proof. exact p_c48_wire_is_the_history. Qed.
Print Assumptions c48_wire_is_the_history.

(** C48. That every completed call arrives as a line of its own is false: the part of a
    dropped call is still on the wire in front of it. *)
Theorem c48_own_line_refuted :
  exists (c : client) (m : msg_own) (r : reader),
    c_scratch c = [] /\ c_wire c = [] /\
    let c' := run_calls c [(CallPing (b "a"), WDrop 6); (CallPing (b "b"), WOk)] in
    recv Scalar (mk_reader [] [Got (c_wire c')] false) = Ret (r, Some (Ok m)) /\
    own_text m = Ret (Some (b "PING :b")).
Proof. exact p_c48_own_line_refuted. Qed.
Print Assumptions c48_own_line_refuted.

Example example_c48 :
  let c := mk_client [] [] [] reader_new (mk_config (mk_credentials [] None) default_timeout backoff_default) in
  c_wire (run_calls c [(CallJoin (b "a"), WErr 4 BrokenPipe); (CallRaw (b "x"), WOk); (CallPing (b "b"), WOk)]) =
  b "JOINPING :b" ++ crlf.
Proof. exact ex_c48. Qed.

(** C45. Every function but [send_raw] sends one line exactly if no argument contains a
    line feed. *)
Theorem c45_one_line :
  forall (c : client) (k : call),
    c_scratch c = [] -> ~ is_raw k ->
    exists s, run_call c k WOk =
      (mk_client [] (c_wire c ++ s) (c_log c ++ [s]) (c_reader c) (c_config c), Done (Ok tt)) /\
      (one_line s <-> Forall (fun x => ~ In lf x) (call_args k)).
Proof. exact p_c45_one_line. Qed.
Print Assumptions c45_one_line.

(** C45. Arguments are not checked: a line break in the text sends a second command. *)
Theorem c45_injection_refuted :
  exists (c : client) (ch t : str) (m1 m2 : msg_own) (r : reader),
    c_scratch c = [] /\ c_wire c = [] /\
    let c' := fst (send_privmsg c ch t None None WOk) in
    recvs (fun _ => Scalar) 2 (mk_reader [] [Got (c_wire c')] false) = Ret (r, [Some (Ok m1); Some (Ok m2)]) /\
    own_command m1 = Ret Privmsg /\ own_command m2 = Ret Join /\ own_channel m2 = Ret (Some (b "#other")).
Proof. exact p_c45_injection_refuted. Qed.
Print Assumptions c45_injection_refuted.

(** C45. And tag values are not escaped: a [;] in the nonce adds a tag, a space ends the
    tags. *)
Theorem c45_tags_not_escaped_refuted :
  exists (c : client) (n1 n2 : str) (m1 m2 : msg_own) (r : reader),
    c_scratch c = [] /\ c_wire c = [] /\
    let c' := run_calls c [(CallPrivmsg (b "#a") (b "x") None (Some n1), WOk);
                           (CallPrivmsg (b "#a") (b "x") None (Some n2), WOk)] in
    recvs (fun _ => Scalar) 2 (mk_reader [] [Got (c_wire c')] false) = Ret (r, [Some (Ok m1); Some (Ok m2)]) /\
    own_tag m1 TReplyParentMsgId = Ret (Some (b "evil")) /\
    own_command m2 = Ret (Other (b "evil")).
Proof. exact p_c45_tags_not_escaped_refuted. Qed.
Print Assumptions c45_tags_not_escaped_refuted.

Example example_c45 :
  ~ is_raw (CallJoinAll [b "a"; b "#b"]) /\ Forall (fun x => ~ In lf x) (call_args (CallJoinAll [b "a"; b "#b"])) /\
  call_line (CallJoinAll [b "a"; b "#b"]) = b "JOIN #a,#b" ++ crlf /\
  ~ Forall (fun x => ~ In lf x) (call_args (CallPing (b "a" ++ crlf))).
Proof. exact ex_c45. Qed.

(** C56. What a client sends, another one receives: the same messages in the same order,
    whatever the chunks the bytes arrive in. *)
Theorem c56_received_as_sent :
  forall (bd : nat -> build) (c : client) (ks : list call) (s : str) (reads rest : list read),
    c_scratch c = [] -> Forall good_call ks ->
    c_wire (run_calls c (map (fun k => (k, WOk)) ks)) = c_wire c ++ s -> chunked s reads ->
    exists r ms,
      recvs bd (length ks) (mk_reader [] (reads ++ rest) false) = Ret (r, map (fun m => Some (Ok m)) ms) /\
      Forall2 (fun k m => exists x, call_message k = Some x /\ shows m x (call_text k)) ks ms.
Proof. exact p_c56_received_as_sent. Qed.
Print Assumptions c56_received_as_sent.

Example example_c56 :
  Forall good_call good_calls_sample /\
  concat (map call_line good_calls_sample) =
  b "@reply-parent-msg-id=id-1;client-nonce=n PRIVMSG #chan :hi :; there" ++ crlf ++ b "JOIN #a" ++ crlf ++
  b "PING :x y" ++ crlf ++ b "JOIN #a,#b" ++ crlf.
Proof. exact ex_c56. Qed.

(** C44. A sent PRIVMSG is one line, and is received with the same channel, text and tags. *)
Theorem c44_privmsg_received :
  forall (bd : build) (c : client) (ch t : str) (reply nonce : option str) (rest : list read),
    c_scratch c = [] ->
    starts "#" ch -> no_space ch -> ~ In lf ch -> ~ In lf t ->
    Forall plain_value (opt_list reply ++ opt_list nonce) ->
    Forall (fun x => ~ In lf x) (opt_list reply ++ opt_list nonce) ->
    Forall (fun x => utf8_valid x = true) ([ch; t] ++ opt_list reply ++ opt_list nonce) ->
    (N.of_nat (length ch + length t) < 4294800000)%N ->
    exists s, send_privmsg c ch t reply nonce WOk =
        (mk_client [] (c_wire c ++ s) (c_log c ++ [s]) (c_reader c) (c_config c), Done (Ok tt)) /\
      one_line s /\
      forall reads, chunked s reads ->
      exists r m, recv bd (mk_reader [] (reads ++ rest) false) = Ret (r, Some (Ok m)) /\
        own_command m = Ret Privmsg /\ own_channel m = Ret (Some ch) /\ own_text m = Ret (Some t) /\
        own_tags m = Ret (match reply with Some x => [(b "reply-parent-msg-id", x)] | None => [] end ++
                          match nonce with Some x => [(b "client-nonce", x)] | None => [] end).
Proof. exact p_c44_privmsg_received. Qed.
Print Assumptions c44_privmsg_received.

(** C44. Without [#] in front the channel is not added one (unlike in [join]), and the
    other side sees no channel. *)
Theorem c44_adds_hash_refuted :
  exists (c : client) (r : reader) (m : msg_own),
    c_scratch c = [] /\ c_wire c = [] /\
    recv Scalar (mk_reader [] [Got (c_wire (fst (send_privmsg c (b "chan") (b "hi") None None WOk)))] false) =
      Ret (r, Some (Ok m)) /\
    own_command m = Ret Privmsg /\ own_channel m = Ret None.
Proof. exact p_c44_adds_hash_refuted. Qed.
Print Assumptions c44_adds_hash_refuted.

Example example_c44 :
  starts "#" (b "#chan") /\ no_space (b "#chan") /\ ~ In lf (b ":hi # there") /\
  Forall plain_value (opt_list (Some (b "id")) ++ opt_list None).
Proof. exact ex_c44. Qed.

(** C46. [join] sends one JOIN for the channel, with exactly one [#] in front. *)
Theorem c46_join :
  forall (bd : build) (c : client) (ch : str) (rest : list read),
    c_scratch c = [] -> no_space ch -> ~ In lf ch -> utf8_valid ch = true ->
    (N.of_nat (length ch) < 4294800000)%N ->
    exists s name, send_join c ch WOk =
        (mk_client [] (c_wire c ++ s) (c_log c ++ [s]) (c_reader c) (c_config c), Done (Ok tt)) /\
      s = b "JOIN " ++ name ++ crlf /\
      (starts "#" ch -> name = ch) /\ (~ starts "#" ch -> name = b "#" ++ ch) /\
      forall reads, chunked s reads ->
      exists r m, recv bd (mk_reader [] (reads ++ rest) false) = Ret (r, Some (Ok m)) /\
        own_command m = Ret Join /\ own_channel m = Ret (Some name) /\ own_params m = Ret None.
Proof. exact p_c46_join. Qed.
Print Assumptions c46_join.

(** C46. [join_all] sends one JOIN whose channel part is the list of the channels, in
    order, separated by commas. *)
Theorem c46_join_all :
  forall (bd : build) (c : client) (chs : list str) (rest : list read),
    c_scratch c = [] -> chs <> [] -> Forall no_space chs ->
    Forall (fun ch => ~ In lf ch /\ ~ In ","%byte ch /\ utf8_valid ch = true) chs ->
    (N.of_nat (length (concat chs) + 2 * length chs) < 4294800000)%N ->
    exists s names list, send_join_all c chs WOk =
        (mk_client [] (c_wire c ++ s) (c_log c ++ [s]) (c_reader c) (c_config c), Done (Ok tt)) /\
      s = b "JOIN " ++ list ++ crlf /\ parts_by "," list names /\
      Forall2 (fun ch name => (starts "#" ch /\ name = ch) \/ (~ starts "#" ch /\ name = b "#" ++ ch)) chs names /\
      forall reads, chunked s reads ->
      exists r m, recv bd (mk_reader [] (reads ++ rest) false) = Ret (r, Some (Ok m)) /\
        own_command m = Ret Join /\ own_channel m = Ret (Some list) /\ own_params m = Ret None.
Proof. exact p_c46_join_all. Qed.
Print Assumptions c46_join_all.

(** C46. For no channels at all, [join_all] still sends a JOIN, which names no channel. *)
Theorem c46_join_nothing_refuted :
  exists (c : client) (r : reader) (m : msg_own),
    c_scratch c = [] /\ c_wire c = [] /\
    recv Scalar (mk_reader [] [Got (c_wire (fst (send_join_all c [] WOk)))] false) = Ret (r, Some (Ok m)) /\
    own_command m = Ret Join /\ own_channel m = Ret None.
Proof. exact p_c46_join_nothing_refuted. Qed.
Print Assumptions c46_join_nothing_refuted.

Example example_c46 :
  Forall no_space [b "a"; b "#b"] /\
  Forall (fun ch => ~ In lf ch /\ ~ In ","%byte ch /\ utf8_valid ch = true) [b "a"; b "#b"] /\
  call_line (CallJoinAll [b "a"; b "#b"]) = b "JOIN #a,#b" ++ crlf.
Proof. exact ex_c46. Qed.

(** C47. The answer to a PING carries the nonce of the PING, as this crate reads both. *)
Theorem c47_pong_echoes :
  forall (bd bd' : build) (c : client) (l : str) (v : view) (m : msg_ref) (q : ping_msg cow) (rest : list read),
    c_scratch c = [] -> parsed bd l v m -> ~ In lf l -> (N.of_nat (length l) < 4294800000)%N ->
    ping_parse m = Ret (Some q) ->
    exists s, send_pong c q WOk =
        (mk_client [] (c_wire c ++ s) (c_log c ++ [s]) (c_reader c) (c_config c), Done (Ok tt)) /\
      one_line s /\
      forall reads, chunked s reads ->
      exists r m' q', recv bd' (mk_reader [] (reads ++ rest) false) = Ret (r, Some (Ok m')) /\
        pong_parse (own_as_ref m') = Ret (Some q') /\
        option_map deref (po_nonce q') = option_map deref (pi_nonce q) /\
        option_map deref (pi_nonce q) = spec_text v.
Proof. exact p_c47_pong_echoes. Qed.
Print Assumptions c47_pong_echoes.

Example example_c47 :
  exists v m, parsed Scalar (b "PING :tmi.twitch.tv") v m /\
    ping_parse m = Ret (Some (mk_ping (Some (Borrowed (b "tmi.twitch.tv"))))) /\
    forall c, c_scratch c = [] ->
    c_log (fst (send_pong c (mk_ping (Some (Borrowed (b "tmi.twitch.tv")))) WOk)) =
    c_log c ++ [b "PONG :tmi.twitch.tv" ++ crlf].
Proof. exact ex_c47. Qed.
