(** * PropsHandshake: property theorems (generated from HandshakeProofs.v by tools/gen_props.py).

    Only statements; each is closed by the lemma of the same name. *)

From Verif Require Import Base Wide Tags Irc SpecIrc MsgBase MsgTypes SpecMsg Common Client SpecClient LineProofs HandshakeProofs.

(** C51. Once the handshake is delivered, its result is the verdict on the answers. *)
Theorem c51_verdict :
  forall (c : client) (h : handshake_out) (o : fin (result unit connect_error)),
    delivered h -> small_answers (c_reader c) h ->
    ((exists c', handshake c h = Ret (c', o)) <-> verdict (c_reader c) h o).
Proof. exact p_c51_verdict. Qed.
Print Assumptions c51_verdict.

(** C51. The verdict is unique. *)
Theorem c51_verdict_unique :
  forall (r : reader) (h : handshake_out) (o1 o2 : fin (result unit connect_error)),
    verdict r h o1 -> verdict r h o2 -> o1 = o2.
Proof. exact p_c51_verdict_unique. Qed.
Print Assumptions c51_verdict_unique.

(** C51. Success means: CAP acknowledged, then 001. *)
Theorem c51_success :
  forall (c c' : client) (h : handshake_out),
    small_answers (c_reader c) h -> handshake c h = Ret (c', Done (Ok tt)) ->
    delivered h /\
    exists r1 r2 m1 m2 v1 v2,
      recv (w_build (h_first h)) (arrive (c_reader c) (w_reads (h_first h))) = Ret (r1, Some (Ok m1)) /\
      recv (w_build (h_second h)) (arrive r1 (w_reads (h_second h))) = Ret (r2, Some (Ok m2)) /\
      spec_view (own_raw m1) = Some v1 /\ acknowledges v1 /\
      spec_view (own_raw m2) = Some v2 /\ v_command v2 = b "001".
Proof. exact p_c51_success. Qed.
Print Assumptions c51_success.

(** C51. Every pair of lines from the server, arriving in any chunks (the first one in
    time, and both in time), decides the result as documented. *)
Theorem c51_two_lines :
  forall (c : client) (h : handshake_out) (l1 l2 rest1 rest2 : str) (more : list read) (v1 v2 : view),
    delivered h -> c_reader c = reader_new ->
    ~ In lf l1 -> ~ In lf l2 ->
    fit_line (w_build (h_first h)) l1 -> fit_line (w_build (h_second h)) l2 ->
    spec_view l1 = Some v1 -> spec_view l2 = Some v2 ->
    chunked (l1 ++ crlf ++ rest1) (w_reads (h_first h)) ->
    (exists reads, w_reads (h_second h) = reads ++ more /\ chunked rest2 reads) ->
    rest1 ++ rest2 = l2 ++ crlf ->
    exists c' o, handshake c h = Ret (c', o) /\
      two_line_result (w_build (h_first h)) (w_build (h_second h)) l1 l2 v1 v2 o.
Proof. exact p_c51_two_lines. Qed.
Print Assumptions c51_two_lines.

Example example_c51 :
  let c := sample_client (credentials_new (b "me") (b "tok")) backoff_default in
  let h := sample_handshake (b ":tmi.twitch.tv CAP * ACK :twitch.tv/tags") (b ":tmi.twitch.tv 001 me :Welcome, GLHF!") in
  let h' := sample_handshake (b ":tmi.twitch.tv CAP * ACK :twitch.tv/tags")
              (b ":tmi.twitch.tv NOTICE * :Login authentication failed") in
  delivered h /\ small_answers (c_reader c) h /\
  (exists c', handshake c h = Ret (c', Done (Ok tt))) /\
  (exists c', handshake c h' = Ret (c', Done (Err CAuth))).
Proof. exact ex_c51. Qed.

(** C49. A handshake from an empty buffer sends the greeting (or, if writing is cut
    short, an initial part of it), logs nothing of it, and once the bytes are delivered
    leaves the buffer empty. *)
Theorem c49_greeting_sent :
  forall (c c' : client) (h : handshake_out) (o : fin (result unit connect_error)),
    c_scratch c = [] -> handshake c h = Ret (c', o) ->
    exists g x, greeting (cf_credentials (c_config c)) g /\ part_of g x /\
      c_wire c' = c_wire c ++ x /\ (h_write h = WOk -> x = g) /\
      c_log c' = c_log c /\ (delivered h -> c_scratch c' = []) /\ (~ delivered h -> c_scratch c' = g).
Proof. exact p_c49_greeting_sent. Qed.
Print Assumptions c49_greeting_sent.

(** C49. There is exactly one greeting for given credentials. *)
Theorem c49_greeting_unique :
  forall cr : credentials, exists! g, greeting cr g.
Proof. exact p_c49_greeting_unique. Qed.
Print Assumptions c49_greeting_unique.

(** C49. If neither login nor token contains a line feed, it is three lines. *)
Theorem c49_three_lines :
  forall (cd : credentials) (g : str),
    greeting cd g -> ~ In lf (login cd) -> (forall t, token cd = Some t -> ~ In lf t) ->
    exists pass, password (match token cd with Some t => t | None => b "just_a_lil_guy" end) pass /\
      lines_then g [b "CAP REQ :twitch.tv/commands twitch.tv/tags twitch.tv/membership";
                    b "PASS " ++ pass; b "NICK " ++ login cd] [].
Proof. exact p_c49_three_lines. Qed.
Print Assumptions c49_three_lines.

Example example_c49 :
  greeting (credentials_new (b "me") (b "oauth:abc"))
    (b "CAP REQ :twitch.tv/commands twitch.tv/tags twitch.tv/membership" ++ crlf ++
     b "PASS oauth:abc" ++ crlf ++ b "NICK me" ++ crlf) /\
  greeting (credentials_new (b "me") (b "abc"))
    (b "CAP REQ :twitch.tv/commands twitch.tv/tags twitch.tv/membership" ++ crlf ++
     b "PASS oauth:abc" ++ crlf ++ b "NICK me" ++ crlf) /\
  exists c', handshake (sample_client (credentials_new (b "me") (b "abc")) backoff_default)
    (mk_handshake_out (WErr 3 BrokenPipe) FOk (mk_wait [] false Scalar) (mk_wait [] false Scalar)) =
    Ret (c', Done (Err (CIo BrokenPipe))) /\ c_wire c' = b "CAP".
Proof. exact ex_c49. Qed.

(** C52. Never more than [max_tries] connection attempts. *)
Theorem c52_at_most :
  forall (fuel : nat) (oracle : nat -> attempt) (c c' : client) (tr : list event) (o : outcome) (n : N),
    small_oracle oracle -> max_tries (cf_backoff (c_config c)) = Some n ->
    reconnect fuel oracle c = Ret (c', tr, o) -> (N.of_nat (attempts tr) <= n)%N.
Proof. exact p_c52_at_most. Qed.
Print Assumptions c52_at_most.

(** C52. How it ends: some attempts are retried, all within the limit; then either the
    limit is reached, and the last failure is returned ([Timeout] if there was no
    attempt at all), or the next attempt settles it. *)
Theorem c52_how_it_ends :
  forall (fuel : nat) (oracle : nat -> attempt) (c c' : client) (tr : list event) (o : outcome),
    small_oracle oracle -> reconnect fuel oracle c = Ret (c', tr, o) -> o <> Running ->
    let tries := max_tries (cf_backoff (c_config c)) in
    exists k, (forall j, j < k -> within tries j /\ exists e, retried (oracle j) e) /\
      ((~ within tries k /\ attempts tr = k /\
        exists e, o = Finished (Err e) /\ (k = 0 -> e = CTimeout) /\ (forall j, k = S j -> retried (oracle j) e)) \/
       (within tries k /\ settles (oracle k) o /\
        attempts tr = k + (if a_sleeps (oracle k) then 1 else 0))).
Proof. exact p_c52_how_it_ends. Qed.
Print Assumptions c52_how_it_ends.

(** C51. The handshake panics exactly if an answer it waits for is a line on which parsing
    panics; otherwise there is a verdict. *)
Theorem c51_panics_iff :
  forall (c : client) (h : handshake_out),
    small_answers (c_reader c) h ->
    (handshake c h = Panic <-> delivered h /\ chokes (c_reader c) h) /\
    (handshake c h <> Panic -> exists c' o, handshake c h = Ret (c', o)).
Proof. exact p_c51_panics_iff. Qed.
Print Assumptions c51_panics_iff.

Example example_c51_panics :
  let c := sample_client (credentials_new (b "me") (b "tok")) backoff_default in
  let h := sample_handshake (b ":tmi.twitch.tv CAP * ACK :twitch.tv/tags") (b "@" ++ many_tags 129 ++ b " :tmi.twitch.tv 001 me :Hi") in
  delivered h /\ small_answers (c_reader c) h /\ handshake c h = Panic.
Proof. exact ex_c51_panics. Qed.

(** C52. It panics exactly if, after some retried attempts, the next delay is not a
    [Duration], or an answer is a line on which parsing panics. Otherwise it returns. *)
Theorem c52_panics_iff :
  forall (fuel : nat) (oracle : nat -> attempt) (c : client),
    small_oracle oracle ->
    let bk := cf_backoff (c_config c) in
    (reconnect fuel oracle c = Panic <->
     exists k, k < fuel /\ within (max_tries bk) k /\ (forall j, j < k -> exists e, retried (oracle j) e) /\
       a_sleeps (oracle k) = true /\
       (~ delay_fits bk k \/
        a_open (oracle k) = OpOk /\ delivered (a_handshake (oracle k)) /\ chokes reader_new (a_handshake (oracle k)))) /\
    (reconnect fuel oracle c <> Panic -> exists c' tr o, reconnect fuel oracle c = Ret (c', tr, o)).
Proof. exact p_c52_panics_iff. Qed.
Print Assumptions c52_panics_iff.

(** C52. And it does end: with a limit, after at most so many iterations. *)
Theorem c52_ends :
  forall (fuel : nat) (oracle : nat -> attempt) (c c' : client) (tr : list event) (o : outcome) (n : N),
    small_oracle oracle -> max_tries (cf_backoff (c_config c)) = Some n -> (n < N.of_nat fuel)%N ->
    reconnect fuel oracle c = Ret (c', tr, o) -> o <> Running.
Proof. exact p_c52_ends. Qed.
Print Assumptions c52_ends.

(** C52. The first attempt that settles it decides. *)
Theorem c52_first_settled :
  forall (fuel k : nat) (oracle : nat -> attempt) (c : client) (o : outcome),
    let bk := cf_backoff (c_config c) in
    (forall j, j < k -> exists e, retried (oracle j) e) -> (forall j, j <= k -> delay_fits bk j) ->
    within (max_tries bk) k -> settles (oracle k) o -> small_oracle oracle -> k < fuel ->
    exists c' tr, reconnect fuel oracle c = Ret (c', tr, o) /\
      attempts tr = k + (if a_sleeps (oracle k) then 1 else 0).
Proof. exact p_c52_first_settled. Qed.
Print Assumptions c52_first_settled.

(** C52. After exactly [max_tries] retried attempts it gives up. *)
Theorem c52_gives_up :
  forall (fuel k : nat) (oracle : nat -> attempt) (c : client),
    let bk := cf_backoff (c_config c) in
    max_tries bk = Some (N.of_nat k) ->
    (forall j, j < k -> exists e, retried (oracle j) e) -> (forall j, j < k -> delay_fits bk j) ->
    small_oracle oracle -> k < fuel ->
    exists c' tr e, reconnect fuel oracle c = Ret (c', tr, Finished (Err e)) /\ attempts tr = k /\
      (k = 0 -> e = CTimeout) /\ (forall j, k = S j -> retried (oracle j) e).
Proof. exact p_c52_gives_up. Qed.
Print Assumptions c52_gives_up.

(** C52. Without a limit it never gives up on failures that are retried. *)
Theorem c52_unlimited :
  forall (fuel : nat) (oracle : nat -> attempt) (c : client),
    let bk := cf_backoff (c_config c) in
    max_tries bk = None -> (forall j, exists e, retried (oracle j) e) -> (forall j, delay_fits bk j) ->
    small_oracle oracle ->
    exists c' tr, reconnect fuel oracle c = Ret (c', tr, Running) /\ attempts tr = fuel.
Proof. exact p_c52_unlimited. Qed.
Print Assumptions c52_unlimited.

Example example_c52 :
  let c := sample_client (credentials_anon 12345) backoff_default in
  small_oracle sample_oracle /\ retried (sample_oracle 0) (COpen ConnectionRefused) /\
  settles (sample_oracle 2) (Finished (Ok tt)) /\
  (exists c' tr, reconnect 9 sample_oracle c = Ret (c', tr, Finished (Ok tt)) /\ attempts tr = 3 /\
     delays tr = [secs 1; secs 3; secs 9]) /\
  (exists c' tr, reconnect 9 (fun _ => refused) c = Ret (c', tr, Finished (Err (COpen ConnectionRefused))) /\
     attempts tr = 8 /\ delays tr = [secs 1; secs 3; secs 9; secs 12; secs 12; secs 12; secs 12; secs 12]).
Proof. exact ex_c52. Qed.

(** C52. [Some 0] is taken literally: no attempt at all, reported as a timeout. *)
Theorem c52_zero_means_unlimited_refuted :
  exists (c c' : client) (tr : list event),
    max_tries (cf_backoff (c_config c)) = Some 0%N /\
    reconnect 5 (fun _ => accepted) c = Ret (c', tr, Finished (Err CTimeout)) /\ attempts tr = 0.
Proof. exact p_c52_zero_means_unlimited_refuted. Qed.
Print Assumptions c52_zero_means_unlimited_refuted.

(** C53. The delays are those of the configuration, in order. *)
Theorem c53_delays :
  forall (fuel : nat) (oracle : nat -> attempt) (c c' : client) (tr : list event) (o : outcome),
    small_oracle oracle -> reconnect fuel oracle c = Ret (c', tr, o) ->
    delays tr = map (nth_delay (cf_backoff (c_config c))) (seq 0 (length (delays tr))) /\
    (length (delays tr) = attempts tr \/ (length (delays tr) = attempts tr + 1 /\ o = Abandoned)).
Proof. exact p_c53_delays. Qed.
Print Assumptions c53_delays.

(** C53. None exceeds both the initial and the maximal delay; and none after the first
    exceeds the maximal one. *)
Theorem c53_bound :
  forall (bk : backoff) (k : nat),
    (nth_delay bk k <= N.max (initial_delay bk) (max_delay bk))%N /\
    (nth_delay bk (S k) <= max_delay bk)%N.
Proof. exact p_c53_bound. Qed.
Print Assumptions c53_bound.

(** C53. The first delay is not capped. *)
Theorem c53_never_above_max_refuted :
  exists (c c' : client) (tr : list event) (o : outcome) (d : duration),
    reconnect 2 (fun _ => accepted) c = Ret (c', tr, o) /\
    In d (delays tr) /\ (max_delay (cf_backoff (c_config c)) < d)%N.
Proof. exact p_c53_never_above_max_refuted. Qed.
Print Assumptions c53_never_above_max_refuted.

(** C53. The product is computed before it is capped: it panics if it is not a
    [Duration], even if the cap is below. *)
Theorem c53_overflow_panics :
  forall (fuel k : nat) (oracle : nat -> attempt) (c : client),
    let bk := cf_backoff (c_config c) in
    (forall j, j < k -> exists e, retried (oracle j) e) -> (forall j, j < k -> delay_fits bk j) ->
    within (max_tries bk) k -> a_sleeps (oracle k) = true -> ~ delay_fits bk k -> k < fuel ->
    reconnect fuel oracle c = Panic.
Proof. exact p_c53_overflow_panics. Qed.
Print Assumptions c53_overflow_panics.

(** C53. With the default configuration it never is too large. *)
Theorem c53_default_fits :
  forall k : nat, delay_fits backoff_default k.
Proof. exact p_c53_default_fits. Qed.
Print Assumptions c53_default_fits.

Example example_c53 :
  let c := sample_client (credentials_anon 12345) (mk_backoff None (secs 60) 4294967295 (secs 1000000000000)) in
  delay_fits (cf_backoff (c_config c)) 0 /\ ~ delay_fits (cf_backoff (c_config c)) 1 /\
  reconnect 2 (fun _ => refused) c = Panic.
Proof. exact ex_c53. Qed.

(** C54. An attempt is retried exactly if opening or writing failed with an I/O error:
    no attempt is both retried and settled, and [reconnect] goes on to a second attempt
    only after a retried one. *)
Theorem c54_classification :
  forall (fuel : nat) (oracle : nat -> attempt) (c c' : client) (tr : list event) (o : outcome),
    small_oracle oracle -> reconnect fuel oracle c = Ret (c', tr, o) ->
    (forall a e x, retried a e -> ~ settles a x) /\
    (forall j, S j < length (delays tr) -> exists e, retried (oracle j) e) /\
    (forall j, j < length (delays tr) -> (forall e, ~ retried (oracle j) e) ->
       length (delays tr) = S j /\ settles (oracle j) o).
Proof. exact p_c54_classification. Qed.
Print Assumptions c54_classification.

(** C54. Which outcomes are returned at once: a timeout while opening, or during the
    handshake, and every verdict of the handshake (authentication failures, unexpected
    messages, lines that do not parse, a closed stream, read errors, silence). *)
Theorem c54_returned_at_once :
  forall (fuel k : nat) (oracle : nat -> attempt) (c : client) (e : connect_error),
    let bk := cf_backoff (c_config c) in
    let a := oracle k in
    (forall j, j < k -> exists e, retried (oracle j) e) -> (forall j, j <= k -> delay_fits bk j) ->
    within (max_tries bk) k -> small_oracle oracle -> k < fuel -> a_sleeps a = true ->
    (a_open a = OpElapsed /\ e = CTimeout) \/
    (a_open a = OpOk /\ (exists n, h_write (a_handshake a) = WDrop n) /\ a_elapsed a = true /\ e = CTimeout) \/
    (a_open a = OpOk /\ delivered (a_handshake a) /\ verdict reader_new (a_handshake a) (Done (Err e))) ->
    exists c' tr, reconnect fuel oracle c = Ret (c', tr, Finished (Err e)) /\ attempts tr = S k.
Proof. exact p_c54_returned_at_once. Qed.
Print Assumptions c54_returned_at_once.

(** C54. So a connection lost while waiting for the answer is not retried. *)
Theorem c54_lost_connection_retried_refuted :
  exists (oracle : nat -> attempt) (c c' : client) (tr : list event),
    max_tries (cf_backoff (c_config c)) = Some 8%N /\
    settles (oracle 1) (Finished (Ok tt)) /\
    reconnect 9 oracle c = Ret (c', tr, Finished (Err (CRead RecvStreamClosed))) /\ attempts tr = 1.
Proof. exact p_c54_lost_connection_retried_refuted. Qed.
Print Assumptions c54_lost_connection_retried_refuted.

Example example_c54 :
  let a := mk_attempt true OpOk (sample_handshake (b "CAP * NAK") (b "001 me")) false in
  delivered (a_handshake a) /\ verdict reader_new (a_handshake a) (Done (Err CAuth)) /\
  exists c' tr, reconnect 9 (fun _ => a) (sample_client (credentials_anon 12345) backoff_default) =
    Ret (c', tr, Finished (Err CAuth)) /\ attempts tr = 1.
Proof. exact ex_c54. Qed.

(** C50. Whatever happens to a client that starts with an empty buffer (sends, receives
    and reconnects with any outcome), its buffer holds a number of greetings. *)
Theorem c50_buffer_holds_greetings :
  forall (c c' : client) (g : str),
    c_scratch c = [] -> greeting (cf_credentials (c_config c)) g -> history c c' ->
    c_config c' = c_config c /\ exists n, c_scratch c' = copies n g.
Proof. exact p_c50_buffer_holds_greetings. Qed.
Print Assumptions c50_buffer_holds_greetings.

(** C50. What a later send puts on the wire and into the log is preceded by what the
    buffer holds; afterwards the buffer is empty. *)
Theorem c50_next_send :
  forall (c c' : client) (g : str) (k : call) (w : write_out),
    c_scratch c = [] -> greeting (cf_credentials (c_config c)) g -> history c c' -> ~ is_raw k ->
    exists n x, c_scratch c' = copies n g /\ part_of (copies n g ++ call_line k) x /\
      c_wire (fst (run_call c' k w)) = c_wire c' ++ x /\
      (w = WOk -> x = copies n g ++ call_line k) /\
      c_log (fst (run_call c' k w)) = c_log c' ++ [copies n g ++ call_line k] /\
      c_scratch (fst (run_call c' k w)) = [].
Proof. exact p_c50_next_send. Qed.
Print Assumptions c50_next_send.

(** C50. After a successful reconnect the buffer is empty again, so that C48 applies. *)
Theorem c50_clean_after_success :
  forall (c c1 c2 : client) (g : str) (fuel : nat) (oracle : nat -> attempt) (tr : list event),
    c_scratch c = [] -> greeting (cf_credentials (c_config c)) g -> history c c1 ->
    reconnect fuel oracle c1 = Ret (c2, tr, Finished (Ok tt)) ->
    c_scratch c2 = [] /\ c_log c2 = c_log c1 /\ exists n, c_wire c2 = copies (S n) g.
Proof. exact p_c50_clean_after_success. Qed.
Print Assumptions c50_clean_after_success.

(** C50. After [n] attempts of a reconnect that failed while writing, the next
    connection is sent the greeting [n + 1] times. *)
Theorem c50_repeated_greeting :
  forall (n fuel : nat) (oracle : nat -> attempt) (c c' : client) (tr : list event) (o : outcome) (g : str),
    c_scratch c = [] -> greeting (cf_credentials (c_config c)) g ->
    (forall j, j < n -> write_fails (oracle j)) -> within (max_tries (cf_backoff (c_config c))) n ->
    a_sleeps (oracle n) = true -> a_open (oracle n) = OpOk -> h_write (a_handshake (oracle n)) = WOk ->
    n < fuel -> reconnect fuel oracle c = Ret (c', tr, o) ->
    nth_error (sent tr) n = Some (copies (S n) g).
Proof. exact p_c50_repeated_greeting. Qed.
Print Assumptions c50_repeated_greeting.

(** C50. So the isolation of C48 does not extend to reconnecting: a message sent after a
    reconnect that failed while writing is preceded by the old greeting, with the token,
    on the wire and in the log. *)
Theorem c50_isolation_refuted :
  exists (c c1 c2 : client) (tr : list event) (e : connect_error) (l1 l2 : str),
    token (cf_credentials (c_config c)) = Some (b "secret") /\ c_scratch c = [] /\
    reconnect 3 (fun _ => broken) c = Ret (c1, tr, Finished (Err e)) /\
    run_call c1 (CallPing (b "x")) WOk = (c2, Done (Ok tt)) /\
    c_wire c2 = c_wire c1 ++ l1 ++ b "PASS oauth:secret" ++ l2 ++ b "PING :x" ++ crlf /\
    c_log c2 = [l1 ++ b "PASS oauth:secret" ++ l2 ++ b "PING :x" ++ crlf].
Proof. exact p_c50_isolation_refuted. Qed.
Print Assumptions c50_isolation_refuted.

Example example_c50 :
  let c := sample_client (credentials_new (b "me") (b "secret")) backoff_default in
  let g := handshake_text (cf_credentials (c_config c)) in
  let oracle := fun j => if j <? 2 then broken else accepted in
  greeting (cf_credentials (c_config c)) g /\ write_fails (oracle 0) /\ write_fails (oracle 1) /\
  exists c' tr, reconnect 9 oracle c = Ret (c', tr, Finished (Ok tt)) /\ sent tr = [[]; []; g ++ g ++ g] /\
    history c c'.
Proof. exact ex_c50. Qed.
