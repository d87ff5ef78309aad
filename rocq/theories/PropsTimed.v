(** * PropsTimed: property theorems (generated from TimedProofs.v by tools/gen_props.py).

    Only statements; each is closed by the lemma of the same name. *)

From Verif Require Import Base Wide Tags Irc SpecIrc SpecMsg MsgBase MsgTypes Common Client SpecClient HandshakeProofs Timed SpecTimed TimedProofs.

Open Scope N_scope.

(** C69. Whatever the network does and however slowly, connecting ends: at most twice
    the timeout after the certificates are loaded, if no timer is late. *)
Theorem c69_connect_time :
  forall (fire : timers) (slack : duration) (now t : instant) (cf : config) (tls : duration * tls_out) (p : peer)
         (r : result client connect_error),
    late_by slack fire -> t_connect fire now cf tls p = Ret (t, r) ->
    now + fst tls <= t <= now + fst tls + 2 * (cf_timeout cf + slack).
Proof. exact p_c69_connect_time. Qed.
Print Assumptions c69_connect_time.

(** C69. Its result is one that the untimed function has for some outcomes. *)
Theorem c69_connect_same :
  forall (fire : timers) (now t : instant) (cf : config) (tls : duration * tls_out) (p : peer) (r : result client connect_error),
    t_connect fire now cf tls p = Ret (t, r) ->
    exists o h elapsed, connect cf (snd tls) o h elapsed = Ret (Done r) /\
      (small_peer p -> small_answers reader_new h).
Proof. exact p_c69_connect_same. Qed.
Print Assumptions c69_connect_same.

(** C69. Connecting does return, unless one of the two answers is a line on which parsing
    panics (C05). *)
Theorem c69_connect_returns :
  forall (fire : timers) (now : instant) (cf : config) (tls : duration * tls_out) (p : peer),
    small_peer p ->
    (exists t r, t_connect fire now cf tls p = Ret (t, r)) \/
    (t_connect fire now cf tls p = Panic /\ exists h, took p h /\ chokes reader_new h).
Proof. exact p_c69_connect_returns. Qed.
Print Assumptions c69_connect_returns.

(** C69. Reconnecting against the clock is reconnecting with some outcomes, none of
    which is a cancellation: C50 and C52 to C54 apply. *)
Theorem c69_reconnect_same :
  forall (fire : timers) (fuel : nat) (peers : nat -> peer) (now t : instant) (c c' : client) (tr : list event)
         (o : option (result unit connect_error)),
    t_reconnect fire fuel peers now c = Ret (t, c', tr, o) ->
    exists oracle,
      reconnect fuel oracle c = Ret (c', tr, match o with Some r => Finished r | None => Running end) /\
      (forall j, a_sleeps (oracle j) = true) /\
      ((forall j, small_peer (peers j)) -> small_oracle oracle).
Proof. exact p_c69_reconnect_same. Qed.
Print Assumptions c69_reconnect_same.

(** C69. It does return, unless the next delay is no [Duration] or an answer is a line on
    which parsing panics. *)
Theorem c69_reconnect_returns :
  forall (fire : timers) (fuel : nat) (peers : nat -> peer) (now : instant) (c : client),
    (forall j, small_peer (peers j)) ->
    (exists t c' tr o, t_reconnect fire fuel peers now c = Ret (t, c', tr, o)) \/
    (t_reconnect fire fuel peers now c = Panic /\ exists k, (k < fuel)%nat /\ within (max_tries (cf_backoff (c_config c))) k /\
       (~ delay_fits (cf_backoff (c_config c)) k \/ exists h, took (peers k) h /\ chokes reader_new h)).
Proof. exact p_c69_reconnect_returns. Qed.
Print Assumptions c69_reconnect_returns.

(** C69. Reconnecting takes the delays if no timer fires early, and then at most twice the
    timeout per attempt if none is late. *)
Theorem c69_reconnect_time :
  forall (fire : timers) (slack : duration) (fuel : nat) (peers : nat -> peer) (now t : instant) (c c' : client)
         (tr : list event) (o : option (result unit connect_error)),
    t_reconnect fire fuel peers now c = Ret (t, c', tr, o) ->
    (not_early fire -> now + total (delays tr) <= t) /\
    (late_by slack fire ->
     t <= now + total (delays tr) + (2 * cf_timeout (c_config c) + 3 * slack) * N.of_nat (attempts tr)).
Proof. exact p_c69_reconnect_time. Qed.
Print Assumptions c69_reconnect_time.

(** C69. With a limit on the number of attempts, it is over at a time fixed by the
    configuration alone, whatever the network does. *)
Theorem c69_reconnect_ends :
  forall (fire : timers) (fuel : nat) (peers : nat -> peer) (now t : instant) (c c' : client) (tr : list event)
         (o : option (result unit connect_error)) (n : nat) (slack : duration),
    (forall j, small_peer (peers j)) -> late_by slack fire ->
    max_tries (cf_backoff (c_config c)) = Some (N.of_nat n) -> (n < fuel)%nat ->
    t_reconnect fire fuel peers now c = Ret (t, c', tr, o) ->
    (exists r, o = Some r) /\
    t <= now + total (map (nth_delay (cf_backoff (c_config c))) (seq 0 n))
         + (2 * cf_timeout (c_config c) + 3 * slack) * N.of_nat n.
Proof. exact p_c69_reconnect_ends. Qed.
Print Assumptions c69_reconnect_ends.

(** C69. With the default configuration, that is 553 seconds, and what the timers are late. *)
Theorem c69_reconnect_default :
  forall (fire : timers) (fuel : nat) (peers : nat -> peer) (now t : instant) (c c' : client) (tr : list event)
         (o : option (result unit connect_error)) (slack : duration),
    (forall j, small_peer (peers j)) -> late_by slack fire ->
    cf_backoff (c_config c) = backoff_default -> cf_timeout (c_config c) = default_timeout -> (8 < fuel)%nat ->
    t_reconnect fire fuel peers now c = Ret (t, c', tr, o) ->
    (exists r, o = Some r) /\ t <= now + secs 553 + 24 * slack.
Proof. exact p_c69_reconnect_default. Qed.
Print Assumptions c69_reconnect_default.

(** C69. A server that opens and takes the greeting within the timeout, and sends its two
    lines within it and within 5 seconds of the greeting, decides the result as in C51,
    at once. *)
Theorem c69_prompt :
  forall (fire : timers) (now : instant) (cf : config) (dt : duration) (p : peer) (g l1 l2 rest1 rest2 : str) (d0 d1 e : duration)
         (reads1 reads2 more : list (duration * read)) (v1 v2 : view),
    not_early fire -> greeting (cf_credentials cf) g -> greeted_by p g d0 d1 -> d0 <= cf_timeout cf ->
    d1 <= e -> e <= d1 + secs 5 -> e <= cf_timeout cf ->
    p_reads p = reads1 ++ reads2 ++ more -> (forall d x, In (d, x) (reads1 ++ reads2) -> d <= e) ->
    ~ In lf l1 -> ~ In lf l2 -> fit_line (p_build1 p) l1 -> fit_line (p_build2 p) l2 ->
    spec_view l1 = Some v1 -> spec_view l2 = Some v2 ->
    chunked (l1 ++ crlf ++ rest1) (map snd reads1) -> chunked rest2 (map snd reads2) -> rest1 ++ rest2 = l2 ++ crlf ->
    exists t r o, t_connect fire now cf (dt, TlsOk) p = Ret (t, r) /\
      now + dt + d0 + d1 <= t <= now + dt + d0 + e /\
      two_line_result (p_build1 p) (p_build2 p) l1 l2 v1 v2 o /\
      ((o = Done (Ok tt) /\ exists c, r = Ok c) \/ (exists er, o = Done (Err er) /\ r = Err er)).
Proof. exact p_c69_prompt. Qed.
Print Assumptions c69_prompt.

(** C69. If no line is complete when the timer of 5 seconds set after the greeting was
    taken fires, or that of the timeout, connecting ends at that moment, with [Timeout]. *)
Theorem c69_silent :
  forall (fire : timers) (now : instant) (cf : config) (dt : duration) (p : peer) (g s : str) (d0 d1 : duration)
         (early late : list (duration * read)),
    not_early fire -> greeting (cf_credentials cf) g -> greeted_by p g d0 d1 -> d0 <= cf_timeout cf -> d1 <= cf_timeout cf ->
    p_reads p = early ++ late -> chunked s (map snd early) -> ~ In lf s ->
    let opened := now + dt + d0 in
    let over := N.min (fire (opened + d1) (secs 5)) (fire opened (cf_timeout cf)) in
    (forall d x, In (d, x) late -> over < opened + d) ->
    t_connect fire now cf (dt, TlsOk) p = Ret (over, Err CTimeout).
Proof. exact p_c69_silent. Qed.
Print Assumptions c69_silent.

(** C69. The timeout does not bound connecting: opening and the handshake each have it,
    and connecting can take exactly twice as long. *)
Theorem c69_within_timeout_refuted :
  exists (now t : instant) (cf : config) (p : peer) (e : connect_error),
    t_connect on_time now cf (0, TlsOk) p = Ret (t, Err e) /\ 0 < cf_timeout cf /\ t = now + 2 * cf_timeout cf.
Proof. exact p_c69_within_timeout_refuted. Qed.
Print Assumptions c69_within_timeout_refuted.

(** C69. Nor is it the time the server has to answer, if it is longer than 5 seconds:
    with a timeout of 60 seconds, the right answers 6 seconds after the greeting are not
    awaited. *)
Theorem c69_answers_within_timeout_refuted :
  exists (t : instant) (cf : config) (p : peer),
    cf_timeout cf = secs 60 /\ greeted_by p (handshake_text (cf_credentials cf)) 0 0 /\
    p_reads p = [(secs 6, Got (sample_ack ++ crlf ++ sample_001 ++ crlf))] /\
    t_connect on_time 0 cf (0, TlsOk) p = Ret (t, Err CTimeout) /\ t = secs 5.
Proof. exact p_c69_answers_within_timeout_refuted. Qed.
Print Assumptions c69_answers_within_timeout_refuted.

(** C69. Tokio's timers, which count whole milliseconds, are less than one late and never
    early. *)
Theorem c69_tokio :
  forall fire : timers, whole_ms fire -> late_by (ms - 1) fire /\ not_early fire.
Proof. exact p_c69_tokio. Qed.
Print Assumptions c69_tokio.

(** C69. Refuted for such timers: that a timeout is over when it is due. *)
Theorem c69_exact_refuted :
  exists (fire : timers) (t : instant) (cf : config) (p : peer),
    whole_ms fire /\ t_connect fire 1 cf (0, TlsOk) p = Ret (t, Err CTimeout) /\ t = 1 + cf_timeout cf + (ms - 1).
Proof. exact p_c69_exact_refuted. Qed.
Print Assumptions c69_exact_refuted.

Example example_c69 :
  let prompt := sample_peer (secs 2) [(secs 1, Got (firstn 10 sample_ack)); (secs 3, Got (skipn 10 sample_ack ++ crlf ++ b ":tmi"));
                                      (secs 4, Got (skipn 4 sample_001 ++ crlf))] in
  let silent := sample_peer (secs 2) [(secs 3, Got (firstn 10 sample_ack)); (secs 9, Got (skipn 10 sample_ack ++ crlf))] in
  let refusing := mk_peer (Some (secs 10, Err ConnectionRefused)) [] None [] Scalar Scalar in
  let c := mk_client [] [] [] reader_new sample_config in
  let peers := fun i => match i with 0%nat => refusing | S _ => prompt end in
  greeted_by prompt (handshake_text (cf_credentials sample_config)) (secs 2) (secs 1) /\
  small_peer prompt /\ small_peer refusing /\
  (exists c', t_connect on_time 0 sample_config (secs 1, TlsOk) prompt = Ret (secs 7, Ok c')) /\
  t_connect on_time 0 sample_config (secs 1, TlsOk) silent = Ret (secs 9, Err CTimeout) /\
  (exists c' tr, t_reconnect on_time 9 peers 0 c = Ret (secs 20, c', tr, Some (Ok tt)) /\ total (delays tr) = secs 4 /\ attempts tr = 2%nat) /\
  (exists c' tr, t_reconnect on_time 9 (fun _ => refusing) 0 c = Ret (secs 153, c', tr, Some (Err (COpen ConnectionRefused))) /\ attempts tr = 8%nat) /\
  late_by 0 on_time /\ not_early on_time /\
  t_connect (fun now d => now + d + 300) 0 sample_config (secs 1, TlsOk) silent = Ret (secs 9 + 300, Err CTimeout) /\
  late_by 300 (fun now d => now + d + 300).
Proof. exact ex_c69. Qed.

Example example_c69_panics :
  let p := sample_peer (secs 2) [(secs 3, Got (b "@" ++ flat_map (fun _ => b "k=v;") (seq 0 129) ++ b "k=v CAP * ACK :x" ++ crlf))] in
  small_peer p /\ t_connect on_time 0 sample_config (secs 1, TlsOk) p = Panic /\
  t_reconnect on_time 9 (fun _ => p) 0 (mk_client [] [] [] reader_new sample_config) = Panic.
Proof. exact ex_c69_panics. Qed.
