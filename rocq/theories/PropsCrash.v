(** * PropsCrash: property theorems (generated from CrashProofs.v by tools/gen_props.py).

    Only statements; each is closed by the lemma of the same name. *)

From Verif Require Import Base Wide Tags Irc SpecIrc SpecText MsgBase MsgTypes MsgNotice Message SpecMsg Common Client SpecClient Bot SpecBot Readme SpecReadme SpecCrash HandshakeProofs ConnectProofs BotProofs LineProofs Samples CrashProofs.

(** C93. A turn of the example program panics exactly if the line it gets is one on
    which parsing panics, or (debug builds) a ROOMSTATE with too many minutes, or asks
    to reconnect, and that panics. Otherwise the turn ends. *)
Theorem c93_turn_panics_iff :
  forall (pf : profile) (chs : list str) (c : client) (x : turn),
    moderate c x ->
    (bot_turn pf chs c x = Panic <-> deadly pf c x) /\
    (bot_turn pf chs c x <> Panic -> exists y, bot_turn pf chs c x = Ret y).
Proof. exact p_c93_turn_panics_iff. Qed.
Print Assumptions c93_turn_panics_iff.

(** C93. A whole run panics exactly if it comes to such a turn; it then has gone on up
    to there. *)
Theorem c93_run_panics_iff :
  forall (pf : profile) (chs : list str) (xs : list turn) (c : client),
    let reached c' x := exists xs1 xs2 out, xs = xs1 ++ x :: xs2 /\ bot_run pf chs c xs1 = Ret (c', out, Going) in
    (forall c' x, reached c' x -> moderate c' x) ->
    (bot_run pf chs c xs = Panic <-> exists c' x, reached c' x /\ deadly pf c' x) /\
    (bot_run pf chs c xs <> Panic -> exists y, bot_run pf chs c xs = Ret y).
Proof. exact p_c93_run_panics_iff. Qed.
Print Assumptions c93_run_panics_iff.

(** C93. The same for the program of the front page, which is anonymous. *)
Theorem c93_readme_panics_iff :
  forall (pf : profile) (c : client) (x : turn),
    is_anon (cf_credentials (c_config c)) = true -> moderate c x ->
    (readme_turn pf c x = Panic <-> deadly pf c x) /\
    (readme_turn pf c x <> Panic -> exists y, readme_turn pf c x = Ret y).
Proof. exact p_c93_readme_panics_iff. Qed.
Print Assumptions c93_readme_panics_iff.

(** C93. The whole program panics exactly if the answer to the greeting has a line on
    which parsing panics, or if it comes to a deadly turn after that. *)
Theorem c93_program_panics_iff :
  forall (pf : profile) (name tok : option str) (n : N) (chs : list str) (tls : tls_out) (o : open_out)
    (h : handshake_out) (elapsed : bool) (w : write_out) (xs : list turn),
    let reached c' x := exists xs1 xs2 out, xs = xs1 ++ x :: xs2 /\
      bot_main pf name tok n chs tls o h elapsed w xs1 = Ret (Some c', out, Going) in
    small_answers reader_new h -> (forall c' x, reached c' x -> moderate c' x) ->
    (bot_main pf name tok n chs tls o h elapsed w xs = Panic <->
      (tls = TlsOk /\ o = OpOk /\ delivered h /\ chokes reader_new h) \/
      exists c' x, reached c' x /\ deadly pf c' x) /\
    (bot_main pf name tok n chs tls o h elapsed w xs <> Panic ->
      exists y, bot_main pf name tok n chs tls o h elapsed w xs = Ret y).
Proof. exact p_c93_program_panics_iff. Qed.
Print Assumptions c93_program_panics_iff.

(** C93. The whole program of the front page panics exactly in the same cases. *)
Theorem c93_readme_program_panics_iff :
  forall (pf : profile) (n : N) (tls : tls_out) (o : open_out)
    (h : handshake_out) (elapsed : bool) (w : write_out) (xs : list turn),
    let reached c' x := exists xs1 xs2 out, xs = xs1 ++ x :: xs2 /\
      readme_main pf n tls o h elapsed w xs1 = Ret (Some c', out, Going) in
    small_answers reader_new h -> (forall c' x, reached c' x -> moderate c' x) ->
    (readme_main pf n tls o h elapsed w xs = Panic <->
      (tls = TlsOk /\ o = OpOk /\ delivered h /\ chokes reader_new h) \/
      exists c' x, reached c' x /\ deadly pf c' x) /\
    (readme_main pf n tls o h elapsed w xs <> Panic ->
      exists y, readme_main pf n tls o h elapsed w xs = Ret y).
Proof. exact p_c93_readme_program_panics_iff. Qed.
Print Assumptions c93_readme_program_panics_iff.

(** C93. So a server can stop it: with a ROOMSTATE, and with too many tags. *)
Example example_c93 :
  let c l := mk_client [] [] [] (mk_reader [] [Got (l ++ crlf)] false) (config_default 1) in
  let x bd := mk_turn bd [] WOk 0 (fun _ => refused) in
  let l1 := b "@followers-only=4611686018427387904;room-id=1 ROOMSTATE #c" in
  let l2 := b "@" ++ many_tags 129 ++ b " PING" in
  deadly Debug (c l1) (x (Simd Sse2 0)) /\ ~ deadly Release (c l1) (x (Simd Sse2 0)) /\
  deadly Release (c l2) (x Scalar) /\ moderate (c l1) (x (Simd Sse2 0)).
Proof. exact ex_c93. Qed.

(** C93. The whole program, whose server sends this ROOMSTATE right after the welcome. *)
Example example_c93_program :
  let l1 := b "@followers-only=4611686018427387904;room-id=1 ROOMSTATE #c" in
  let s := b ":tmi.twitch.tv CAP * ACK :twitch.tv/tags" ++ crlf ++ b ":tmi.twitch.tv 001 me :Welcome, GLHF!" ++ crlf ++ l1 ++ crlf in
  let h := mk_handshake_out WOk FOk (mk_wait [Got s] false Scalar) (mk_wait [] false Scalar) in
  let x := mk_turn Scalar [] WOk 0 (fun _ => refused) in
  let main pf xs := bot_main pf None None 1 [b "#c"] TlsOk OpOk h false WOk xs in
  let reached pf c' x' := exists xs1 xs2 out, [x] = xs1 ++ x' :: xs2 /\ main pf xs1 = Ret (Some c', out, Going) in
  small_answers reader_new h /\ (forall pf c' x', reached pf c' x' -> moderate c' x') /\
  main Debug [x] = Panic /\ main Release [x] <> Panic /\ readme_main Debug 1 TlsOk OpOk h false WOk [x] = Panic.
Proof. exact ex_c93_program. Qed.
