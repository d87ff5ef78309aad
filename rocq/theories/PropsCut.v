(** * PropsCut: property theorems (generated from CutProofs.v by tools/gen_props.py).

    Only statements; each is closed by the lemma of the same name. *)

From Verif Require Import Base Wide Tags Irc MsgBase MsgTypes MsgNotice Message SpecIrc SpecMsg SpecQuote Common Client SpecClient SpecCut CutProofs.

(** C87. A line of a typed command that is cut off at any point, if it still is a
    typed message, has the tags, the prefix and the command of the whole one,
    and the beginning of its channel and parameters. *)
Theorem c87_cut_line :
  forall (bd bd' : build) (pf : profile) (s r : str) (v v' : view) (m m' : msg_ref) (x' : typed),
    parsed bd (s ++ r) v m -> In (v_command v) typed_words -> parsed bd' s v' m' ->
    from_irc pf m' = Ret (Some x') -> (forall o, x' <> MOther o) ->
    shortened v v'.
Proof. exact p_c87_cut_line. Qed.
Print Assumptions c87_cut_line.

(** C87. A stream that ends at any point: the lines before that point are as in the
    whole stream, and at most one more is received, the beginning of the next
    one. *)
Theorem c87_cut_stream :
  forall (s r : str) (ls : list str), framed (s ++ r) ls ->
  exists ls1 ls2 tail, ls = ls1 ++ ls2 /\ left_of ls2 tail /\ framed s (ls1 ++ tail) /\
    forall (bd : nat -> build) (reads : list read) (os : list (result msg_own recv_error)) (k : nat),
      chunked s reads -> results bd (ls1 ++ tail) os ->
      exists rd, recvs bd (length (ls1 ++ tail) + k) (mk_reader [] (reads ++ [Got []; Got []]) false) =
        Ret (rd, map Some os ++ repeat (Some (Err RecvStreamClosed)) k).
Proof. exact p_c87_cut_stream. Qed.
Print Assumptions c87_cut_stream.

(** C87. If the whole line has a text, the text of what is left of it is the
    beginning of that text, if there is one. *)
Theorem c87_cut_text :
  forall (bd bd' : build) (pf : profile) (s r t : str) (v v' : view) (m m' : msg_ref) (x' : typed),
    parsed bd (s ++ r) v m -> In (v_command v) typed_words -> v_params v = Some (b ":" ++ t) ->
    parsed bd' s v' m' -> from_irc pf m' = Ret (Some x') -> (forall o, x' <> MOther o) ->
    ref_text m' = Ret None \/ exists t' y, ref_text m' = Ret (Some t') /\ t = t' ++ y.
Proof. exact p_c87_cut_text. Qed.
Print Assumptions c87_cut_text.

(** C87. In the scalar build receiving panics when the stream ends within the tags of
    a line. *)
Theorem c87_scalar_panics :
  forall (s rest : str) (ls : list str) (reads tail : list read) (os : list (result msg_own recv_error)),
    chunked s reads -> lines_then s ls rest -> results (fun _ => Scalar) ls os ->
    unterminated_tags rest -> utf8_valid rest = true -> below_4gib rest ->
    recvs (fun _ => Scalar) (length ls + 1) (mk_reader [] (reads ++ [Got []] ++ tail) false) = Panic.
Proof. exact p_c87_scalar_panics. Qed.
Print Assumptions c87_scalar_panics.

(** C87. That a cut line that still is a typed message means the same is wrong: the
    ban of a user becomes the clearing of the whole chat. *)
Theorem c87_ban_clears_chat_refuted :
  exists (s r : str) (v v' : view) (m m' : msg_ref) (x x' : clear_chat cow),
    parsed Scalar (s ++ r) v m /\ parsed Scalar s v' m' /\
    (forall pf, from_irc pf m = Ret (Some (MClearChat x)) /\ from_irc pf m' = Ret (Some (MClearChat x'))) /\
    cc_action x = Ban (Borrowed (b "bobby")) (Borrowed (b "7")) /\ cc_action x' = Clear.
Proof. exact p_c87_ban_clears_chat_refuted. Qed.
Print Assumptions c87_ban_clears_chat_refuted.

(** C87. Nor is it about the same user, or the same channel. *)
Theorem c87_other_user_refuted :
  exists (s r : str) (v v' : view) (m m' : msg_ref) (x x' : clear_chat cow),
    parsed Scalar (s ++ r) v m /\ parsed Scalar s v' m' /\
    (forall pf, from_irc pf m = Ret (Some (MClearChat x)) /\ from_irc pf m' = Ret (Some (MClearChat x'))) /\
    cc_action x = Ban (Borrowed (b "bobby")) (Borrowed (b "7")) /\
    cc_action x' = Ban (Borrowed (b "bob")) (Borrowed (b "7")).
Proof. exact p_c87_other_user_refuted. Qed.
Print Assumptions c87_other_user_refuted.

Theorem c87_other_channel_refuted :
  exists (s r : str) (v v' : view) (m m' : msg_ref),
    parsed Scalar (s ++ r) v m /\ parsed Scalar s v' m' /\
    forall pf,
      from_irc pf m = Ret (Some (MJoin (MsgTypes.mk_join (Borrowed (b "#channel")) (Borrowed (b "a"))))) /\
      from_irc pf m' = Ret (Some (MJoin (MsgTypes.mk_join (Borrowed (b "#chan")) (Borrowed (b "a"))))).
Proof. exact p_c87_other_channel_refuted. Qed.
Print Assumptions c87_other_channel_refuted.

Example example_c87_line :
  exists v v' m m' x',
    parsed Scalar (b "@room-id=1;id=9;user-id=2;display-name=D;tmi-sent-ts=5 :d!d@d PRIVMSG #c :hel" ++ b "lo") v m /\
    In (v_command v) typed_words /\ v_params v = Some (b ":" ++ b "hello") /\
    parsed (Simd Avx2 3) (b "@room-id=1;id=9;user-id=2;display-name=D;tmi-sent-ts=5 :d!d@d PRIVMSG #c :hel") v' m' /\
    from_irc Debug m' = Ret (Some (MPrivmsg x')) /\ pm_text x' = Borrowed (b "hel").
Proof. exact ex_c87_line. Qed.

(** Two places where a stream can end within its second line. *)
Example example_c87_stream :
  let whole := b "PING :a" ++ crlf ++ b "@x=y JOIN #c" ++ crlf in
  framed whole [b "PING :a"; b "@x=y JOIN #c"] /\
  framed (firstn 12 whole) [b "PING :a"; b "@x="] /\ left_of [b "@x=y JOIN #c"] [b "@x="] /\
  framed (firstn 22 whole) [b "PING :a"; b "@x=y JOIN #c" ++ [cr]] /\
  left_of [b "@x=y JOIN #c"] [b "@x=y JOIN #c" ++ [cr]] /\
  lines_then (firstn 12 whole) [b "PING :a"] (b "@x=") /\ unterminated_tags (b "@x=").
Proof. exact ex_c87_stream. Qed.
