(** * CutProofs: the property lemmas about lines and streams that end too early, C87. *)

From Coq Require Import Lia ZifyBool ZifyNat ZifyN.
From Verif Require Import Base Wide Tags Irc MsgBase MsgTypes MsgNotice Message SpecIrc SpecMsg SpecQuote Common Client SpecClient SpecCut.
From Verif Require Import BaseFacts IrcFacts IrcProofs LineProofs AccessProofs FieldFacts TypedFacts NoticeFacts TypedProofs PartsProofs QuoteProofs RecvProofs.

(** ** Lines *)

Lemma cut_app (c : byte) (s r : str) :
  (exists t q, cut c s = (t, Some q) /\ cut c (s ++ r) = (t, Some (q ++ r))) \/
  (cut c s = (s, None) /\ ~ In c s /\ exists t o, cut c (s ++ r) = (s ++ t, o)).
Proof.
  destruct (cut c s) as [t [q|]] eqn:E.
  - left. exists t, q. split; [reflexivity|]. apply cut_some in E as [-> N]. apply cut_some. split; [|exact N].
    now rewrite <- !app_assoc.
  - right. apply cut_none in E as [-> N]. split; [reflexivity|]. split; [exact N|].
    destruct (cut c r) as [t o] eqn:K. exists t, o. destruct o as [o|].
    + apply cut_some in K as [-> M]. apply cut_some. split; [now rewrite <- app_assoc|].
      intros I. apply in_app_iff in I as [I|I]; auto.
    + apply cut_none in K as [-> M]. apply cut_none. split; [reflexivity|].
      intros I. apply in_app_iff in I as [I|I]; auto.
Qed.

Lemma mark_app (c : byte) (s r : str) :
  s = [] \/ (exists u, s = c :: u /\ ~ In " "%byte u) \/
  exists o q, mark_split c s = (o, q) /\ mark_split c (s ++ r) = (o, q ++ r).
Proof.
  destruct s as [|x s]; [now left|right]. cbn [app mark_split].
  destruct (byte_eqb_spec x c) as [->|N]; [|right; now eexists _, _].
  destruct (cut_app " " s r) as [(t & q & -> & ->)|(_ & N & _)]; [right; now eexists _, _|left; eauto].
Qed.

Lemma mark_none (c : byte) (s : str) : ~ In " "%byte s -> mark_split c s = (None, s).
Proof.
  intros N. unfold mark_split. destruct s as [|x r]; [reflexivity|]. destruct (Byte.eqb x c); [|reflexivity].
  rewrite (proj2 (cut_none " " r r)); [reflexivity|]. split; [reflexivity|]. intros J. apply N. now right.
Qed.

(** No typed command is the beginning of another one. *)
Lemma typed_prefix (w r : str) : In w typed_words -> In (w ++ r) typed_words -> r = [].
Proof.
  intros I J.
  assert (K : forallb (fun w => forallb (fun w' => negb (starts_with w w') || str_eqb w w') typed_words) typed_words = true)
    by (vm_compute; reflexivity).
  rewrite forallb_forall in K. specialize (K w I). rewrite forallb_forall in K. specialize (K _ J).
  apply orb_prop in K as [K|K].
  - exfalso. rewrite negb_true_iff in K. assert (T : starts_with w (w ++ r) = true); [|congruence].
    apply starts_with_true. now exists r.
  - destruct (str_eqb_spec w (w ++ r)) as [E|]; [|discriminate].
    rewrite <- (app_nil_r w) in E at 1. now apply app_inv_head in E.
Qed.

Lemma typed_letter (w : str) (c : byte) (u : str) : In w typed_words -> w = c :: u -> (c <> "@" /\ c <> ":")%byte.
Proof.
  intros I ->. cbn [typed_words In] in I.
  repeat (destruct I as [I|I]; [injection I as <- _; split; discriminate|]). destruct I.
Qed.

Lemma view_cut (s r : str) (v v' : view) :
  spec_view (s ++ r) = Some v -> spec_view s = Some v' -> In (v_command v) typed_words -> In (v_command v') typed_words ->
  shortened v v'.
Proof.
  intros V V' W W'. unfold spec_view in *. rewrite tags_split in *.
  destruct (mark_app "@" s r) as [->|[(u & -> & N)|(o1 & s1 & E & E')]].
  - discriminate.
  - exfalso. assert (M : ~ In " "%byte ("@"%byte :: u)) by (intros [I|I]; [discriminate|auto]).
    rewrite mark_none in V' by exact M. cbn [fst snd] in V'. rewrite prefix_split, mark_none in V' by exact M.
    cbn [fst snd option_map] in V'. rewrite (proj2 (cut_none " " _ _) (conj eq_refl M)) in V'.
    cbn [or_empty spec_split_channel] in V'. injection V' as <-. cbn [v_command] in W'.
    now destruct (typed_letter _ "@" u W' eq_refl).
  - rewrite E in V'. rewrite E' in V. clear E E'. cbn [fst snd] in *. rewrite prefix_split in *.
    destruct (mark_app ":" s1 r) as [->|[(u & -> & N)|(o2 & s2 & E & E')]].
    + discriminate.
    + exfalso. assert (M : ~ In " "%byte (":"%byte :: u)) by (intros [I|I]; [discriminate|auto]).
      rewrite mark_none in V' by exact M. cbn [fst snd option_map] in V'.
      rewrite (proj2 (cut_none " " _ _) (conj eq_refl M)) in V'.
      cbn [or_empty spec_split_channel] in V'. injection V' as <-. cbn [v_command] in W'.
      now destruct (typed_letter _ ":" u W' eq_refl).
    + rewrite E in V'. rewrite E' in V. clear E E'. cbn [fst snd] in *.
      destruct (cut_app " " s2 r) as [(w & q & E & E')|(E & N & t & o & E')]; rewrite E in V'; rewrite E' in V; clear E E'.
      * destruct w as [|w0 w]; [discriminate|]. cbn [or_empty] in *.
        destruct (spec_split_channel q) as [ch' ps'] eqn:C'. destruct (spec_split_channel (q ++ r)) as [ch ps] eqn:C.
        injection V as <-. injection V' as <-. unfold shortened. cbn [v_tags v_prefix v_command v_channel v_params].
        split; [reflexivity|]. split; [reflexivity|]. split; [reflexivity|].
        destruct q as [|x q].
        { left. cbn [spec_split_channel] in C'. injection C' as <- <-. auto. }
        right. unfold spec_split_channel in C, C'. cbn [app] in C. destruct (Byte.eqb x "#").
        -- change (x :: q ++ r) with ((x :: q) ++ r) in C.
           destruct (cut_app " " (x :: q) r) as [(c & p & E & E')|(E & N & t & o & E')]; rewrite E in C'; rewrite E' in C.
           ++ cbn [or_empty] in *. injection C as <- <-. injection C' as <- <-.
              destruct p as [|p0 p]; [left; split; [reflexivity|]; exists c, []; now rewrite app_nil_r|].
              right. split; [reflexivity|]. exists (p0 :: p), r. split; reflexivity.
           ++ left. cbn [or_empty] in C'. injection C' as <- <-. injection C as <- _. split; [reflexivity|].
              now exists (x :: q), t.
        -- injection C as <- <-. injection C' as <- <-. right. split; [reflexivity|].
           now exists (x :: q), r.
      * destruct s2 as [|x s2]; [discriminate|]. cbn [app or_empty spec_split_channel] in *.
        injection V' as <-. destruct (spec_split_channel (or_empty o)) as [ch ps]. injection V as <-.
        cbn [v_command] in *.
        assert (t = []) as -> by exact (typed_prefix (x :: s2) t W' W). rewrite app_nil_r.
        unfold shortened. cbn [v_tags v_prefix v_command v_channel v_params]. repeat split. now left.
Qed.

(** ** Streams *)

Lemma stream_cut (all : str) (ls : list str) : framed all ls -> forall s r, all = s ++ r ->
  exists ls1 ls2 tail, ls = ls1 ++ ls2 /\ left_of ls2 tail /\ framed s (ls1 ++ tail).
Proof.
  assert (NIL : forall ls, exists ls1 ls2 tail, ls = ls1 ++ ls2 /\ left_of ls2 tail /\ framed [] (ls1 ++ tail)).
  { intros ls'. exists [], ls', []. split; [reflexivity|]. split; [now left|]. constructor. }
  induction 1 as [|l NE N|l l' all ls N C F IH]; intros s r E.
  - symmetry in E. apply app_eq_nil in E as [-> _]. apply NIL.
  - destruct s as [|x s]; [apply NIL|]. exists [], [l], [x :: s]. split; [reflexivity|]. split.
    + right. exists (x :: s), l, []. split; [reflexivity|]. split; [reflexivity|]. split; [discriminate|]. left. now exists r.
    + constructor; [discriminate|]. intros I. apply N. rewrite E. apply in_app_iff. now left.
  - destruct (app_eq_app l ([lf] ++ all) s r) as (x & [[-> X]|[-> X]]); [exact E| |].
    + destruct s as [|y s]; [apply NIL|]. exists [], (l' :: ls), [y :: s]. split; [reflexivity|]. split.
      * right. exists (y :: s), l', ls. split; [reflexivity|]. split; [reflexivity|]. split; [discriminate|].
        destruct C as [C|[C _]]; [|left; now exists x].
        destruct (list_eq_dec Byte.byte_eq_dec x []) as [->|NX].
        -- right. now rewrite app_nil_r in C.
        -- left. destruct (exists_last NX) as (x0 & z & ->). exists x0. rewrite app_assoc in C.
           now apply app_inj_tail in C as [-> _].
      * constructor; [discriminate|]. intros I. apply N. apply in_app_iff. now left.
    + destruct x as [|x0 x]; cbn [app] in X.
      * rewrite app_nil_r in *. destruct l as [|y l]; [apply NIL|]. exists [], (l' :: ls), [y :: l]. split; [reflexivity|]. split.
        -- right. exists (y :: l), l', ls. split; [reflexivity|]. split; [reflexivity|]. split; [discriminate|].
           destruct C as [C|[C _]]; [right; exact C|left; exists []; now rewrite app_nil_r].
        -- constructor; [discriminate|exact N].
      * injection X as <- X. destruct (IH x r X) as (ls1 & ls2 & tail & -> & L & FR).
        exists (l' :: ls1), ls2, tail. split; [reflexivity|]. split; [exact L|].
        cbn [app]. change (l ++ lf :: x) with (l ++ [lf] ++ x). now constructor.
Qed.

(** C87. A line of a typed command that is cut off at any point, if it still is a
    typed message, has the tags, the prefix and the command of the whole one,
    and the beginning of its channel and parameters. *)
Lemma p_c87_cut_line :
  forall (bd bd' : build) (pf : profile) (s r : str) (v v' : view) (m m' : msg_ref) (x' : typed),
    parsed bd (s ++ r) v m -> In (v_command v) typed_words -> parsed bd' s v' m' ->
    from_irc pf m' = Ret (Some x') -> (forall o, x' <> MOther o) ->
    shortened v v'.
Proof.
  intros bd bd' pf s r v v' m m' x' P W P' F NO.
  apply (view_cut s r v v' (pd_view _ _ _ _ P) (pd_view _ _ _ _ P') W).
  pose proof (p_c22_variant_is_command bd' pf s v' m' x' (pd_utf8 _ _ _ _ P') (pd_size _ _ _ _ P')
    (pd_view _ _ _ _ P') (pd_parse _ _ _ _ P') F) as K.
  destruct (variant_word x') as [w|] eqn:E; [|destruct K as [K _]; now destruct (NO m')].
  rewrite K. destruct x'; cbn [variant_word] in E; try discriminate; injection E as <-; vm_compute; tauto.
Qed.

(** C87. A stream that ends at any point: the lines before that point are as in the
    whole stream, and at most one more is received, the beginning of the next
    one. *)
Lemma p_c87_cut_stream :
  forall (s r : str) (ls : list str), framed (s ++ r) ls ->
  exists ls1 ls2 tail, ls = ls1 ++ ls2 /\ left_of ls2 tail /\ framed s (ls1 ++ tail) /\
    forall (bd : nat -> build) (reads : list read) (os : list (result msg_own recv_error)) (k : nat),
      chunked s reads -> results bd (ls1 ++ tail) os ->
      exists rd, recvs bd (length (ls1 ++ tail) + k) (mk_reader [] (reads ++ [Got []; Got []]) false) =
        Ret (rd, map Some os ++ repeat (Some (Err RecvStreamClosed)) k).
Proof.
  intros s r ls F. destruct (stream_cut _ _ F s r eq_refl) as (ls1 & ls2 & tail & E & L & FR).
  exists ls1, ls2, tail. split; [exact E|]. split; [exact L|]. split; [exact FR|].
  intros bd reads os k C R. exact (p_c55_stream bd s (ls1 ++ tail) reads os k C FR R).
Qed.

(** C87. If the whole line has a text, the text of what is left of it is the
    beginning of that text, if there is one. *)
Lemma p_c87_cut_text :
  forall (bd bd' : build) (pf : profile) (s r t : str) (v v' : view) (m m' : msg_ref) (x' : typed),
    parsed bd (s ++ r) v m -> In (v_command v) typed_words -> v_params v = Some (b ":" ++ t) ->
    parsed bd' s v' m' -> from_irc pf m' = Ret (Some x') -> (forall o, x' <> MOther o) ->
    ref_text m' = Ret None \/ exists t' y, ref_text m' = Ret (Some t') /\ t = t' ++ y.
Proof.
  intros bd bd' pf s r t v v' m m' x' P W E P' F NO.
  pose proof (p_c87_cut_line bd bd' pf s r v v' m m' x' P W P' F NO) as (_ & _ & _ & K).
  rewrite (sn_text _ _ (parsed_seen _ _ _ _ P')). unfold spec_text.
  destruct K as [[_ ->]|[[-> _]|[_ (p & y & -> & Q)]]]; [now left|now left|right].
  rewrite E in Q. injection Q as Q. destruct p as [|p0 p].
  - exists [], t. split; reflexivity.
  - cbn [app] in Q. injection Q as <- ->. exists p, y. split; reflexivity.
Qed.

(** C87. In the scalar build receiving panics when the stream ends within the tags of
    a line. *)
Lemma p_c87_scalar_panics :
  forall (s rest : str) (ls : list str) (reads tail : list read) (os : list (result msg_own recv_error)),
    chunked s reads -> lines_then s ls rest -> results (fun _ => Scalar) ls os ->
    unterminated_tags rest -> utf8_valid rest = true -> below_4gib rest ->
    recvs (fun _ => Scalar) (length ls + 1) (mk_reader [] (reads ++ [Got []] ++ tail) false) = Panic.
Proof.
  intros s rest ls reads tail os (cs & -> & F & ->) L R T U S. change (map Got cs) with (gots cs).
  assert (N : ~ In lf rest).
  { clear -L. induction L; auto. }
  destruct (lines_recvs _ _ _ L (fun _ => Scalar) os [] cs ([Got []] ++ tail) F eq_refl R) as (b' & cs' & F' & E' & E).
  rewrite recvs_app, E. cbn [bind recvs].
  assert (NE : rest <> []) by (destruct T as [(x & ->) _]; discriminate).
  assert (P : poll_next (mk_reader b' (gots cs' ++ [Got []] ++ tail) false) =
              (mk_reader [] tail false, Item (Some (line_item rest)))).
  { unfold poll_next. cbn [rd_ended rd_buf rd_reads]. rewrite (poll_line_none cs' _ F' b') by now rewrite E'.
    rewrite E'. cbn [app poll_line]. rewrite (proj2 (find_byte_none lf rest) N). destruct rest; [congruence|].
    now rewrite finish_line_rest. }
  unfold recv. rewrite P. unfold line_item. rewrite U. unfold own_parse.
  rewrite (scalar_unterminated rest S T). reflexivity.
Qed.

Lemma short_line (s : str) (l : list (str * str)) : fst (spec_tags s) = l -> Forall short_tag l -> all_short s.
Proof. intros E F sec rest l' A B. rewrite (section_spec _ _ _ _ A B) in E. cbn [fst] in E. now subst. Qed.

Ltac parsed_line :=
  split; [vm_compute; reflexivity|vm_compute; reflexivity
         |eapply short_line; [vm_compute; reflexivity|repeat constructor]
         |vm_compute; reflexivity|vm_compute; reflexivity].

(** C87. That a cut line that still is a typed message means the same is wrong: the
    ban of a user becomes the clearing of the whole chat. *)
Lemma p_c87_ban_clears_chat_refuted :
  exists (s r : str) (v v' : view) (m m' : msg_ref) (x x' : clear_chat cow),
    parsed Scalar (s ++ r) v m /\ parsed Scalar s v' m' /\
    (forall pf, from_irc pf m = Ret (Some (MClearChat x)) /\ from_irc pf m' = Ret (Some (MClearChat x'))) /\
    cc_action x = Ban (Borrowed (b "bobby")) (Borrowed (b "7")) /\ cc_action x' = Clear.
Proof.
  exists (b "@room-id=1;target-user-id=7;tmi-sent-ts=5 :tmi.twitch.tv CLEARCHAT #c"), (b " :bobby").
  eexists _, _, _, _, _, _. split; [parsed_line|]. split; [parsed_line|].
  split; [intros pf; split; vm_compute; reflexivity|]. split; reflexivity.
Qed.

(** C87. Nor is it about the same user, or the same channel. *)
Lemma p_c87_other_user_refuted :
  exists (s r : str) (v v' : view) (m m' : msg_ref) (x x' : clear_chat cow),
    parsed Scalar (s ++ r) v m /\ parsed Scalar s v' m' /\
    (forall pf, from_irc pf m = Ret (Some (MClearChat x)) /\ from_irc pf m' = Ret (Some (MClearChat x'))) /\
    cc_action x = Ban (Borrowed (b "bobby")) (Borrowed (b "7")) /\
    cc_action x' = Ban (Borrowed (b "bob")) (Borrowed (b "7")).
Proof.
  exists (b "@room-id=1;target-user-id=7;tmi-sent-ts=5 :tmi.twitch.tv CLEARCHAT #c :bob"), (b "by").
  eexists _, _, _, _, _, _. split; [parsed_line|]. split; [parsed_line|].
  split; [intros pf; split; vm_compute; reflexivity|]. split; reflexivity.
Qed.

Lemma p_c87_other_channel_refuted :
  exists (s r : str) (v v' : view) (m m' : msg_ref),
    parsed Scalar (s ++ r) v m /\ parsed Scalar s v' m' /\
    forall pf,
      from_irc pf m = Ret (Some (MJoin (MsgTypes.mk_join (Borrowed (b "#channel")) (Borrowed (b "a"))))) /\
      from_irc pf m' = Ret (Some (MJoin (MsgTypes.mk_join (Borrowed (b "#chan")) (Borrowed (b "a"))))).
Proof.
  exists (b ":a!a@a JOIN #chan"), (b "nel"). eexists _, _, _, _. split; [parsed_line|]. split; [parsed_line|].
  intros pf; split; vm_compute; reflexivity.
Qed.

Example ex_c87_line :
  exists v v' m m' x',
    parsed Scalar (b "@room-id=1;id=9;user-id=2;display-name=D;tmi-sent-ts=5 :d!d@d PRIVMSG #c :hel" ++ b "lo") v m /\
    In (v_command v) typed_words /\ v_params v = Some (b ":" ++ b "hello") /\
    parsed (Simd Avx2 3) (b "@room-id=1;id=9;user-id=2;display-name=D;tmi-sent-ts=5 :d!d@d PRIVMSG #c :hel") v' m' /\
    from_irc Debug m' = Ret (Some (MPrivmsg x')) /\ pm_text x' = Borrowed (b "hel").
Proof.
  eexists _, _, _, _, _. split; [parsed_line|]. split; [vm_compute; tauto|]. split; [vm_compute; reflexivity|].
  split; [parsed_line|]. split; vm_compute; reflexivity.
Qed.

(** Two places where a stream can end within its second line. *)
Example ex_c87_stream :
  let whole := b "PING :a" ++ crlf ++ b "@x=y JOIN #c" ++ crlf in
  framed whole [b "PING :a"; b "@x=y JOIN #c"] /\
  framed (firstn 12 whole) [b "PING :a"; b "@x="] /\ left_of [b "@x=y JOIN #c"] [b "@x="] /\
  framed (firstn 22 whole) [b "PING :a"; b "@x=y JOIN #c" ++ [cr]] /\
  left_of [b "@x=y JOIN #c"] [b "@x=y JOIN #c" ++ [cr]] /\
  lines_then (firstn 12 whole) [b "PING :a"] (b "@x=") /\ unterminated_tags (b "@x=").
Proof.
  Ltac no_lf := cbn; intuition discriminate.
  cbn zeta. split.
  { apply (fr_line (b "PING :a" ++ [cr]) (b "PING :a")); [no_lf|now left|].
    apply (fr_line (b "@x=y JOIN #c" ++ [cr]) (b "@x=y JOIN #c") [] []); [no_lf|now left|constructor]. }
  split.
  { apply (fr_line (b "PING :a" ++ [cr]) (b "PING :a") (b "@x=") [b "@x="]); [no_lf|now left|].
    constructor; [discriminate|no_lf]. }
  split.
  { right. exists (b "@x="), (b "@x=y JOIN #c"), []. repeat split; [discriminate|]. left. now exists (b "y JOIN #c"). }
  split.
  { apply (fr_line (b "PING :a" ++ [cr]) (b "PING :a") (b "@x=y JOIN #c" ++ [cr]) [b "@x=y JOIN #c" ++ [cr]]);
      [no_lf|now left|]. constructor; [discriminate|no_lf]. }
  split.
  { right. exists (b "@x=y JOIN #c" ++ [cr]), (b "@x=y JOIN #c"), []. repeat split; [discriminate|]. now right. }
  split.
  { apply (lt_line (b "PING :a" ++ [cr]) (b "PING :a") (b "@x=") []); [no_lf|now left|]. constructor. no_lf. }
  split; [now exists (b "x=")|no_lf].
Qed.
