(** * BotProofs: the example program (C67). *)

From Verif Require Import Base Wide Tags Irc SpecIrc SpecText MsgBase MsgTypes MsgNotice Message SpecMsg Common Client SpecClient Bot SpecBot HandshakeProofs ConnectProofs Samples.
From Verif Require Import BaseFacts IrcFacts IrcProofs LineProofs AccessProofs UnescapeProofs FieldFacts TypedFacts MapFacts TypedProofs RecvProofs SendProofs.
From Coq Require Import Lia ZifyBool ZifyNat ZifyN.

(** What the program does with a typed message that is not RECONNECT. *)
Definition react (c : client) (t : typed) (w : write_out) : res (client * list str * fin (result unit bot_error)) :=
  match t with
  | MPrivmsg msg => on_msg c msg w
  | MPing ping => let '(c, r) := send_pong c ping w in Ret (sent_or_stop c [] r)
  | _ => Ret (c, [], Done (Ok tt))
  end.

Definition bot_ending (w : write_out) : fin (result unit bot_error) :=
  match ending w with
  | Dropped => Dropped
  | Done (Err e) => Done (Err (BotSend e))
  | Done (Ok _) => Done (Ok tt)
  end.

(** The client after sending [a] (nothing at all, if it is empty). *)
Definition after (c : client) (w : write_out) (a : str) : client :=
  match a with
  | [] => c
  | _ => mk_client [] (c_wire c ++ taken w a) (c_log c ++ [a]) (c_reader c) (c_config c)
  end.

Definition after_ending (w : write_out) (a : str) : fin (result unit bot_error) :=
  match a with [] => Done (Ok tt) | _ => bot_ending w end.

Lemma privmsg_unique (bd : build) (l : str) (v : view) (m : msg_ref) (x y : privmsg str) :
  parsed bd l v m -> v_command v = b "PRIVMSG" -> privmsg_of v x -> privmsg_of v y -> x = y.
Proof.
  intros P C X Y.
  assert (A : privmsg_parse m = Ret (Some (privmsg_map Borrowed x))) by (apply (p_c28_privmsg bd l v m _ P C); eauto).
  assert (B : privmsg_parse m = Ret (Some (privmsg_map Borrowed y))) by (apply (p_c28_privmsg bd l v m _ P C); eauto).
  assert (E : privmsg_map Borrowed x = privmsg_map Borrowed y) by congruence.
  apply (f_equal (privmsg_map deref)) in E. rewrite !privmsg_map_map in E.
  now rewrite !privmsg_map_id in E.
Qed.

Lemma answer_unique (bd : build) (l : str) (v : view) (m : msg_ref) (anon : bool) (x y : str) :
  parsed bd l v m -> answer anon v x -> answer anon v y -> x = y.
Proof.
  intros P X Y.
  assert (T : forall t t', has_text v t -> has_text v t' -> t = t').
  { intros t t' A B. apply has_text_iff in A, B. congruence. }
  assert (N : b "PING" <> b "PRIVMSG") by discriminate.
  destruct X as [t C A|C A|q r C A F S|q C A S|C1 C2 C3];
    destruct Y as [t' C' A'|C' A'|q' r' C' A' F' S'|q' C' A' S'|C1' C2' C3'];
    try reflexivity; try congruence;
    try (rewrite (T t t') by assumption; reflexivity);
    try (now destruct (A' t)); try (now destruct (A t'));
    rewrite (privmsg_unique bd l v m q q') in * by assumption; try reflexivity;
    try (destruct S' as [S'|S']; [congruence|now destruct (S' r)]);
    try (destruct S as [S|S]; [congruence|now destruct (S r')]).
Qed.

Lemma sender_named (bd : build) (l : str) (v : view) (m : msg_ref) (x : privmsg str) :
  parsed bd l v m -> privmsg_of v x ->
  exists c, user_name (pm_sender (privmsg_map Borrowed x)) = Ret c /\ shown (u_name (pm_sender x)) (deref c).
Proof.
  intros P (_ & _ & _ & _ & _ & _ & D & _). apply has_iff in D.
  pose proof (parsed_seen _ _ _ _ P) as H. pose proof (sn_tag _ _ H TDisplayName) as R.
  change (tag_as_str TDisplayName) with (b "display-name") in R. rewrite D in R.
  destruct (parse_reads bd l m (pd_utf8 _ _ _ _ P) (pd_size _ _ _ _ P) (pd_parse _ _ _ _ P)) as (v' & V & RD).
  destruct (p_c10_parts_of_the_line m) as (_ & T & _); [rewrite (rd_raw _ _ _ RD); apply P|].
  destruct (T _ _ R) as [_ U].
  destruct (p_c20_shown (Borrowed (u_name (pm_sender x))) U) as (c & E & N).
  exists c. split; [exact E|]. now apply N.
Qed.

(** What has been printed when a turn ends with [r]. *)
Definition so_far (r : fin (result unit bot_error)) (o : list str) : list str :=
  match r with Done (Ok _) => o | _ => firstn 1 o end.

(** One typed message: there is an answer, and it is what is sent. *)
Lemma react_answers (bd : build) (pf : profile) (l : str) (v : view) (m : msg_ref) (t : typed) (c : client) :
  parsed bd l v m -> from_irc pf m = Ret (Some t) -> v_command v <> b "RECONNECT" -> c_scratch c = [] ->
  t <> MReconnect /\
  exists a o, answer (is_anon (cf_credentials (c_config c))) v a /\ printed (is_anon (cf_credentials (c_config c))) v o /\
    forall w, react c t w = Ret (after c w a, so_far (after_ending w a) o, after_ending w a).
Proof.
  intros P F NR S. pose proof (parsed_seen _ _ _ _ P) as H.
  pose proof (p_c22_variant_is_command bd pf l v m t (pd_utf8 _ _ _ _ P) (pd_size _ _ _ _ P) (pd_view _ _ _ _ P)
    (pd_parse _ _ _ _ P) F) as W.
  pose proof (p_c22_variants bd pf l v m (pd_utf8 _ _ _ _ P) (pd_size _ _ _ _ P) (pd_view _ _ _ _ P)
    (pd_parse _ _ _ _ P)) as V. cbn zeta in V.
  destruct V as (_ & _ & _ & _ & _ & _ & VP & _ & VM & _).
  assert (O : forall w, v_command v = w -> w <> b "PING" -> w <> b "PRIVMSG" ->
    exists a o, answer (is_anon (cf_credentials (c_config c))) v a /\ printed (is_anon (cf_credentials (c_config c))) v o /\
    forall w, Ret (c, [] : list str, Done (Ok tt)) = Ret (after c w a, so_far (after_ending w a) o, after_ending w a)).
  { intros w E N1 N2. exists [], []. split; [apply an_nothing; congruence|].
    split; [apply pr_nothing; congruence|]. reflexivity. }
  split. { intros ->. apply NR. exact W. }
  destruct t; cbn [variant_word] in W; try (apply (O _ W); discriminate); cbn [react].
  - (* PING *)
    apply VP in F. apply (p_c24_ping bd l v m _ P W) in F as (x & -> & X). unfold ping_of in X.
    exists (call_line (CallPong (ping_map Borrowed x))), []. split; [|split; [apply pr_nothing; rewrite W; discriminate|]].
    + cbn [call_line ping_map pi_nonce]. destruct (pi_nonce x) as [n|]; cbn [option_map opt] in *; cbn [deref].
      * now apply an_pong.
      * now apply an_pong_only.
    + intros w. change (send_pong c (ping_map Borrowed x) w) with (run_call c (CallPong (ping_map Borrowed x)) w).
      rewrite run_call_spec by (intros [z Z]; discriminate). rewrite payload_clean by exact S.
      cbn [left_over].
      unfold after, after_ending, bot_ending.
      destruct (call_line (CallPong (ping_map Borrowed x))) as [|y ys] eqn:E.
      { exfalso. cbn [call_line] in E. destruct (pi_nonce (ping_map Borrowed x)); discriminate. }
      unfold sent_or_stop. destruct (ending w) as [[[]|e]|]; reflexivity.
  - (* PRIVMSG *)
    apply VM in F. apply (p_c28_privmsg bd l v m _ P W) in F as (x & -> & X).
    destruct (sender_named bd l v m x P X) as (name & E & NM). unfold on_msg. rewrite E. cbn [bind].
    cbn [privmsg_map pm_text pm_channel pm_id deref].
    destruct (is_anon (cf_credentials (c_config c))) eqn:A.
    { eexists [], _. split; [apply (an_message _ _ x); auto|].
      split; [exact (pr_message _ v x (deref name) W X (or_introl eq_refl) NM)|]. reflexivity. }
    destruct (starts_with (b "!yo") (pm_text x)) eqn:Y; cbn [negb].
    + apply starts_with_true in Y as [r Y].
      set (k := CallPrivmsg (pm_channel x) (b "yo") (Some (pm_id x)) None).
      eexists (call_line k), _. split; [exact (an_yo _ _ x r W X eq_refl Y)|].
      split; [exact (pr_answered _ v x r (deref name) W X eq_refl Y NM)|].
      intros w. change (send_privmsg c (pm_channel x) (b "yo") (Some (pm_id x)) None w) with (run_call c k w).
      rewrite run_call_spec by (intros [z Z]; discriminate). rewrite payload_clean by exact S.
      cbn [left_over k]. unfold after, after_ending, bot_ending.
      destruct (call_line k) as [|y ys] eqn:E'; [discriminate|].
      unfold sent_or_stop. destruct (ending w) as [[[]|e]|]; reflexivity.
    + assert (NY : forall r, pm_text x <> b "!yo" ++ r).
      { intros r K. rewrite (proj2 (starts_with_true (b "!yo") (pm_text x))) in Y by eauto. discriminate. }
      eexists [], _. split; [apply (an_message _ _ x); auto|].
      split; [exact (pr_message _ v x (deref name) W X (or_intror NY) NM)|]. reflexivity.
  - apply (O _ eq_refl); destruct W as [_ W]; intros K; apply W; rewrite K; cbn; tauto.
Qed.

Lemma own_typed (bd : build) (pf : profile) (l : str) (v : view) (m : msg_ref) :
  parsed bd l v m -> own_parse bd l = Ret (Some (ref_into_owned m)) /\
  own_as_typed pf (ref_into_owned m) = from_irc pf m.
Proof.
  intros P. pose proof (p_c15_owned_agrees bd l) as A. rewrite (pd_parse _ _ _ _ P) in A.
  destruct A as (A & B & _). split; [exact A|]. unfold own_as_typed. now rewrite B.
Qed.

(** Receiving the next line in a turn of the loop. *)
Lemma turn_line (x : turn) (c : client) (buf : str) (cs : list str) (tail : list read) (l l' s : str)
  (o : result msg_own recv_error) :
  c_reader c = mk_reader buf (gots cs ++ tail) false -> filled cs -> buf ++ concat cs = l ++ [lf] ++ s ->
  ~ In lf l -> chomp l l' -> line_result (t_build x) l' o ->
  exists buf' cs', filled cs' /\ buf' ++ concat cs' = s /\
    recv (t_build x) (arrive (c_reader c) (t_reads x)) =
    Ret (mk_reader buf' (gots cs' ++ tail ++ t_reads x) false, Some o).
Proof.
  intros R F E N C O. rewrite R. unfold arrive. cbn [rd_buf rd_reads rd_ended]. rewrite <- app_assoc.
  destruct (poll_line_some cs (tail ++ t_reads x) F buf l l' s N C E) as (b1 & cs1 & F1 & E1 & P).
  exists b1, cs1. split; [exact F1|]. split; [exact E1|].
  apply (recv_line _ l'); [|exact O]. unfold poll_next. cbn [rd_ended rd_buf rd_reads]. now rewrite P.
Qed.

Lemma readable_turn (pf : profile) (chs : list str) (x : turn) (c : client) (l : str) (v : view) (a : str) (r : reader) :
  readable (t_build x) pf l v -> answer (is_anon (cf_credentials (c_config c))) v a -> c_scratch c = [] ->
  recv (t_build x) (arrive (c_reader c) (t_reads x)) = Ret (r, match own_parse (t_build x) l with Ret (Some m) => Some (Ok m) | _ => None end) ->
  exists o, printed (is_anon (cf_credentials (c_config c))) v o /\
    bot_turn pf chs c x =
    Ret (after (set_reader c r) (t_write x) a, so_far (after_ending (t_write x) a) o, after_ending (t_write x) a).
Proof.
  intros (m & t & P & T) A S R.
  assert (NR : v_command v <> b "RECONNECT").
  { intros K. destruct A as [? Q|Q|? ? Q|? Q|? ? Q]; [| | | |contradiction]; rewrite K in Q; discriminate. }
  destruct (own_typed _ pf _ _ _ P) as [OP OT]. rewrite OP in R.
  destruct (react_answers (t_build x) pf l v m t (set_reader c r) P T NR S) as (NM & a' & o & A' & PO & K).
  assert (a' = a) by (eapply answer_unique; eassumption). subst a'.
  exists o. split; [exact PO|]. rewrite <- (K (t_write x)). unfold bot_turn. rewrite R. cbn [bind].
  rewrite OT, T. cbn [bind]. destruct t; try reflexivity. contradiction.
Qed.

Lemma readable_result (bd : build) (pf : profile) (l : str) (v : view) :
  readable bd pf l v -> exists m, own_parse bd l = Ret (Some m) /\ line_result bd l (Ok m).
Proof.
  intros (m & t & P & _). destruct (own_typed _ pf _ _ _ P) as [OP _]. eexists. split; [exact OP|].
  right. split; [apply P|]. left. eauto.
Qed.

Definition non_empty (s : str) : bool := match s with [] => false | _ => true end.

(** [s] starts with the lines [ls], followed by anything. *)
Inductive lead : str -> list str -> str -> Prop :=
| ld_nil s : lead s [] s
| ld_cons l l' s ls rest :
    ~ In lf l -> chomp l l' -> lead s ls rest -> lead (l ++ [lf] ++ s) (l' :: ls) rest.

Lemma lines_lead (s rest : str) (ls : list str) : lines_then s ls rest -> lead s ls rest.
Proof. induction 1; constructor; auto. Qed.

Lemma lines_lead_app (ls1 ls2 : list str) : forall (s rest : str),
  lines_then s (ls1 ++ ls2) rest -> exists s', lead s ls1 s' /\ lines_then s' ls2 rest.
Proof.
  induction ls1 as [|l ls1 IH]; intros s rest H; cbn [app] in H; [exists s; split; [constructor|exact H]|].
  inversion H as [|k k' s1 ls' r' N C L]; subst. destruct (IH _ _ L) as (s' & A & B). exists s'. split; [now constructor|exact B].
Qed.

Lemma answered (pf : profile) (chs : list str) (s rest : str) (ls : list str) :
  lead s ls rest ->
  forall (c : client) (buf : str) (cs : list str) (tail : list read) (xs : list turn) (os : list str),
  c_reader c = mk_reader buf (gots cs ++ tail) false -> filled cs -> buf ++ concat cs = s -> c_scratch c = [] ->
  answers pf (is_anon (cf_credentials (c_config c))) xs ls os ->
  exists c' out buf' cs' tail',
    bot_run pf chs c xs = Ret (c', out, Going) /\
    c_wire c' = c_wire c ++ concat os /\ c_log c' = c_log c ++ filter non_empty os /\
    all_printed (is_anon (cf_credentials (c_config c))) ls out /\
    c_scratch c' = [] /\ c_config c' = c_config c /\
    c_reader c' = mk_reader buf' (gots cs' ++ tail') false /\ filled cs' /\ buf' ++ concat cs' = rest /\
    forall ys, bot_run pf chs c (xs ++ ys) =
      let! (c'', out', s) := bot_run pf chs c' ys in Ret (c'', out ++ out', s).
Proof.
  induction 1 as [s|l l' s ls rest N C L IH]; intros c buf cs tail xs os R F E S A.
  - inversion A; subst. exists c, [], buf, cs, tail. cbn [bot_run concat filter app]. rewrite !app_nil_r.
    repeat (split; [auto; fail|]). split; [exists []; split; [reflexivity|constructor]|].
    repeat (split; [auto; fail|]). intros ys. destruct (bot_run pf chs c ys) as [[[c'' out'] st]| | |]; reflexivity.
  - inversion A as [|x xs' ? ? v a os' W RD AN A']; subst.
    destruct (readable_result _ _ _ _ RD) as (m & OP & LR).
    destruct (turn_line x c buf cs tail l l' s _ R F E N C LR) as (b1 & cs1 & F1 & E1 & RC).
    destruct (readable_turn pf chs x c l' v a _ RD AN S ltac:(rewrite OP; exact RC)) as (out1 & PO & T).
    rewrite W in T. set (c1 := after _ WOk a) in T.
    assert (X : c_reader c1 = mk_reader b1 (gots cs1 ++ tail ++ t_reads x) false /\ c_scratch c1 = [] /\
                c_config c1 = c_config c /\ c_wire c1 = c_wire c ++ a /\
                c_log c1 = c_log c ++ filter non_empty [a] /\ after_ending WOk a = Done (Ok tt)).
    { unfold c1. destruct a; cbn; rewrite ?app_nil_r; repeat split; auto. }
    destruct X as (X1 & X2 & X3 & X4 & X5 & X6). rewrite X6 in T. cbn [so_far] in T. rewrite <- X3 in A'.
    destruct (IH c1 b1 cs1 _ xs' os' X1 F1 E1 X2 A') as (c' & out & b2 & cs2 & tl2 & B1 & B2 & B3 & BO & B4 & B5 & B6 & B7 & B8 & B9).
    exists c', (out1 ++ out), b2, cs2, tl2. cbn [bot_run app]. rewrite T. cbn [bind]. rewrite B1. cbn [bind].
    split; [reflexivity|]. split; [rewrite B2, X4; cbn [concat]; now rewrite <- app_assoc|].
    split; [rewrite B3, X5, <- app_assoc, <- filter_app; reflexivity|].
    split.
    { destruct BO as (outs & -> & FO). rewrite X3 in FO. exists (out1 :: outs). split; [reflexivity|].
      constructor; [|exact FO]. exists v. split; [|exact PO]. destruct RD as (m' & t' & P' & _). apply P'. }
    split; [exact B4|]. split; [congruence|].
    split; [exact B6|]. split; [exact B7|]. split; [exact B8|].
    intros ys. rewrite B9. destruct (bot_run pf chs c' ys) as [[[c'' out'] st]| | |]; try reflexivity.
    cbn [bind]. now rewrite app_assoc.
Qed.

(** C67. Whatever the chunks in which the lines arrive, the program sends exactly the
    answers to the lines, in order, prints what it should for each, and goes on. *)
Lemma p_c67_answers :
  forall (pf : profile) (chs : list str) (c : client) (s rest : str) (ls os : list str) (reads tail : list read)
    (xs : list turn),
    c_scratch c = [] -> c_reader c = mk_reader [] (reads ++ tail) false -> chunked s reads -> lines_then s ls rest ->
    answers pf (is_anon (cf_credentials (c_config c))) xs ls os ->
    exists c' out, bot_run pf chs c xs = Ret (c', out, Going) /\
      c_wire c' = c_wire c ++ concat os /\ c_log c' = c_log c ++ filter non_empty os /\
      all_printed (is_anon (cf_credentials (c_config c))) ls out.
Proof.
  intros pf chs c s rest ls os reads tail xs S R (cs & -> & F & ->) L A.
  destruct (answered pf chs _ _ _ (lines_lead _ _ _ L) c [] cs tail xs os R F eq_refl S A) as (c' & out & _ & _ & _ & B1 & B2 & B3 & BO & _).
  eauto 6.
Qed.

(** C67. Every line it can go on after has exactly one answer, RECONNECT aside. *)
Lemma p_c67_one_answer :
  forall (bd : build) (pf : profile) (l : str) (v : view) (anon : bool),
    readable bd pf l v -> v_command v <> b "RECONNECT" -> exists! a, answer anon v a.
Proof.
  intros bd pf l v anon (m & t & P & T) N.
  set (c := mk_client [] [] [] reader_new
     (mk_config (mk_credentials [] (if anon then None else Some [])) default_timeout backoff_default)).
  assert (EA : is_anon (cf_credentials (c_config c)) = anon) by (now destruct anon).
  destruct (react_answers bd pf l v m t c P T N eq_refl) as (_ & a & o & A & _). rewrite EA in A.
  exists a. split; [exact A|]. intros y Y. eapply answer_unique; eassumption.
Qed.

(** C67. The first line that cannot be read, is not the message it should be, or whose
    answer cannot be written, ends the program with that error; nothing is sent after. *)
Lemma p_c67_stops :
  forall (pf : profile) (chs : list str) (c : client) (s rest : str) (ls more os : list str) (l a : str) (e : bot_error)
    (reads tail : list read) (xs ys : list turn) (x : turn),
    c_scratch c = [] -> c_reader c = mk_reader [] (reads ++ tail) false -> chunked s reads ->
    lines_then s (ls ++ l :: more) rest ->
    answers pf (is_anon (cf_credentials (c_config c))) xs ls os ->
    fatal pf (is_anon (cf_credentials (c_config c))) x l a e ->
    exists c' out, bot_run pf chs c (xs ++ x :: ys) = Ret (c', out, Failed e) /\
      c_wire c' = c_wire c ++ concat os ++ a /\
      exists out1 out2, out = out1 ++ out2 /\ all_printed (is_anon (cf_credentials (c_config c))) ls out1 /\
        last_printed (is_anon (cf_credentials (c_config c))) l e out2.
Proof.
  intros pf chs c s rest ls more os l a e reads tail xs ys x S R (cs & -> & F & ->) L A FT.
  apply lines_lead_app in L as (s' & L & L2).
  destruct (answered pf chs _ _ _ L c [] cs tail xs os R F eq_refl S A)
    as (c1 & out & b1 & cs1 & tl & B1 & B2 & B3 & BO & B4 & B5 & B6 & B7 & B8 & B9).
  rewrite B9. inversion L2 as [|k k' s2 ls2 r2 N C L3]; subst.
  cbn [bot_run].
  assert (RC : forall o, line_result (t_build x) l o -> exists r,
    recv (t_build x) (arrive (c_reader c1) (t_reads x)) = Ret (r, Some o)).
  { intros o O. destruct (turn_line x c1 b1 cs1 tl k l s2 o B6 B7) as (b2 & cs2 & _ & _ & E); auto. eauto. }
  rewrite app_assoc, <- B2.
  destruct FT as [U|U O|v m P T|v a k0 e r RD AN NE W PR].
  - destruct (RC (Err (RecvIo InvalidData))) as [r E]; [left; auto|].
    unfold bot_turn. rewrite E. cbn [bind]. eexists _, _. split; [reflexivity|].
    split; [cbn; now rewrite app_nil_r|exists out, []; now cbn].
  - destruct (RC (Err (RecvParse l))) as [r E]; [right; auto|].
    unfold bot_turn. rewrite E. cbn [bind]. eexists _, _. split; [reflexivity|].
    split; [cbn; now rewrite app_nil_r|exists out, []; now cbn].
  - destruct (own_typed _ pf _ _ _ P) as [OP OT].
    destruct (RC (Ok (ref_into_owned m))) as [r E]; [right; split; [apply P|]; left; eauto|].
    unfold bot_turn. rewrite E. cbn [bind]. rewrite OT, T. cbn [bind]. eexists _, _. split; [reflexivity|].
    split; [cbn; now rewrite app_nil_r|exists out, []; now cbn].
  - destruct (readable_result _ _ _ _ RD) as (m & OP & LR). destruct (RC _ LR) as [r' E].
    rewrite <- B5 in AN.
    destruct (readable_turn pf chs x c1 l v (a ++ r) r' RD AN B4 ltac:(rewrite OP; exact E)) as (out1 & PO & T).
    rewrite T, W. cbn [bind]. unfold after_ending, after. destruct (a ++ r) as [|y z] eqn:AR; [contradiction|].
    cbn [bot_ending ending so_far]. eexists _, _. split; [reflexivity|].
    split; [cbn [c_wire taken set_reader]; now rewrite <- PR|].
    exists out, (firstn 1 out1). split; [reflexivity|]. split; [exact BO|]. rewrite B5 in PO.
    exists v, out1. split; [|auto]. destruct RD as (m' & t' & P' & _). apply P'.
Qed.

Lemma section_values (sec : str) (l : list (str * str)) :
  tag_section sec l -> forall k v, In (k, v) l -> infix v sec /\ ~ In ";"%byte v.
Proof.
  induction 1 as [s N|k v N1 N2|k v s l N1 N2 T IH]; intros k' v' I; [destruct I| |].
  - destruct I as [[= <- <-]|[]]. split; [|exact N2]. exists (k ++ b "="), []. now rewrite app_nil_r, <- app_assoc.
  - destruct I as [[= <- <-]|I].
    + split; [|exact N2]. exists (k ++ b "="), (b ";" ++ s). now rewrite <- !app_assoc.
    + destruct (IH _ _ I) as [(x & y & E) J]. split; [|exact J].
      exists (k ++ b "=" ++ v ++ b ";" ++ x), y. now rewrite E, <- !app_assoc.
Qed.

Lemma value_plain (bd : build) (l : str) (v : view) (m : msg_ref) (name : string) (x : str) :
  parsed bd l v m -> has v name x -> plain_value x /\ infix x l.
Proof.
  intros P (l1 & l2 & E & _).
  assert (I : In (b name, x) (v_tags v)) by (rewrite E, in_app_iff; cbn; auto).
  rewrite (view_tags l v (pd_view _ _ _ _ P)) in I.
  destruct (proj2 (line_tags_spec l _) eq_refl) as [(sec & rest & HS & T)|[_ K]]; [|rewrite K in I; destruct I].
  destruct (section_values sec _ T _ _ I) as [(y & z & EX) NS].
  pose proof (pd_tags _ _ _ _ P sec rest _ HS T) as F. rewrite Forall_forall in F. specialize (F _ I).
  destruct HS as (HS1 & HS2). cbn [snd short_tag] in F. destruct F as [_ F]. cbn [snd] in F.
  split; [|exists (b "@" ++ y), (z ++ b " " ++ rest); rewrite HS1, EX, <- !app_assoc; reflexivity].
  split; [|split; [exact NS|exact F]]. intros J. apply HS2. rewrite EX, !in_app_iff. auto.
Qed.

Lemma channel_word (s : str) (v : view) (ch : str) :
  spec_view s = Some v -> v_channel v = Some ch -> starts "#" ch /\ no_space ch.
Proof.
  intros V C. apply view_body in V as (rest & _ & K). destruct rest as [|x rest]; [destruct K; congruence|].
  destruct (Byte.eqb x "#") eqn:X; [|destruct K; congruence]. destruct (byte_eqb_spec x "#") as [->|]; [|discriminate].
  destruct K as (ch' & r & C' & (NS & W) & _). assert (ch' = ch) by congruence. subst ch'. split; [|exact NS].
  destruct ch as [|y ch].
  - destruct W as [W|[W _]]; discriminate.
  - exists ch. destruct W as [W|[W _]]; injection W as <- _; reflexivity.
Qed.

(** C67. A reply is one line, and is received as a message to the channel of the message
    it answers, with the text [yo] and the id of that message as its only tag: nothing
    in the message can make the program send anything else. *)
Lemma p_c67_reply :
  forall (bd bd' : build) (pf : profile) (l : str) (v : view) (a : str) (rest : list read),
    readable bd pf l v -> ~ In lf l -> (N.of_nat (length l) < 4294000000)%N ->
    v_command v = b "PRIVMSG" -> answer false v a -> a <> [] ->
    one_line a /\
    exists ch id, v_channel v = Some ch /\ has v "id" id /\
      forall reads, chunked a reads ->
      exists r m, recv bd' (mk_reader [] (reads ++ rest) false) = Ret (r, Some (Ok m)) /\
        own_command m = Ret Privmsg /\ own_channel m = Ret (Some ch) /\ own_text m = Ret (Some (b "yo")) /\
        own_tags m = Ret [(b "reply-parent-msg-id", id)].
Proof.
  intros bd bd' pf l v a rest (m & t & P & _) NL B C A NE.
  destruct A as [? K|K|q r K X _ Y|q K X Y|K1 K2 K3]; try congruence; try (rewrite C in K; discriminate).
  clear K. destruct X as (CH & _ & _ & ID & _).
  destruct (channel_word l v _ (pd_view _ _ _ _ P) CH) as [SH NS].
  destruct (value_plain _ _ _ _ _ _ P ID) as [PV (y1 & y2 & EI)].
  destruct (parse_reads bd l m (pd_utf8 _ _ _ _ P) (pd_size _ _ _ _ P) (pd_parse _ _ _ _ P)) as (v' & V & RD).
  assert (v' = v) by (pose proof (pd_view _ _ _ _ P); congruence). subst v'.
  pose proof (rd_raw _ _ _ RD) as RW.
  destruct (p_c10_parts_of_the_line m) as (_ & T & _ & _ & CC & _); [rewrite RW; apply P|]. rewrite RW in *.
  destruct (CC (pm_channel q)) as [(z1 & z2 & EC) UC].
  { rewrite (rd_channel _ _ _ RD). unfold spec_channel. rewrite C. exact (f_equal Ret CH). }
  pose proof (sn_tag _ _ (parsed_seen _ _ _ _ P) TId) as TI. change (tag_as_str TId) with (b "id") in TI.
  rewrite (proj1 (has_iff v "id" (pm_id q)) ID) in TI. destruct (T _ _ TI) as [_ UI].
  assert (LC : length (pm_channel q) <= length l) by (rewrite EC, !app_length; lia).
  set (c := mk_client [] [] [] reader_new (config_default 0)).
  destruct (p_c44_privmsg_received bd' c (pm_channel q) (b "yo") (Some (pm_id q)) None rest) as (s & E & O & RC); auto.
  - intros J. apply NL. rewrite EC, !in_app_iff. auto.
  - intros J. vm_compute in J. repeat destruct J as [J|J]; try discriminate; exact J.
  - cbn [opt_list app]. now constructor.
  - cbn [opt_list app]. constructor; [|constructor]. intros J. apply NL. rewrite EI, !in_app_iff. auto.
  - cbn [opt_list app]. repeat constructor; auto.
  - cbn [length b]. change (length (b "yo")) with 2. lia.
  - assert (s = call_line (CallPrivmsg (pm_channel q) (b "yo") (Some (pm_id q)) None)) as ->.
    { pose proof (run_call_spec c (CallPrivmsg (pm_channel q) (b "yo") (Some (pm_id q)) None) WOk) as K.
      rewrite payload_clean in K by reflexivity. cbn [run_call] in K. rewrite E in K.
      specialize (K ltac:(intros [z Z]; discriminate)). injection K as K _. exact K. }
    cbn [call_line] in O, RC. rewrite CH.
    change (b " :yo" ++ crlf) with (b " :" ++ b "yo" ++ crlf). split; [exact O|].
    exists (pm_channel q), (pm_id q). split; [reflexivity|]. split; [exact ID|]. exact RC.
Qed.

(** C67. Logged in anonymously, it sends nothing but PONGs. *)
Lemma p_c67_anonymous_only_pongs :
  forall (v : view) (a : str), answer true v a ->
    a = [] \/ (v_command v = b "PING" /\ exists x, a = b "PONG" ++ x).
Proof.
  intros v a A. destruct A as [t C T|C T|q r C X F Y|q C X Y|C1 C2 C3]; auto; try discriminate.
  - right. split; [exact C|]. now exists (b " :" ++ t ++ crlf).
  - right. split; [exact C|]. now exists crlf.
Qed.

(** C67. It joins its channels again on the new connection after a RECONNECT, behind the
    greeting. *)
Lemma p_c67_rejoins :
  forall (pf : profile) (chs : list str) (c c2 : client) (l : str) (v : view) (g : str)
    (tr : list event) (x : turn) (ys : list turn) (m : msg_ref) (r : reader),
    c_scratch c = [] -> parsed (t_build x) l v m -> v_command v = b "RECONNECT" ->
    greeting (cf_credentials (c_config c)) g -> t_write x = WOk ->
    recv (t_build x) (arrive (c_reader c) (t_reads x)) = Ret (r, Some (Ok (ref_into_owned m))) ->
    reconnect (t_fuel x) (t_oracle x) (set_reader c r) = Ret (c2, tr, Finished (Ok tt)) ->
    exists c3 k, c_wire c3 = copies (S k) g ++ b "JOIN " ++ join_by "," (map with_hash chs) ++ crlf /\
      c_scratch c3 = [] /\ c_reader c3 = c_reader c2 /\
      bot_run pf chs c (x :: ys) = bot_run pf chs c3 ys.
Proof.
  intros pf chs c c2 l v g tr x ys m r S P C G W RC RE.
  destruct (own_typed _ pf _ _ _ P) as [OP OT].
  assert (T : from_irc pf m = Ret (Some MReconnect)).
  { destruct (p_c22_variants (t_build x) pf l v m (pd_utf8 _ _ _ _ P) (pd_size _ _ _ _ P) (pd_view _ _ _ _ P)
      (pd_parse _ _ _ _ P)) as (_&_&_&_&_&_&_&_&_&_&_&_&_&V&_). now apply V. }
  destruct (loop_scratch _ _ _ _ _ _ _ _ _ _ _ 0 RE S) as (K1 & K2 & _ & K3).
  destruct (K3 eq_refl) as (K4 & k & K5).
  assert (EG : greet (set_reader c r) = g).
  { unfold greet. cbn [set_reader c_config]. apply greeting_iff in G. now rewrite G. }
  pose proof (run_call_spec c2 (CallJoinAll chs) WOk ltac:(intros [z Z]; discriminate)) as J.
  rewrite payload_clean in J by exact K4. cbn [run_call left_over] in J.
  exists (fst (send_join_all c2 chs WOk)), k. rewrite J. cbn [fst]. split; [|split; [|split]].
  4:{ cbn [bot_run]. unfold bot_turn. rewrite RC. cbn [bind]. rewrite OT, T. cbn [bind].
      rewrite RE. cbn [bind]. rewrite W, J. cbn [ending sent_or_stop bind app].
      destruct (bot_run pf chs _ ys) as [[[c4 out] st]| | |]; reflexivity. }
  - cbn [c_wire taken]. now rewrite K5, EG.
  - reflexivity.
  - reflexivity.
Qed.

Lemma join_listed (chs : list str) : slice_join (b ", ") chs = listed chs.
Proof.
  destruct chs as [|ch chs]; [reflexivity|]. cbn [listed]. revert ch.
  induction chs as [|x chs IH]; intros ch; [cbn; now rewrite app_nil_r|].
  change (slice_join (b ", ") (ch :: x :: chs)) with (ch ++ b ", " ++ slice_join (b ", ") (x :: chs)).
  rewrite IH. cbn [flat_map]. now rewrite <- app_assoc.
Qed.

(** C67. At the start it logs in with the given name and token if both are given, and
    otherwise anonymously; it sends the greeting and joins the channels, and then runs. *)
Lemma p_c67_start :
  forall (pf : profile) (name tok : option str) (n : N) (chs : list str) (o : open_out) (h : handshake_out)
    (elapsed : bool) (tls : tls_out) (c0 : client) (creds : credentials) (g : str),
    (forall x y, name = Some x -> tok = Some y -> creds = credentials_new x y) ->
    (name = None \/ tok = None -> creds = credentials_anon n) ->
    greeting creds g ->
    connect (mk_config creds default_timeout backoff_default) tls o h elapsed = Ret (Done (Ok c0)) ->
    exists c1, c_wire c1 = g ++ b "JOIN " ++ join_by "," (map with_hash chs) ++ crlf /\
      c_scratch c1 = [] /\ c_reader c1 = c_reader c0 /\ c_config c1 = mk_config creds default_timeout backoff_default /\
      forall turns,
        bot_main pf name tok n chs tls o h elapsed WOk turns =
        let! (c, out, s) := bot_run pf chs c1 turns in
        Ret (Some c, (b "Connecting as " ++ login creds) :: (b "Joined the following channels: " ++ listed chs) :: out, s).
Proof.
  intros pf name tok n chs o h elapsed tls c0 creds g N1 N2 G E.
  assert (EC : bot_credentials name tok n = creds).
  { destruct name as [x|], tok as [y|]; cbn; symmetry; auto. }
  destruct (p_c64_new_client _ _ _ _ _ _ E) as (CF & GW & L & S).
  pose proof (greeting_unique _ _ _ GW G) as W.
  pose proof (run_call_spec c0 (CallJoinAll chs) WOk ltac:(intros [z Z]; discriminate)) as J.
  rewrite payload_clean in J by exact S. cbn [run_call left_over] in J.
  exists (fst (send_join_all c0 chs WOk)). rewrite J. cbn [fst c_wire c_scratch c_reader c_config taken].
  rewrite W. repeat split; auto. intros turns.
  unfold bot_main. rewrite EC, join_listed.
  change (with_credentials creds (builder_new n)) with (mk_config creds default_timeout backoff_default).
  rewrite E. cbn [bind]. rewrite J. cbn [ending fst snd].
  cbn [taken]. rewrite W.
  match goal with |- context [bot_run pf chs ?c turns] => destruct (bot_run pf chs c turns) as [[[c' out] s]| | |]; reflexivity end.
Qed.

(** C67. If connecting or joining fails, it ends with that error, having printed only as
    whom it connects. *)
Lemma p_c67_start_fails :
  forall (pf : profile) (name tok : option str) (n : N) (chs : list str) (o : open_out) (h : handshake_out)
    (elapsed : bool) (tls : tls_out) (creds : credentials) (w : write_out) (turns : list turn),
    (forall x y, name = Some x -> tok = Some y -> creds = credentials_new x y) ->
    (name = None \/ tok = None -> creds = credentials_anon n) ->
    (forall e, connect (mk_config creds default_timeout backoff_default) tls o h elapsed = Ret (Done (Err e)) ->
       bot_main pf name tok n chs tls o h elapsed w turns =
       Ret (None, [b "Connecting as " ++ login creds], Failed (BotConnect e))) /\
    (forall c0 k e, connect (mk_config creds default_timeout backoff_default) tls o h elapsed = Ret (Done (Ok c0)) ->
       w = WErr k e ->
       exists c, bot_main pf name tok n chs tls o h elapsed w turns =
         Ret (Some c, [b "Connecting as " ++ login creds], Failed (BotSend (SendIo e))) /\
         c_wire c = c_wire c0 ++ firstn k (b "JOIN " ++ join_by "," (map with_hash chs) ++ crlf)).
Proof.
  intros pf name tok n chs o h elapsed tls creds w turns N1 N2.
  assert (EC : bot_credentials name tok n = creds).
  { destruct name as [x|], tok as [y|]; cbn; symmetry; auto. }
  unfold bot_main. rewrite EC.
  change (with_credentials creds (builder_new n)) with (mk_config creds default_timeout backoff_default). split.
  - intros e E. rewrite E. reflexivity.
  - intros c0 k e E ->. rewrite E. cbn [bind].
    destruct (p_c64_new_client _ _ _ _ _ _ E) as (_ & _ & _ & S).
    pose proof (run_call_spec c0 (CallJoinAll chs) (WErr k e) ltac:(intros [z Z]; discriminate)) as J.
    rewrite payload_clean in J by exact S. cbn [run_call left_over] in J.
    rewrite J. cbn [ending]. eexists. split; [reflexivity|]. reflexivity.
Qed.

(** C67. It does not survive every IRC line: an untagged PRIVMSG parses, and ends it. *)
Lemma p_c67_survives_refuted :
  exists (pf : profile) (c : client) (l : str) (x : turn) (m : msg_own) (c' : client),
    own_parse (t_build x) l = Ret (Some m) /\ own_command m = Ret Privmsg /\
    c_reader c = mk_reader [] [Got (l ++ crlf)] false /\ t_write x = WOk /\
    bot_run pf [] c [x] = Ret (c', [], Failed BotMessage).
Proof.
  set (l := b ":a!a@a.tmi.twitch.tv PRIVMSG #c :!yo").
  set (c := mk_client [] [] [] (mk_reader [] [Got (l ++ crlf)] false)
              (mk_config (credentials_new (b "me") (b "tok")) default_timeout backoff_default)).
  set (x := mk_turn Scalar [] WOk 0 (fun _ => refused)).
  exists Debug, c, l, x. eexists _, _. split; [vm_compute; reflexivity|]. split; [vm_compute; reflexivity|].
  split; [reflexivity|]. split; [reflexivity|]. vm_compute. reflexivity.
Qed.

Definition yo_line : str :=
  b "@badges=;color=;display-name=A;emotes=;id=77;room-id=4;tmi-sent-ts=1594583782376;user-id=9 :a!a@a.tmi.twitch.tv PRIVMSG #c :!yo bot".

(** The fields of a PRIVMSG, from a run of its parser. *)
Lemma privmsg_run (bd : build) (l : str) (v : view) (m : msg_ref) (q : privmsg cow) :
  parsed bd l v m -> v_command v = b "PRIVMSG" -> privmsg_parse m = Ret (Some q) ->
  privmsg_of v (privmsg_map deref q).
Proof.
  intros P C Q. apply (p_c28_privmsg _ _ _ _ _ P C) in Q as (x & -> & X). now rewrite privmsg_map_deref.
Qed.

Example ex_c67 :
  let cf := mk_config (credentials_new (b "me") (b "tok")) default_timeout backoff_default in
  let yo := yo_line in
  let s := b "PING :x" ++ crlf ++ yo ++ crlf ++ chat_line ++ crlf in
  let c := mk_client [] [] [] (mk_reader [] [Got (firstn 100 s); Got (skipn 100 s); Got (b "RECONNECT" ++ crlf)] false) cf in
  let x := mk_turn Scalar [] WOk 9 sample_oracle in
  (exists os, chunked s [Got (firstn 100 s); Got (skipn 100 s)] /\
     answers Debug false [x; x; x] [b "PING :x"; yo; chat_line] os /\
     concat os = b "PONG :x" ++ crlf ++ b "@reply-parent-msg-id=77 PRIVMSG #c :yo" ++ crlf) /\
  (exists c' out, bot_run Debug [b "c"; b "d"] c [x; x; x; x] = Ret (c', out, Going) /\
     c_log c' = [b "PONG :x" ++ crlf; b "@reply-parent-msg-id=77 PRIVMSG #c :yo" ++ crlf; b "JOIN #c,#d" ++ crlf] /\
     out = [b "A: !yo bot"; b "< #c yo"; b "A B: Kappa one"]) /\
  fatal Debug false x (b "PRIVMSG #c :hi") [] BotMessage /\
  fatal Debug false (mk_turn Scalar [] (WErr 3 BrokenPipe) 9 sample_oracle) (b "PING :x") (b "PON") (BotSend (SendIo BrokenPipe)).
Proof.
  cbn zeta.
  assert (P1 : exists v m, parsed Scalar (b "PING :x") v m /\ v_command v = b "PING" /\ has_text v (b "x") /\
    exists t, from_irc Debug m = Ret (Some t)).
  { eexists _, _. split; [parsed_line|]. split; [reflexivity|]. split; [apply has_text_iff; vm_compute; reflexivity|].
    eexists _. vm_compute; reflexivity. }
  assert (P2 : exists v m q, parsed Scalar yo_line v m /\ v_command v = b "PRIVMSG" /\ privmsg_of v q /\
    pm_text q = b "!yo bot" /\ pm_id q = b "77" /\ pm_channel q = b "#c" /\
    exists t, from_irc Debug m = Ret (Some t)).
  { eexists _, _, _. split; [parsed_line|]. split; [reflexivity|].
    split; [eapply (privmsg_run Scalar yo_line); [parsed_line|reflexivity|vm_compute; reflexivity]|].
    split; [reflexivity|]. split; [reflexivity|]. split; [reflexivity|]. eexists _. vm_compute; reflexivity. }
  assert (P3 : exists v m q, parsed Scalar chat_line v m /\ v_command v = b "PRIVMSG" /\ privmsg_of v q /\
    pm_text q = b "Kappa one" /\ exists t, from_irc Debug m = Ret (Some t)).
  { eexists _, _, _. split; [parsed_line|]. split; [reflexivity|].
    split; [eapply (privmsg_run Scalar chat_line); [parsed_line|reflexivity|vm_compute; reflexivity]|].
    split; [reflexivity|]. eexists _. vm_compute; reflexivity. }
  destruct P1 as (v1 & m1 & A1 & B1 & C1 & t1 & D1).
  destruct P2 as (v2 & m2 & q2 & A2 & B2 & C2 & E2 & F2 & G2 & t2 & D2).
  destruct P3 as (v3 & m3 & q3 & A3 & B3 & C3 & E3 & t3 & D3).
  split; [|split; [|split]].
  - eexists _. split; [|split].
    + exists [firstn 100 (b "PING :x" ++ crlf ++ yo_line ++ crlf ++ chat_line ++ crlf); skipn 100 (b "PING :x" ++ crlf ++ yo_line ++ crlf ++ chat_line ++ crlf)].
      split; [reflexivity|]. split; [repeat constructor; discriminate|]. vm_compute. reflexivity.
    + eapply as_cons; [reflexivity|exists m1, t1; eauto|eapply an_pong; eauto|].
      eapply as_cons; [reflexivity|exists m2, t2; eauto|eapply (an_yo _ _ q2 (b " bot")); eauto|].
      eapply as_cons; [reflexivity|exists m3, t3; eauto| |apply as_nil].
      apply (an_message _ _ q3 B3 C3). right. intros r R. rewrite E3 in R. discriminate.
    + rewrite F2, G2. reflexivity.
  - eexists _, _. split; [vm_compute; reflexivity|]. split; reflexivity.
  - eapply ft_not_typed; [parsed_line|vm_compute; reflexivity].
  - eapply (ft_write _ _ _ _ v1 _ 3 BrokenPipe (b "G :x" ++ crlf)); [exists m1, t1; eauto| |discriminate|reflexivity|reflexivity].
    exact (an_pong false v1 (b "x") B1 C1).
Qed.
