(** * BuildsProofs: the same program in two builds (C92). *)

From Verif Require Import Base Wide Tags Irc SpecIrc SpecText MsgBase MsgTypes MsgNotice Message SpecMsg Common Client SpecClient Bot SpecBot Readme SpecReadme SpecBuilds HandshakeProofs Samples.
From Verif Require Import BaseFacts IrcFacts IrcProofs LineProofs AccessProofs FieldFacts TypedFacts TypedProofs CutProofs.
From Coq Require Import Lia ZifyBool ZifyNat ZifyN.

(** ** The parsers *)

Lemma make_pair_or_panic (ks ke pos : nat) : make_pair ks ke pos = Panic \/ exists p, make_pair ks ke pos = Ret p.
Proof.
  unfold make_pair, u32_add, usize_sub.
  destruct (N.of_nat (as_u32 ks + 1) <? 4294967296)%N; [|now left]. cbn [bind].
  destruct (ks <=? ke); [|now left]. cbn [bind]. destruct (ke + 1 <=? pos); [|now left]. cbn [bind]. eauto.
Qed.

Lemma arr_push_or_panic (ps : list tag_pair) (p : tag_pair) : length ps <= capacity ->
  array_push (arr ps) p = Panic \/ length (ps ++ [p]) <= capacity /\ array_push (arr ps) p = Ret (arr (ps ++ [p])).
Proof.
  intros L. destruct (Nat.eq_dec (length ps) capacity) as [E|E].
  - left. unfold array_push, arr. cbn [a_data a_len]. rewrite app_length, map_length, repeat_length, E.
    replace (capacity <? capacity + (capacity - capacity)) with false by lia. reflexivity.
  - right. split; [rewrite app_length; cbn; lia|]. apply arr_push. lia.
Qed.

Lemma scalar_loop_any (t : str) : ~ In " "%byte t -> forall off st ps, length ps <= capacity ->
  scalar_loop t off st (arr ps) = Panic \/
  exists ps', length ps' <= capacity /\ scalar_loop t off st (arr ps) = Ret (off + length t, arr ps').
Proof.
  induction t as [|c t IH]; intros H off st ps L.
  - right. exists ps. cbn. now rewrite Nat.add_0_r.
  - assert (N : c <> " "%byte) by (intros ->; apply H; now left).
    assert (H' : ~ In " "%byte t) by (intros K; apply H; now right). specialize (IH H').
    cbn [scalar_loop length]. replace (off + S (length t)) with (off + 1 + length t) by lia.
    rewrite (byte_eqb_neq c " ") by exact N.
    destruct (Byte.eqb c "="); [destruct st; now apply IH|].
    destruct (Byte.eqb c ";"); [|now apply IH].
    destruct st as [ks|ks ke]; [now apply IH|].
    destruct (make_pair_or_panic ks ke off) as [E|[p E]]; rewrite E; cbn [bind]; [now left|].
    destruct (arr_push_or_panic ps p L) as [E'|[L' E']]; rewrite E'; cbn [bind]; [now left|]. now apply IH.
Qed.

(** As [scalar_unterminated], whatever the size. *)
Lemma unterminated_panics (s : str) : unterminated_tags s -> ref_parse Scalar s = Panic.
Proof.
  intros [[r ->] H]. assert (H' : ~ In " "%byte r) by (intros K; apply H; now right).
  unfold ref_parse. cbn [tags_parse]. unfold scalar_parse.
  rewrite (slice_from_ok [] (b "@" ++ r) (b "@" ++ r) 0) by (auto; apply boundary_start). cbn [bind].
  rewrite strip_prefix_app, array_new_arr.
  destruct (scalar_loop_any r H' 0 (Key 0) [] ltac:(cbn; lia)) as [E|(ps & L & E)]; rewrite E; cbn [bind]; [reflexivity|].
  rewrite arr_to_vec by exact L. cbn [bind]. unfold prefix_parse, slice_from, slice.
  replace (0 + (0 + length r + 2) <=? length (b "@" ++ r)) with false by (cbn; lia). reflexivity.
Qed.

Lemma unterminated_dec (s : str) : {unterminated_tags s} + {~ unterminated_tags s}.
Proof.
  destruct s as [|c s]; [right; intros [[r E] _]; discriminate|].
  destruct (Byte.byte_eq_dec c "@") as [->|N]; [|right; intros [[r E] _]; injection E as E; contradiction].
  destruct (byte_in_dec " " ("@"%byte :: s)) as [I|I]; [right; intros [_ K]; contradiction|].
  left. split; [now exists s|exact I].
Qed.

Lemma own_parse_builds (bd bd' : build) (s : str) : as_safe bd bd' ->
  own_parse bd s = Panic \/ own_parse bd s = own_parse bd' s.
Proof.
  intros A. destruct bd as [v a|], bd' as [v' a'|]; try contradiction; auto.
  - right. apply p_c01_address_and_backend_independent.
  - destruct (unterminated_dec s) as [U|U].
    + left. unfold own_parse. now rewrite unterminated_panics.
    + right. symmetry. now apply p_c04_simd_equals_scalar.
Qed.

Lemma recv_builds (bd bd' : build) (r : reader) : as_safe bd bd' -> recv bd r = Panic \/ recv bd r = recv bd' r.
Proof.
  intros A. unfold recv. destruct (poll_next r) as [r' p]. destruct p as [|[[l|e]|]]; auto.
  destruct (own_parse_builds bd bd' l A) as [E|E]; rewrite E; auto.
Qed.

(** C92. What is received is the same in every build, unless it panics. *)
Lemma p_c92_received :
  forall (n : nat) (bd bd' : nat -> build) (r : reader),
    (forall i, as_safe (bd i) (bd' i)) -> recvs bd n r = Panic \/ recvs bd n r = recvs bd' n r.
Proof.
  induction n as [|n IH]; intros bd bd' r A; [now right|]. cbn [recvs].
  destruct (recv_builds (bd 0) (bd' 0) r (A 0)) as [E|E]; rewrite E; cbn [bind]; [now left|].
  destruct (recv (bd' 0) r) as [[r' o]| | |]; cbn [bind]; auto.
  destruct (IH (fun i => bd (S i)) (fun i => bd' (S i)) r' (fun i => A (S i))) as [H|H]; rewrite H; auto.
Qed.

(** ** Typed messages *)

Lemma i64_mul_profiles (pf pf' : profile) (x y : Z) : as_lenient pf pf' ->
  i64_mul pf x y = Panic \/ i64_mul pf x y = i64_mul pf' x y.
Proof. intros [-> | ->]; [now right|]. unfold i64_mul. destruct pf; [|now right]. destruct (_ && _)%bool; auto. Qed.

Lemma room_state_profiles (pf pf' : profile) (m : msg_ref) : as_lenient pf pf' ->
  room_state_parse pf m = Panic \/ room_state_parse pf m = room_state_parse pf' m.
Proof.
  intros A. unfold room_state_parse.
  destruct (ref_command m) as [c| | |]; cbn [bind]; auto. destruct c; auto.
  destruct (channel_into m) as [[ch|]| | |]; cbn [bind bindo]; auto.
  destruct (tag_into m TRoomId) as [[room|]| | |]; cbn [bind bindo]; auto.
  destruct (ref_tag m TEmoteOnly) as [eo| | |]; cbn [bind]; auto.
  destruct (ref_tag m TFollowersOnly) as [fo| | |]; cbn [bind]; auto.
  destruct (opt_bind fo parse_i64) as [n|]; auto.
  unfold followers_only_from. destruct (0 <? n)%Z; [|now right].
  destruct (i64_mul_profiles pf pf' n 60 A) as [E|E]; rewrite E; [now left|now right].
Qed.

Lemma from_irc_profiles (pf pf' : profile) (m : msg_ref) : as_lenient pf pf' ->
  from_irc pf m = Panic \/ from_irc pf m = from_irc pf' m.
Proof.
  intros A. unfold from_irc. destruct (ref_command m) as [c| | |]; cbn [bind]; auto. destruct c; auto.
  destruct (room_state_profiles pf pf' m A) as [E|E]; rewrite E; auto.
Qed.

(** ** Programs *)

Lemma bot_turn_builds (pf pf' : profile) (chs : list str) (c : client) (x x' : turn) :
  as_lenient pf pf' -> rebuilt x x' ->
  bot_turn pf chs c x = Panic \/ bot_turn pf chs c x = bot_turn pf' chs c x'.
Proof.
  intros A (B & R & W & F & O). unfold bot_turn. rewrite R, W, F, O.
  destruct (recv_builds _ _ (arrive (c_reader c) (t_reads x)) B) as [E|E]; rewrite E; cbn [bind]; [now left|].
  destruct (recv (t_build x') (arrive (c_reader c) (t_reads x))) as [[r [[m|e]|]]| | |]; cbn [bind]; auto.
  unfold own_as_typed. destruct (from_irc_profiles pf pf' (own_as_ref m) A) as [H|H]; rewrite H; auto.
Qed.

Lemma bot_run_builds (pf pf' : profile) (chs : list str) (xs xs' : list turn) :
  as_lenient pf pf' -> Forall2 rebuilt xs xs' ->
  forall c, bot_run pf chs c xs = Panic \/ bot_run pf chs c xs = bot_run pf' chs c xs'.
Proof.
  intros A. induction 1 as [|x x' xs xs' X _ IH]; intros c; [now right|]. cbn [bot_run].
  destruct (bot_turn_builds pf pf' chs c x x' A X) as [E|E]; rewrite E; cbn [bind]; [now left|].
  destruct (bot_turn pf' chs c x') as [[[c' out] [[u|e]|]]| | |]; cbn [bind]; auto.
  destruct (IH c') as [H|H]; rewrite H; auto.
Qed.

Lemma readme_turn_builds (pf pf' : profile) (c : client) (x x' : turn) :
  as_lenient pf pf' -> rebuilt x x' ->
  readme_turn pf c x = Panic \/ readme_turn pf c x = readme_turn pf' c x'.
Proof.
  intros A (B & R & W & F & O). unfold readme_turn. rewrite R, W, F, O.
  destruct (recv_builds _ _ (arrive (c_reader c) (t_reads x)) B) as [E|E]; rewrite E; cbn [bind]; [now left|].
  destruct (recv (t_build x') (arrive (c_reader c) (t_reads x))) as [[r [[m|e]|]]| | |]; cbn [bind]; auto.
  unfold own_as_typed. destruct (from_irc_profiles pf pf' (own_as_ref m) A) as [H|H]; rewrite H; auto.
Qed.

Lemma readme_run_builds (pf pf' : profile) (xs xs' : list turn) :
  as_lenient pf pf' -> Forall2 rebuilt xs xs' ->
  forall c, readme_run pf c xs = Panic \/ readme_run pf c xs = readme_run pf' c xs'.
Proof.
  intros A. induction 1 as [|x x' xs xs' X _ IH]; intros c; [now right|]. cbn [readme_run].
  destruct (readme_turn_builds pf pf' c x x' A X) as [E|E]; rewrite E; cbn [bind]; [now left|].
  destruct (readme_turn pf' c x') as [[[c' out] [[u|e]|]]| | |]; cbn [bind]; auto.
  destruct (IH c') as [H|H]; rewrite H; auto.
Qed.

(** C92. The example program and the program of the front page do the same in every
    build, unless they panic: same output, same bytes sent, same end. *)
Lemma p_c92_programs :
  forall (pf pf' : profile) (xs xs' : list turn) (name tok : option str) (n : N) (chs : list str) (tls : tls_out)
         (o : open_out) (h : handshake_out) (elapsed : bool) (w : write_out),
    as_lenient pf pf' -> Forall2 rebuilt xs xs' ->
    (bot_main pf name tok n chs tls o h elapsed w xs = Panic \/
     bot_main pf name tok n chs tls o h elapsed w xs = bot_main pf' name tok n chs tls o h elapsed w xs') /\
    (readme_main pf n tls o h elapsed w xs = Panic \/
     readme_main pf n tls o h elapsed w xs = readme_main pf' n tls o h elapsed w xs').
Proof.
  intros pf pf' xs xs' name tok n chs tls o h elapsed w A X. split.
  - unfold bot_main. destruct (connect _ tls o h elapsed) as [[[c|e]|]| | |]; cbn [bind]; auto.
    destruct (send_join_all c chs w) as [c' [[u|e]|]]; auto.
    destruct (bot_run_builds pf pf' chs xs xs' A X c') as [E|E]; rewrite E; auto.
  - unfold readme_main. destruct (connect_anonymous n tls o h elapsed) as [[[c|e]|]| | |]; cbn [bind]; auto.
    destruct (send_join_all c CHANNELS w) as [c' [[u|e]|]]; auto.
    destruct (readme_run_builds pf pf' xs xs' A X c') as [E|E]; rewrite E; auto.
Qed.

Lemma room_state_from (bd : build) (s : str) (v : view) (m : msg_ref) (pf : profile) :
  parsed bd s v m -> v_command v = b "ROOMSTATE" -> from_irc pf m = into MRoomState (room_state_parse pf m).
Proof.
  intros P C. pose proof (parsed_seen _ _ _ _ P) as H. unfold from_irc. look H C. reflexivity.
Qed.

Lemma other_from (bd : build) (s : str) (v : view) (m : msg_ref) (pf pf' : profile) :
  parsed bd s v m -> v_command v <> b "ROOMSTATE" -> from_irc pf m = from_irc pf' m.
Proof.
  intros P C. pose proof (parsed_seen _ _ _ _ P) as H. unfold from_irc. rewrite (sn_command _ _ H). cbn [bind].
  destruct (spec_command_names (v_command v)) as (_ & _ & K).
  destruct (spec_command (v_command v)); try reflexivity. exfalso. apply C. rewrite <- K. reflexivity.
Qed.

(** C92. A debug build panics on a typed message exactly if it is a ROOMSTATE with too
    many minutes; otherwise the two profiles give the same. A release build never does. *)
Lemma p_c92_profiles :
  forall (bd : build) (s : str) (v : view) (m : msg_ref), parsed bd s v m ->
    (from_irc Debug m = Panic <->
     v_command v = b "ROOMSTATE" /\ (exists channel room, has_channel v channel /\ has v "room-id" room) /\
     exists n, has_i64 v "followers-only" n /\ (60 * n > 2 ^ 63 - 1)%Z) /\
    (from_irc Debug m = Panic \/ from_irc Debug m = from_irc Release m) /\
    from_irc Release m <> Panic.
Proof.
  intros bd s v m P. pose proof (parsed_seen _ _ _ _ P) as H.
  assert (REL : from_irc Release m <> Panic).
  { destruct (p_c22_no_panic bd Release s v m P (or_introl eq_refl)) as [o E]. congruence. }
  split; [|split; [apply from_irc_profiles; now right|exact REL]].
  split.
  - intros D. destruct (list_eq_dec Byte.byte_eq_dec (v_command v) (b "ROOMSTATE")) as [C|C].
    + split; [exact C|]. rewrite room_state_from with (1 := P) (2 := C) in D.
      destruct (v_channel v) as [ch|] eqn:A; [|exfalso; revert D; unfold room_state_parse; look H C; rewrite A; discriminate].
      destruct (lookup (b "room-id") (v_tags v)) as [room|] eqn:R;
        [|exfalso; revert D; unfold room_state_parse; look H C; rewrite A, R; discriminate].
      split; [exists ch, room; split; [exact A|now apply has_iff]|].
      destruct (opt_bind (lookup (b "followers-only") (v_tags v)) parse_i64) as [n|] eqn:F.
      * exists n. split; [now apply has_i64_iff|]. destruct (Z_le_gt_dec (60 * n) (2 ^ 63 - 1)) as [L|L]; [|exact L].
        exfalso. destruct (p_c22_no_panic bd Debug s v m P) as [o E]; [right|rewrite room_state_from with (1 := P) (2 := C) in E; congruence].
        intros k K. apply has_i64_iff in K. congruence.
      * exfalso. destruct (p_c22_no_panic bd Debug s v m P) as [o E]; [right|rewrite room_state_from with (1 := P) (2 := C) in E; congruence].
        intros k K. apply has_i64_iff in K. congruence.
    + exfalso. apply REL. rewrite <- D. symmetry. now apply (other_from bd s v).
  - intros (C & (ch & room & A & R) & n & N & L).
    rewrite (room_state_from bd s v m _ P C).
    now destruct (p_c33_followers_overflow bd s v m ch room n P C A R N L) as [-> _].
Qed.

(** C92. The builds do not always do the same: a debug build stops at such a line, a
    scalar build at a line that is nothing but the beginning of tags. *)
Lemma p_c92_always_the_same_refuted :
  let cf := config_default 1 in
  let run pf bd l := bot_run pf [] (mk_client [] [] [] (mk_reader [] [Got (l ++ crlf)] false) cf)
                       [mk_turn bd [] WOk 0 (fun _ => refused)] in
  exists l l' c c' out out',
    run Debug Scalar l = Panic /\ run Release Scalar l = Ret (c, out, Going) /\
    run Debug Scalar l' = Panic /\ run Debug (Simd Sse2 0) l' = Ret (c', out', Going).
Proof.
  cbn zeta. exists (b "@followers-only=4611686018427387904;room-id=1 ROOMSTATE #c"), (b "@a=b;c").
  eexists _, _, _, _. repeat split; vm_compute; reflexivity.
Qed.

Example ex_c92 :
  let cf := config_default 1 in
  let c := mk_client [] [] [] (mk_reader [] [Got (b "PING :x" ++ crlf ++ chat_line ++ crlf)] false) cf in
  let x bd := mk_turn bd [] WOk 0 (fun _ => refused) in
  Forall2 rebuilt [x Scalar; x (Simd Neon 5)] [x (Simd Avx2 1); x (Simd Sse2 0)] /\
  exists c', bot_run Debug [] c [x Scalar; x (Simd Neon 5)] = Ret (c', [b "A B: Kappa one"], Going) /\
    c_log c' = [b "PONG :x" ++ crlf].
Proof.
  cbn zeta. split; [repeat constructor|]. eexists. split; vm_compute; reflexivity.
Qed.
