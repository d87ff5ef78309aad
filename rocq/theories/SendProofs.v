(** * SendProofs: sending (C43 to C48, C56). *)

From Verif Require Import Base Wide Tags Irc SpecIrc MsgBase MsgTypes SpecMsg Common Client SpecClient.
From Coq Require Import Lia.
From Verif Require Import BaseFacts IrcFacts Utf8Facts IrcProofs LineProofs AccessProofs FieldFacts TypedFacts TypedProofs RecvProofs SmallProofs.

(** ** What one call does *)

Definition taken (w : write_out) (d : str) : str :=
  match w with WOk => d | WErr n _ => firstn n d | WDrop n => firstn n d end.

Definition ending (w : write_out) : fin (result unit send_error) :=
  match w with WOk => Done (Ok tt) | WErr _ e => Done (Err (SendIo e)) | WDrop _ => Dropped end.

Lemma taken_part (w : write_out) (d : str) : part_of d (taken w d).
Proof.
  destruct w as [|n e|n]; cbn [taken].
  - exists []. now rewrite app_nil_r.
  - exists (skipn n d). now rewrite firstn_skipn.
  - exists (skipn n d). now rewrite firstn_skipn.
Qed.

Lemma ends_with_crlf (s : str) : ends_with crlf s = true <-> ends_crlf s.
Proof.
  unfold ends_with, ends_crlf. destruct (strip_suffix crlf s) as [l|] eqn:E.
  - apply strip_suffix_spec in E. split; eauto.
  - split; [discriminate|]. intros [p ->]. rewrite (proj2 (strip_suffix_spec crlf _ p) eq_refl) in E. discriminate.
Qed.

Lemma send_raw_spec (c : client) (s : str) (w : write_out) :
  ends_crlf s ->
  send_raw c s w =
  (mk_client (c_scratch c) (c_wire c ++ taken w s) (c_log c ++ [s]) (c_reader c) (c_config c), ending w).
Proof.
  intros E. apply ends_with_crlf in E. unfold send_raw, raw_message. rewrite E.
  destruct w; reflexivity.
Qed.

Lemma with_scratch_spec (c : client) (fill : str -> str) (early : bool) (w : write_out) :
  ends_crlf (fill (c_scratch c)) ->
  with_scratch c fill early w =
  (mk_client [] (c_wire c ++ taken w (fill (c_scratch c))) (c_log c ++ [fill (c_scratch c)]) (c_reader c) (c_config c),
   ending w).
Proof.
  intros E. unfold with_scratch. rewrite send_raw_spec by exact E.
  destruct w; cbn [ending]; try reflexivity. now destruct early.
Qed.

Lemma wire_channel_hash (ch : str) : wire_channel ch = with_hash ch.
Proof.
  unfold wire_channel, with_hash. destruct ch as [|c ch]; [reflexivity|].
  change (b "#") with ["#"%byte]. rewrite starts_with_cons. destruct (Byte.eqb c "#"); reflexivity.
Qed.

Lemma fold_channels (rest : list str) : forall f,
  fold_left (fun f ch => f ++ b "," ++ wire_channel ch) rest f =
  f ++ concat (map (fun ch => b "," ++ with_hash ch) rest).
Proof.
  induction rest as [|x rest IH]; intros f; cbn [fold_left map concat]; [now rewrite app_nil_r|].
  rewrite IH, wire_channel_hash. now rewrite <- !app_assoc.
Qed.

Lemma join_by_cons (x : str) (rest : list str) :
  join_by "," (x :: rest) = x ++ concat (map (fun ch => b "," ++ ch) rest).
Proof.
  revert x. induction rest as [|y rest IH]; intros x; cbn [map concat]; [symmetry; apply app_nil_r|].
  change (join_by "," (x :: y :: rest)) with (x ++ b "," ++ join_by "," (y :: rest)).
  rewrite IH. now rewrite <- !app_assoc.
Qed.

Lemma join_all_fill_spec (chs : list str) (f : str) :
  join_all_fill chs f = f ++ call_line (CallJoinAll chs).
Proof.
  unfold join_all_fill, call_line. destruct chs as [|x rest].
  - cbn [map join_by]. rewrite <- !app_assoc. reflexivity.
  - rewrite fold_channels, wire_channel_hash. cbn [map]. rewrite join_by_cons, map_map.
    rewrite <- !app_assoc. reflexivity.
Qed.

Lemma privmsg_fill_spec (ch t : str) (r n : option str) (f : str) :
  privmsg_fill ch t r n f = f ++ call_line (CallPrivmsg ch t r n).
Proof.
  unfold privmsg_fill, call_line, write_tags, join_fmt, join_new, wire_tag_display.
  destruct r as [r|], n as [n|]; cbn [orb option_map opt_list app jn_iter jn_sep];
    rewrite ?join_loop_free; cbn [sk_out interleave]; rewrite <- ?app_assoc; reflexivity.
Qed.

Lemma call_line_crlf (k : call) : ~ is_raw k -> exists l, call_line k = l ++ crlf.
Proof.
  intros N. destruct k as [s|ch t r n|n|p|ch|chs]; cbn [call_line].
  - exfalso. apply N. now exists s.
  - destruct r as [r|], n as [n|]; rewrite !app_assoc; eexists; reflexivity.
  - rewrite !app_assoc; eexists; reflexivity.
  - destruct (pi_nonce p); rewrite ?app_assoc; eexists; reflexivity.
  - rewrite !app_assoc; eexists; reflexivity.
  - rewrite !app_assoc; eexists; reflexivity.
Qed.

(** The text given to the connection. *)
Definition payload (c : client) (k : call) : str :=
  match k with CallRaw s => s | _ => c_scratch c ++ call_line k end.

Definition left_over (c : client) (k : call) : str :=
  match k with CallRaw _ => c_scratch c | _ => [] end.

Lemma run_call_spec (c : client) (k : call) (w : write_out) :
  (is_raw k -> ends_crlf (call_line k)) ->
  run_call c k w =
  (mk_client (left_over c k) (c_wire c ++ taken w (payload c k)) (c_log c ++ [payload c k]) (c_reader c) (c_config c),
   ending w).
Proof.
  intros R.
  assert (E : forall x, ~ is_raw x -> ends_crlf (c_scratch c ++ call_line x)).
  { intros x N. destruct (call_line_crlf x N) as [l ->]. exists (c_scratch c ++ l). now rewrite app_assoc. }
  assert (NR : match k with CallRaw _ => True | _ => ~ is_raw k end).
  { destruct k; trivial; intros [s K]; discriminate. }
  destruct k as [s|ch t r n|n|p|ch|chs]; cbn [run_call payload left_over].
  - apply send_raw_spec. apply R. now exists s.
  - unfold send_privmsg. rewrite with_scratch_spec; rewrite privmsg_fill_spec; [reflexivity|]. now apply E.
  - unfold send_ping. rewrite with_scratch_spec; [reflexivity|]. exact (E _ NR).
  - unfold send_pong. specialize (E _ NR). cbn [call_line] in E.
    rewrite with_scratch_spec; cbn [call_line]; destruct (pi_nonce p); auto.
  - unfold send_join. rewrite with_scratch_spec; rewrite wire_channel_hash; [reflexivity|]. exact (E _ NR).
  - unfold send_join_all. rewrite with_scratch_spec; rewrite join_all_fill_spec; [reflexivity|]. exact (E _ NR).
Qed.

Lemma run_raw_invalid (c : client) (s : str) (w : write_out) :
  ~ ends_crlf s -> run_call c (CallRaw s) w = (c, Done (Err SendInvalidMessage)).
Proof.
  intros N. cbn [run_call]. unfold send_raw, raw_message.
  destruct (ends_with crlf s) eqn:E; [|reflexivity]. now apply ends_with_crlf in E.
Qed.

(** ** C43 *)

(** C43. [send_raw] gives the connection its argument, whole and unchanged, exactly if
    that ends with CRLF; otherwise it reports an invalid message and does nothing. *)
Lemma p_c43_send_raw :
  forall (c : client) (s : str) (w : write_out),
    (ends_crlf s ->
     send_raw c s WOk =
       (mk_client (c_scratch c) (c_wire c ++ s) (c_log c ++ [s]) (c_reader c) (c_config c), Done (Ok tt)) /\
     exists x, part_of s x /\ c_wire (fst (send_raw c s w)) = c_wire c ++ x /\
       (snd (send_raw c s w) = Done (Ok tt) -> x = s) /\
       snd (send_raw c s w) <> Done (Err SendInvalidMessage)) /\
    (~ ends_crlf s -> send_raw c s w = (c, Done (Err SendInvalidMessage))).
Proof.
  intros c s w. split.
  - intros E. split; [now rewrite send_raw_spec|]. exists (taken w s). rewrite send_raw_spec by exact E. cbn [fst snd c_wire].
    split; [apply taken_part|]. split; [reflexivity|]. destruct w; cbn; split; try discriminate; auto.
  - intros N. now apply run_raw_invalid.
Qed.

Example ex_c43 :
  forall c, ends_crlf (b "PING" ++ crlf) /\
    snd (send_raw c (b "PING" ++ crlf) WOk) = Done (Ok tt) /\
    send_raw c (b "PING") WOk = (c, Done (Err SendInvalidMessage)).
Proof. intros c. split; [now exists (b "PING")|]. split; reflexivity. Qed.

(** ** C48 *)

Lemma scratch_stays (c : client) (k : call) (w : write_out) :
  c_scratch c = [] -> c_scratch (fst (run_call c k w)) = [].
Proof.
  intros S. destruct k as [s|ch t r n|n|p|ch|chs].
  2-6: rewrite run_call_spec by (intros [s K]; discriminate); reflexivity.
  destruct (ends_with crlf s) eqn:E.
  - apply ends_with_crlf in E. rewrite run_call_spec by auto. exact S.
  - rewrite run_raw_invalid; [exact S|]. intros K. apply ends_with_crlf in K. congruence.
Qed.

Lemma payload_clean (c : client) (k : call) : c_scratch c = [] -> payload c k = call_line k.
Proof. intros S. destruct k; cbn [payload]; rewrite ?S; reflexivity. Qed.

Lemma run_calls_scratch (l : list (call * write_out)) : forall c,
  c_scratch c = [] -> c_scratch (run_calls c l) = [].
Proof. induction l as [|[k w] l IH]; intros c S; [exact S|]. cbn [run_calls]. apply IH. now apply scratch_stays. Qed.

(** C48. After any history of calls, each with any outcome, a further call gives the
    connection exactly its own bytes (an initial part of them if it fails), and logs
    just them. *)
Lemma p_c48_own_bytes_only :
  forall (c : client) (history : list (call * write_out)) (k : call) (w : write_out),
    c_scratch c = [] -> (is_raw k -> ends_crlf (call_line k)) ->
    let c1 := run_calls c history in
    let '(c2, o) := run_call c1 k w in
    c_scratch c1 = [] /\ c_scratch c2 = [] /\ c_log c2 = c_log c1 ++ [call_line k] /\
    exists x, c_wire c2 = c_wire c1 ++ x /\ part_of (call_line k) x /\
      (o = Done (Ok tt) <-> w = WOk) /\ (o = Done (Ok tt) -> x = call_line k).
Proof.
  intros c h k w S R c1. pose proof (run_calls_scratch h c S) as S1. fold c1 in S1.
  pose proof (scratch_stays c1 k w S1) as S2.
  rewrite run_call_spec in * by exact R. rewrite payload_clean in * by exact S1. cbn [fst c_scratch c_wire c_log] in *.
  split; [exact S1|]. split; [exact S2|]. split; [reflexivity|]. exists (taken w (call_line k)).
  split; [reflexivity|]. split; [apply taken_part|]. destruct w; cbn; split; try split; try discriminate; auto.
Qed.

(** C48. All that is on the wire is, in order, for each call its bytes or an initial
    part of them. *)
Lemma p_c48_wire_is_the_history :
  forall (c : client) (history : list (call * write_out)),
    c_scratch c = [] ->
    exists parts, c_wire (run_calls c history) = c_wire c ++ concat parts /\
      Forall2 (fun kw x => part_of (call_line (fst kw)) x /\
                 (snd kw = WOk -> (is_raw (fst kw) -> ends_crlf (call_line (fst kw))) -> x = call_line (fst kw)))
        history parts.
Proof.
  intros c h. revert c. induction h as [|[k w] h IH]; intros c S; cbn [run_calls].
  - exists []. cbn. now rewrite app_nil_r.
  - destruct (IH (fst (run_call c k w)) (scratch_stays c k w S)) as (ps & E & F).
    assert (X : exists x, c_wire (fst (run_call c k w)) = c_wire c ++ x /\ part_of (call_line k) x /\
                  (w = WOk -> (is_raw k -> ends_crlf (call_line k)) -> x = call_line k)).
    { assert (D : (is_raw k -> ends_crlf (call_line k)) \/ (exists s, k = CallRaw s /\ ~ ends_crlf s)).
      { destruct k as [s| | | | |]; try (left; intros [? K]; discriminate).
        destruct (ends_with crlf s) eqn:Es.
        - left. intros _. now apply ends_with_crlf.
        - right. exists s. split; [reflexivity|]. intros K. apply ends_with_crlf in K. congruence. }
      destruct D as [D|(s & -> & D)].
      - rewrite run_call_spec by exact D. rewrite payload_clean by exact S. exists (taken w (call_line k)).
        split; [reflexivity|]. split; [apply taken_part|]. now intros ->.
      - rewrite run_raw_invalid by exact D. exists []. cbn [fst]. split; [now rewrite app_nil_r|].
        split; [now exists (call_line (CallRaw s))|]. intros _ K. exfalso. apply D, K. now exists s. }
    destruct X as (x & X1 & X2 & X3). exists (x :: ps). cbn [concat]. split.
    + rewrite E, X1. now rewrite <- app_assoc.
    + constructor; auto.
Qed.

(** C48. That every completed call arrives as a line of its own is false: the part of a
    dropped call is still on the wire in front of it. *)
Lemma p_c48_own_line_refuted :
  exists (c : client) (m : msg_own) (r : reader),
    c_scratch c = [] /\ c_wire c = [] /\
    let c' := run_calls c [(CallPing (b "a"), WDrop 6); (CallPing (b "b"), WOk)] in
    recv Scalar (mk_reader [] [Got (c_wire c')] false) = Ret (r, Some (Ok m)) /\
    own_text m = Ret (Some (b "PING :b")).
Proof.
  exists (mk_client [] [] [] reader_new (mk_config (mk_credentials [] None) default_timeout backoff_default)).
  eexists _, _. split; [reflexivity|]. split; [reflexivity|].
  split; [vm_compute; reflexivity|]. vm_compute. reflexivity.
Qed.

Example ex_c48 :
  let c := mk_client [] [] [] reader_new (mk_config (mk_credentials [] None) default_timeout backoff_default) in
  c_wire (run_calls c [(CallJoin (b "a"), WErr 4 BrokenPipe); (CallRaw (b "x"), WOk); (CallPing (b "b"), WOk)]) =
  b "JOINPING :b" ++ crlf.
Proof. reflexivity. Qed.

(** ** C45 *)

Lemma hash_lf (ch : str) : In lf (with_hash ch) <-> In lf ch.
Proof.
  unfold with_hash. destruct ch as [|c ch]; [cbn; split; [now intros [H|H]|tauto]|].
  destruct (Byte.eqb c "#"); [tauto|]. rewrite in_app_iff. split; [|auto]. intros [[H|[]]|H]; [discriminate|exact H].
Qed.

Lemma join_by_lf (chs : list str) :
  In lf (join_by "," (map with_hash chs)) <-> exists x, In x chs /\ In lf x.
Proof.
  destruct chs as [|x rest]; [cbn; split; [tauto|now intros (x & [] & _)]|].
  cbn [map]. rewrite join_by_cons, in_app_iff, hash_lf.
  assert (Q : In lf (concat (map (fun ch => b "," ++ ch) (map with_hash rest))) <-> exists x, In x rest /\ In lf x).
  { rewrite in_concat. split.
    - intros (y & H & I). apply in_map_iff in H as (z & <- & H). apply in_map_iff in H as (w & <- & H).
      apply in_app_iff in I as [[I|[]]|I]; [discriminate|]. apply (proj1 (hash_lf w)) in I. now exists w.
    - intros (z & H & I). exists (b "," ++ with_hash z). split; [|apply in_app_iff; right; now apply hash_lf].
      apply in_map_iff. exists (with_hash z). split; [reflexivity|]. now apply in_map. }
  rewrite Q. split.
  - intros [H|(z & H & I)]; [exists x; split; [now left|assumption]|exists z; split; [now right|assumption]].
  - intros (z & [->|H] & I); [now left|right; eauto].
Qed.

(** The line of a call, without its ending. *)
Lemma call_body (k : call) :
  ~ is_raw k ->
  exists l, call_line k = l ++ crlf /\ (In lf l <-> exists x, In x (call_args k) /\ In lf x).
Proof.
  intros NR.
  assert (S1 : forall (p x : str), ~ In lf p -> In lf (p ++ x) <-> In lf x).
  { intros p x N. rewrite in_app_iff. tauto. }
  assert (N : forall p, existsb (fun c => Byte.eqb c lf) p = false -> ~ In lf p).
  { intros p E I. assert (existsb (fun c => Byte.eqb c lf) p = true); [|congruence].
    apply existsb_exists. exists lf. split; [exact I|reflexivity]. }
  destruct k as [s|ch t r n|n|p|ch|chs]; cbn [call_line call_args].
  - exfalso. apply NR. now exists s.
  - destruct r as [r|], n as [n|]; eexists; split.
    1: replace (b "@reply-parent-msg-id=" ++ r ++ b ";client-nonce=" ++ n ++ b " PRIVMSG " ++ ch ++ b " :" ++ t ++ crlf)
      with ((b "@reply-parent-msg-id=" ++ r ++ b ";client-nonce=" ++ n ++ b " PRIVMSG " ++ ch ++ b " :" ++ t) ++ crlf)
      by (rewrite <- !app_assoc; reflexivity); reflexivity.
    2: replace (b "@reply-parent-msg-id=" ++ r ++ b " PRIVMSG " ++ ch ++ b " :" ++ t ++ crlf)
      with ((b "@reply-parent-msg-id=" ++ r ++ b " PRIVMSG " ++ ch ++ b " :" ++ t) ++ crlf)
      by (rewrite <- !app_assoc; reflexivity); reflexivity.
    3: replace (b "@client-nonce=" ++ n ++ b " PRIVMSG " ++ ch ++ b " :" ++ t ++ crlf)
      with ((b "@client-nonce=" ++ n ++ b " PRIVMSG " ++ ch ++ b " :" ++ t) ++ crlf)
      by (rewrite <- !app_assoc; reflexivity); reflexivity.
    4: replace (b "PRIVMSG " ++ ch ++ b " :" ++ t ++ crlf) with ((b "PRIVMSG " ++ ch ++ b " :" ++ t) ++ crlf)
      by (rewrite <- !app_assoc; reflexivity); reflexivity.
    all: etransitivity; [|apply in_concat]; cbn [opt_list app concat].
    all: pose proof (N (b " PRIVMSG ") eq_refl); pose proof (N (b ";client-nonce=") eq_refl); pose proof (N (b " :") eq_refl).
    all: pose proof (N (b "@reply-parent-msg-id=") eq_refl); pose proof (N (b "@client-nonce=") eq_refl);
      pose proof (N (b "PRIVMSG ") eq_refl).
    all: rewrite !in_app_iff; cbn [In]; tauto.
  - exists (b "PING :" ++ n). split; [now rewrite <- app_assoc|]. rewrite S1 by (apply N; reflexivity).
    split; [intros I; exists n; cbn; auto|]. now intros (x & [<-|[]] & I).
  - destruct (pi_nonce p) as [n|]; cbn [opt_list map].
    + exists (b "PONG :" ++ deref n). split; [now rewrite <- app_assoc|]. rewrite S1 by (apply N; reflexivity).
      split; [intros I; exists (deref n); cbn; auto|]. now intros (x & [<-|[]] & I).
    + exists (b "PONG"). split; [reflexivity|]. split; [|now intros (x & [] & I)].
      intros I. exfalso. revert I. now apply N.
  - exists (b "JOIN " ++ with_hash ch). split; [now rewrite <- app_assoc|]. rewrite S1 by (apply N; reflexivity).
    rewrite hash_lf. split; [intros I; exists ch; cbn; auto|]. now intros (x & [<-|[]] & I).
  - exists (b "JOIN " ++ join_by "," (map with_hash chs)). split; [now rewrite <- app_assoc|].
    rewrite S1 by (apply N; reflexivity). apply join_by_lf.
Qed.

(** C45. Every function but [send_raw] sends one line exactly if no argument contains a
    line feed. *)
Lemma p_c45_one_line :
  forall (c : client) (k : call),
    c_scratch c = [] -> ~ is_raw k ->
    exists s, run_call c k WOk =
      (mk_client [] (c_wire c ++ s) (c_log c ++ [s]) (c_reader c) (c_config c), Done (Ok tt)) /\
      (one_line s <-> Forall (fun x => ~ In lf x) (call_args k)).
Proof.
  intros c k S NR. exists (call_line k).
  rewrite run_call_spec by (intros R; contradiction). rewrite payload_clean by exact S.
  split; [destruct k; try reflexivity; exfalso; apply NR; eexists; reflexivity|].
  destruct (call_body k NR) as (l & -> & E). split.
  - intros (l' & E' & N). apply app_inv_tail in E'. subst l'. apply Forall_forall. intros x I J. apply N, E. eauto.
  - intros F. exists l. split; [reflexivity|]. intros I. apply E in I as (x & I & J).
    rewrite Forall_forall in F. now apply (F x).
Qed.

(** C45. Arguments are not checked: a line break in the text sends a second command. *)
Lemma p_c45_injection_refuted :
  exists (c : client) (ch t : str) (m1 m2 : msg_own) (r : reader),
    c_scratch c = [] /\ c_wire c = [] /\
    let c' := fst (send_privmsg c ch t None None WOk) in
    recvs (fun _ => Scalar) 2 (mk_reader [] [Got (c_wire c')] false) = Ret (r, [Some (Ok m1); Some (Ok m2)]) /\
    own_command m1 = Ret Privmsg /\ own_command m2 = Ret Join /\ own_channel m2 = Ret (Some (b "#other")).
Proof.
  exists (mk_client [] [] [] reader_new (mk_config (mk_credentials [] None) default_timeout backoff_default)).
  exists (b "#a"), (b "hi" ++ crlf ++ b "JOIN #other"). eexists _, _, _.
  split; [reflexivity|]. split; [reflexivity|]. split; [vm_compute; reflexivity|]. repeat split; vm_compute; reflexivity.
Qed.

(** C45. And tag values are not escaped: a [;] in the nonce adds a tag, a space ends the
    tags. *)
Lemma p_c45_tags_not_escaped_refuted :
  exists (c : client) (n1 n2 : str) (m1 m2 : msg_own) (r : reader),
    c_scratch c = [] /\ c_wire c = [] /\
    let c' := run_calls c [(CallPrivmsg (b "#a") (b "x") None (Some n1), WOk);
                           (CallPrivmsg (b "#a") (b "x") None (Some n2), WOk)] in
    recvs (fun _ => Scalar) 2 (mk_reader [] [Got (c_wire c')] false) = Ret (r, [Some (Ok m1); Some (Ok m2)]) /\
    own_tag m1 TReplyParentMsgId = Ret (Some (b "evil")) /\
    own_command m2 = Ret (Other (b "evil")).
Proof.
  exists (mk_client [] [] [] reader_new (mk_config (mk_credentials [] None) default_timeout backoff_default)).
  exists (b "1;reply-parent-msg-id=evil"), (b "1 evil"). eexists _, _, _.
  split; [reflexivity|]. split; [reflexivity|]. split; [vm_compute; reflexivity|]. repeat split; vm_compute; reflexivity.
Qed.

Example ex_c45 :
  ~ is_raw (CallJoinAll [b "a"; b "#b"]) /\ Forall (fun x => ~ In lf x) (call_args (CallJoinAll [b "a"; b "#b"])) /\
  call_line (CallJoinAll [b "a"; b "#b"]) = b "JOIN #a,#b" ++ crlf /\
  ~ Forall (fun x => ~ In lf x) (call_args (CallPing (b "a" ++ crlf))).
Proof.
  split; [intros [s E]; discriminate|]. split; [repeat constructor; cbn; intuition discriminate|].
  split; [reflexivity|]. intros F. inversion F as [|x l H]; subst. apply H. cbn. auto.
Qed.

(** ** Reading a call back *)

Lemma pieces_lf (k : call) : good_call k -> ~ is_raw k.
Proof. intros (_ & _ & G) [s ->]. exact G. Qed.

Lemma with_hash_starts (ch : str) : starts "#" (with_hash ch).
Proof.
  unfold with_hash. destruct ch as [|c ch]; [now exists []|].
  destruct (byte_eqb_spec c "#") as [->|]; [now exists ch|now exists (c :: ch)].
Qed.

Lemma with_hash_space (ch : str) : no_space ch -> no_space (with_hash ch).
Proof.
  unfold no_space, with_hash. destruct ch as [|c ch]; [intros _ [H|[]]; discriminate|].
  destruct (Byte.eqb c "#"); [auto|]. rewrite in_app_iff. intros N [[H|[]]|H]; [discriminate|auto].
Qed.

Lemma with_hash_utf8 (ch : str) : utf8_valid ch = true -> utf8_valid (with_hash ch) = true.
Proof.
  unfold with_hash. destruct ch as [|c ch]; [reflexivity|]. destruct (Byte.eqb c "#"); [auto|]. intros U.
  now rewrite utf8_app.
Qed.

Lemma join_channels (chs : list str) :
  chs <> [] -> Forall no_space chs -> Forall (fun x => utf8_valid x = true) chs ->
  let j := join_by "," (map with_hash chs) in starts "#" j /\ no_space j /\ utf8_valid j = true.
Proof.
  intros N F U. destruct chs as [|x rest]; [congruence|]. cbn [map]. cbv zeta. rewrite join_by_cons.
  inversion F as [|? ? F1 F2]; inversion U as [|? ? U1 U2]; subst.
  split; [|split].
  - destruct (with_hash_starts x) as [r ->]. eexists. reflexivity.
  - intros I. apply in_app_iff in I as [I|I]; [now apply (with_hash_space x)|].
    apply in_concat in I as (y & H & I). apply in_map_iff in H as (z & <- & H). apply in_map_iff in H as (w & <- & H).
    apply in_app_iff in I as [[I|[]]|I]; [discriminate|]. rewrite Forall_forall in F2. now apply (with_hash_space w (F2 w H)).
  - rewrite utf8_app by now apply with_hash_utf8. apply utf8_concat. apply Forall_forall. intros y H.
    apply in_map_iff in H as (z & <- & H). apply in_map_iff in H as (w & <- & H). rewrite utf8_app by reflexivity.
    apply with_hash_utf8. rewrite Forall_forall in U2. now apply U2.
Qed.

(** The view of the line of a call. *)
Definition call_view (x : message) : view :=
  mk_view (m_tags x) None (m_command x) (m_channel x) (m_params x).

Lemma line_shows (bd : build) (l : str) (x : message) (t : option str) :
  utf8_valid l = true -> below_4gib l -> ~ unterminated_tags l ->
  spec_view l = Some (call_view x) -> length (m_tags x) <= 128 -> Forall short_tag (m_tags x) ->
  m_command x <> b "353" -> m_command x <> b "366" ->
  m_params x = option_map (fun t => b ":" ++ t) t ->
  exists m, own_parse bd l = Ret (Some m) /\ own_raw m = l /\ shows m x t.
Proof.
  intros U S T V L F N1 N2 P.
  assert (ET : fst (spec_tags l) = m_tags x).
  { apply view_inv in V as (s1 & s2 & rest & ET & _). now rewrite ET. }
  pose proof (parse_cases bd l U S (fun _ => T)) as C. rewrite ET in C. specialize (C L). rewrite V in C.
  destruct C as (r & C & Q). pose proof (presents_reads _ r _ U V Q) as R.
  pose proof (p_c15_owned_agrees bd l) as O. rewrite C in O.
  destruct O as (O1 & O2 & O3 & O4 & O5 & O6 & O7 & O8 & O9).
  exists (ref_into_owned r). split; [exact O1|].
  assert (ER : ref_raw r = l) by apply Q.
  split; [now rewrite O3|].
  destruct R as [R1 R2 R3 R4 R5 R6]. cbn [call_view v_prefix v_command v_channel v_params] in *.
  split; [|split; [|split; [|split; [|split; [|split]]]]].
  - assert (FS : all_short l) by (apply all_short_spec; now rewrite ET).
    destruct (parse_tags bd _ r U S C FS) as [A _]. now rewrite O4, A, ET.
  - now rewrite O6.
  - now rewrite O7.
  - rewrite O8, R4. unfold spec_channel. cbn [v_command v_channel call_view].
    now rewrite !str_eqb_neq by assumption.
  - now rewrite O9.
  - pose proof (p_c15_text bd l r (m_params x) U S C R5) as PT. rewrite P in PT. rewrite R6 in PT.
    unfold spec_text in PT. cbn [call_view v_params] in PT. rewrite P in PT.
    destruct t as [t|]; cbn [option_map] in PT; [|apply PT].
    destruct PT as [PT _]. destruct PT as [-> _]; [now left|]. reflexivity.
  - rewrite O2, R6. unfold spec_text. cbn [call_view v_params]. rewrite P. now destruct t.
Qed.

Lemma render_no_unterminated (x : message) : wf_message x -> ~ unterminated_tags (render x).
Proof.
  intros W [[r E] K]. destruct W as (WT & WS & WA & WC & _).
  unfold render in E, K. destruct (m_tags x) as [|kv l].
  - cbn [app] in *. destruct (m_sender x) as [p|]; [discriminate|]. cbn [app] in E.
    destruct (m_command x) as [|c w]; [congruence|]. injection E as -> _. apply WA; auto. now exists w.
  - apply K. rewrite <- !app_assoc. apply in_or_app. right. apply in_or_app. right. apply in_or_app. left. now left.
Qed.

Lemma utf8_lit (p s : str) : utf8_valid p = true -> utf8_valid s = true -> utf8_valid (p ++ s) = true.
Proof. intros H1 H2. now rewrite utf8_app. Qed.

Lemma plain_tags (r n : option str) :
  Forall plain_value (opt_list r ++ opt_list n) ->
  let l := map (fun x => (b "reply-parent-msg-id", x)) (opt_list r) ++ map (fun x => (b "client-nonce", x)) (opt_list n) in
  Forall wf_tag l /\ Forall short_tag l /\ length l <= 128.
Proof.
  intros F l.
  assert (P : forall v, In v (opt_list r ++ opt_list n) -> plain_value v) by (now apply Forall_forall).
  assert (I : forall kv, In kv l -> (fst kv = b "reply-parent-msg-id" \/ fst kv = b "client-nonce") /\ plain_value (snd kv)).
  { intros kv I. apply in_app_iff in I as [I|I]; apply in_map_iff in I as (v & <- & I); cbn; (split; [auto|]);
      apply P, in_app_iff; auto. }
  split; [|split].
  - apply Forall_forall. intros kv J. destruct (I kv J) as [[E|E] (P1 & P2 & P3)]; unfold wf_tag; rewrite E;
      repeat split; auto; cbn; intuition discriminate.
  - apply Forall_forall. intros kv J. destruct (I kv J) as [[E|E] (P1 & P2 & P3)]; split; auto; rewrite E; reflexivity.
  - unfold l. rewrite app_length, !map_length. destruct r, n; cbn; lia.
Qed.

Lemma call_read (k : call) (bd : build) :
  good_call k ->
  exists l x m, call_line k = l ++ crlf /\ ~ In lf l /\ utf8_valid l = true /\ call_message k = Some x /\
    own_parse bd l = Ret (Some m) /\ own_raw m = l /\ shows m x (call_text k).
Proof.
  intros G. pose proof (pieces_lf k G) as NR. destruct (call_body k NR) as (l & EL & LF).
  destruct G as (GA & GS & GK).
  assert (NL : ~ In lf l).
  { intros I. apply LF in I as (y & I & J). rewrite Forall_forall in GA. now apply (GA y). }
  assert (SL : below_4gib l).
  { rewrite EL, app_length in GS. unfold below_4gib. lia. }
  clear LF GS.
  assert (K : exists x, call_message k = Some x /\ utf8_valid l = true /\ ~ unterminated_tags l /\
    spec_view l = Some (call_view x) /\ length (m_tags x) <= 128 /\ Forall short_tag (m_tags x) /\
    m_command x <> b "353" /\ m_command x <> b "366" /\
    m_params x = option_map (fun t => b ":" ++ t) (call_text k)).
  { assert (W : forall x, wf_message x -> m_sender x = None -> l = render x ->
        ~ unterminated_tags l /\ spec_view l = Some (call_view x)).
    { intros x W E ->. split; [now apply render_no_unterminated|]. rewrite render_view by exact W. now rewrite E. }
    destruct k as [s|ch t r n|n|p|ch|chs]; cbn [call_line call_args call_message call_text] in *.
    - destruct GK.
    - destruct GK as (G1 & G2 & G3). destruct (plain_tags r n G3) as (T1 & T2 & T3).
      set (tags := map (fun x => (b "reply-parent-msg-id", x)) (opt_list r) ++ map (fun x => (b "client-nonce", x)) (opt_list n)) in *.
      eexists. split; [reflexivity|].
      inversion GA as [|? ? [A1 _] GA1]; subst. inversion GA1 as [|? ? [A2 _] GA2]; subst.
      assert (ER : l = render (mk_message tags None (b "PRIVMSG") (Some ch) (Some (b ":" ++ t)))).
      { apply (app_inv_tail crlf). rewrite <- EL. unfold render, tags.
        destruct r as [r|], n as [n|]; cbn [opt_list map app m_tags m_sender m_command m_channel m_params render_tags];
          rewrite <- ?app_assoc; reflexivity. }
      assert (U : utf8_valid l = true).
      { apply (utf8_left l [lf] cr); [reflexivity|]. change (cr :: [lf]) with crlf. rewrite <- EL.
        destruct r as [r|], n as [n|]; cbn [opt_list app] in GA2;
          try (inversion GA2 as [|? ? [A3 _] GA3]; subst); try (inversion GA3 as [|? ? [A4 _] _]; subst);
          repeat (apply utf8_lit; [first [reflexivity|assumption]|]); reflexivity. }
      split; [exact U|].
      destruct (W (mk_message tags None (b "PRIVMSG") (Some ch) (Some (b ":" ++ t)))) as [W1 W2]; auto.
      { split; [exact T1|]. cbn [m_tags m_sender m_command m_channel m_params].
        split; [intros [q E]; discriminate|]. split; [intros _ _ [q E]; discriminate|].
        split; [discriminate|]. split; [cbn; intuition discriminate|]. split; [auto|discriminate]. }
      repeat split; auto; discriminate.
    - inversion GA as [|? ? [A1 _] _]; subst. eexists. split; [reflexivity|].
      assert (ER : l = b "PING :" ++ n) by (apply (app_inv_tail crlf); rewrite <- EL; now rewrite <- app_assoc).
      split; [rewrite ER; now apply utf8_lit|].
      destruct (W (mk_message [] None (b "PING") None (Some (b ":" ++ n)))) as [W1 W2]; auto.
      { split; [constructor|]. cbn [m_tags m_sender m_command m_channel m_params].
        split; [intros [q E]; discriminate|]. split; [intros _ _ [q E]; discriminate|].
        split; [discriminate|]. split; [cbn; intuition discriminate|].
        split; [intros q [= <-] [z E]; discriminate|discriminate]. }
      repeat split; auto; try discriminate; try constructor; cbn; lia.
    - eexists. split; [reflexivity|].
      assert (ER : l = render (mk_message [] None (b "PONG") None (option_map (fun n => b ":" ++ deref n) (pi_nonce p)))).
      { apply (app_inv_tail crlf). rewrite <- EL. destruct (pi_nonce p); reflexivity. }
      split.
      { rewrite ER. destruct (pi_nonce p) as [n|]; [|reflexivity]. cbn [opt_list map] in GA.
        inversion GA as [|? ? [A1 _] _]; subst. now apply (utf8_lit (b "PONG :")). }
      destruct (W (mk_message [] None (b "PONG") None (option_map (fun n => b ":" ++ deref n) (pi_nonce p)))) as [W1 W2]; auto.
      { split; [constructor|]. cbn [m_tags m_sender m_command m_channel m_params].
        split; [intros [q E]; discriminate|]. split; [intros _ _ [q E]; discriminate|].
        split; [discriminate|]. split; [cbn; intuition discriminate|].
        split; [intros q E [z Z]; destruct (pi_nonce p); [injection E as <-; discriminate|discriminate]
               |destruct (pi_nonce p); discriminate]. }
      repeat split; auto; try discriminate; try constructor; cbn; try lia. destruct (pi_nonce p); reflexivity.
    - inversion GA as [|? ? [A1 _] _]; subst. eexists. split; [reflexivity|].
      assert (ER : l = b "JOIN " ++ with_hash ch) by (apply (app_inv_tail crlf); rewrite <- EL; now rewrite <- app_assoc).
      split; [rewrite ER; apply utf8_lit; [reflexivity|now apply with_hash_utf8]|].
      destruct (W (mk_message [] None (b "JOIN") (Some (with_hash ch)) None)) as [W1 W2]; auto.
      { split; [constructor|]. cbn [m_tags m_sender m_command m_channel m_params].
        split; [intros [q E]; discriminate|]. split; [intros _ _ [q E]; discriminate|].
        split; [discriminate|]. split; [cbn; intuition discriminate|].
        split; [split; [apply with_hash_starts|now apply with_hash_space]|discriminate]. }
      { rewrite ER. unfold render. cbn [m_tags m_sender m_command m_channel m_params]. rewrite app_nil_r. reflexivity. }
      repeat split; auto; try discriminate; try constructor; cbn; lia.
    - destruct chs as [|c0 chs].
      + exists (mk_message [] None (b "JOIN") None None). split; [reflexivity|].
        assert (ER : l = b "JOIN ") by (apply (app_inv_tail crlf); rewrite <- EL; reflexivity).
        subst l. split; [reflexivity|]. split; [intros [[q E] _]; discriminate|]. split; [reflexivity|].
        repeat split; auto; try discriminate; try constructor; cbn; lia.
      + set (j := join_by "," (map with_hash (c0 :: chs))) in *.
        destruct (join_channels (c0 :: chs)) as (J1 & J2 & J3); [discriminate|exact GK| |].
        { revert GA. apply Forall_impl. tauto. }
        fold j in J1, J2, J3. eexists. split; [reflexivity|].
        assert (ER : l = b "JOIN " ++ j) by (apply (app_inv_tail crlf); rewrite <- EL; now rewrite <- app_assoc).
        split; [rewrite ER; now apply utf8_lit|].
        destruct (W (mk_message [] None (b "JOIN") (Some j) None)) as [W1 W2]; auto.
        { split; [constructor|]. cbn [m_tags m_sender m_command m_channel m_params].
          split; [intros [q E]; discriminate|]. split; [intros _ _ [q E]; discriminate|].
          split; [discriminate|]. split; [cbn; intuition discriminate|]. split; [auto|discriminate]. }
        { rewrite ER. unfold render. cbn [m_tags m_sender m_command m_channel m_params]. rewrite app_nil_r. reflexivity. }
        repeat split; auto; try discriminate; try constructor; cbn; lia. }
  destruct K as (x & K0 & K1 & K2 & K3 & K4 & K5 & K6 & K7 & K8).
  destruct (line_shows bd l x (call_text k) K1 SL K2 K3 K4 K5 K6 K7 K8) as (m & M1 & M2 & M3).
  exists l, x, m. auto 10.
Qed.

(** ** C56 *)

Lemma calls_lines (bd : nat -> build) (ks : list call) :
  Forall good_call ks ->
  exists ls ms, lines_then (concat (map call_line ks)) ls [] /\ length ls = length ks /\
    results bd ls (map Ok ms) /\
    Forall2 (fun k m => exists x, call_message k = Some x /\ shows m x (call_text k)) ks ms.
Proof.
  intros F. revert bd. induction F as [|k ks G F IH]; intros bd.
  - exists [], []. repeat split; constructor. intros [].
  - destruct (IH (fun i => bd (S i))) as (ls & ms & A & B & C & D).
    destruct (call_read k (bd 0) G) as (l & x & m & E1 & E2 & E3 & E4 & E5 & E6 & E7).
    exists (l :: ls), (m :: ms). cbn [map concat length]. split; [|split; [|split]].
    + rewrite E1. replace ((l ++ crlf) ++ concat (map call_line ks)) with ((l ++ [cr]) ++ [lf] ++ concat (map call_line ks))
        by (rewrite <- !app_assoc; reflexivity).
      apply lt_line; [|now left|exact A]. rewrite in_app_iff. intros [I|[I|[]]]; [now apply E2|discriminate].
    + now rewrite B.
    + constructor; [|exact C]. right. split; [exact E3|]. left. eauto.
    + constructor; eauto.
Qed.

Lemma run_calls_wire (ks : list call) : forall c,
  c_scratch c = [] -> Forall good_call ks ->
  c_wire (run_calls c (map (fun k => (k, WOk)) ks)) = c_wire c ++ concat (map call_line ks).
Proof.
  induction ks as [|k ks IH]; intros c S F; cbn [map concat run_calls]; [now rewrite app_nil_r|].
  inversion F as [|? ? G F']; subst.
  rewrite IH; [|now apply scratch_stays|exact F'].
  rewrite run_call_spec by (intros R; exfalso; exact (pieces_lf k G R)). rewrite payload_clean by exact S.
  cbn [fst c_wire taken]. now rewrite <- app_assoc.
Qed.

(** C56. What a client sends, another one receives: the same messages in the same order,
    whatever the chunks the bytes arrive in. *)
Lemma p_c56_received_as_sent :
  forall (bd : nat -> build) (c : client) (ks : list call) (s : str) (reads rest : list read),
    c_scratch c = [] -> Forall good_call ks ->
    c_wire (run_calls c (map (fun k => (k, WOk)) ks)) = c_wire c ++ s -> chunked s reads ->
    exists r ms,
      recvs bd (length ks) (mk_reader [] (reads ++ rest) false) = Ret (r, map (fun m => Some (Ok m)) ms) /\
      Forall2 (fun k m => exists x, call_message k = Some x /\ shows m x (call_text k)) ks ms.
Proof.
  intros bd c ks s reads rest S F W (cs & -> & FC & E).
  rewrite run_calls_wire in W by assumption. apply app_inv_head in W.
  destruct (calls_lines bd ks F) as (ls & ms & A & B & C & D). rewrite W in A.
  destruct (lines_recvs s [] ls A bd (map Ok ms) [] cs rest FC (eq_sym E) C) as (buf & cs' & _ & _ & R).
  rewrite B in R. rewrite map_map in R. eexists _, ms. split; [exact R|exact D].
Qed.

(** The message of one call as received. *)
Lemma one_received (bd : build) (c : client) (k : call) (reads rest : list read) (s : str) :
  c_scratch c = [] -> good_call k -> c_wire (fst (run_call c k WOk)) = c_wire c ++ s -> chunked s reads ->
  exists r m x, recv bd (mk_reader [] (reads ++ rest) false) = Ret (r, Some (Ok m)) /\
    call_message k = Some x /\ shows m x (call_text k).
Proof.
  intros S G W C.
  destruct (p_c56_received_as_sent (fun _ => bd) c [k] s reads rest S) as (r & ms & R & F).
  - constructor; [exact G|constructor].
  - exact W.
  - exact C.
  - inversion F as [|? m ? ? (x & X & SH) F' ]; subst. inversion F'; subst.
    cbn [length recvs map] in R. destruct (recv bd _) as [[r1 o]| | |] eqn:E; try discriminate.
    cbn [bind] in R. injection R as <- ->. now exists r1, m, x.
Qed.

Definition good_calls_sample : list call :=
  [CallPrivmsg (b "#chan") (b "hi :; there") (Some (b "id-1")) (Some (b "n")); CallJoin (b "a");
   CallPing (b "x y"); CallJoinAll [b "#a"; b "b"]].

Example ex_c56 :
  Forall good_call good_calls_sample /\
  concat (map call_line good_calls_sample) =
  b "@reply-parent-msg-id=id-1;client-nonce=n PRIVMSG #chan :hi :; there" ++ crlf ++ b "JOIN #a" ++ crlf ++
  b "PING :x y" ++ crlf ++ b "JOIN #a,#b" ++ crlf.
Proof.
  split; [|vm_compute; reflexivity]. unfold good_calls_sample.
  constructor; [|constructor; [|constructor; [|constructor; [|constructor]]]];
    (split; [repeat constructor; cbn; intuition discriminate|]); (split; [vm_compute; reflexivity|]); cbn; auto.
  - split; [eexists; reflexivity|]. split; [cbn; unfold no_space; cbn; intuition discriminate|].
    repeat constructor; cbn; intuition discriminate.
  - unfold no_space; cbn; intuition discriminate.
  - repeat constructor; unfold no_space; cbn; intuition discriminate.
Qed.

(** ** C44 *)

(** C44. A sent PRIVMSG is one line, and is received with the same channel, text and tags. *)
Lemma p_c44_privmsg_received :
  forall (bd : build) (c : client) (ch t : str) (reply nonce : option str) (rest : list read),
    c_scratch c = [] ->
    starts "#" ch -> no_space ch -> ~ In lf ch -> ~ In lf t ->
    Forall plain_value (opt_list reply ++ opt_list nonce) ->
    Forall (fun x => ~ In lf x) (opt_list reply ++ opt_list nonce) ->
    Forall (fun x => utf8_valid x = true) ([ch; t] ++ opt_list reply ++ opt_list nonce) ->
    (N.of_nat (length ch + length t) < 4294800000)%N ->
    exists s, send_privmsg c ch t reply nonce WOk =
        (mk_client [] (c_wire c ++ s) (c_log c ++ [s]) (c_reader c) (c_config c), Done (Ok tt)) /\
      one_line s /\
      forall reads, chunked s reads ->
      exists r m, recv bd (mk_reader [] (reads ++ rest) false) = Ret (r, Some (Ok m)) /\
        own_command m = Ret Privmsg /\ own_channel m = Ret (Some ch) /\ own_text m = Ret (Some t) /\
        own_tags m = Ret (match reply with Some x => [(b "reply-parent-msg-id", x)] | None => [] end ++
                          match nonce with Some x => [(b "client-nonce", x)] | None => [] end).
Proof.
  intros bd c ch t r n rest S G1 G2 L1 L2 P L U B.
  set (k := CallPrivmsg ch t r n).
  assert (G : good_call k).
  { split; [|split].
    - cbn [call_args k]. apply Forall_forall. intros x I. split; [rewrite Forall_forall in U; now apply U|].
      apply in_app_iff in I as [[<-|[<-|[]]]|I]; auto. rewrite Forall_forall in L. now apply L.
    - assert (X : forall x, In x (opt_list r ++ opt_list n) -> (N.of_nat (length x) < 65536)%N).
      { intros x I. rewrite Forall_forall in P. now apply P. }
      cbn [k call_line]. destruct r as [r|], n as [n|]; rewrite ?app_length; cbn [opt_list app In] in X;
        try pose proof (X r ltac:(auto)); try pose proof (X n ltac:(auto));
        repeat match goal with |- context [length (b ?q)] => let y := eval compute in (length (b q)) in change (length (b q)) with y end;
        change (length crlf) with 2; lia.
    - cbn. auto. }
  destruct (p_c45_one_line c k S (pieces_lf k G)) as (s & E & O). exists s. split; [exact E|].
  split; [apply O; destruct G as [G _]; revert G; apply Forall_impl; tauto|].
  intros reads C.
  destruct (one_received bd c k reads rest s S G) as (r' & m & x & R & X & SH).
  - now rewrite E.
  - exact C.
  - injection X as <-. destruct SH as (T & _ & CM & CH & PA & TX & _). exists r', m.
    split; [exact R|]. split; [exact CM|]. split; [exact CH|]. split; [exact TX|]. rewrite T. now destruct r, n.
Qed.

(** C44. Without [#] in front the channel is not added one (unlike in [join]), and the
    other side sees no channel. *)
Lemma p_c44_adds_hash_refuted :
  exists (c : client) (r : reader) (m : msg_own),
    c_scratch c = [] /\ c_wire c = [] /\
    recv Scalar (mk_reader [] [Got (c_wire (fst (send_privmsg c (b "chan") (b "hi") None None WOk)))] false) =
      Ret (r, Some (Ok m)) /\
    own_command m = Ret Privmsg /\ own_channel m = Ret None.
Proof.
  exists (mk_client [] [] [] reader_new (mk_config (mk_credentials [] None) default_timeout backoff_default)). eexists _, _.
  split; [reflexivity|]. split; [reflexivity|]. split; [vm_compute; reflexivity|]. split; vm_compute; reflexivity.
Qed.

Example ex_c44 :
  starts "#" (b "#chan") /\ no_space (b "#chan") /\ ~ In lf (b ":hi # there") /\
  Forall plain_value (opt_list (Some (b "id")) ++ opt_list None).
Proof.
  split; [eexists; reflexivity|]. split; [unfold no_space; cbn; intuition discriminate|].
  split; [cbn; intuition discriminate|]. repeat constructor; cbn; intuition discriminate.
Qed.

(** ** C46 *)

Lemma join_by_length (chs : list str) :
  length (join_by "," (map with_hash chs)) <= length (concat chs) + 2 * length chs.
Proof.
  destruct chs as [|x rest]; [cbn; lia|]. cbn [map]. rewrite join_by_cons. cbn [concat length].
  assert (H : forall y, length (with_hash y) <= length y + 1).
  { intros y. unfold with_hash. destruct y as [|c y]; [cbn; lia|]. destruct (Byte.eqb c "#"); cbn [length app b]; [lia|].
    rewrite app_length. cbn. lia. }
  rewrite !app_length. specialize (H x) as Hx.
  enough (length (concat (map (fun ch => b "," ++ ch) (map with_hash rest))) <= length (concat rest) + 2 * length rest) by lia.
  clear Hx. induction rest as [|y rest IH]; [cbn; lia|]. cbn [map concat length]. rewrite !app_length.
  specialize (H y). change (length (b ",")) with 1. lia.
Qed.

Lemma with_hash_comma (ch : str) : ~ In ","%byte ch -> ~ In ","%byte (with_hash ch).
Proof.
  unfold with_hash. destruct ch as [|c ch]; [intros _ [H|[]]; discriminate|].
  destruct (Byte.eqb c "#"); [auto|]. rewrite in_app_iff. intros N [[H|[]]|H]; [discriminate|auto].
Qed.

(** C46. [join] sends one JOIN for the channel, with exactly one [#] in front. *)
Lemma p_c46_join :
  forall (bd : build) (c : client) (ch : str) (rest : list read),
    c_scratch c = [] -> no_space ch -> ~ In lf ch -> utf8_valid ch = true ->
    (N.of_nat (length ch) < 4294800000)%N ->
    exists s name, send_join c ch WOk =
        (mk_client [] (c_wire c ++ s) (c_log c ++ [s]) (c_reader c) (c_config c), Done (Ok tt)) /\
      s = b "JOIN " ++ name ++ crlf /\
      (starts "#" ch -> name = ch) /\ (~ starts "#" ch -> name = b "#" ++ ch) /\
      forall reads, chunked s reads ->
      exists r m, recv bd (mk_reader [] (reads ++ rest) false) = Ret (r, Some (Ok m)) /\
        own_command m = Ret Join /\ own_channel m = Ret (Some name) /\ own_params m = Ret None.
Proof.
  intros bd c ch rest S G1 L U B.
  set (k := CallJoin ch).
  assert (G : good_call k).
  { split; [constructor; [auto|constructor]|]. split; [|exact G1]. cbn [k call_line]. rewrite !app_length.
    pose proof (join_by_length [ch]) as J. cbn [map join_by concat length] in J. rewrite app_nil_r in J.
    change (length (b "JOIN ")) with 5. change (length crlf) with 2. lia. }
  exists (call_line k), (with_hash ch).
  assert (E : send_join c ch WOk =
    (mk_client [] (c_wire c ++ call_line k) (c_log c ++ [call_line k]) (c_reader c) (c_config c), Done (Ok tt))).
  { change (send_join c ch WOk) with (run_call c k WOk). rewrite run_call_spec by (intros [q Q]; discriminate).
    now rewrite payload_clean by exact S. }
  split; [exact E|]. split; [reflexivity|].
  split; [|split].
  - intros [q ->]. reflexivity.
  - intros N. unfold with_hash. destruct ch as [|x ch]; [reflexivity|].
    destruct (byte_eqb_spec x "#") as [->|]; [|reflexivity]. exfalso. apply N. now exists ch.
  - intros reads C. destruct (one_received bd c k reads rest (call_line k) S G) as (r' & m & x & R & X & SH).
    + change (run_call c k WOk) with (send_join c ch WOk). now rewrite E.
    + exact C.
    + injection X as <-. destruct SH as (T & _ & CM & CH & PA & TX & _). exists r', m. auto.
Qed.

(** C46. [join_all] sends one JOIN whose channel part is the list of the channels, in
    order, separated by commas. *)
Lemma p_c46_join_all :
  forall (bd : build) (c : client) (chs : list str) (rest : list read),
    c_scratch c = [] -> chs <> [] -> Forall no_space chs ->
    Forall (fun ch => ~ In lf ch /\ ~ In ","%byte ch /\ utf8_valid ch = true) chs ->
    (N.of_nat (length (concat chs) + 2 * length chs) < 4294800000)%N ->
    exists s names list, send_join_all c chs WOk =
        (mk_client [] (c_wire c ++ s) (c_log c ++ [s]) (c_reader c) (c_config c), Done (Ok tt)) /\
      s = b "JOIN " ++ list ++ crlf /\ parts_by "," list names /\
      Forall2 (fun ch name => (starts "#" ch /\ name = ch) \/ (~ starts "#" ch /\ name = b "#" ++ ch)) chs names /\
      forall reads, chunked s reads ->
      exists r m, recv bd (mk_reader [] (reads ++ rest) false) = Ret (r, Some (Ok m)) /\
        own_command m = Ret Join /\ own_channel m = Ret (Some list) /\ own_params m = Ret None.
Proof.
  intros bd c chs rest S NE G1 F B.
  set (k := CallJoinAll chs).
  assert (G : good_call k).
  { split; [revert F; apply Forall_impl; tauto|]. split; [|exact G1]. cbn [k call_line]. rewrite !app_length.
    pose proof (join_by_length chs) as J.
    change (length (b "JOIN ")) with 5. change (length crlf) with 2. lia. }
  exists (call_line k), (map with_hash chs), (join_by "," (map with_hash chs)).
  assert (E : send_join_all c chs WOk =
    (mk_client [] (c_wire c ++ call_line k) (c_log c ++ [call_line k]) (c_reader c) (c_config c), Done (Ok tt))).
  { change (send_join_all c chs WOk) with (run_call c k WOk). rewrite run_call_spec by (intros [q Q]; discriminate).
    now rewrite payload_clean by exact S. }
  split; [exact E|]. split; [reflexivity|].
  split; [|split].
  - split; [destruct chs; [congruence|discriminate]|]. split; [reflexivity|]. apply Forall_forall. intros x I.
    apply in_map_iff in I as (y & <- & I). apply with_hash_comma. rewrite Forall_forall in F. now apply F.
  - clear. induction chs as [|x chs IH]; constructor; auto. unfold with_hash. destruct x as [|y x].
    + right. split; [intros [q Q]; discriminate|reflexivity].
    + destruct (byte_eqb_spec y "#") as [->|N]; [left; split; [now exists x|reflexivity]|].
      right. split; [|reflexivity]. intros [q Q]. congruence.
  - intros reads C. destruct (one_received bd c k reads rest (call_line k) S G) as (r' & m & x & R & X & SH).
    + change (run_call c k WOk) with (send_join_all c chs WOk). now rewrite E.
    + exact C.
    + unfold k in X. cbn [call_message] in X. destruct chs as [|c0 chs]; [congruence|]. injection X as <-.
      destruct SH as (T & _ & CM & CH & PA & TX & _). exists r', m. auto.
Qed.

(** C46. For no channels at all, [join_all] still sends a JOIN, which names no channel. *)
Lemma p_c46_join_nothing_refuted :
  exists (c : client) (r : reader) (m : msg_own),
    c_scratch c = [] /\ c_wire c = [] /\
    recv Scalar (mk_reader [] [Got (c_wire (fst (send_join_all c [] WOk)))] false) = Ret (r, Some (Ok m)) /\
    own_command m = Ret Join /\ own_channel m = Ret None.
Proof.
  exists (mk_client [] [] [] reader_new (mk_config (mk_credentials [] None) default_timeout backoff_default)). eexists _, _.
  split; [reflexivity|]. split; [reflexivity|]. split; [vm_compute; reflexivity|]. split; vm_compute; reflexivity.
Qed.

Example ex_c46 :
  Forall no_space [b "a"; b "#b"] /\
  Forall (fun ch => ~ In lf ch /\ ~ In ","%byte ch /\ utf8_valid ch = true) [b "a"; b "#b"] /\
  call_line (CallJoinAll [b "a"; b "#b"]) = b "JOIN #a,#b" ++ crlf.
Proof.
  split; [repeat constructor; unfold no_space; cbn; intuition discriminate|].
  split; [repeat constructor; cbn; intuition discriminate|reflexivity].
Qed.

(** ** C47 *)

(** C47. The answer to a PING carries the nonce of the PING, as this crate reads both. *)
Lemma p_c47_pong_echoes :
  forall (bd bd' : build) (c : client) (l : str) (v : view) (m : msg_ref) (q : ping_msg cow) (rest : list read),
    c_scratch c = [] -> parsed bd l v m -> ~ In lf l -> (N.of_nat (length l) < 4294800000)%N ->
    ping_parse m = Ret (Some q) ->
    exists s, send_pong c q WOk =
        (mk_client [] (c_wire c ++ s) (c_log c ++ [s]) (c_reader c) (c_config c), Done (Ok tt)) /\
      one_line s /\
      forall reads, chunked s reads ->
      exists r m' q', recv bd' (mk_reader [] (reads ++ rest) false) = Ret (r, Some (Ok m')) /\
        pong_parse (own_as_ref m') = Ret (Some q') /\
        option_map deref (po_nonce q') = option_map deref (pi_nonce q) /\
        option_map deref (pi_nonce q) = spec_text v.
Proof.
  intros bd bd' c l v m q rest S P L B Q.
  destruct (parse_reads bd l m (pd_utf8 _ _ _ _ P) (pd_size _ _ _ _ P) (pd_parse _ _ _ _ P)) as (v' & V & RD).
  assert (v' = v) by (pose proof (pd_view _ _ _ _ P); congruence). subst v'.
  assert (EQ : option_map deref (pi_nonce q) = spec_text v).
  { unfold ping_parse in Q. rewrite (rd_command _ _ _ RD) in Q. cbn [bind] in Q.
    destruct (spec_command (v_command v)); try discriminate. rewrite (rd_text _ _ _ RD) in Q. cbn [bind] in Q.
    injection Q as <-. cbn [pi_nonce]. now destruct (spec_text v). }
  assert (IN : forall t, spec_text v = Some t -> infix t l /\ utf8_valid t = true).
  { intros t E. pose proof (rd_raw _ _ _ RD) as RW.
    destruct (p_c10_parts_of_the_line m) as (_ & _ & _ & _ & _ & _ & T); [rewrite RW; apply P|].
    rewrite <- RW. apply T. rewrite (rd_text _ _ _ RD). now rewrite E. }
  set (k := CallPong q).
  assert (G : good_call k).
  { destruct (pi_nonce q) as [n|] eqn:EN.
    - cbn [option_map] in EQ. destruct (IN _ (eq_sym EQ)) as [(x & y & I) U].
      split; [|split; [|exact Logic.I]]; cbn [k call_args call_line]; rewrite EN; cbn [opt_list map].
      + repeat constructor; [exact U|]. intros J. apply L. rewrite I, !in_app_iff. auto.
      + rewrite !app_length. change (length crlf) with 2. change (length (b "PONG :")) with 6.
        assert (length (deref n) <= length l) by (rewrite I, !app_length; lia). lia.
    - split; [|split; [|exact Logic.I]]; cbn [k call_args call_line]; rewrite EN; [constructor|reflexivity]. }
  destruct (p_c45_one_line c k S (pieces_lf k G)) as (s & E & O). exists s. split; [exact E|].
  split; [apply O; destruct G as [G _]; revert G; apply Forall_impl; tauto|].
  intros reads C.
  destruct (one_received bd' c k reads rest s S G) as (r' & m' & x & R & X & SH).
  - now rewrite E.
  - exact C.
  - injection X as <-. destruct SH as (_ & _ & CM & _ & _ & _ & TX).
    exists r', m', (mk_pong (option_map Borrowed (call_text k))).
    split; [exact R|]. split; [|split; [|exact EQ]].
    + unfold pong_parse. change (ref_command (own_as_ref m')) with (own_command m'). rewrite CM. cbn [bind m_command].
      change (spec_command (b "PONG")) with Pong. cbn iota. now rewrite TX.
    + cbn [po_nonce call_text k]. now destruct (pi_nonce q).
Qed.

Example ex_c47 :
  exists v m, parsed Scalar (b "PING :tmi.twitch.tv") v m /\
    ping_parse m = Ret (Some (mk_ping (Some (Borrowed (b "tmi.twitch.tv"))))) /\
    forall c, c_scratch c = [] ->
    c_log (fst (send_pong c (mk_ping (Some (Borrowed (b "tmi.twitch.tv")))) WOk)) =
    c_log c ++ [b "PONG :tmi.twitch.tv" ++ crlf].
Proof.
  eexists _, _. split; [parsed_line|]. split; [vm_compute; reflexivity|].
  intros c S. unfold send_pong. rewrite with_scratch_spec; rewrite S; [reflexivity|]. now exists (b "PONG :tmi.twitch.tv").
Qed.
