(** * RecvProofs: receiving (C55, C59). *)

From Verif Require Import Base Wide Tags Irc SpecIrc MsgBase MsgTypes SpecMsg Common Client SpecClient.
From Coq Require Import Lia.
From Verif Require Import BaseFacts IrcFacts Utf8Facts.

Lemma lf_ascii : ascii lf = true. Proof. reflexivity. Qed.
Lemma cr_ascii : ascii cr = true. Proof. reflexivity. Qed.

Lemma chomp_total (l : str) : exists l', chomp l l'.
Proof.
  destruct (strip_suffix [cr] l) as [l'|] eqn:E.
  - exists l'. left. now apply strip_suffix_spec.
  - exists l. right. split; [reflexivity|]. intros x ->.
    rewrite (proj2 (strip_suffix_spec [cr] (x ++ [cr]) x) eq_refl) in E. discriminate.
Qed.

Lemma chomp_unique (l x y : str) : chomp l x -> chomp l y -> x = y.
Proof.
  intros [->|[-> N]] [E|[E M]].
  - now apply app_inj_tail in E.
  - subst y. exfalso. now apply (M x).
  - exfalso. now apply (N y).
  - assumption.
Qed.

Definition line_item (l : str) : result str io_kind :=
  if utf8_valid l then Ok l else Err InvalidData.

Lemma finish_line_lf (l l' : str) : chomp l l' -> finish_line (l ++ [lf]) = line_item l'.
Proof.
  intros C. unfold finish_line, line_item.
  rewrite (utf8_split l [] lf lf_ascii). cbn [utf8_valid]. rewrite andb_true_r.
  rewrite (proj2 (strip_suffix_spec [lf] (l ++ [lf]) l) eq_refl).
  destruct C as [->|[-> N]].
  - rewrite (utf8_split l' [] cr cr_ascii). cbn [utf8_valid]. rewrite andb_true_r.
    now rewrite (proj2 (strip_suffix_spec [cr] (l' ++ [cr]) l') eq_refl).
  - destruct (strip_suffix [cr] l') as [x|] eqn:E; [|reflexivity].
    apply strip_suffix_spec in E. now apply N in E.
Qed.

Lemma finish_line_rest (l : str) : ~ In lf l -> finish_line l = line_item l.
Proof.
  intros N. unfold finish_line, line_item. destruct (strip_suffix [lf] l) as [x|] eqn:E; [|reflexivity].
  apply strip_suffix_spec in E. subst l. exfalso. apply N. apply in_or_app. right. now left.
Qed.

Definition gots (cs : list str) : list read := map Got cs.

Definition filled (cs : list str) : Prop := Forall (fun c => c <> []) cs.

(** No line feed: everything is read. *)
Lemma poll_line_none (cs : list str) (tail : list read) :
  filled cs -> forall buf, ~ In lf (buf ++ concat cs) ->
  poll_line buf (gots cs ++ tail) = poll_line (buf ++ concat cs) tail.
Proof.
  induction 1 as [|c cs Hc F IH]; intros buf N.
  - cbn [gots map concat app] in *. now rewrite app_nil_r.
  - cbn [gots map concat app poll_line] in *.
    assert (E : find_byte lf buf = None).
    { apply find_byte_none. intros I. apply N. apply in_or_app. now left. }
    rewrite E. destruct c as [|x c]; [congruence|].
    change (map Got cs) with (gots cs). rewrite IH; rewrite <- app_assoc; [reflexivity|exact N].
Qed.

(** The first line. *)
Lemma poll_line_some (cs : list str) (tail : list read) :
  filled cs -> forall buf l l' rest,
  ~ In lf l -> chomp l l' -> buf ++ concat cs = l ++ [lf] ++ rest ->
  exists buf' cs', filled cs' /\ buf' ++ concat cs' = rest /\
    poll_line buf (gots cs ++ tail) = (buf', gots cs' ++ tail, Item (Some (line_item l'))).
Proof.
  intros F. induction F as [|c cs Hc F IH]; intros buf l l' rest N C E.
  - cbn [concat] in E. rewrite app_nil_r in E. subst buf. cbn [gots map app].
    exists rest, []. split; [constructor|]. split; [cbn; apply app_nil_r|].
    assert (P : forall reads, poll_line (l ++ [lf] ++ rest) reads = (rest, reads, Item (Some (line_item l')))).
    { intros reads. assert (H : find_byte lf (l ++ [lf] ++ rest) = Some (length l)) by now apply find_byte_app.
      destruct reads; cbn [poll_line]; rewrite H, app_assoc; rewrite <- (finish_line_lf l l' C);
      replace (length l + 1) with (length (l ++ [lf])) by (rewrite app_length; reflexivity);
      rewrite firstn_app, firstn_all, Nat.sub_diag, skipn_app, skipn_all, Nat.sub_diag; cbn [firstn skipn app];
      now rewrite app_nil_r. }
    cbn [gots map app]. apply P.
  - destruct (find_byte lf buf) as [i|] eqn:Fd.
    + pose proof Fd as Fd0. apply find_byte_some in Fd as (x & r & -> & <- & Nx).
      assert (Q : x = l /\ r ++ concat (c :: cs) = rest).
      { rewrite <- app_assoc in E. cbn [app] in E. now apply (first_split_unique lf) in E. }
      destruct Q as [-> Q]. exists r, (c :: cs). split; [now constructor|]. split; [exact Q|].
      cbn [gots map app poll_line]. rewrite Fd0. rewrite <- (finish_line_lf l l' C).
      replace (l ++ lf :: r) with ((l ++ [lf]) ++ r) by (now rewrite <- app_assoc).
      replace (length l + 1) with (length (l ++ [lf])) by (rewrite app_length; reflexivity).
      rewrite firstn_app, firstn_all, Nat.sub_diag, skipn_app, skipn_all, Nat.sub_diag. cbn [firstn skipn app].
      now rewrite app_nil_r.
    + cbn [gots map app poll_line]. rewrite Fd. destruct c as [|x c]; [congruence|].
      apply IH with (l := l); auto. rewrite <- app_assoc. exact E.
Qed.

(** ** Reading depends only on the bytes *)

Inductive same_bytes : reader -> reader -> Prop :=
| sb_intro b1 b2 cs1 cs2 tail e :
    filled cs1 -> filled cs2 -> b1 ++ concat cs1 = b2 ++ concat cs2 ->
    same_bytes (mk_reader b1 (gots cs1 ++ tail) e) (mk_reader b2 (gots cs2 ++ tail) e).

Lemma same_refl (r : reader) : same_bytes r r.
Proof. destruct r as [bf rs e]. apply (sb_intro bf bf [] [] rs e); try constructor. Qed.

Lemma poll_next_same (r1 r2 : reader) :
  same_bytes r1 r2 ->
  snd (poll_next r1) = snd (poll_next r2) /\ same_bytes (fst (poll_next r1)) (fst (poll_next r2)).
Proof.
  intros [b1 b2 cs1 cs2 tail e F1 F2 E]. unfold poll_next. cbn [rd_ended rd_buf rd_reads].
  destruct e; [split; [reflexivity|now constructor]|].
  destruct (in_dec byte_eq_dec lf (b1 ++ concat cs1)) as [I|N].
  - apply in_split_first in I as (l & rest & EL & N).
    destruct (chomp_total l) as [l' C].
    destruct (poll_line_some cs1 tail F1 b1 l l' rest N C EL) as (b1' & cs1' & G1 & Q1 & ->).
    rewrite E in EL.
    destruct (poll_line_some cs2 tail F2 b2 l l' rest N C EL) as (b2' & cs2' & G2 & Q2 & ->).
    cbn [fst snd]. split; [reflexivity|]. constructor; congruence.
  - rewrite (poll_line_none cs1 tail F1 b1 N). rewrite E in N.
    rewrite (poll_line_none cs2 tail F2 b2 N). rewrite E.
    split; [reflexivity|]. destruct (poll_line _ tail) as [[b' rs'] [|[?|]]]; apply same_refl.
Qed.

Lemma recv_same (bd : build) (r1 r2 : reader) :
  same_bytes r1 r2 ->
  (exists r1' r2' o, recv bd r1 = Ret (r1', o) /\ recv bd r2 = Ret (r2', o) /\ same_bytes r1' r2') \/
  (recv bd r1 = recv bd r2 /\ forall x, recv bd r1 <> Ret x).
Proof.
  intros S. destruct (poll_next_same r1 r2 S) as [E S']. unfold recv.
  destruct (poll_next r1) as [r1' p1]. destruct (poll_next r2) as [r2' p2]. cbn [fst snd] in *. subst p2.
  destruct p1 as [|[[l|e]|]]; try (left; now repeat eexists).
  destruct (own_parse bd l) as [[m|]| | |]; cbn [bind]; try (left; now repeat eexists);
    right; split; try reflexivity; discriminate.
Qed.

Lemma recvs_same (n : nat) : forall (bd : nat -> build) (r1 r2 : reader),
  same_bytes r1 r2 -> rmap snd (recvs bd n r1) = rmap snd (recvs bd n r2).
Proof.
  induction n as [|n IH]; intros bd r1 r2 S; [reflexivity|]. cbn [recvs].
  destruct (recv_same (bd 0) r1 r2 S) as [(r1' & r2' & o & -> & -> & S')|[-> X]].
  - cbn [bind]. specialize (IH (fun i => bd (Datatypes.S i)) r1' r2' S').
    destruct (recvs _ n r1') as [[x1 y1]| | |], (recvs _ n r2') as [[x2 y2]| | |]; cbn in *; congruence.
  - reflexivity.
Qed.

(** C55. What is received depends on the bytes only, not on how they are split
    into reads; whatever follows them (the end of the stream, an error, more
    data), and however many times one receives. *)
Lemma p_c55_chunking_irrelevant :
  forall (bd : nat -> build) (s : str) (reads reads' rest : list read) (n : nat),
    chunked s reads -> chunked s reads' ->
    rmap snd (recvs bd n (mk_reader [] (reads ++ rest) false)) =
    rmap snd (recvs bd n (mk_reader [] (reads' ++ rest) false)).
Proof.
  intros bd s reads reads' rest n (cs & -> & F & E) (cs' & -> & F' & E').
  apply recvs_same. apply (sb_intro [] [] cs cs' rest false F F'). cbn [app]. congruence.
Qed.

(** ** Framing *)

Lemma recv_line (bd : build) (l : str) (o : result msg_own recv_error) (r r' : reader) :
  poll_next r = (r', Item (Some (line_item l))) -> line_result bd l o -> recv bd r = Ret (r', Some o).
Proof.
  intros P R. unfold recv. rewrite P. unfold line_item.
  destruct R as [[U ->]|[U [(m & E & ->)|[E ->]]]]; rewrite U; [reflexivity| |]; rewrite E; reflexivity.
Qed.

Lemma lines_recvs (s rest : str) (ls : list str) :
  lines_then s ls rest ->
  forall (bd : nat -> build) (os : list (result msg_own recv_error)) (buf : str) (cs : list str) (tail : list read),
  filled cs -> buf ++ concat cs = s -> results bd ls os ->
  exists buf' cs', filled cs' /\ buf' ++ concat cs' = rest /\
  recvs bd (length ls) (mk_reader buf (gots cs ++ tail) false) =
  Ret (mk_reader buf' (gots cs' ++ tail) false, map Some os).
Proof.
  induction 1 as [s N|l l' s ls rest N C H IH]; intros bd os buf cs tail F E R.
  - inversion R; subst. exists buf, cs. auto.
  - inversion R as [|? ? o os' R1 R2]; subst. cbn [length recvs].
    destruct (poll_line_some cs tail F buf l l' s N C E) as (b1 & cs1 & F1 & E1 & P).
    assert (PN : poll_next (mk_reader buf (gots cs ++ tail) false) =
                 (mk_reader b1 (gots cs1 ++ tail) false, Item (Some (line_item l')))).
    { unfold poll_next. cbn [rd_ended rd_buf rd_reads]. now rewrite P. }
    rewrite (recv_line (bd 0) l' o _ _ PN R1). cbn [bind].
    destruct (IH (fun i => bd (S i)) os' b1 cs1 tail F1 E1 R2) as (b2 & cs2 & F2 & E2 & ->).
    exists b2, cs2. auto.
Qed.

Lemma recvs_app (n m : nat) : forall (bd : nat -> build) (r : reader),
  recvs bd (n + m) r =
  let! (r1, o1) := recvs bd n r in
  let! (r2, o2) := recvs (fun i => bd (n + i)) m r1 in Ret (r2, o1 ++ o2).
Proof.
  induction n as [|n IH]; intros bd r.
  - cbn [Nat.add recvs bind app]. destruct (recvs (fun i => bd i) m r) as [[r2 o2]| | |]; reflexivity.
  - cbn [Nat.add recvs]. destruct (recv (bd 0) r) as [[r1 o]| | |]; try reflexivity. cbn [bind].
    rewrite IH. destruct (recvs _ n r1) as [[r2 o2]| | |]; try reflexivity. cbn [bind].
    destruct (recvs _ m r2) as [[r3 o3]| | |]; reflexivity.
Qed.

Lemma recvs_ended (n : nat) : forall (bd : nat -> build) (buf : str) (reads : list read),
  recvs bd n (mk_reader buf reads true) =
  Ret (mk_reader buf reads true, repeat (Some (Err RecvStreamClosed)) n).
Proof. induction n as [|n IH]; intros; cbn [recvs repeat]; [reflexivity|]. unfold recv, poll_next at 1. cbn. now rewrite IH. Qed.

Lemma recvs_close (n : nat) (bd : nat -> build) (reads : list read) :
  exists r, recvs bd n (mk_reader [] (Got [] :: reads) false) = Ret (r, repeat (Some (Err RecvStreamClosed)) n).
Proof.
  destruct n as [|n]; [eexists; reflexivity|]. cbn [recvs repeat]. cbn.
  rewrite recvs_ended. eexists. reflexivity.
Qed.

Lemma framed_lines (s : str) (ls : list str) :
  framed s ls ->
  lines_then s ls [] \/ exists ls1 l, ls = ls1 ++ [l] /\ l <> [] /\ ~ In lf l /\ lines_then s ls1 l.
Proof.
  induction 1 as [|l N1 N2|l l' s ls N C F IH].
  - left. constructor. auto.
  - right. exists [], l. repeat split; auto. now constructor.
  - destruct IH as [IH|(ls1 & x & -> & A & B & D)].
    + left. now constructor.
    + right. exists (l' :: ls1), x. repeat split; auto. now constructor.
Qed.

Lemma results_app (ls1 : list str) : forall (bd : nat -> build) (ls2 : list str) (os : list (result msg_own recv_error)),
  results bd (ls1 ++ ls2) os ->
  exists os1 os2, os = os1 ++ os2 /\ results bd ls1 os1 /\ results (fun i => bd (length ls1 + i)) ls2 os2.
Proof.
  induction ls1 as [|l ls1 IH]; intros bd ls2 os R.
  - exists [], os. repeat split; [constructor|exact R].
  - inversion R as [|? ? o os' R1 R2]; subst. destruct (IH _ _ _ R2) as (os1 & os2 & -> & A & B).
    exists (o :: os1), os2. repeat split; [now constructor|exact B].
Qed.

(** C55. Every complete line received gives its result, in order, whatever follows. *)
Lemma p_c55_lines :
  forall (bd : nat -> build) (s : str) (ls : list str) (rest : str) (reads tail : list read)
    (os : list (result msg_own recv_error)),
    chunked s reads -> lines_then s ls rest -> results bd ls os ->
    exists r, recvs bd (length ls) (mk_reader [] (reads ++ tail) false) = Ret (r, map Some os).
Proof.
  intros bd s ls rest reads tail os (cs & -> & F & ->) L R.
  destruct (lines_recvs _ _ _ L bd os [] cs tail F eq_refl R) as (b' & cs' & _ & _ & E). eauto.
Qed.

(** C55. A whole stream: one result per line, a last line without line feed
    included, and then [StreamClosed] for ever. *)
Lemma p_c55_stream :
  forall (bd : nat -> build) (s : str) (ls : list str) (reads : list read)
    (os : list (result msg_own recv_error)) (k : nat),
    chunked s reads -> framed s ls -> results bd ls os ->
    exists r, recvs bd (length ls + k) (mk_reader [] (reads ++ [Got []; Got []]) false) =
      Ret (r, map Some os ++ repeat (Some (Err RecvStreamClosed)) k).
Proof.
  intros bd s ls reads os k (cs & -> & F & ->) Fr R. change (map Got cs) with (gots cs).
  apply framed_lines in Fr as [L|(ls1 & l & -> & Nl & N & L)].
  - destruct (lines_recvs _ _ _ L bd os [] cs [Got []; Got []] F eq_refl R) as (b' & cs' & F' & E' & E).
    rewrite recvs_app, E. cbn [bind]. apply app_eq_nil in E' as [-> E'].
    assert (cs' = []) as ->. { destruct F' as [|c cs' Hc F']; [reflexivity|]. cbn in E'. apply app_eq_nil in E' as [E' _]. congruence. }
    cbn [gots map app]. destruct (recvs_close k (fun i => bd (length ls + i)) [Got []]) as [r ->]. cbn [bind]. eauto.
  - apply results_app in R as (os1 & os2 & -> & R1 & R2). inversion R2 as [|? ? o os' R3 R4]; subst. inversion R4; subst.
    destruct (lines_recvs _ _ _ L bd os1 [] cs [Got []; Got []] F eq_refl R1) as (b' & cs' & F' & E' & E).
    rewrite app_length. cbn [length]. rewrite <- Nat.add_assoc, recvs_app, E. cbn [bind].
    cbn [Nat.add recvs].
    assert (P : poll_next (mk_reader b' (gots cs' ++ [Got []; Got []]) false) =
                (mk_reader [] [Got []] false, Item (Some (line_item l)))).
    { unfold poll_next. cbn [rd_ended rd_buf rd_reads]. rewrite (poll_line_none cs' _ F' b') by now rewrite E'.
      rewrite E'. cbn [poll_line]. rewrite (proj2 (find_byte_none lf l) N). destruct l; [congruence|].
      now rewrite finish_line_rest. }
    rewrite (recv_line _ l o _ _ P R3). cbn [bind].
    destruct (recvs_close k (fun i => bd (length ls1 + S i)) []) as [r ->]. cbn [bind].
    exists r. rewrite map_app. cbn [map]. now rewrite <- app_assoc.
Qed.

(** C55. The lines of a stream are unique. *)
Lemma p_c55_framing_unique :
  forall s : str, exists! ls, framed s ls.
Proof.
  assert (T : forall n (s : str), length s <= n -> exists ls, framed s ls).
  { induction n as [|n IH]; intros s L.
    - destruct s; [|cbn in L; lia]. exists []. constructor.
    - destruct (in_dec byte_eq_dec lf s) as [I|N].
      + apply in_split_first in I as (l & r & -> & N). destruct (chomp_total l) as [l' C].
        destruct (IH r) as [ls F]. { rewrite app_length in L. cbn in L. lia. }
        exists (l' :: ls). now apply (fr_line l l' r ls).
      + destruct s as [|c s]; [exists []; constructor|]. exists [c :: s]. constructor; [discriminate|exact N]. }
  assert (U : forall (s : str) ls, framed s ls -> forall ls', framed s ls' -> ls = ls').
  { induction 1 as [|l N1 N2|l l' s ls N C F IH]; intros ls' F'.
    - inversion F' as [|? A _ E|l l' s ls N C F E]; subst; [reflexivity|congruence|]. now destruct l.
    - inversion F' as [E|? A B E|x x' s ls N C F E]; subst; [congruence|reflexivity|].
      exfalso. apply N2. apply in_or_app. right. now left.
    - inversion F' as [E|? A B E|x x' s' ls'' N' C' F'' E]; subst.
      + now destruct l.
      + exfalso. apply B. apply in_or_app. right. now left.
      + apply (first_split_unique lf) in E as [-> ->]; auto. f_equal; [eapply chomp_unique; eauto|auto]. }
  intros s. destruct (T (length s) s) as [ls F]; [lia|]. exists ls. split; [exact F|]. intros ls' F'. now apply (U s).
Qed.

(** C55. A failed read gives an I/O error after the lines received before. *)
Lemma p_c55_read_error :
  forall (bd : nat -> build) (s : str) (ls : list str) (rest : str) (reads tail : list read)
    (os : list (result msg_own recv_error)) (e : io_kind),
    chunked s reads -> lines_then s ls rest -> results bd ls os ->
    exists r, recvs bd (length ls + 1) (mk_reader [] (reads ++ [Fault e] ++ tail) false) =
      Ret (r, map Some os ++ [Some (Err (RecvIo e))]).
Proof.
  intros bd s ls rest reads tail os e (cs & -> & F & ->) L R. change (map Got cs) with (gots cs).
  assert (NR : ~ In lf rest) by (clear -L; induction L; auto).
  destruct (lines_recvs _ _ _ L bd os [] cs ([Fault e] ++ tail) F eq_refl R) as (b' & cs' & F' & E' & E).
  rewrite recvs_app, E. cbn [bind recvs].
  assert (P : poll_next (mk_reader b' (gots cs' ++ [Fault e] ++ tail) false) =
              (mk_reader [] tail false, Item (Some (Err e)))).
  { unfold poll_next. cbn [rd_ended rd_buf rd_reads]. rewrite (poll_line_none cs' _ F' b') by now rewrite E'.
    rewrite E'. cbn [app poll_line]. now rewrite (proj2 (find_byte_none lf rest) NR). }
  unfold recv. rewrite P. cbn [bind]. eauto.
Qed.

(** ** Dropped futures *)

Lemma poll_line_item (reads : list read) : forall (buf b' : str) (rs' : list read) (i : option (result str io_kind)) (x : list read),
  poll_line buf reads = (b', rs', Item i) -> poll_line buf (reads ++ x) = (b', rs' ++ x, Item i).
Proof.
  assert (H : forall buf n x, find_byte lf buf = Some n ->
    poll_line buf x = (skipn (n + 1) buf, x, Item (Some (finish_line (firstn (n + 1) buf))))).
  { intros buf n x E. destruct x; cbn [poll_line]; now rewrite E. }
  induction reads as [|rd reads IH]; intros buf b' rs' i x E.
  - cbn [poll_line] in E. destruct (find_byte lf buf) as [n|] eqn:Fd; [|discriminate].
    rewrite (H _ n) by assumption. injection E as <- <- <-. reflexivity.
  - cbn [poll_line app] in *. destruct (find_byte lf buf) as [n|] eqn:Fd.
    + injection E as <- <- <-. reflexivity.
    + destruct rd as [[|c chunk]|e].
      * destruct buf; injection E as <- <- <-; reflexivity.
      * now apply IH.
      * injection E as <- <- <-; reflexivity.
Qed.

Lemma poll_line_pending (reads : list read) : forall (buf b' : str) (rs' x : list read),
  poll_line buf reads = (b', rs', Pending) -> rs' = [] /\ poll_line buf (reads ++ x) = poll_line b' x.
Proof.
  induction reads as [|rd reads IH]; intros buf b' rs' x E.
  - cbn [poll_line] in E. destruct (find_byte lf buf) eqn:Fd; [discriminate|]. injection E as <- <-. auto.
  - cbn [poll_line app] in *. destruct (find_byte lf buf) as [n|] eqn:Fd; [discriminate|].
    destruct rd as [[|c chunk]|e]; [destruct buf; discriminate| |discriminate]. now apply IH.
Qed.

Lemma recv_ready (bd : build) (r r' : reader) (o : result msg_own recv_error) (x : list read) :
  recv bd r = Ret (r', Some o) -> recv bd (arrive r x) = Ret (arrive r' x, Some o).
Proof.
  assert (P : forall q i, poll_next r = (q, Item i) -> poll_next (arrive r x) = (arrive q x, Item i)).
  { intros q i. unfold poll_next. destruct r as [bf rs [|]]; cbn [arrive rd_ended rd_buf rd_reads].
    - intros [= <- <-]. reflexivity.
    - destruct (poll_line bf rs) as [[b1 r1] p] eqn:E. destruct p as [|j]; [discriminate|].
      rewrite (poll_line_item _ _ _ _ _ x E). destruct j; intros [= <- <-]; reflexivity. }
  unfold recv. destruct (poll_next r) as [q p] eqn:E. destruct p as [|i]; [discriminate|].
  rewrite (P q i eq_refl). destruct i as [[l|e]|].
  - destruct (own_parse bd l) as [[m|]| | |]; cbn [bind]; try discriminate; intros [= <- <-]; reflexivity.
  - intros [= <- <-]. reflexivity.
  - intros [= <- <-]. reflexivity.
Qed.

Lemma recv_pending (bd : build) (r r' : reader) (x : list read) :
  recv bd r = Ret (r', None) -> recv bd (arrive r' x) = recv bd (arrive r x).
Proof.
  intros H. unfold recv at 1 2.
  assert (P : poll_next (arrive r' x) = poll_next (arrive r x)); [|now rewrite P].
  unfold recv in H. destruct (poll_next r) as [q p] eqn:E. destruct p as [|[[l|e]|]]; try discriminate.
  2: { destruct (own_parse bd l) as [[m|]| | |]; discriminate. }
  injection H as ->. unfold poll_next in *. destruct r as [bf rs [|]]; cbn [arrive rd_ended rd_buf rd_reads] in *; [discriminate|].
  destruct (poll_line bf rs) as [[b1 r1] p] eqn:E1. destruct p as [|i]; [|destruct i; discriminate].
  injection E as <-. destruct (poll_line_pending _ _ _ _ x E1) as [-> E2]. cbn [rd_ended rd_buf rd_reads app].
  now rewrite E2.
Qed.

Lemma arrive_arrive (r : reader) (x y : list read) : arrive (arrive r x) y = arrive r (x ++ y).
Proof. unfold arrive. cbn. now rewrite app_assoc. Qed.

(** C55. Dropping an unfinished [recv] loses nothing: the results obtained are those
    of receiving everything at once. *)
Lemma p_c55_cancel_safe :
  forall (bd : build) (steps : list (list read)) (r r' : reader) (os : list (option (result msg_own recv_error))),
    tries_to_recv bd steps r = Ret (r', os) ->
    exists r'', recvs (fun _ => bd) (length (completed os)) (arrive r (concat steps)) = Ret (r'', completed os).
Proof.
  intros bd. induction steps as [|reads steps IH]; intros r r' os H; cbn [tries_to_recv concat] in *.
  - injection H as <- <-. cbn. eauto.
  - rewrite <- arrive_arrive. set (r0 := arrive r reads) in *. clearbody r0.
    destruct (recv bd r0) as [[r1 o]| | |] eqn:E; try discriminate. cbn [bind] in H.
    destruct (tries_to_recv bd steps r1) as [[r2 os']| | |] eqn:E2; try discriminate. cbn [bind] in H.
    injection H as -> <-. destruct (IH _ _ _ E2) as [q Q]. destruct o as [o|]; cbn [completed filter].
    + change (filter _ os') with (completed os'). cbn [length recvs]. rewrite (recv_ready _ _ _ _ (concat steps) E). cbn [bind].
      rewrite Q. cbn [bind]. eauto.
    + change (filter _ os') with (completed os'). destruct (length (completed os')) as [|n].
      * cbn [recvs] in *. injection Q as Q1 Q2. rewrite <- Q2. eauto.
      * cbn [recvs] in *. rewrite (recv_pending _ _ _ (concat steps) E) in Q. eauto.
Qed.

(** ** C59 *)

(** C59. The errors that count as a disconnect. *)
Lemma p_c59_is_disconnect :
  forall e : recv_error,
    is_disconnect e = true <->
    e = RecvStreamClosed \/ e = RecvIo UnexpectedEof \/ e = RecvIo ConnectionAborted \/ e = RecvIo TimedOut.
Proof.
  intros e. split.
  - destruct e as [[]| |]; cbn; intros H; try discriminate; auto.
  - intros [->|[->|[->| ->]]]; reflexivity.
Qed.

(** C59. That every error after which nothing more can be received counts is false:
    a connection reset by the peer does not. *)
Lemma p_c59_any_lost_connection_refuted :
  exists (bd : build) (r r' : reader) (e : recv_error),
    recv bd r = Ret (r', Some (Err e)) /\ (e = RecvIo ConnectionReset \/ e = RecvIo BrokenPipe) /\
    is_disconnect e = false.
Proof.
  exists Scalar, (mk_reader [] [Fault ConnectionReset] false). eexists _, _.
  split; [cbn; reflexivity|]. split; [now left|reflexivity].
Qed.

Example ex_c59 : is_disconnect (RecvIo TimedOut) = true /\ is_disconnect (RecvParse (b "x")) = false.
Proof. split; reflexivity. Qed.

Example ex_c55 :
  exists r m1 m2,
    chunked (b "PING :a" ++ crlf ++ b " bad" ++ [lf] ++ b "JOIN #c") (map Got [b "PI"; b "NG :a" ++ [cr]; [lf]; b " bad" ++ [lf] ++ b "JOIN #c"]) /\
    framed (b "PING :a" ++ crlf ++ b " bad" ++ [lf] ++ b "JOIN #c") [b "PING :a"; b " bad"; b "JOIN #c"] /\
    recvs (fun _ => Scalar) 5
      (mk_reader [] (map Got [b "PI"; b "NG :a" ++ [cr]; [lf]; b " bad" ++ [lf] ++ b "JOIN #c"] ++ [Got []; Got []]) false) =
    Ret (r, [Some (Ok m1); Some (Err (RecvParse (b " bad"))); Some (Ok m2);
             Some (Err RecvStreamClosed); Some (Err RecvStreamClosed)]) /\
    own_raw m1 = b "PING :a" /\ own_raw m2 = b "JOIN #c".
Proof.
  eexists _, _, _. split; [|split; [|split; [vm_compute; reflexivity|split; reflexivity]]].
  - eexists. split; [reflexivity|]. split; [repeat constructor; discriminate|reflexivity].
  - apply (fr_line (b "PING :a" ++ [cr]) (b "PING :a")).
    + cbn. intuition discriminate.
    + now left.
    + apply (fr_line (b " bad") (b " bad")).
      * cbn. intuition discriminate.
      * right. split; [reflexivity|]. intros x E. apply (f_equal (@rev byte)) in E. rewrite rev_app_distr in E. discriminate.
      * constructor; [discriminate|]. cbn. intuition discriminate.
Qed.
