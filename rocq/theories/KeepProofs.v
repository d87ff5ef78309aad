(** * KeepProofs: what the reader reads and keeps (C91). *)

From Verif Require Import Base Wide Tags Irc SpecIrc MsgBase MsgTypes SpecMsg Common Client SpecClient SpecKeep.
From Coq Require Import Lia.
From Verif Require Import BaseFacts IrcFacts Utf8Facts.

Lemma bytes_of_app (x y : list read) : bytes_of (x ++ y) = bytes_of x ++ bytes_of y.
Proof. unfold bytes_of. now rewrite map_app, concat_app. Qed.

(** Everything about one [poll_line]. *)
Inductive polls (buf : str) (reads : list read) : str -> list read -> polled -> Prop :=
| polls_buf l rest p : buf = l ++ lf :: rest -> polls buf reads rest reads (Item (Some p))
| polls_wait : ~ In lf buf -> Forall inside_line reads -> polls buf reads (buf ++ bytes_of reads) [] Pending
| polls_read pre l rest reads' p : ~ In lf buf -> Forall inside_line pre -> ~ In lf l ->
    reads = pre ++ Got (l ++ lf :: rest) :: reads' -> polls buf reads rest reads' (Item (Some p))
| polls_fault pre e reads' p : ~ In lf buf -> Forall inside_line pre ->
    reads = pre ++ Fault e :: reads' -> polls buf reads [] reads' (Item p)
| polls_end pre reads' p : ~ In lf buf -> Forall inside_line pre ->
    reads = pre ++ Got [] :: reads' -> polls buf reads [] reads' (Item p).

Lemma poll_line_lf (reads : list read) (l r : str) : ~ In lf l ->
  poll_line (l ++ lf :: r) reads = (r, reads, Item (Some (finish_line (l ++ [lf])))).
Proof.
  intros N.
  assert (S : skipn (length l + 1) (l ++ lf :: r) = r).
  { rewrite skipn_app, skipn_all2 by lia. now replace (length l + 1 - length l) with 1 by lia. }
  assert (T : firstn (length l + 1) (l ++ lf :: r) = l ++ [lf]).
  { rewrite firstn_app, firstn_all2 by lia. now replace (length l + 1 - length l) with 1 by lia. }
  destruct reads; cbn [poll_line]; now rewrite find_byte_app, S, T by assumption.
Qed.

Lemma poll_line_polls (reads : list read) :
  forall buf, let '(buf', reads', p) := poll_line buf reads in polls buf reads buf' reads' p.
Proof.
  induction reads as [|x reads IH]; intros buf.
  - destruct (byte_in_dec lf buf) as [I|I].
    + apply in_split_first in I as (l & r & -> & N). rewrite poll_line_lf by assumption. eapply polls_buf; reflexivity.
    + cbn [poll_line]. rewrite (proj2 (find_byte_none _ _) I).
      replace buf with (buf ++ bytes_of []) at 2 by apply app_nil_r. now constructor.
  - destruct (byte_in_dec lf buf) as [I|I].
    { apply in_split_first in I as (l & r & -> & N). rewrite poll_line_lf by assumption. eapply polls_buf; reflexivity. }
    cbn [poll_line]. rewrite (proj2 (find_byte_none _ _) I). destruct x as [[|c chunk]|e].
    + destruct buf; eapply (polls_end _ _ []); auto.
    + assert (NE : c :: chunk <> []) by discriminate. set (ch := c :: chunk) in *. clearbody ch.
      destruct (byte_in_dec lf ch) as [J|J].
      * apply in_split_first in J as (l & r & -> & N). rewrite app_assoc, poll_line_lf by (rewrite in_app_iff; tauto).
        now eapply (polls_read _ _ [] l).
      * specialize (IH (buf ++ ch)). destruct (poll_line (buf ++ ch) reads) as [[buf' reads'] p].
        assert (K : ~ In lf (buf ++ ch)) by (rewrite in_app_iff; tauto).
        assert (L : inside_line (Got ch)) by now split.
        destruct IH as [l rest p E|_ F|pre l rest reads' p _ F N ->|pre e reads' p _ F ->|pre reads' p _ F ->].
        -- exfalso. apply K. rewrite E. apply in_elt.
        -- rewrite <- app_assoc. apply (polls_wait buf (Got ch :: reads)); auto.
        -- now apply (polls_read _ _ (Got ch :: pre) l); auto.
        -- now apply (polls_fault _ _ (Got ch :: pre) e); auto.
        -- now apply (polls_end _ _ (Got ch :: pre)); auto.
    + now apply (polls_fault _ _ [] e).
Qed.

(** What [recv] does to the reader. *)
Lemma recv_polls (bd : build) (r r' : reader) (o : option (result msg_own recv_error)) :
  recv bd r = Ret (r', o) ->
  (rd_ended r = true /\ r' = r /\ o = Some (Err RecvStreamClosed)) \/
  (rd_ended r = false /\
   exists p, polls (rd_buf r) (rd_reads r) (rd_buf r') (rd_reads r') p /\
     match p with Pending => o = None /\ rd_ended r' = false | Item _ => o <> None end).
Proof.
  unfold recv, poll_next. destruct (rd_ended r) eqn:E.
  - intros H. injection H as <- <-. now left.
  - right. split; [reflexivity|]. pose proof (poll_line_polls (rd_reads r) (rd_buf r)) as P.
    destruct (poll_line (rd_buf r) (rd_reads r)) as [[buf' reads'] p].
    destruct p as [|[[l|e]|]].
    + injection H as <- <-. exists Pending. auto.
    + destruct (own_parse bd l) as [[m|]| | |]; cbn in H; try discriminate; injection H as <- <-;
        eexists; (split; [exact P|cbn; discriminate]).
    + injection H as <- <-. eexists. split; [exact P|cbn; discriminate].
    + injection H as <- <-. eexists. split; [exact P|cbn; discriminate].
Qed.

(** C91. [recv] is not ready exactly if the connection is still open and all that has
    come since the last line has no line feed in it; it then keeps all of it. *)
Lemma p_c91_waits :
  forall (bd : build) (r r' : reader),
    recv bd r = Ret (r', None) <->
    rd_ended r = false /\ ~ In lf (rd_buf r) /\ Forall inside_line (rd_reads r) /\
    r' = mk_reader (rd_buf r ++ bytes_of (rd_reads r)) [] false.
Proof.
  intros bd r r'. split.
  - intros H. apply recv_polls in H as [(_ & _ & X)|(E & p & P & Q)]; [discriminate|].
    destruct p as [|i]; [|now destruct Q]. destruct Q as (_ & Q). split; [exact E|].
    inversion P as [|N F E1 E2| | |]. split; [exact N|]. split; [exact F|].
    destruct r' as [b' s' e']; cbn in *. now subst.
  - intros (E & N & F & ->). unfold recv, poll_next. rewrite E. clear E.
    assert (K : poll_line (rd_buf r) (rd_reads r) = (rd_buf r ++ bytes_of (rd_reads r), [], Pending)).
    { revert N F. generalize (rd_buf r) (rd_reads r). intros buf reads. revert buf.
      induction reads as [|x reads IH]; intros buf N F.
      - cbn [poll_line]. rewrite (proj2 (find_byte_none _ _) N). cbn. now rewrite app_nil_r.
      - apply Forall_cons_iff in F as [X F]. destruct x as [ch|]; [|contradiction]. destruct X as [NE X].
        cbn [poll_line]. rewrite (proj2 (find_byte_none _ _) N). destruct ch as [|c ch]; [contradiction|].
        rewrite IH; [|rewrite in_app_iff; tauto|assumption]. now rewrite <- app_assoc. }
    now rewrite K.
Qed.

(** C91. A result uses no read that it does not need: none if there is a line in what
    is kept; otherwise those up to the first that brings a line feed, the end or an
    error, and what comes after the line feed is kept. *)
Lemma p_c91_reads_no_more :
  forall (bd : build) (r r' : reader) (x : result msg_own recv_error),
    recv bd r = Ret (r', Some x) ->
    (rd_ended r = true /\ r' = r) \/
    (exists l, rd_buf r = l ++ lf :: rd_buf r' /\ rd_reads r' = rd_reads r) \/
    (~ In lf (rd_buf r) /\
     exists pre last, rd_reads r = pre ++ last :: rd_reads r' /\ Forall inside_line pre /\
       match last with
       | Got [] | Fault _ => rd_buf r' = []
       | Got bytes => exists l, bytes = l ++ lf :: rd_buf r' /\ ~ In lf l
       end).
Proof.
  intros bd r r' x H. apply recv_polls in H as [(E & -> & _)|(_ & p & P & Q)]; [now left|right].
  inversion P as [l rest q E1 E2 E3|N F E1 E2 E3|pre l rest reads' q N F NL E1 E2 E3|pre e reads' q N F E1 E2 E3|pre reads' q N F E1 E2 E3]; subst p.
  - left. now exists l.
  - destruct Q. discriminate.
  - right. split; [exact N|]. eexists pre, _. split; [exact E1|]. split; [exact F|].
    destruct l; cbn; [exists []|eexists (_ :: _)]; split; try reflexivity; assumption.
  - right. split; [exact N|]. eexists pre, _. now split; [exact E1|].
  - right. split; [exact N|]. eexists pre, _. now split; [exact E1|].
Qed.

Lemma at_most_of (k : nat) (reads pre post : list read) (x : str) :
  Forall (at_most k) reads -> reads = pre ++ Got x :: post -> length x <= k.
Proof. intros F ->. apply Forall_app in F as [_ F]. now apply Forall_cons_iff in F as [F _]. Qed.

(** What holds of the reader between tries: [h] are all bytes that have come. *)
Definition keeps (k : nat) (h : str) (r : reader) : Prop :=
  (exists used, h = used ++ rd_buf r ++ bytes_of (rd_reads r)) /\
  (rd_ended r = true -> rd_buf r = []) /\
  (~ In lf (rd_buf r) \/ length (rd_buf r) <= k) /\
  Forall (at_most k) (rd_reads r).

Lemma ended_empty (bd : build) (r r' : reader) (o : option (result msg_own recv_error)) :
  recv bd r = Ret (r', o) -> rd_ended r = false -> rd_ended r' = true -> rd_buf r' = [].
Proof.
  unfold recv, poll_next. intros H E. rewrite E in H. pose proof (poll_line_polls (rd_reads r) (rd_buf r)) as P.
  destruct (poll_line (rd_buf r) (rd_reads r)) as [[buf' reads'] p].
  destruct p as [|[[l|e]|]].
  - injection H as <- <-. discriminate.
  - destruct (own_parse bd l) as [[m|]| | |]; cbn in H; try discriminate; injection H as <- <-; discriminate.
  - injection H as <- <-. discriminate.
  - injection H as <- <-. intros _. now inversion P.
Qed.

Lemma keeps_step (bd : build) (k : nat) (h : str) (r r' : reader) (o : option (result msg_own recv_error)) :
  keeps k h r -> recv bd r = Ret (r', o) -> keeps k h r' /\ (o <> None -> length (rd_buf r') <= k).
Proof.
  intros ((used & U) & E & B & A) R. pose proof (ended_empty _ _ _ _ R) as EE.
  apply recv_polls in R as [(T & -> & _)|(T & p & P & Q)].
  { split; [now repeat split; [exists used| | |]|]. intros _. rewrite E by assumption. cbn. lia. }
  specialize (EE T).
  cut ((exists used, h = used ++ rd_buf r' ++ bytes_of (rd_reads r')) /\ Forall (at_most k) (rd_reads r') /\
       match p with Pending => ~ In lf (rd_buf r') | Item _ => length (rd_buf r') <= k end).
  { intros (X & Y & Z). destruct p; (split; [repeat split; auto|]); [|auto]. intros O. now destruct Q. }
  inversion P as [l rest q E1 E2 E3|N F E1 E2 E3|pre l rest reads' q N F NL E1 E2 E3|pre e reads' q N F E1 E2 E3|pre reads' q N F E1 E2 E3]; subst p.
  - split; [|split].
    + rewrite E1 in U. exists (used ++ l ++ [lf]). rewrite U, <- !app_assoc. reflexivity.
    + assumption.
    + destruct B as [B|B]; [exfalso; apply B; rewrite E1; apply in_elt|].
      rewrite E1, app_length in B. cbn [length] in B. lia.
  - split; [|split].
    + exists used. rewrite U. cbn. now rewrite !app_nil_r.
    + constructor.
    + rewrite in_app_iff. intros [X|X]; [now apply N|]. clear -F X. revert X.
      induction F as [|x l G _ IH]; [now cbn|]. destruct x as [c|]; [|contradiction]. destruct G as [_ G].
      unfold bytes_of. cbn [map concat]. fold (bytes_of l). rewrite in_app_iff. intros [X|X]; [now apply G|now apply IH].
  - split; [|split].
    + rewrite E1, bytes_of_app in U. exists (used ++ rd_buf r ++ bytes_of pre ++ l ++ [lf]).
      rewrite U. unfold bytes_of at 2. cbn [map concat]. rewrite <- !app_assoc. reflexivity.
    + rewrite E1 in A. apply Forall_app in A as [_ A]. now apply Forall_cons_iff in A.
    + pose proof (at_most_of _ _ _ _ _ A E1) as L. rewrite app_length in L. cbn [length] in L. lia.
  - split; [|split; [|cbn; lia]].
    + rewrite E1, bytes_of_app in U. exists (used ++ rd_buf r ++ bytes_of pre).
      rewrite U. unfold bytes_of at 2. cbn [map concat app]. rewrite <- !app_assoc. reflexivity.
    + rewrite E1 in A. apply Forall_app in A as [_ A]. now apply Forall_cons_iff in A.
  - split; [|split; [|cbn; lia]].
    + rewrite E1, bytes_of_app in U. exists (used ++ rd_buf r ++ bytes_of pre).
      rewrite U. unfold bytes_of at 2. cbn [map concat app]. rewrite <- !app_assoc. reflexivity.
    + rewrite E1 in A. apply Forall_app in A as [_ A]. now apply Forall_cons_iff in A.
Qed.

Lemma keeps_tries (bd : build) (k : nat) (steps : list (list read)) :
  Forall (Forall (at_most k)) steps ->
  forall h r r' os, keeps k h r -> tries_to_recv bd steps r = Ret (r', os) ->
    keeps k (h ++ bytes_of (concat steps)) r' /\ (last os None <> None -> length (rd_buf r') <= k).
Proof.
  induction 1 as [|x steps X _ IH]; intros h r r' os K T.
  - cbn in T. injection T as <- <-. cbn. rewrite app_nil_r. now split.
  - cbn [tries_to_recv] in T. destruct (recv bd (arrive r x)) as [[r1 o]| | |] eqn:R; cbn in T; try discriminate.
    destruct (tries_to_recv bd steps r1) as [[r2 os']| | |] eqn:T1; cbn in T; try discriminate.
    injection T as <- <-.
    assert (K1 : keeps k (h ++ bytes_of x) (arrive r x)).
    { destruct K as ((used & ->) & E & B & A). split; [|split; [|split]]; try assumption.
      - exists used. cbn [arrive rd_buf rd_reads]. rewrite bytes_of_app, <- !app_assoc. reflexivity.
      - cbn. apply Forall_app. now split. }
    destruct (keeps_step _ _ _ _ _ _ K1 R) as [K2 O].
    destruct (IH _ _ _ _ K2 T1) as [K3 O']. cbn [concat]. rewrite bytes_of_app, app_assoc. split; [exact K3|].
    destruct os' as [|o' os']; [|exact O'].
    destruct steps as [|y steps]; [cbn in T1; injection T1 as <-; exact O|].
    exfalso. cbn [tries_to_recv] in T1. destruct (recv bd (arrive r1 y)) as [[r3 o3]| | |]; cbn in T1; try discriminate.
    destruct (tries_to_recv bd steps r3) as [[r4 o4]| | |]; cbn in T1; discriminate.
Qed.

(** C91. However the bytes come and however often [recv] is tried: what is kept is the
    end of what has been read. It is less than one line, or no more than one read
    brought; it is no more than that after every result. *)
Lemma p_c91_kept :
  forall (bd : build) (k : nat) (steps : list (list read)) (r : reader) (os : list (option (result msg_own recv_error))),
    Forall (Forall (at_most k)) steps ->
    tries_to_recv bd steps reader_new = Ret (r, os) ->
    (exists used, bytes_of (concat steps) = used ++ rd_buf r ++ bytes_of (rd_reads r)) /\
    (~ In lf (rd_buf r) \/ length (rd_buf r) <= k) /\
    (last os None <> None -> length (rd_buf r) <= k).
Proof.
  intros bd k steps r os F T.
  destruct (keeps_tries bd k steps F [] reader_new r os) as [(A & _ & C & _) D]; [|exact T|].
  - split; [now exists []|]. split; [reflexivity|]. split; [left; intros []|constructor].
  - auto.
Qed.

(** C91. There is no bound on it: without a line feed all is kept, one byte after the other. *)
Lemma p_c91_bound_refuted :
  forall (bd : build) (n : nat), exists steps r os,
    Forall (Forall (at_most 1)) steps /\ tries_to_recv bd steps reader_new = Ret (r, os) /\
    Forall (fun o => o = None) os /\ length (rd_buf r) = n.
Proof.
  intros bd n.
  assert (H : forall n buf, ~ In lf buf -> exists os,
    tries_to_recv bd (repeat [Got (b "x")] n) (mk_reader buf [] false) = Ret (mk_reader (buf ++ repeat "x"%byte n) [] false, os) /\
    Forall (fun o => o = None) os).
  { clear n. induction n as [|n IH]; intros buf N.
    - exists []. cbn. now rewrite app_nil_r.
    - cbn [repeat tries_to_recv].
      assert (R : recv bd (arrive (mk_reader buf [] false) [Got (b "x")]) = Ret (mk_reader (buf ++ b "x") [] false, None)).
      { apply p_c91_waits. cbn. split; [reflexivity|]. split; [exact N|]. split; [|reflexivity].
        constructor; [|constructor]. split; [discriminate|cbn; intuition discriminate]. }
      rewrite R. cbn [bind]. destruct (IH (buf ++ b "x")) as (os & T & F).
      { rewrite in_app_iff. cbn. intuition discriminate. }
      rewrite T. cbn [bind]. rewrite <- app_assoc. exists (None :: os). split; [reflexivity|now constructor]. }
  destruct (H n [] (fun x => x)) as (os & T & F). eexists _, _, os. split; [|split; [exact T|split; [exact F|apply repeat_length]]].
  apply Forall_forall. intros x X. apply repeat_spec in X as ->. constructor; [cbn; lia|constructor].
Qed.

(** Two tries, the first without result; two reads of at most 8 bytes are left over
    in part. *)
Example ex_c91 :
  let steps := [[Got (b "PIN")]; [Got (b "G" ++ crlf ++ b "PONG"); Got (crlf ++ b "X")]] in
  Forall (Forall (at_most 8)) steps /\
  exists m, tries_to_recv Scalar steps reader_new =
    Ret (mk_reader (b "PONG") [Got (crlf ++ b "X")] false, [None; Some (Ok m)]) /\ own_command m = Ret Ping.
Proof.
  split; [repeat constructor|]. eexists. split; vm_compute; reflexivity.
Qed.
