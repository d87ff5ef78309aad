(** * ConnectProofs: the first connection. *)

From Verif Require Import Base Wide Tags Irc SpecIrc MsgBase MsgTypes SpecMsg Common Client SpecClient HandshakeProofs.
From Verif Require Import BaseFacts RecvProofs SendProofs HandshakeProofs SmallProofs.
From Coq Require Import Lia ZifyBool ZifyNat ZifyN.

Definition fresh (cf : config) : client := mk_client [] [] [] reader_new cf.

Lemma handshake_ends (cf : config) (h : handshake_out) (c : client) (x : fin (result unit connect_error)) :
  small_answers reader_new h -> handshake (fresh cf) h = Ret (c, x) ->
  match x with
  | Done (Ok tt) => delivered h /\ verdict reader_new h (Done (Ok tt))
  | Dropped => cut_short h
  | Done (Err e) =>
    (exists n k, h_write h = WErr n k /\ e = CIo k) \/ (h_write h = WOk /\ exists k, h_flush h = FErr k /\ e = CIo k) \/
    (delivered h /\ verdict reader_new h (Done (Err e)))
  end.
Proof.
  intros SM E. assert (DV := fun d => p_c51_verdict (fresh cf) h x d SM).
  unfold cut_short, delivered in *. cbn [c_reader fresh] in DV.
  rewrite handshake_cases in E.
  destruct (h_write h) as [|n e|n] eqn:W.
  - destruct (h_flush h) as [|e|] eqn:F.
    + assert (V : verdict reader_new h x).
      { apply (DV (conj eq_refl eq_refl)). exists c. rewrite handshake_cases, W, F. exact E. }
      destruct x as [[[]|e]|]; auto 6.
    + injection E as <- <-. right. left. split; [reflexivity|]. now exists e.
    + injection E as <- <-. right. left. auto.
  - injection E as <- <-. left. now exists n, e.
  - injection E as <- <-. left. now exists n.
Qed.

Lemma handshake_answered (cf : config) (h : handshake_out) (x : fin (result unit connect_error)) :
  small_answers reader_new h -> delivered h -> verdict reader_new h x ->
  exists c, handshake (fresh cf) h = Ret (c, x).
Proof. intros SM D V. exact (proj2 (p_c51_verdict (fresh cf) h x D SM) V). Qed.

Lemma handshake_cut (cf : config) (h : handshake_out) :
  small_answers reader_new h -> cut_short h -> exists c, handshake (fresh cf) h = Ret (c, Dropped).
Proof.
  intros SM [(n & W)|[(W & F)|(D & V)]].
  - rewrite handshake_cases, W. eauto.
  - rewrite handshake_cases, W, F. eauto.
  - now apply handshake_answered.
Qed.

(** C64. The connection succeeds exactly if everything was in time and the server's
    answers say so. *)
Lemma p_c64_success :
  forall (cf : config) (tls : tls_out) (o : open_out) (h : handshake_out) (elapsed : bool),
    small_answers reader_new h ->
    ((exists c, connect cf tls o h elapsed = Ret (Done (Ok c))) <->
     tls = TlsOk /\ o = OpOk /\ delivered h /\ verdict reader_new h (Done (Ok tt))).
Proof.
  intros cf tls o h el SM. split.
  - intros [c E]. unfold connect in E. destruct tls; try discriminate. destruct o; try discriminate.
    fold (fresh cf) in E. destruct (handshake (fresh cf) h) as [[c1 x]| | |] eqn:H; try discriminate.
    apply handshake_ends in H; [|exact SM]. cbn in E.
    destruct x as [[[]|e]|]; [|discriminate|destruct el; discriminate]. tauto.
  - intros (-> & -> & D & V). destruct (handshake_answered cf h _ SM D V) as [c H].
    exists c. unfold connect. fold (fresh cf). now rewrite H.
Qed.

(** C64. It fails exactly for one of the listed reasons, with the error that names it. *)
Lemma p_c64_failure :
  forall (cf : config) (tls : tls_out) (o : open_out) (h : handshake_out) (elapsed : bool) (e : connect_error),
    small_answers reader_new h ->
    (connect cf tls o h elapsed = Ret (Done (Err e)) <-> connect_fails tls o h elapsed e).
Proof.
  intros cf tls o h el e SM. split.
  - intros E. unfold connect in E. destruct tls; try (injection E as <-).
    2: now apply cf_name. 2: now apply cf_tls.
    destruct o; try (injection E as <-); try discriminate.
    2: now apply cf_open. 2: now apply cf_open_time.
    fold (fresh cf) in E. destruct (handshake (fresh cf) h) as [[c1 x]| | |] eqn:H; try discriminate.
    apply handshake_ends in H; [|exact SM]. cbn in E.
    destruct x as [[[]|e']|]; [discriminate| |].
    + injection E as <-. destruct H as [(n & k & W & ->)|[(W & k & F & ->)|(D & V)]].
      * now apply (cf_write _ _ _ _ n).
      * now apply cf_flush.
      * now apply cf_verdict.
    + destruct el; [|discriminate]. injection E as <-. now apply cf_time.
  - unfold connect. fold (fresh cf).
    inversion 1 as [T|T|k T O|T O|n k T O W|k T O W F|T O C L|k T O D V]; subst; try reflexivity.
    + rewrite handshake_cases, W. reflexivity.
    + rewrite handshake_cases, W, F. reflexivity.
    + destruct (handshake_cut cf h SM C) as [c ->]. reflexivity.
    + destruct (handshake_answered cf h _ SM D V) as [c ->]. reflexivity.
Qed.

(** C64. The new client has the given configuration; the connection got exactly the
    greeting, of which nothing was logged; nothing is left in the buffer. *)
Lemma p_c64_new_client :
  forall (cf : config) (tls : tls_out) (o : open_out) (h : handshake_out) (elapsed : bool) (c : client),
    connect cf tls o h elapsed = Ret (Done (Ok c)) ->
    c_config c = cf /\ greeting (cf_credentials cf) (c_wire c) /\ c_log c = [] /\ c_scratch c = [].
Proof.
  intros cf tls o h el c E. unfold connect in E. destruct tls; try discriminate. destruct o; try discriminate.
  fold (fresh cf) in E. destruct (handshake (fresh cf) h) as [[c1 x]| | |] eqn:H; try discriminate.
  cbn in E. destruct x as [[[]|e]|]; [|discriminate|destruct el; discriminate]. injection E as <-.
  apply handshake_keeps in H as (C & L & _ & S & _). destruct (S eq_refl) as [S1 W].
  split; [exact C|]. split; [|split; [exact L|exact S1]].
  rewrite W. cbn. apply greeting_text.
Qed.

(** The reader after a successful handshake. *)
Lemma handshake_reader (c c' : client) (h : handshake_out) :
  handshake c h = Ret (c', Done (Ok tt)) ->
  exists r1 m1 m2,
    recv (w_build (h_first h)) (arrive (c_reader c) (w_reads (h_first h))) = Ret (r1, Some (Ok m1)) /\
    recv (w_build (h_second h)) (arrive r1 (w_reads (h_second h))) = Ret (c_reader c', Some (Ok m2)).
Proof.
  rewrite handshake_cases. destruct (h_write h); try discriminate. destruct (h_flush h); try discriminate.
  unfold handshake_verdict, recv_timeout. cbn [c_reader].
  destruct (recv (w_build (h_first h)) _) as [[r1 o1]| | |]; try discriminate. cbn [bind].
  destruct o1 as [[m1|e]|]; try discriminate; [|destruct (w_dropped (h_first h)); discriminate]. cbn [bind].
  destruct (own_command m1) as [cmd| | |]; try discriminate. cbn [bind].
  destruct cmd; try discriminate.
  destruct (own_params m1) as [ps| | |]; try discriminate. cbn [bind].
  destruct (match ps with Some v => starts_with (b "* ACK") v | None => false end); try discriminate.
  cbn [c_reader set_reader].
  destruct (recv (w_build (h_second h)) _) as [[r2 o2]| | |] eqn:R2; try discriminate. cbn [bind].
  destruct o2 as [[m2|e]|]; try discriminate; [|destruct (w_dropped (h_second h)); discriminate]. cbn [bind].
  intros E. exists r1, m1, m2. split; [reflexivity|]. rewrite R2. do 2 f_equal.
  destruct (own_command m2) as [cmd| | |]; try discriminate. cbn [bind] in E.
  destruct cmd; try discriminate.
  - destruct (own_params m2) as [ps2| | |]; try discriminate. cbn [bind] in E.
    destruct (match ps2 with Some v => contains (b "authentication failed") v | None => false end); discriminate.
  - now injection E as <-.
Qed.

(** Build of the two answers, then those given. *)
Definition after_answers (h : handshake_out) (bd : nat -> build) (i : nat) : build :=
  match i with 0 => w_build (h_first h) | 1 => w_build (h_second h) | S (S j) => bd j end.

Lemma arrive_nil (r : reader) : arrive r [] = r.
Proof. destruct r. unfold arrive. cbn. now rewrite app_nil_r. Qed.

Lemma recvs_after (c c' : client) (h : handshake_out) (bd : nat -> build) (n : nat) (more : list read) (r : reader)
  (os : list (option (result msg_own recv_error))) :
  c_reader c = reader_new -> handshake c h = Ret (c', Done (Ok tt)) ->
  recvs bd n (arrive (c_reader c') more) = Ret (r, os) ->
  exists m1 m2,
    recvs (after_answers h bd) (2 + n) (mk_reader [] (w_reads (h_first h) ++ w_reads (h_second h) ++ more) false) =
    Ret (r, Some (Ok m1) :: Some (Ok m2) :: os).
Proof.
  intros N H R. destruct (handshake_reader _ _ _ H) as (r1 & m1 & m2 & R1 & R2). exists m1, m2.
  rewrite N in R1. apply (recv_ready _ _ _ _ (w_reads (h_second h) ++ more)) in R1.
  apply (recv_ready _ _ _ _ more) in R2. rewrite arrive_arrive in R1, R2. cbn [arrive reader_new rd_buf rd_reads rd_ended app] in R1.
  cbn [Nat.add recvs after_answers]. unfold arrive at 1 in R1. cbn in R1. rewrite R1. cbn [bind].
  rewrite R2. cbn [bind]. change (fun i : nat => bd i) with bd. rewrite R. reflexivity.
Qed.

(** C64. What follows the two answers on the connection is what is received next,
    however it arrived: nothing is lost. *)
Lemma p_c64_nothing_lost :
  forall (cf : config) (tls : tls_out) (o : open_out) (h : handshake_out) (elapsed : bool) (c : client)
    (bd : nat -> build) (n : nat) (more : list read) (r : reader) (os : list (option (result msg_own recv_error))),
    connect cf tls o h elapsed = Ret (Done (Ok c)) -> recvs bd n (arrive (c_reader c) more) = Ret (r, os) ->
    exists m1 m2,
      recvs (after_answers h bd) (2 + n)
        (mk_reader [] (w_reads (h_first h) ++ w_reads (h_second h) ++ more) false) =
      Ret (r, Some (Ok m1) :: Some (Ok m2) :: os).
Proof.
  intros cf tls o h el c bd n more r os E R. unfold connect in E. destruct tls; try discriminate. destruct o; try discriminate.
  fold (fresh cf) in E. destruct (handshake (fresh cf) h) as [[c1 x]| | |] eqn:H; try discriminate.
  cbn in E. destruct x as [[[]|e]|]; [|discriminate|destruct el; discriminate]. injection E as <-.
  eapply recvs_after; [|exact H|exact R]. reflexivity.
Qed.

(** C64. The settings of the builder: each sets its own part, the last one counts;
    what is not set has the documented default. *)
Lemma p_c64_builder :
  (forall cr cf, let cf' := with_credentials cr cf in
     cf_credentials cf' = cr /\ cf_timeout cf' = cf_timeout cf /\ cf_backoff cf' = cf_backoff cf) /\
  (forall t cf, let cf' := with_timeout t cf in
     cf_credentials cf' = cf_credentials cf /\ cf_timeout cf' = t /\ cf_backoff cf' = cf_backoff cf) /\
  (forall bk cf, let cf' := with_backoff bk cf in
     cf_credentials cf' = cf_credentials cf /\ cf_timeout cf' = cf_timeout cf /\ cf_backoff cf' = bk) /\
  (forall n, in_anon_range n ->
     is_anon (cf_credentials (builder_new n)) = true /\ cf_timeout (builder_new n) = 30000000000%N /\
     let bk := cf_backoff (builder_new n) in
     max_tries bk = Some 8%N /\ initial_delay bk = 1000000000%N /\ delay_multiplier bk = 3%N /\ max_delay bk = 12000000000%N).
Proof. repeat split. Qed.

(** C64. Connecting anonymously is connecting with the defaults. *)
Lemma p_c64_anonymous :
  forall (n : N) (tls : tls_out) (o : open_out) (h : handshake_out) (elapsed : bool) (c : client),
    in_anon_range n -> connect_anonymous n tls o h elapsed = Ret (Done (Ok c)) ->
    exists ds, length ds = 5 /\ numeral ds n /\
      c_wire c = b "CAP REQ :twitch.tv/commands twitch.tv/tags twitch.tv/membership" ++ crlf ++
                 b "PASS oauth:just_a_lil_guy" ++ crlf ++ b "NICK justinfan" ++ ds ++ crlf.
Proof.
  intros n tls o h el c R E. destruct (p_c64_new_client _ _ _ _ _ _ E) as (_ & G & _).
  destruct (p_c58_anon n R) as (ds & L & N5 & NU & T). exists ds. split; [exact N5|]. split; [exact NU|].
  eapply greeting_unique; [exact G|]. cbn [cf_credentials config_default].
  exists (b "oauth:just_a_lil_guy"). split.
  - rewrite T. exists (b "just_a_lil_guy"). split; [reflexivity|]. right. split; [reflexivity|].
    intros x. intros K. vm_compute in K. discriminate.
  - rewrite L. reflexivity.
Qed.

Example ex_c64 :
  let cf := with_timeout (secs 10) (with_credentials (credentials_new (b "me") (b "tok")) (builder_new 12345)) in
  let l1 := b ":tmi.twitch.tv CAP * ACK :twitch.tv/tags" ++ crlf in
  let l2 := b ":tmi.twitch.tv 001 me :Welcome, GLHF!" ++ crlf in
  let l3 := b ":tmi.twitch.tv 002 me :Your host" ++ crlf in
  let h := mk_handshake_out WOk FOk (mk_wait [Got (l1 ++ l2 ++ l3)] false Scalar) (mk_wait [] false Scalar) in
  small_answers reader_new h /\
  (exists c r m, connect cf TlsOk OpOk h false = Ret (Done (Ok c)) /\
     recvs (fun _ => Scalar) 1 (c_reader c) = Ret (r, [Some (Ok m)]) /\
     own_raw m = b ":tmi.twitch.tv 002 me :Your host" /\ cf_timeout (c_config c) = secs 10) /\
  connect_fails TlsOk (OpErr ConnectionRefused) h false (COpen ConnectionRefused) /\
  connect cf TlsOk (OpErr ConnectionRefused) h false = Ret (Done (Err (COpen ConnectionRefused))).
Proof.
  split; [vm_compute; reflexivity|]. split; [|split; [now apply cf_open|reflexivity]].
  eexists _, _, _. split; [vm_compute; reflexivity|]. split; [vm_compute; reflexivity|]. split; reflexivity.
Qed.

(** ** C65: nothing of the old connection *)

Lemma loop_reader (fuel : nat) : forall (bk : backoff) (oracle : nat -> attempt) (i : nat) (tries : option N)
  (delay : duration) (cause : connect_error) (c c' : client) (tr : list event),
  reconnect_loop fuel bk oracle i tries delay cause c = Ret (c', tr, Finished (Ok tt)) ->
  exists k c1, c_reader c1 = reader_new /\ c_wire c1 = [] /\ handshake c1 (a_handshake (oracle k)) = Ret (c', Done (Ok tt)) /\
    S k = i + attempts tr.
Proof.
  induction fuel as [|fuel IH]; intros bk oracle i tries delay cause c c' tr E; cbn [reconnect_loop] in E; [discriminate|].
  destruct (tries_left tries); [|discriminate]. destruct (a_sleeps (oracle i)); [|discriminate].
  destruct (duration_mul delay (delay_multiplier bk)) as [p| | |]; try discriminate. cbn [bind] in E.
  destruct (a_open (oracle i)) eqn:O; try discriminate.
  - destruct (handshake (new_connection c) (a_handshake (oracle i))) as [[c1 x]| | |] eqn:H; try discriminate. cbn [bind] in E.
    destruct x as [[[]|e]|].
    + injection E as <- <-. exists i, (new_connection c). repeat (split; [reflexivity || exact H|]). cbn. lia.
    + destruct (should_retry e); [|discriminate].
      destruct (reconnect_loop fuel bk oracle (i + 1) _ _ e c1) as [[[c2 tr2] o2]| | |] eqn:L; try discriminate. cbn [bind] in E.
      injection E as <- <- ->. destruct (IH _ _ _ _ _ _ _ _ _ L) as (k & c3 & Q). exists k, c3. destruct Q as (Q1 & Q2 & Q3 & Q4). repeat (split; [assumption|]). unfold attempts in *. cbn in *. lia.
    + destruct (a_elapsed (oracle i)); discriminate.
  - destruct (reconnect_loop fuel bk oracle (i + 1) _ _ _ c) as [[[c2 tr2] o2]| | |] eqn:L; try discriminate. cbn [bind] in E.
    injection E as <- <- ->. destruct (IH _ _ _ _ _ _ _ _ _ L) as (k & c3 & Q). exists k, c3. destruct Q as (Q1 & Q2 & Q3 & Q4). repeat (split; [assumption|]). unfold attempts in *. cbn in *. lia.
Qed.

(** C65. After a successful reconnect, what is received next is what the connection of
    the last attempt delivered after its two answers: nothing of it is lost, and nothing
    comes from an earlier connection. *)
Lemma p_c65_only_the_new_connection :
  forall (fuel : nat) (oracle : nat -> attempt) (c c' : client) (tr : list event),
    reconnect fuel oracle c = Ret (c', tr, Finished (Ok tt)) ->
    exists k, S k = attempts tr /\
      forall (bd : nat -> build) (n : nat) (more : list read) (r : reader) (os : list (option (result msg_own recv_error))),
        recvs bd n (arrive (c_reader c') more) = Ret (r, os) ->
        let h := a_handshake (oracle k) in
        exists m1 m2,
          recvs (after_answers h bd) (2 + n)
            (mk_reader [] (w_reads (h_first h) ++ w_reads (h_second h) ++ more) false) =
          Ret (r, Some (Ok m1) :: Some (Ok m2) :: os).
Proof.
  intros fuel oracle c c' tr E. unfold reconnect in E. apply loop_reader in E as (k & c1 & N & W & H & K).
  exists k. split; [exact K|]. intros bd n more r os R h. eapply recvs_after; eassumption.
Qed.

(** C65. A reconnect that never opens a connection leaves the client as it was. *)
Lemma p_c65_not_opened :
  forall (fuel : nat) (oracle : nat -> attempt) (c c' : client) (tr : list event) (o : outcome),
    (forall j, a_open (oracle j) <> OpOk) -> reconnect fuel oracle c = Ret (c', tr, o) -> c' = c.
Proof.
  intros fuel oracle c c' tr o N. unfold reconnect. generalize 0 (max_tries (cf_backoff (c_config c)))
    (initial_delay (cf_backoff (c_config c))) CTimeout. intros i tries delay cause. revert i tries delay cause tr.
  generalize (cf_backoff (c_config c)). intros bk.
  induction fuel as [|fuel IH]; intros i tries delay cause tr E; cbn [reconnect_loop] in E; [now injection E|].
  destruct (tries_left tries); [|now injection E]. destruct (a_sleeps (oracle i)); [|now injection E].
  destruct (duration_mul delay (delay_multiplier bk)) as [p| | |]; try discriminate. cbn [bind] in E.
  specialize (N i). destruct (a_open (oracle i)); [contradiction| |now injection E|now injection E].
  destruct (reconnect_loop fuel bk oracle (i + 1) _ _ _ c) as [[[c2 tr2] o2]| | |] eqn:L; try discriminate. cbn [bind] in E.
  injection E as <- <- ->. eapply IH. exact L.
Qed.

Example ex_c65 :
  let r := mk_reader (b "PING :old" ++ crlf) [Got (b "half a li")] false in
  let c := set_reader (sample_client (credentials_new (b "me") (b "tok")) backoff_default) r in
  let h := sample_handshake (b ":tmi.twitch.tv CAP * ACK :x") (b ":tmi.twitch.tv 001 me :Hi" ++ crlf ++ b "PING :new") in
  let oracle := fun j => if j <? 1 then refused else mk_attempt true OpOk h false in
  (exists c' tr r' m, reconnect 9 oracle c = Ret (c', tr, Finished (Ok tt)) /\ attempts tr = 2 /\
     recvs (fun _ => Scalar) 1 (c_reader c') = Ret (r', [Some (Ok m)]) /\ own_raw m = b "PING :new") /\
  exists c' tr e, reconnect 9 (fun _ => refused) c = Ret (c', tr, Finished (Err e)) /\ c_reader c' = r.
Proof.
  split.
  - eexists _, _, _, _. split; [vm_compute; reflexivity|]. split; [reflexivity|]. split; [vm_compute; reflexivity|reflexivity].
  - eexists _, _, _. split; [vm_compute; reflexivity|reflexivity].
Qed.

(** ** C66: where the token goes *)

Lemma verdict_alike (c1 c2 : client) (h : handshake_out) :
  c_reader c1 = c_reader c2 ->
  handshake_verdict c2 h =
  let! (c, o) := handshake_verdict c1 h in Ret (set_reader c2 (c_reader c), o).
Proof.
  intros R. unfold handshake_verdict, recv_timeout. rewrite R.
  destruct (recv (w_build (h_first h)) _) as [[r1 o1]| | |]; try reflexivity. cbn [bind].
  destruct o1 as [[m1|e]|]; [|reflexivity|destruct (w_dropped (h_first h)); reflexivity]. cbn [bind].
  destruct (own_command m1) as [cmd| | |]; try reflexivity. cbn [bind].
  destruct cmd; try reflexivity.
  destruct (own_params m1) as [ps| | |]; try reflexivity. cbn [bind].
  destruct (match ps with Some v => starts_with (b "* ACK") v | None => false end); try reflexivity.
  cbn [c_reader set_reader].
  destruct (recv (w_build (h_second h)) _) as [[r2 o2]| | |]; try reflexivity. cbn [bind].
  destruct o2 as [[m2|e]|]; [|reflexivity|destruct (w_dropped (h_second h)); reflexivity]. cbn [bind].
  destruct (own_command m2) as [cmd| | |]; try reflexivity. cbn [bind].
  destruct cmd; try reflexivity.
  destruct (own_params m2) as [ps2| | |]; try reflexivity. cbn [bind].
  destruct (match ps2 with Some v => contains (b "authentication failed") v | None => false end); reflexivity.
Qed.

(** The same client but for the token, and for the greeting on the wire. *)
Record alike (c1 c2 : client) : Prop := mk_alike
  { al_scratch1 : c_scratch c1 = []; al_scratch2 : c_scratch c2 = [];
    al_log : c_log c1 = c_log c2; al_reader : c_reader c1 = c_reader c2;
    al_config : same_but_token (c_config c1) (c_config c2);
    al_wire : exists x, c_wire c1 = greet c1 ++ x /\ c_wire c2 = greet c2 ++ x }.

Lemma send_alike (c1 c2 : client) (k : call) (w : write_out) :
  alike c1 c2 -> alike (fst (run_call c1 k w)) (fst (run_call c2 k w)) /\ snd (run_call c1 k w) = snd (run_call c2 k w).
Proof.
  intros [S1 S2 L R C [x W]].
  assert (D : (is_raw k -> ends_crlf (call_line k)) \/ exists s, k = CallRaw s /\ ~ ends_crlf s).
  { destruct k as [s| | | | |]; try (left; intros [y K]; discriminate).
    destruct (ends_with crlf s) eqn:E.
    - left. intros _. now apply ends_with_crlf.
    - right. exists s. split; [reflexivity|]. intros K. apply ends_with_crlf in K. congruence. }
  destruct D as [D|(s & -> & D)].
  - rewrite !run_call_spec by exact D. cbn [fst snd]. split; [|reflexivity].
    assert (P : payload c1 k = payload c2 k) by (unfold payload; now rewrite S1, S2).
    constructor; cbn [c_scratch c_log c_reader c_config c_wire].
    + unfold left_over. now rewrite S1; destruct k.
    + unfold left_over. now rewrite S2; destruct k.
    + now rewrite L, P.
    + exact R.
    + exact C.
    + exists (x ++ taken w (payload c1 k)). rewrite P. unfold greet in *. cbn [c_config].
      destruct W as [-> ->]. rewrite ?app_assoc; auto.
  - rewrite !run_raw_invalid by exact D. cbn [fst snd]. split; [|reflexivity]. constructor; auto. now exists x.
Qed.

Lemma loop_alike (fuel : nat) : forall (bk : backoff) (oracle : nat -> attempt) (i : nat) (tries : option N)
  (delay : duration) (cause : connect_error) (c1 c2 c1' : client) (tr1 : list event) (o : outcome),
  (forall j, a_open (oracle j) = OpOk -> delivered (a_handshake (oracle j))) -> alike c1 c2 ->
  reconnect_loop fuel bk oracle i tries delay cause c1 = Ret (c1', tr1, o) ->
  exists c2' tr2, reconnect_loop fuel bk oracle i tries delay cause c2 = Ret (c2', tr2, o) /\ alike c1' c2' /\
    but_greetings (SeenReconnect tr1 o) = but_greetings (SeenReconnect tr2 o).
Proof.
  induction fuel as [|fuel IH]; intros bk oracle i tries delay cause c1 c2 c1' tr1 o G A E; cbn [reconnect_loop] in *.
  { injection E as <- <- <-. eauto. }
  destruct (tries_left tries); [|injection E as <- <- <-; eauto].
  destruct (a_sleeps (oracle i)); [|injection E as <- <- <-; eauto].
  destruct (duration_mul delay (delay_multiplier bk)) as [p| | |]; try discriminate. cbn [bind] in *.
  destruct (a_open (oracle i)) eqn:O.
  - destruct (G i O) as [HW HF].
    rewrite handshake_cases, HW, HF in E. rewrite handshake_cases, HW, HF.
    set (n1 := mk_client [] _ _ _ _) in E. set (n2 := mk_client [] _ _ _ _).
    rewrite (verdict_alike n1 n2) by reflexivity.
    destruct (handshake_verdict n1 (a_handshake (oracle i))) as [[q x]| | |] eqn:V; try discriminate. cbn [bind] in *.
    destruct (frame _ _ _ _ V) as [r ->].
    assert (A' : alike (set_reader n1 r) (set_reader n2 r)).
    { destruct A as [S1 S2 L R C W]. constructor; try reflexivity; try assumption.
      exists []. subst n1 n2. unfold told. cbn. rewrite S1, S2. cbn. now rewrite !app_nil_r. }
    destruct x as [[[]|e]|].
    + injection E as <- <- <-. eauto.
    + destruct (should_retry e); [|injection E as <- <- <-; eauto].
      destruct (reconnect_loop fuel bk oracle (i + 1) _ _ e (set_reader n1 r)) as [[[c3 tr3] o3]| | |] eqn:L; try discriminate.
      cbn [bind] in E. injection E as <- <- <-.
      destruct (IH _ _ _ _ _ _ _ _ _ _ _ G A' L) as (c2' & tr2 & E2 & A2 & B). cbn [c_reader set_reader] in *. rewrite E2. cbn [bind].
      eexists _, _. split; [reflexivity|]. split; [exact A2|]. cbn in *. injection B as B. now rewrite B.
    + destruct (a_elapsed (oracle i)); injection E as <- <- <-; eauto.
  - destruct (reconnect_loop fuel bk oracle (i + 1) _ _ _ c1) as [[[c3 tr3] o3]| | |] eqn:L; try discriminate. cbn [bind] in E.
    injection E as <- <- <-.
    destruct (IH _ _ _ _ _ _ _ _ _ _ _ G A L) as (c2' & tr2 & E2 & A2 & B). rewrite E2. cbn [bind].
    eexists _, _. split; [reflexivity|]. split; [exact A2|]. cbn in *. injection B as B. now rewrite B.
  - injection E as <- <- <-. eauto.
  - injection E as <- <- <-. eauto.
Qed.

Lemma op_alike (x : op) (c1 c2 c1' : client) (s1 : seen) :
  greets_whole x -> alike c1 c2 -> run_op c1 x = Ret (c1', s1) ->
  exists c2' s2, run_op c2 x = Ret (c2', s2) /\ alike c1' c2' /\ but_greetings s1 = but_greetings s2.
Proof.
  intros G A E. destruct x as [k w|bd reads|fuel oracle]; cbn [run_op] in *.
  - destruct (send_alike c1 c2 k w A) as [A' S]. destruct (run_call c1 k w) as [d1 r1]. destruct (run_call c2 k w) as [d2 r2].
    cbn in *. injection E as <- <-. subst r2. eauto.
  - rewrite <- (al_reader _ _ A). destruct (recv bd _) as [[r o]| | |]; try discriminate. cbn [bind] in *.
    injection E as <- <-. eexists _, _. split; [reflexivity|]. split; [|reflexivity].
    destruct A as [S1 S2 L R C W]. now constructor.
  - unfold reconnect in *. pose proof (al_config _ _ A) as (_ & _ & B). rewrite <- B.
    destruct (reconnect_loop fuel _ oracle 0 _ _ CTimeout c1) as [[[c3 tr] o]| | |] eqn:L; try discriminate. cbn [bind] in E.
    injection E as <- <-. destruct (loop_alike _ _ _ _ _ _ _ _ _ _ _ _ G A L) as (c2' & tr2 & E2 & A2 & Q).
    rewrite E2. cbn [bind]. eauto.
Qed.

Lemma loop_config (fuel : nat) : forall (bk : backoff) (oracle : nat -> attempt) (i : nat) (tries : option N)
  (delay : duration) (cause : connect_error) (c c' : client) (tr : list event) (o : outcome),
  reconnect_loop fuel bk oracle i tries delay cause c = Ret (c', tr, o) -> c_config c' = c_config c.
Proof.
  induction fuel as [|fuel IH]; intros bk oracle i tries delay cause c c' tr o E; cbn [reconnect_loop] in *; [now injection E as <- _ _|].
  destruct (tries_left tries); [|now injection E as <- _ _]. destruct (a_sleeps (oracle i)); [|now injection E as <- _ _].
  destruct (duration_mul delay (delay_multiplier bk)) as [p| | |]; try discriminate. cbn [bind] in *.
  destruct (a_open (oracle i)); try now injection E as <- _ _.
  - destruct (handshake (new_connection c) _) as [[q x]| | |] eqn:V; try discriminate. cbn [bind] in *.
    apply handshake_keeps in V as [V _]. cbn in V. rewrite <- V.
    destruct x as [[[]|e]|]; [now injection E as <- _ _| |destruct (a_elapsed (oracle i)); now injection E as <- _ _].
    destruct (should_retry e); [|now injection E as <- _ _].
    destruct (reconnect_loop fuel bk oracle (i + 1) _ _ e q) as [[[c3 tr3] o3]| | |] eqn:L; try discriminate.
    cbn [bind] in E. injection E as <- _ _. eapply IH. exact L.
  - destruct (reconnect_loop fuel bk oracle (i + 1) _ _ _ c) as [[[c3 tr3] o3]| | |] eqn:L; try discriminate.
    cbn [bind] in E. injection E as <- _ _. eapply IH. exact L.
Qed.

Lemma op_config (x : op) (c c' : client) (s : seen) : run_op c x = Ret (c', s) -> c_config c' = c_config c.
Proof.
  destruct x as [k w|bd reads|fuel oracle]; cbn [run_op].
  - intros E. pose proof (run_call_frame c k w) as F. destruct (run_call c k w). cbn in *. injection E as <- <-. tauto.
  - destruct (recv bd _) as [[r o]| | |]; try discriminate. cbn. intros [= <- <-]. reflexivity.
  - destruct (reconnect fuel oracle c) as [[[d tr] o]| | |] eqn:E; try discriminate. cbn. intros [= <- <-].
    unfold reconnect in E. eapply loop_config. exact E.
Qed.

(** C66. Two clients that differ only in their tokens, going through the same session in
    which every greeting is delivered in one piece, return the same results, wait and
    connect alike, log the same, and put the same bytes on the wire, but for the greeting
    at the start of the connection. *)
Lemma p_c66_token_only_in_greeting :
  forall (f1 f2 : config) (g1 g2 x : str) (l : list str) (r : reader) (ops : list op) (c1 : client) (seen1 : list seen),
    same_but_token f1 f2 -> greeting (cf_credentials f1) g1 -> greeting (cf_credentials f2) g2 ->
    Forall greets_whole ops ->
    run_ops (mk_client [] (g1 ++ x) l r f1) ops = Ret (c1, seen1) ->
    exists c2 seen2,
      run_ops (mk_client [] (g2 ++ x) l r f2) ops = Ret (c2, seen2) /\
      map but_greetings seen1 = map but_greetings seen2 /\ c_log c1 = c_log c2 /\ c_reader c1 = c_reader c2 /\
      exists y, c_wire c1 = g1 ++ y /\ c_wire c2 = g2 ++ y.
Proof.
  intros f1 f2 g1 g2 x l r ops c1 seen1 B G1 G2 W E.
  apply greeting_iff in G1. apply greeting_iff in G2.
  assert (A : alike (mk_client [] (g1 ++ x) l r f1) (mk_client [] (g2 ++ x) l r f2)).
  { constructor; try reflexivity; [exact B|]. exists x. unfold greet. cbn. now subst g1 g2. }
  assert (F1 : c_config (mk_client [] (g1 ++ x) l r f1) = f1) by reflexivity.
  assert (F2 : c_config (mk_client [] (g2 ++ x) l r f2) = f2) by reflexivity.
  revert A F1 F2 E. generalize (mk_client [] (g1 ++ x) l r f1) (mk_client [] (g2 ++ x) l r f2). clear x l r B.
  revert seen1 c1. induction W as [|o ops H W IH]; intros seen1 c1' d1 d2 A F1 F2 E; cbn [run_ops] in *.
  - injection E as <- <-. exists d2, []. destruct A as [S1 S2 L R C [y Y]]. unfold greet in Y. rewrite F1, F2 in Y. subst g1 g2.
    repeat (split; [reflexivity || assumption|]). now exists y.
  - destruct (run_op d1 o) as [[d1' s1]| | |] eqn:E1; try discriminate. cbn [bind] in E.
    destruct (op_alike _ _ _ _ _ H A E1) as (d2' & s2 & E2 & A2 & Q). rewrite E2. cbn [bind].
    destruct (run_ops d1' ops) as [[e1 ss1]| | |] eqn:E3; try discriminate. cbn [bind] in E. injection E as <- <-.
    destruct (IH ss1 e1 d1' d2' A2) as (c2 & ss2 & E4 & Q4 & Z).
    + rewrite <- F1. eapply op_config. exact E1.
    + rewrite <- F2. eapply op_config. exact E2.
    + exact E3.
    + rewrite E4. cbn [bind]. exists c2, (s2 :: ss2). split; [reflexivity|]. split; [cbn; now rewrite Q, Q4|exact Z].
Qed.

(** C66. Without the restriction it is false: after a greeting that could not be written,
    the log tells the tokens apart. *)
Lemma p_c66_any_session_refuted :
  exists (f1 f2 : config) (ops : list op) (c1 c2 : client) (seen1 seen2 : list seen),
    same_but_token f1 f2 /\
    run_ops (mk_client [] (handshake_text (cf_credentials f1)) [] reader_new f1) ops = Ret (c1, seen1) /\
    run_ops (mk_client [] (handshake_text (cf_credentials f2)) [] reader_new f2) ops = Ret (c2, seen2) /\
    c_log c1 <> c_log c2.
Proof.
  exists (mk_config (credentials_new (b "me") (b "one")) default_timeout backoff_default).
  exists (mk_config (credentials_new (b "me") (b "two")) default_timeout backoff_default).
  exists [OpReconnect 9 (fun _ => broken); OpSend (CallPing (b "x")) WOk].
  eexists _, _, _, _. split; [repeat split|]. split; [vm_compute; reflexivity|]. split; [vm_compute; reflexivity|].
  intros K. vm_compute in K. discriminate.
Qed.

Example ex_c66 :
  let f t := mk_config (credentials_new (b "me") t) default_timeout backoff_default in
  let ops := [OpSend (CallPing (b "x")) (WErr 3 BrokenPipe); OpReconnect 9 sample_oracle; OpSend (CallJoin (b "c")) WOk;
              OpRecv Scalar [Got (b "PING :y" ++ crlf)]] in
  same_but_token (f (b "one")) (f (b "oauth:two")) /\ Forall greets_whole ops /\
  exists c seen, run_ops (mk_client [] (handshake_text (cf_credentials (f (b "one")))) [] reader_new (f (b "one"))) ops = Ret (c, seen) /\
    c_log c = [b "PING :x" ++ crlf; b "JOIN #c" ++ crlf] /\ length seen = 4.
Proof.
  cbn zeta. split; [repeat split|]. split.
  - repeat constructor. all: unfold sample_oracle; destruct (j <? 2); cbn; auto; try discriminate.
  - eexists _, _. split; [vm_compute; reflexivity|]. split; reflexivity.
Qed.
