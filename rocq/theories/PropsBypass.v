(** * PropsBypass: property theorems (generated from BypassProofs.v by tools/gen_props.py).

    Only statements; each is closed by the lemma of the same name. *)

From Verif Require Import Base Wide Tags Irc SpecIrc MsgBase MsgTypes SpecMsg Common Client SpecClient SpecBypass BypassProofs.

(** C90. The same text, sent any number of times to a channel with what the bypass gives
    after it, arrives as that many messages for the channel, alternately without and with
    the four bytes; no two neighbours have the same text. *)
Theorem c90_received :
  forall (bd : nat -> build) (c : client) (ch t : str) (opts : list (option str * option str))
         (s : str) (reads rest : list read),
    c_scratch c = [] ->
    starts "#" ch -> no_space ch -> ~ In lf ch -> utf8_valid ch = true ->
    ~ In lf t -> utf8_valid t = true -> (N.of_nat (length ch + length t) < 4294800000)%N ->
    Forall (fun o => Forall (fun x => plain_value x /\ ~ In lf x /\ utf8_valid x = true)
                       (opt_list (fst o) ++ opt_list (snd o))) opts ->
    c_wire (run_calls c (map (fun k => (k, WOk)) (repeated ch t opts bypass_default))) = c_wire c ++ s ->
    chunked s reads ->
    exists r ms,
      recvs bd (length opts) (mk_reader [] (reads ++ rest) false) = Ret (r, map (fun m => Some (Ok m)) ms) /\
      length ms = length opts /\
      (forall i m, nth_error ms i = Some m ->
         own_command m = Ret Privmsg /\ own_channel m = Ret (Some ch) /\
         own_text m = Ret (Some (shown_text t i))) /\
      (forall i m m', nth_error ms i = Some m -> nth_error ms (S i) = Some m' -> own_text m <> own_text m').
Proof. exact p_c90_received. Qed.
Print Assumptions c90_received.

(** C90. Different texts may become the same: a text that ends in the four bytes, and then
    the same without them. *)
Theorem c90_other_texts_refuted :
  exists (t t' : str),
    let '(st1, o1) := bypass_get bypass_default in
    let '(_, o2) := bypass_get st1 in
    t <> t' /\ t ++ o1 = t' ++ o2.
Proof. exact p_c90_other_texts_refuted. Qed.
Print Assumptions c90_other_texts_refuted.

Example example_c90 :
  let opts := [(None, None); (Some (b "id"), None); (None, None)] in
  Forall (fun o => Forall (fun x => plain_value x /\ ~ In lf x /\ utf8_valid x = true)
                     (opt_list (fst o) ++ opt_list (snd o))) opts /\
  c_wire (run_calls (mk_client [] [] [] reader_new (config_default 0))
            (map (fun k => (k, WOk)) (repeated (b "#c") (b "hi") opts bypass_default))) =
    b "PRIVMSG #c :hi" ++ crlf ++
    b "@reply-parent-msg-id=id PRIVMSG #c :hi " ++ [xe2; xa0; x80] ++ crlf ++
    b "PRIVMSG #c :hi" ++ crlf.
Proof. exact ex_c90. Qed.
