(** * PropsQuote: property theorems (generated from QuoteProofs.v by tools/gen_props.py).

    Only statements; each is closed by the lemma of the same name. *)

From Verif Require Import Base Wide Tags Irc MsgBase MsgTypes MsgNotice Message SpecIrc SpecMsg SpecParts SpecQuote QuoteProofs.

(** C86. In a message with a text (the text is what follows the first colon of
    the parameters; for a whisper this colon follows a space) any other text
    could be written: the line still parses, the text is the new one, and
    everything else is as before, the parts of the line as well as the typed
    message. *)
Theorem c86_text_is_only_text :
  forall (bd : build) (pf : profile) (h q t t' : str) (v : view) (m : msg_ref),
    parsed bd (h ++ q ++ b ":" ++ t) v m -> v_params v = Some (q ++ b ":" ++ t) -> ~ In ":"%byte q ->
    In (v_command v) typed_words -> (v_command v = b "WHISPER" -> exists q0, q = q0 ++ b " ") ->
    utf8_valid t' = true -> below_4gib (h ++ q ++ b ":" ++ t') ->
    exists m',
      parsed bd (h ++ q ++ b ":" ++ t') (with_params v (q ++ b ":" ++ t')) m' /\
      ref_text m = Ret (Some t) /\ ref_text m' = Ret (Some t') /\
      (from_irc pf m = from_irc pf m' \/
       exists x x', from_irc pf m = Ret (Some x) /\ from_irc pf m' = Ret (Some x') /\
         without_text x = without_text x').
Proof. exact p_c86_text_is_only_text. Qed.
Print Assumptions c86_text_is_only_text.

(** C86. The same of the parts of the line, for every command. *)
Theorem c86_any_command :
  forall (bd : build) (h q t t' : str) (v : view) (m : msg_ref),
    parsed bd (h ++ q ++ b ":" ++ t) v m -> v_params v = Some (q ++ b ":" ++ t) -> ~ In ":"%byte q ->
    utf8_valid t' = true -> below_4gib (h ++ q ++ b ":" ++ t') ->
    exists m',
      ref_parse bd (h ++ q ++ b ":" ++ t') = Ret (Some m') /\
      ref_text m = Ret (Some t) /\ ref_text m' = Ret (Some t') /\
      ref_params m' = Ret (Some (q ++ b ":" ++ t')) /\
      ref_command m' = ref_command m /\ ref_prefix m' = ref_prefix m /\ ref_tags m' = ref_tags m /\
      (forall k, ref_tag m' k = ref_tag m k) /\
      (v_command v <> b "353" -> v_command v <> b "366" -> ref_channel m' = ref_channel m).
Proof. exact p_c86_any_command. Qed.
Print Assumptions c86_any_command.

(** C86. The space before the colon of a whisper is needed: without it the text
    can bring in a recipient. *)
Theorem c86_whisper_without_space_refuted :
  exists (h t t' : str) (v v' : view) (m m' : msg_ref),
    parsed Scalar (h ++ b ":" ++ t) v m /\ v_params v = Some (b ":" ++ t) /\ v_command v = b "WHISPER" /\
    parsed Scalar (h ++ b ":" ++ t') v' m' /\ v' = with_params v (b ":" ++ t') /\
    forall pf, from_irc pf m = Ret None /\ exists x, from_irc pf m' = Ret (Some x).
Proof. exact p_c86_whisper_without_space_refuted. Qed.
Print Assumptions c86_whisper_without_space_refuted.

(** A text that looks like a line of its own. *)
Example example_c86 :
  let h := b "@room-id=1;id=9;user-id=2;display-name=D;tmi-sent-ts=5 :d!d@d PRIVMSG #c " in
  let t := b "hi" in
  let t' := b "@room-id=3 :boss!boss@boss CLEARCHAT #other :victim" in
  exists v m m' x x',
    parsed Scalar (h ++ [] ++ b ":" ++ t) v m /\ v_params v = Some ([] ++ b ":" ++ t) /\ ~ In ":"%byte [] /\
    In (v_command v) typed_words /\ v_command v <> b "WHISPER" /\
    utf8_valid t' = true /\ below_4gib (h ++ [] ++ b ":" ++ t') /\
    ref_parse Scalar (h ++ [] ++ b ":" ++ t') = Ret (Some m') /\
    from_irc Debug m = Ret (Some (MPrivmsg x)) /\ from_irc Debug m' = Ret (Some (MPrivmsg x')) /\
    pm_text x = Borrowed t /\ pm_text x' = Borrowed t' /\ pm_channel x' = Borrowed (b "#c").
Proof. exact ex_c86. Qed.

Example example_c86_whisper :
  let h := b "@user-id=1;display-name=A :a!a@a WHISPER " in
  exists v m m' x x',
    parsed Scalar (h ++ b "me " ++ b ":" ++ b "hi") v m /\ v_params v = Some (b "me " ++ b ":" ++ b "hi") /\
    ~ In ":"%byte (b "me ") /\ (exists q0, b "me " = q0 ++ b " ") /\
    ref_parse Scalar (h ++ b "me " ++ b ":" ++ b "you :there") = Ret (Some m') /\
    from_irc Debug m = Ret (Some (MWhisper x)) /\ from_irc Debug m' = Ret (Some (MWhisper x')) /\
    w_recipient x' = Borrowed (b "me") /\ w_text x' = Borrowed (b "you :there").
Proof. exact ex_c86_whisper. Qed.
