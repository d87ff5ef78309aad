(** * PropsLong: property theorems (generated from LongProofs.v by tools/gen_props.py).

    Only statements; each is closed by the lemma of the same name. *)

From Verif Require Import Base Wide Tags Irc MsgBase MsgTypes MsgNotice Message SpecIrc SpecText SpecMsg SpecQuote SpecFree SpecParts SpecLong LineProofs LongProofs.

(** C94. A line with tag values of any length is read as the line with every value
    cut to its length modulo 65536, if no value is cut within a character: that
    line parses, it has the same other parts, and the typed messages are equal. *)
Theorem c94_as_if_shortened :
  forall (bd : build) (sec rest : str) (l : list (str * str)) (m : msg_ref),
    let s := b "@" ++ sec ++ b " " ++ rest in
    utf8_valid s = true -> below_4gib s -> ~ In " "%byte sec -> tag_section sec l -> short_keys l -> cut_well l ->
    ref_parse bd s = Ret (Some m) -> below_4gib (shortened l rest) ->
    exists v m', spec_view s = Some v /\ v_tags v = l /\
      parsed bd (shortened l rest) (with_tags v (map kept_tag l)) m' /\
      forall pf, In (v_command v) typed_words -> from_irc pf m = from_irc pf m'.
Proof. exact p_c94_as_if_shortened. Qed.
Print Assumptions c94_as_if_shortened.

(** A line to which [p_c94_as_if_shortened] applies, with a name of 65539 bytes. *)
Example example_c94_long_name :
  exists (sec rest : str) (l : list (str * str)) (m : msg_ref) (name : str),
    let s := b "@" ++ sec ++ b " " ++ rest in
    utf8_valid s = true /\ below_4gib s /\ ~ In " "%byte sec /\ tag_section sec l /\ short_keys l /\ cut_well l /\
    ref_parse (Simd Sse2 0) s = Ret (Some m) /\ below_4gib (shortened l rest) /\
    l = [(b "user-id", b "1"); (b "display-name", name)] /\ N.of_nat (length name) = 65539%N /\
    shortened l rest = b "@user-id=1;display-name=aaa; GLOBALUSERSTATE".
Proof. exact ex_c94_long_name. Qed.

(** C94. That a typed message has the whole name is false: one of 65539 bytes is
    one of three bytes afterwards, without any sign of it. *)
Theorem c94_whole_name_refuted :
  exists (s : str) (v : view) (m : msg_ref) (x : global_user_state cow) (name : str),
    utf8_valid s = true /\ below_4gib s /\ spec_view s = Some v /\ ref_parse (Simd Sse2 0) s = Ret (Some m) /\
    has v "display-name" name /\ from_irc Release m = Ret (Some (MGlobalUserState x)) /\
    N.of_nat (length name) = 65539%N /\ deref (gus_name x) = b "aaa".
Proof. exact p_c94_whole_name_refuted. Qed.
Print Assumptions c94_whole_name_refuted.

(** C94. A value that is cut within a character makes the typed message panic: here
    the user id of a GLOBALUSERSTATE, in any build. *)
Theorem c94_cut_in_character :
  forall (bd : build) (pf : profile) (s : str) (v : view) (m : msg_ref) (x : str),
    utf8_valid s = true -> below_4gib s -> spec_view s = Some v -> ref_parse bd s = Ret (Some m) ->
    short_keys (v_tags v) -> v_command v = b "GLOBALUSERSTATE" -> has v "user-id" x ->
    utf8_valid (truncated x) = false -> from_irc pf m = Panic.
Proof. exact p_c94_cut_in_character. Qed.
Print Assumptions c94_cut_in_character.

Example example_c94_panics :
  exists (s : str) (v : view) (m : msg_ref) (x : str),
    utf8_valid s = true /\ below_4gib s /\ spec_view s = Some v /\ ref_parse Scalar s = Ret (Some m) /\
    short_keys (v_tags v) /\ v_command v = b "GLOBALUSERSTATE" /\ has v "user-id" x /\
    utf8_valid (truncated x) = false.
Proof. exact ex_c94_panics. Qed.
