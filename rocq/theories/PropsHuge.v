(** * PropsHuge: property theorems (generated from HugeProofs.v by tools/gen_props.py).

    Only statements; each is closed by the lemma of the same name. *)

From Verif Require Import Base Wide Tags Irc SpecIrc HugeProofs.

(** C83. Only the part [h] of the line in front of the parameters has to be
    shorter than 4 GiB for the tags, the prefix, the command and the channel to
    be read as they are written.  The parameters end at the length of the line
    modulo 2^32, if that is behind their start and between two characters, and
    otherwise cannot be read. *)
Theorem c83_lines_of_any_size :
  forall (bd : build) (s h p : str) (v : view),
    utf8_valid s = true -> at_most_128 s -> (bd = Scalar -> ~ unterminated_tags s) ->
    spec_view s = Some v -> v_params v = Some p -> s = h ++ p -> below_4gib h ->
    exists m, ref_parse bd s = Ret (Some m) /\
      ref_prefix m = Ret (v_prefix v) /\
      ref_command m = Ret (spec_command (v_command v)) /\
      (v_command v <> b "353" -> v_command v <> b "366" -> ref_channel m = Ret (v_channel v)) /\
      (all_short s -> ref_tags m = Ret (v_tags v)) /\
      let n := (N.of_nat (length s) mod 4294967296)%N in
      ((n < N.of_nat (length h))%N -> ref_params m = Panic /\ ref_text m = Panic) /\
      (forall q r, p = q ++ r -> N.of_nat (length h + length q) = n ->
         (utf8_valid q = true ->
            ref_params m = Ret (Some q) /\
            (forall a t, q = a ++ b ":" ++ t -> ~ In ":"%byte a -> ref_text m = Ret (Some t)) /\
            (~ In ":"%byte q -> ref_text m = Ret (Some q))) /\
         (utf8_valid q = false -> ref_params m = Panic /\ ref_text m = Panic)).
Proof. exact p_c83_lines_of_any_size. Qed.
Print Assumptions c83_lines_of_any_size.

(** C83. The parameters of such a line are read as written exactly when the
    whole line is shorter than 4 GiB. *)
Theorem c83_parameters_need_4gib :
  forall (bd : build) (s h p : str) (v : view) (m : msg_ref),
    utf8_valid s = true -> at_most_128 s -> (bd = Scalar -> ~ unterminated_tags s) ->
    spec_view s = Some v -> v_params v = Some p -> s = h ++ p -> below_4gib h ->
    ref_parse bd s = Ret (Some m) ->
    (ref_params m = Ret (Some p) <-> below_4gib s).
Proof. exact p_c83_parameters_need_4gib. Qed.
Print Assumptions c83_parameters_need_4gib.

(** C83. A line of exactly 4 GiB is accepted, and then its parameters and its
    text cannot be read. *)
Theorem c83_params_panic_refuted :
  exists (s p : str) (v : view), utf8_valid s = true /\ at_most_128 s /\ all_short s /\
    spec_view s = Some v /\ v_params v = Some p /\ N.of_nat (length s) = 4294967296%N /\
    forall bd, exists m, ref_parse bd s = Ret (Some m) /\ ref_params m = Panic /\ ref_text m = Panic.
Proof. exact p_c83_params_panic_refuted. Qed.
Print Assumptions c83_params_panic_refuted.

(** C83. A longer one is accepted, and then has other parameters than were
    written: here one character of 4 GiB. *)
Theorem c83_params_lost_refuted :
  exists (s p : str) (v : view), utf8_valid s = true /\ at_most_128 s /\ all_short s /\
    spec_view s = Some v /\ v_params v = Some p /\ N.of_nat (length p) = 4294967297%N /\
    forall bd, exists m, ref_parse bd s = Ret (Some m) /\ ref_params m = Ret (Some (b "x")).
Proof. exact p_c83_params_lost_refuted. Qed.
Print Assumptions c83_params_lost_refuted.
