(** * PropsLine: property theorems (generated from LineProofs.v by tools/gen_props.py).

    Only statements; each is closed by the lemma of the same name. *)

From Verif Require Import Base Wide Tags Irc SpecIrc Samples LineProofs.

(** C05. The SIMD build panics exactly on more than 128 tags. *)
Theorem c05_simd_panics_iff :
  forall (v : backend) (addr : nat) (s : str),
    utf8_valid s = true -> below_4gib s ->
    (ref_parse (Simd v addr) s = Panic <->
     exists sec rest l, has_section s sec rest /\ tag_section sec l /\ 128 < length l) /\
    (ref_parse (Simd v addr) s <> Panic -> exists r, ref_parse (Simd v addr) s = Ret r).
Proof. exact p_c05_simd_panics_iff. Qed.
Print Assumptions c05_simd_panics_iff.

(** C05. The scalar build panics exactly on more than 128 tags or on an
    unterminated section. *)
Theorem c05_scalar_panics_iff :
  forall s : str,
    utf8_valid s = true -> below_4gib s ->
    (ref_parse Scalar s = Panic <->
     unterminated_tags s \/
     exists sec rest l, has_section s sec rest /\ tag_section sec l /\ 128 < length l) /\
    (ref_parse Scalar s <> Panic -> exists r, ref_parse Scalar s = Ret r).
Proof. exact p_c05_scalar_panics_iff. Qed.
Print Assumptions c05_scalar_panics_iff.

Example example_c05 :
  ref_parse (Simd Sse2 0) (b "@" ++ many_tags 129 ++ b " PING") = Panic /\
  exists r, ref_parse (Simd Sse2 0) (b "@" ++ many_tags 128 ++ b " PING") = Ret r.
Proof. exact ex_c05. Qed.

(** C06. Every accessor returns. *)
Theorem c06_accessors_return :
  forall (bd : build) (s : str) (m : msg_ref),
    utf8_valid s = true -> below_4gib s -> all_short s ->
    ref_parse bd s = Ret (Some m) ->
    ref_raw m = s /\
    (exists r, ref_tags m = Ret r) /\
    (forall t, exists r, ref_tag m t = Ret r) /\
    (exists r, ref_prefix m = Ret r) /\ (exists r, ref_command m = Ret r) /\
    (exists r, ref_channel m = Ret r) /\ (exists r, ref_params m = Ret r) /\
    (exists r, ref_text m = Ret r).
Proof. exact p_c06_accessors_return. Qed.
Print Assumptions c06_accessors_return.

Example example_c06 :
  all_short sample /\ utf8_valid sample = true /\ below_4gib sample /\
  exists m, ref_parse (Simd Avx2 17) sample = Ret (Some m) /\ ref_text m = Ret (Some (b "hello there")).
Proof. exact ex_c06. Qed.

(** C07. What [tag] gives for a tag of any length, when the keys are shorter than
    65536 bytes: the value with its length taken modulo 65536, or a panic when
    that cuts a character. *)
Theorem c07_tag_value :
  forall (bd : build) (s : str) (m : msg_ref) (l : list (str * str)) (t : tag_name) (o : option str),
    utf8_valid s = true -> below_4gib s -> ref_parse bd s = Ret (Some m) ->
    line_tags s l -> Forall (fun kv => (N.of_nat (length (fst kv)) < 65536)%N) l ->
    first_tag (tag_as_str t) l o ->
    match o with
    | None => ref_tag m t = Ret None
    | Some v =>
      if utf8_valid (truncated v) then ref_tag m t = Ret (Some (truncated v))
      else ref_tag m t = Panic
    end.
Proof. exact p_c07_tag_value. Qed.
Print Assumptions c07_tag_value.

(** C07. Below 65536 bytes nothing is lost. *)
Theorem c07_short_value_complete :
  forall (bd : build) (s : str) (m : msg_ref) (l : list (str * str)) (t : tag_name) (v : str),
    utf8_valid s = true -> below_4gib s -> ref_parse bd s = Ret (Some m) ->
    line_tags s l -> Forall (fun kv => (N.of_nat (length (fst kv)) < 65536)%N) l ->
    first_tag (tag_as_str t) l (Some v) -> (N.of_nat (length v) < 65536)%N ->
    ref_tag m t = Ret (Some v).
Proof. exact p_c07_short_value_complete. Qed.
Print Assumptions c07_short_value_complete.

(** C07. The unlimited claim is false: a tag value of 65536 bytes is returned as
    the empty string. *)
Theorem c07_long_value_refuted :
  exists (s v : str) (m : msg_ref),
    utf8_valid s = true /\ below_4gib s /\ line_tags s [(b "color", v)] /\ v <> [] /\
    ref_parse (Simd Sse2 0) s = Ret (Some m) /\ ref_tag m TColor = Ret (Some []).
Proof. exact p_c07_long_value_refuted. Qed.
Print Assumptions c07_long_value_refuted.

(** C06. Without the size limit an accessor can panic: a value of 65537 bytes
    that starts with a two-byte character. *)
Theorem c06_long_value_panics_refuted :
  exists (s : str) (m : msg_ref),
    utf8_valid s = true /\ below_4gib s /\
    ref_parse (Simd Sse2 0) s = Ret (Some m) /\ ref_tag m TColor = Panic /\ ref_tags m = Panic.
Proof. exact p_c06_long_value_panics_refuted. Qed.
Print Assumptions c06_long_value_panics_refuted.

(** C08. A line within the tag limit is rejected exactly when nothing, or a
    space, stands where the command should be. *)
Theorem c08_rejected_iff_no_command :
  forall (bd : build) (s : str),
    utf8_valid s = true -> below_4gib s -> at_most_128 s -> (bd = Scalar -> ~ unterminated_tags s) ->
    (ref_parse bd s = Ret None <-> exists s2, body s s2 /\ (s2 = [] \/ starts " " s2)) /\
    (own_parse bd s = Ret None <-> exists s2, body s s2 /\ (s2 = [] \/ starts " " s2)).
Proof. exact p_c08_rejected_iff_no_command. Qed.
Print Assumptions c08_rejected_iff_no_command.

Example example_c08 :
  ref_parse (Simd Neon 1) (b "@id=1 :tmi.twitch.tv ") = Ret None /\
  ref_parse (Simd Neon 1) (b "@id=1 :tmi.twitch.tv  PING") = Ret None /\
  ref_parse (Simd Neon 1) (b "") = Ret None /\
  body (b "@id=1 :tmi.twitch.tv ") [].
Proof. exact ex_c08. Qed.

(** C09. Writing a well-formed message and parsing it gives its parts back, in
    every build. *)
Theorem c09_parse_render :
  forall (bd : build) (m : message),
    wf_message m -> utf8_valid (render m) = true -> below_4gib (render m) ->
    length (m_tags m) <= 128 -> Forall short_tag (m_tags m) ->
    exists r c, ref_parse bd (render m) = Ret (Some r) /\
      ref_tags r = Ret (m_tags m) /\
      ref_prefix r = Ret (option_map sender_prefix (m_sender m)) /\
      ref_command r = Ret c /\ command_as_str c = m_command m /\
      (m_command m <> b "353" -> m_command m <> b "366" -> ref_channel r = Ret (m_channel m)) /\
      ref_params r = Ret (m_params m).
Proof. exact p_c09_parse_render. Qed.
Print Assumptions c09_parse_render.

Example example_c09 :
  wf_message sample_message /\ utf8_valid (render sample_message) = true /\
  render sample_message = b "@id=1;note=a=b;=é :ni!ck!us@er@host PRIVMSG #chan :hi  #there ".
Proof. exact ex_c09. Qed.

(** C10. The line is the concatenation of the parts handed out. *)
Theorem c10_recomposition :
  forall (bd : build) (s : str) (m : msg_ref),
    utf8_valid s = true -> below_4gib s -> ref_parse bd s = Ret (Some m) ->
    ref_raw m = s /\
    exists sec pt w ch ps c,
      composed s sec pt w ch ps /\ w <> [] /\ ~ In " "%byte w /\
      ref_command m = Ret c /\ command_as_str c = w /\
      ref_params m = Ret ps /\
      (w <> b "353" -> w <> b "366" -> ref_channel m = Ret ch) /\
      (pt = None <-> ref_prefix m = Ret None) /\
      (forall x, pt = Some x -> ref_prefix m = Ret (Some (spec_prefix x))) /\
      (all_short s ->
       match sec with
       | Some x => exists l, tag_section x l /\ ref_tags m = Ret l
       | None => ref_tags m = Ret []
       end).
Proof. exact p_c10_recomposition. Qed.
Print Assumptions c10_recomposition.

(** C10. Every string handed out is a valid part of the line (any message value,
    whatever its positions). *)
Theorem c10_parts_of_the_line :
  forall (m : msg_ref),
    utf8_valid (ref_raw m) = true ->
    (forall l k v, ref_tags m = Ret l -> In (k, v) l ->
       infix k (ref_raw m) /\ utf8_valid k = true /\ infix v (ref_raw m) /\ utf8_valid v = true) /\
    (forall t v, ref_tag m t = Ret (Some v) -> infix v (ref_raw m) /\ utf8_valid v = true) /\
    (forall p, ref_prefix m = Ret (Some p) ->
       (infix (host p) (ref_raw m) /\ utf8_valid (host p) = true) /\
       (forall x, nick p = Some x -> infix x (ref_raw m) /\ utf8_valid x = true) /\
       (forall x, user p = Some x -> infix x (ref_raw m) /\ utf8_valid x = true)) /\
    (forall w, ref_command m = Ret (Other w) -> infix w (ref_raw m) /\ utf8_valid w = true) /\
    (forall x, ref_channel m = Ret (Some x) -> infix x (ref_raw m) /\ utf8_valid x = true) /\
    (forall x, ref_params m = Ret (Some x) -> infix x (ref_raw m) /\ utf8_valid x = true) /\
    (forall x, ref_text m = Ret (Some x) -> infix x (ref_raw m) /\ utf8_valid x = true).
Proof. exact p_c10_parts_of_the_line. Qed.
Print Assumptions c10_parts_of_the_line.

Example example_c10 :
  composed (b "@id=é :tmi 353 a = #c :x") (Some (b "id=é")) (Some (b "tmi")) (b "353") None (Some (b "a = #c :x")) /\
  composed (b "JOIN #c ") None None (b "JOIN") (Some (b "#c")) None.
Proof. exact ex_c10. Qed.
