(** * PropsIrc: property theorems (generated from IrcProofs.v by tools/gen_props.py).

    Only statements; each is closed by the lemma of the same name. *)

From Verif Require Import Base Wide Tags Irc SpecIrc Samples IrcProofs.

(** C01. Same text, same result: the address and the vector backend are
    irrelevant (any bytes, no size limit). *)
Theorem c01_address_and_backend_independent :
  forall (v v' : backend) (addr addr' : nat) (s : str),
    ref_parse (Simd v addr) s = ref_parse (Simd v' addr') s /\
    own_parse (Simd v addr) s = own_parse (Simd v' addr') s.
Proof. exact p_c01_address_and_backend_independent. Qed.
Print Assumptions c01_address_and_backend_independent.

Example example_c01 :
  exists m, ref_parse (Simd Sse2 3) sample = Ret (Some m) /\
            ref_parse (Simd Neon 8) sample = Ret (Some m) /\ length (p_tags (r_parts m)) = 4.
Proof. exact ex_c01. Qed.

(** C02. For any bytes, any address and any backend, parsing ends by returning
    or by a panic: no vector load leaves the text or is misaligned, no
    unchecked index is out of range, no uninitialised tag slot is read. *)
Theorem c02_no_undefined_behaviour :
  forall (bd : build) (s : str),
    (exists r, ref_parse bd s = Ret r) \/ ref_parse bd s = Panic.
Proof. exact p_c02_no_undefined_behaviour. Qed.
Print Assumptions c02_no_undefined_behaviour.

(** A line whose tag section needs every stage of the vector search. *)
Example example_c02 :
  exists r, ref_parse (Simd Avx2 7) (b "@" ++ repeat "a"%byte 300 ++ b "=1;x=2 PING") = Ret (Some r).
Proof. exact ex_c02. Qed.

(** C02. The vector search itself: for any bytes, address, backend and needle it
    returns the index of the first occurrence. *)
Theorem c02_vector_search_exact :
  forall (v : backend) (addr : nat) (data : list byte) (c : byte),
    match find_first v addr data c with
    | Ret (Some i) => exists l r, data = l ++ [c] ++ r /\ length l = i /\ ~ In c l
    | Ret None => ~ In c data
    | _ => False
    end.
Proof. exact p_c02_vector_search_exact. Qed.
Print Assumptions c02_vector_search_exact.

Example example_c02_search :
  find_first Neon 5 (repeat "."%byte 100 ++ b "x" ++ repeat "x"%byte 7) "x" = Ret (Some 100).
Proof. exact ex_c02_search. Qed.

(** C03. A line with a tag section of at most 128 pairs, each shorter than
    65536 bytes: [tags()] is the list of its pairs, in both builds. *)
Theorem c03_tags_exact :
  forall (bd : build) (s sec rest : str) (l : list (str * str)),
    utf8_valid s = true -> below_4gib s ->
    has_section s sec rest -> tag_section sec l ->
    length l <= 128 -> Forall short_tag l ->
    ref_parse bd s = Ret None \/
    exists m, ref_parse bd s = Ret (Some m) /\ ref_tags m = Ret l.
Proof. exact p_c03_tags_exact. Qed.
Print Assumptions c03_tags_exact.

(** C03. Every section has exactly one reading. *)
Theorem c03_section_reading_unique :
  forall sec : str, exists! l, tag_section sec l.
Proof. exact p_c03_section_reading_unique. Qed.
Print Assumptions c03_section_reading_unique.

(** C03. Without a section there are no tags. *)
Theorem c03_no_section_no_tags :
  forall (bd : build) (s : str) (m : msg_ref),
    utf8_valid s = true -> below_4gib s ->
    (forall sec rest, ~ has_section s sec rest) ->
    ref_parse bd s = Ret (Some m) -> ref_tags m = Ret [].
Proof. exact p_c03_no_section_no_tags. Qed.
Print Assumptions c03_no_section_no_tags.

Example example_c03 :
  tag_section odd_section
    [(b "a;b", b "1"); (b "c", []); (b "d", b "x=y"); ([], b "5"); (b "lone;e", [])] /\
  exists m, ref_parse Scalar (b "@" ++ odd_section ++ b " PING") = Ret (Some m) /\
    ref_tags m = Ret [(b "a;b", b "1"); (b "c", []); (b "d", b "x=y"); ([], b "5"); (b "lone;e", [])].
Proof. exact ex_c03. Qed.

(** C04. The two builds give the same result for every text (any bytes, no size
    limit) unless it starts with ['@'] and has no space. *)
Theorem c04_simd_equals_scalar :
  forall (v : backend) (addr : nat) (s : str),
    ~ unterminated_tags s ->
    ref_parse (Simd v addr) s = ref_parse Scalar s /\ own_parse (Simd v addr) s = own_parse Scalar s.
Proof. exact p_c04_simd_equals_scalar. Qed.
Print Assumptions c04_simd_equals_scalar.

(** C04. In the exceptional case the scalar build panics and the SIMD build
    returns a bare message whose command is the whole text. *)
Theorem c04_unterminated_section :
  forall (v : backend) (addr : nat) (s : str),
    utf8_valid s = true -> below_4gib s -> unterminated_tags s ->
    ref_parse Scalar s = Panic /\
    exists m, ref_parse (Simd v addr) s = Ret (Some m) /\
      ref_command m = Ret (Other s) /\ ref_tags m = Ret [] /\ ref_prefix m = Ret None /\
      ref_channel m = Ret None /\ ref_params m = Ret None.
Proof. exact p_c04_unterminated_section. Qed.
Print Assumptions c04_unterminated_section.

Example example_c04 :
  unterminated_tags (b "@badges=") /\ utf8_valid (b "@badges=") = true /\
  ~ unterminated_tags sample.
Proof. exact ex_c04. Qed.
