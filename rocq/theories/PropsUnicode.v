(** * PropsUnicode: property theorems (generated from UnicodeProofs.v by tools/gen_props.py).

    Only statements; each is closed by the lemma of the same name. *)

From Verif Require Import Base SpecIrc SpecUnicode BaseFacts Utf8Facts UnicodeProofs.

Open Scope N_scope.

(** C68. A text is valid if and only if it is the UTF-8 encoding of some scalar values... *)
Theorem c68_utf8 :
  forall (s : str), utf8_valid s = true <-> exists ns, text_of ns s.
Proof. exact p_c68_utf8. Qed.
Print Assumptions c68_utf8.

(** C68. ... which are then determined, and are its characters. *)
Theorem c68_characters :
  forall (s : str) (ns : list N), text_of ns s ->
    Forall2 encodes ns (chars s) /\ concat (chars s) = s /\ forall ms, text_of ms s -> ms = ns.
Proof. exact p_c68_characters. Qed.
Print Assumptions c68_characters.

(** C68. Slices of a valid text are valid exactly at the boundaries of its characters. *)
Theorem c68_boundaries :
  forall (s : str) (i : nat), utf8_valid s = true -> (i <= length s)%nat ->
    (is_char_boundary s i = true <-> exists k, i = length (concat (firstn k (chars s)))).
Proof. exact p_c68_boundaries. Qed.
Print Assumptions c68_boundaries.

(** C68. The characters that separate words are those with the property White_Space. *)
Theorem c68_white_space :
  forall (c : uchar) (n : N), encodes n c -> (is_whitespace c = true <-> white_space n).
Proof. exact p_c68_white_space. Qed.
Print Assumptions c68_white_space.

Example example_c68 :
  let s := [x61; xc3; xa9; xe2; x82; xac; xf0; x9f; x98; x80] in
  text_of [97; 233; 8364; 128512] s /\ chars s = [[x61]; [xc3; xa9]; [xe2; x82; xac]; [xf0; x9f; x98; x80]] /\
  utf8_valid [xed; xa0; x80] = false /\ utf8_valid [xc0; xaf] = false /\ utf8_valid [xf4; x90; x80; x80] = false /\
  (exists c, encodes 160 c /\ is_whitespace c = true) /\ (exists c, encodes 8203 c /\ is_whitespace c = false).
Proof. exact ex_c68. Qed.
