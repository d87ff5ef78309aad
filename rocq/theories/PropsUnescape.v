(** * PropsUnescape: property theorems (generated from UnescapeProofs.v by tools/gen_props.py).

    Only statements; each is closed by the lemma of the same name. *)

From Verif Require Import Base Wide Tags Irc Unescape SpecIrc SpecText UnescapeProofs.

(** C19. Unescaping inverts escaping. *)
Theorem c19_unescape_escape :
  forall s : str, utf8_valid s = true -> ~ infix comma_mark s ->
    unescape (escape s) = s /\
    forall c, deref c = escape s -> exists c', maybe_unescape c = Ret c' /\ deref c' = s.
Proof. exact p_c19_unescape_escape. Qed.
Print Assumptions c19_unescape_escape.

(** C19. The escaped text has no separator or line break. *)
Theorem c19_escaped_text_is_a_tag_value :
  forall (s : str) (x : byte), In x (escape s) ->
    x <> ";"%byte /\ x <> " "%byte /\ x <> x0d /\ x <> x0a.
Proof. exact p_c19_escaped_text_is_a_tag_value. Qed.
Print Assumptions c19_escaped_text_is_a_tag_value.

(** C19. Any texts written as escaped tag values come back through [tags] and
    [tag] with either unescape function. *)
Theorem c19_tag_values_survive :
  forall (bd : build) (m : message),
    wf_message (blank_values m) -> Forall unmarked (map snd (m_tags m)) ->
    utf8_valid (render (escape_tags m)) = true -> below_4gib (render (escape_tags m)) ->
    length (m_tags m) <= 128 -> Forall short_tag (m_tags (escape_tags m)) ->
    exists r l, ref_parse bd (render (escape_tags m)) = Ret (Some r) /\ ref_tags r = Ret l /\
      map (fun kv => (fst kv, unescape (snd kv))) l = m_tags m /\
      forall t v, first_tag (tag_as_str t) (m_tags m) (Some v) ->
        exists w, ref_tag r t = Ret (Some w) /\ unescape w = v /\
          exists c, maybe_unescape (Borrowed w) = Ret c /\ deref c = v.
Proof. exact p_c19_tag_values_survive. Qed.
Print Assumptions c19_tag_values_survive.

Example example_c19 :
  escape (b "a; b\c" ++ [x0d; x0a]) = b "a\:\sb\\c\r\n" /\ unmarked (b "a; b\c" ++ [x0d; x0a]) /\
  unescape (b "a\:\sb\\c\r\n") = b "a; b\c" ++ [x0d; x0a].
Proof. exact ex_c19. Qed.

(** C20. [maybe_unescape] always returns, and hands its argument back exactly
    when there is no backslash. *)
Theorem c20_unchanged_iff_no_backslash :
  forall c : cow, utf8_valid (deref c) = true ->
    exists c', maybe_unescape c = Ret c' /\
      (c' = c <-> ~ In "\"%byte (deref c)) /\ (deref c' = deref c <-> ~ In "\"%byte (deref c)).
Proof. exact p_c20_unchanged_iff_no_backslash. Qed.
Print Assumptions c20_unchanged_iff_no_backslash.

(** C20. The second function returns, for every text, exactly what is to be shown for it:
    there is one such text, and for an escaped text it is the text. *)
Theorem c20_shown :
  forall c : cow, utf8_valid (deref c) = true ->
    exists c', maybe_unescape c = Ret c' /\ (forall y, shown (deref c) y <-> y = deref c').
Proof. exact p_c20_shown. Qed.
Print Assumptions c20_shown.

Theorem c20_shown_escape :
  forall t : str, unmarked t -> shown (escape t) t.
Proof. exact p_c20_shown_escape. Qed.
Print Assumptions c20_shown_escape.

(** C20. The two functions agree exactly when no comma mark comes before the
    first backslash. *)
Theorem c20_agree_iff :
  forall (c c' : cow) (pre : str),
    utf8_valid (deref c) = true -> before_backslash (deref c) pre -> maybe_unescape c = Ret c' ->
    (deref c' = unescape (deref c) <-> ~ infix comma_mark pre).
Proof. exact p_c20_agree_iff. Qed.
Print Assumptions c20_agree_iff.

(** C20. They do not agree in general. *)
Theorem c20_agree_refuted :
  exists (s : str) (c' : cow), utf8_valid s = true /\ maybe_unescape (Borrowed s) = Ret c' /\
    deref c' <> unescape s.
Proof. exact p_c20_agree_refuted. Qed.
Print Assumptions c20_agree_refuted.

Example example_c20 :
  before_backslash (b "a b\sc⸝") (b "a b") /\ ~ infix comma_mark (b "a b") /\
  maybe_unescape (Borrowed (b "a b\sc⸝")) = Ret (Owned (b "a b c,")) /\ unescape (b "a b\sc⸝") = b "a b c," /\
  shown (b "a⸝\x⸝sy") (b "a⸝x, y").
Proof. exact ex_c20. Qed.

(** C21. [unescape] never grows a text and keeps it valid. *)
Theorem c21_valid_and_not_longer :
  forall s : str, utf8_valid s = true -> utf8_valid (unescape s) = true /\ length (unescape s) <= length s.
Proof. exact p_c21_valid_and_not_longer. Qed.
Print Assumptions c21_valid_and_not_longer.

(** C21. A text without backslash is left alone exactly when it has no comma
    mark either. *)
Theorem c21_plain_text_unchanged :
  forall s : str, utf8_valid s = true -> ~ In "\"%byte s -> (unescape s = s <-> ~ infix comma_mark s).
Proof. exact p_c21_plain_text_unchanged. Qed.
Print Assumptions c21_plain_text_unchanged.

(** C21. Equations that determine [unescape] on every text: characters outside
    an escape, the end of the text after a backslash, the five escapes, and a
    backslash that stays pending over any other character. *)
Theorem c21_equations :
  unescape [] = [] /\
  (forall c s, character c -> c <> b "\" -> c <> comma_mark -> unescape (c ++ s) = c ++ unescape s) /\
  (forall s, unescape (comma_mark ++ s) = b "," ++ unescape s) /\
  unescape (b "\") = [] /\
  (forall k v s, In (k, v) escape_pairs -> unescape (b "\" ++ k ++ s) = v ++ unescape s) /\
  (forall s, unescape (b "\" ++ comma_mark ++ s) = b "," ++ unescape (b "\" ++ s)) /\
  (forall c s, character c -> c <> comma_mark -> ~ In c (map fst escape_pairs) ->
     unescape (b "\" ++ c ++ s) = c ++ unescape (b "\" ++ s)).
Proof. exact p_c21_equations. Qed.
Print Assumptions c21_equations.

(** C21. What a text is unescaped to is exactly what it reads as. *)
Theorem c21_reading :
  forall s t : str, utf8_valid s = true -> (reading false s t <-> unescape s = t).
Proof. exact p_c21_reading. Qed.
Print Assumptions c21_reading.

(** C21. A backslash at the end adds nothing, unless one is already pending. *)
Theorem c21_trailing_backslash_dropped :
  forall s : str, utf8_valid s = true -> ~ In "\"%byte s -> unescape (s ++ b "\") = unescape s.
Proof. exact p_c21_trailing_backslash_dropped. Qed.
Print Assumptions c21_trailing_backslash_dropped.

Example example_c21 :
  unescape (b "\xs") = b "x " /\ unescape (b "a\") = b "a" /\ character (b "é") /\ unescape (b "\é⸝:") = b "é,;".
Proof. exact ex_c21. Qed.
