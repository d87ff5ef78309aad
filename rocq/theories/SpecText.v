(** * SpecText: what tag escaping means, independent of the model's loops. *)

From Verif Require Import Base SpecIrc.

(** U+2E1D, which Twitch uses for a comma. *)
Definition comma_mark : str := b "⸝".

(** Escaping by the table in Twitch's documentation, byte by byte (all special
    characters are ASCII). *)
Definition escape_byte (x : byte) : str :=
  match x with
  | ";"%byte => b "\:"
  | " "%byte => b "\s"
  | "\"%byte => b "\\"
  | x0d => b "\r"
  | x0a => b "\n"
  | _ => [x]
  end.

Definition escape (s : str) : str := flat_map escape_byte s.

(** The same message with every tag value escaped. *)
Definition escape_tag (kv : str * str) : str * str := (fst kv, escape (snd kv)).
Definition escape_tags (m : message) : message :=
  mk_message (map escape_tag (m_tags m)) (m_sender m) (m_command m) (m_channel m) (m_params m).

(** A single character: a valid text that does not split into two. *)
Definition character (c : str) : Prop :=
  utf8_valid c = true /\ c <> [] /\
  forall l r, c = l ++ r -> utf8_valid l = true -> l = [] \/ r = [].

(** What [escaped] character stands for after a backslash. *)
Definition escape_pairs : list (str * str) :=
  [(b ":", b ";"); (b "s", b " "); (b "\", b "\"); (b "r", [x0d]); (b "n", [x0a])].

(** The part of a text before its first backslash (all of it without one). *)
Definition before_backslash (s pre : str) : Prop :=
  ~ In "\"%byte pre /\ (s = pre \/ exists post, s = pre ++ b "\" ++ post).

(** The same message with empty tag values, to say that its other parts are
    well formed. *)
Definition blank_values (m : message) : message :=
  mk_message (map (fun kv => (fst kv, [])) (m_tags m)) (m_sender m) (m_command m) (m_channel m) (m_params m).

Definition unmarked (s : str) : Prop := utf8_valid s = true /\ ~ infix comma_mark s.

(** What a text with escapes reads as, character by character; [pending]: a backslash
    came before, and no escape since. *)
Inductive reading : forall (pending : bool) (s t : str), Prop :=
| rd_end p : reading p [] []
| rd_comma p s t : reading p s t -> reading p (comma_mark ++ s) (b "," ++ t)
| rd_plain c s t :
    character c -> c <> b "\" -> c <> comma_mark -> reading false s t -> reading false (c ++ s) (c ++ t)
| rd_backslash s t : reading true s t -> reading false (b "\" ++ s) t
| rd_escape k v s t : In (k, v) escape_pairs -> reading false s t -> reading true (k ++ s) (v ++ t)
| rd_other c s t :
    character c -> c <> comma_mark -> ~ In c (map fst escape_pairs) -> reading true s t ->
    reading true (c ++ s) (c ++ t).

(** What is shown for the value of a tag: itself up to its first backslash (also comma
    marks), and what the rest reads as from there. *)
Definition shown (x y : str) : Prop :=
  exists pre, before_backslash x pre /\
    ((x = pre /\ y = pre) \/ exists post t, x = pre ++ b "\" ++ post /\ reading true post t /\ y = pre ++ t).
