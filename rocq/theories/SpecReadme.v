(** * SpecReadme: what the program in README.md may send. *)

From Verif Require Import Base Client.

(** A line that joins its channel. *)
Definition join_line : str := b "JOIN #forsen" ++ crlf.

(** The lines it may send on a connection, after the greeting. *)
Definition polite (s : str) : Prop :=
  s = join_line \/ s = b "PONG" ++ crlf \/ exists t, s = b "PONG :" ++ t ++ crlf.
