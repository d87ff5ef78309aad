(** * SpecRounds: how often a loop goes round. *)

From Verif Require Import Base.

(** A loop, given how often its condition may be evaluated, ends within [k] times: it does
    not need more, and with more it does the same. *)
Definition ends_within {A : Type} (loop : nat -> res A) (k : nat) : Prop :=
  loop k <> NoFuel /\ forall k', k <= k' -> loop k' = loop k.

(** How many bytes are [=] or [;]. *)
Definition separators (s : str) : nat :=
  length (filter (fun x => Byte.eqb x "=" || Byte.eqb x ";") s).
