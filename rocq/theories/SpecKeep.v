(** * SpecKeep: what the reader reads and keeps (C91). *)

From Verif Require Import Base Wide Tags Irc MsgBase Common Client SpecClient.

(** A read gives at most [k] bytes (8 KiB in tokio's [BufReader]). *)
Definition at_most (k : nat) (x : read) : Prop :=
  match x with Got bytes => length bytes <= k | Fault _ => True end.

(** The bytes of the reads. *)
Definition bytes_of (reads : list read) : str :=
  concat (map (fun x => match x with Got bytes => bytes | Fault _ => [] end) reads).

(** A read that gives bytes, and no line feed among them. *)
Definition inside_line (x : read) : Prop :=
  match x with Got bytes => bytes <> [] /\ ~ In lf bytes | Fault _ => False end.
