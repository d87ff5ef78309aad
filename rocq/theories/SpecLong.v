(** * SpecLong: lines whose tag values are 65536 bytes or longer. *)

From Verif Require Import Base Tags Irc SpecIrc MsgTypes SpecMsg SpecFree.

(** What is kept of a tag. *)
Definition kept_tag (kv : str * str) : str * str := (fst kv, truncated (snd kv)).

(** Only the keys need to be short. *)
Definition short_keys (l : list (str * str)) : Prop :=
  Forall (fun kv => (N.of_nat (length (fst kv)) < 65536)%N) l.

(** No value is cut within a character. *)
Definition cut_well (l : list (str * str)) : Prop :=
  Forall (fun kv => utf8_valid (truncated (snd kv)) = true) l.

(** The line with the tags [l] as they are kept. *)
Definition shortened (l : list (str * str)) (rest : str) : str :=
  b "@" ++ written (map kept_tag l) ++ b " " ++ rest.
