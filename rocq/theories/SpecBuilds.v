(** * SpecBuilds: the same program in two builds (C92). *)

From Verif Require Import Base Wide Tags Irc MsgBase MsgTypes Message Common Client SpecClient Bot.

(** Another build of the parser, which does not panic where the first does not: the
    scalar one may be replaced by any, the others by each other. *)
Definition as_safe (bd bd' : build) : Prop :=
  match bd, bd' with
  | Simd _ _, Scalar => False
  | _, _ => True
  end.

(** The same for the profile: a debug build may be replaced by a release build. *)
Definition as_lenient (pf pf' : profile) : Prop := pf' = pf \/ pf' = Release.

(** The same turn, the parser built in another way. *)
Definition rebuilt (x x' : turn) : Prop :=
  as_safe (t_build x) (t_build x') /\ t_reads x' = t_reads x /\ t_write x' = t_write x /\
  t_fuel x' = t_fuel x /\ t_oracle x' = t_oracle x.
