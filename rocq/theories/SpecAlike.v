(** * SpecAlike: the printed and the serialised form of a value show the same. *)

From Verif Require Import Base Serde Dbg SpecIrc SpecMsg SpecDbg.

(** A whole number as it is written. *)
Definition whole (z : Z) (s : str) : Prop :=
  exists ds, numeral ds (Z.abs_N z) /\ (forall r, ds = "0"%byte :: r -> r = []) /\
    s = (if (z <? 0)%Z then b "-" ++ ds else ds).

(** Names of variants are in lower case when serialised, but not those of the levels
    of pinned messages. *)
Definition level_names : list string :=
  ["ONE"; "TWO"; "THREE"; "FOUR"; "FIVE"; "SIX"; "SEVEN"; "EIGHT"; "NINE"; "TEN"]%string.

Definition variant_name (name key : str) : Prop :=
  (In name (map b level_names) /\ key = name) \/ (~ In name (map b level_names) /\ key = map lower name).

(** A length of time in whole seconds. *)
Definition seconds_text (n : Z) (s : str) : Prop :=
  (n = 0%Z /\ s = b "0ns") \/ (0 < n)%Z /\ exists ds, whole n ds /\ s = ds ++ b "s".

Inductive alike (cd : codec) : dbg -> data -> Prop :=
| al_text s : alike cd (DText s) (DStr s)
| al_true : alike cd (DPlain (b "true")) (DBool true)
| al_false : alike cd (DPlain (b "false")) (DBool false)
| al_number z s : whole z s -> alike cd (DPlain s) (DInt z)
| al_none : alike cd (DPlain (b "None")) DNull
| al_some d x : alike cd d x -> x <> DNull -> alike cd (DTuple (b "Some") [d]) x
| al_list ds xs : all_alike cd ds xs -> alike cd (DList ds) (DSeq xs)
| al_struct name fs l : fields_alike cd fs l -> alike cd (DStruct name fs true) (DMap l)
| al_unit name key : variant_name name key -> alike cd (DPlain name) (DStr key)
| al_variant name key d x :
    variant_name name key -> alike cd d x -> alike cd (DTuple name [d]) (DMap [(key, x)])
| al_seconds n s :
    seconds_text n s -> alike cd (DPlain s) (DMap [(b "secs", DInt n); (b "nanos", DInt 0)])
| al_time ms s : time_text ms s -> alike cd (DPlain s) (time_ser cd ms)
with all_alike (cd : codec) : list dbg -> list data -> Prop :=
| all_none : all_alike cd [] []
| all_more d x ds xs : alike cd d x -> all_alike cd ds xs -> all_alike cd (d :: ds) (x :: xs)
(** The same fields in the same order, but for the number of months of a subscriber,
    which is only printed. *)
with fields_alike (cd : codec) : list (str * dbg) -> list (str * data) -> Prop :=
| fi_none : fields_alike cd [] []
| fi_more name d x fs l : alike cd d x -> fields_alike cd fs l -> fields_alike cd ((name, d) :: fs) ((name, x) :: l)
| fi_months d fs l : fields_alike cd fs l -> fields_alike cd ((b "months_n", d) :: fs) l.

Definition capital (c : byte) : byte :=
  if in_range 97 122 c then match Byte.of_N (Byte.to_N c - 32) with Some x => x | None => c end else c.
