(** * SpecSerde: what derived deserialisers should accept.

    A struct is described by the names of its fields in order and by which of them are
    optional; an enum by the names of its variants and the readers of what they carry. *)

From Verif Require Import Base Serde.

Definition named (names : list string) (k : str) : Prop := In k (map b names).

(** Two lists of entries that mean the same: the order of different keys does not matter,
    nor do entries of other names, and an optional field that is null may be left out. *)
Inductive rearranged (names optional : list string) : list (str * data) -> list (str * data) -> Prop :=
| ra_same l : rearranged names optional l l
| ra_back l l' : rearranged names optional l l' -> rearranged names optional l' l
| ra_then l l' l'' : rearranged names optional l l' -> rearranged names optional l' l'' -> rearranged names optional l l''
| ra_swap before k d k' d' after :
    k <> k' ->
    rearranged names optional (before ++ (k, d) :: (k', d') :: after) (before ++ (k', d') :: (k, d) :: after)
| ra_unknown before k d after :
    ~ named names k -> rearranged names optional (before ++ (k, d) :: after) (before ++ after)
| ra_null before k after :
    named optional k -> ~ In k (map fst (before ++ after)) ->
    rearranged names optional (before ++ (k, DNull) :: after) (before ++ after).

(** How a struct is read: a map up to rearrangement; no field twice; none missing but the
    optional ones, each of which may be; or a sequence of the fields in their order; and
    nothing else. *)
Definition reads_struct {A : Type} (names optional : list string) (de : data -> option A) : Prop :=
  (forall l l', rearranged names optional l l' -> de (DMap l) = de (DMap l')) /\
  (forall before k d between d' after,
     named names k -> de (DMap (before ++ (k, d) :: between ++ (k, d') :: after)) = None) /\
  (forall l k, named names k -> ~ named optional k -> ~ In k (map fst l) -> de (DMap l) = None) /\
  (forall before k d after,
     named optional k -> de (DMap (before ++ (k, d) :: after)) <> None -> de (DMap (before ++ after)) <> None) /\
  (forall l, length l = length names -> de (DSeq l) = de (DMap (combine (map b names) l))) /\
  (forall l, length l <> length names -> de (DSeq l) = None) /\
  (forall d, (forall l, d <> DMap l) -> (forall l, d <> DSeq l) -> de d = None).

(** How an enum is read: the name of a variant that carries nothing (or that name with
    null), or a map of only the name of a variant and what it carries; nothing else. *)
Definition reads_enum {A : Type} (units : list (string * A)) (carriers : list (string * (data -> option A)))
    (de : data -> option A) : Prop :=
  (forall name x, In (name, x) units ->
     de (DStr (b name)) = Some x /\
     forall d, de (DMap [(b name, d)]) = match d with DNull => Some x | _ => None end) /\
  (forall name f, In (name, f) carriers ->
     de (DStr (b name)) = None /\ forall d, de (DMap [(b name, d)]) = f d) /\
  (forall d, de d <> None ->
     exists k, named (map fst units ++ map fst carriers) k /\ (d = DStr k \/ exists d', d = DMap [(k, d')])).
