(** * PropsParts: property theorems (generated from PartsProofs.v by tools/gen_props.py).

    Only statements; each is closed by the lemma of the same name. *)

From Verif Require Import Base Wide Tags Irc SpecIrc MsgBase MsgTypes MsgNotice Message SpecMsg SpecParts Dbg PartsProofs.

(** C84. For each command with a typed form [needs] tells which tags it is made
    from, and whether from the channel, the nick and the parameters: lines that
    agree in these have the same typed form, or none both. *)
Theorem c84_only_these_parts :
  forall w, In w typed_words -> exists nd, In (w, nd) needs /\
    forall (bd bd' : build) (pf : profile) (s s' : str) (v v' : view) (m m' : msg_ref),
      parsed bd s v m -> parsed bd' s' v' m' -> v_command v = w -> v_command v' = w -> agree nd v v' ->
      from_irc pf m = from_irc pf m'.
Proof. exact p_c84_only_these_parts. Qed.
Print Assumptions c84_only_these_parts.

(** C84. The order of the tags does not matter, if each key is there once. *)
Theorem c84_order_of_tags :
  forall (bd bd' : build) (pf : profile) (s s' : str) (v v' : view) (m m' : msg_ref),
    parsed bd s v m -> parsed bd' s' v' m' -> same_but_tags v v' -> In (v_command v) typed_words ->
    Permutation (v_tags v) (v_tags v') -> NoDup (map fst (v_tags v)) ->
    from_irc pf m = from_irc pf m'.
Proof. exact p_c84_order_of_tags. Qed.
Print Assumptions c84_order_of_tags.

(** C84. A tag more or less does not matter if its key is none of those, or
    comes again. *)
Theorem c84_other_tags :
  forall (bd bd' : build) (pf : profile) (s s' : str) (v v' : view) (m m' : msg_ref) (nd : need)
         (l1 l2 : list (str * str)) (k x : str),
    parsed bd s v m -> parsed bd' s' v' m' -> same_but_tags v v' -> In (v_command v, nd) needs ->
    v_tags v = l1 ++ l2 -> v_tags v' = l1 ++ (k, x) :: l2 ->
    ~ In k (map b (nd_tags nd)) \/ In k (map fst l1) ->
    from_irc pf m = from_irc pf m'.
Proof. exact p_c84_other_tags. Qed.
Print Assumptions c84_other_tags.

(** C84. And there is no part too many in [needs]: each tag, the channel, the
    nick and the parameters, where they are named, make a difference. *)
Theorem c84_each_part_matters :
  forall (bd : build) (pf : profile) (w : str) (nd : need), In (w, nd) needs ->
    (forall k, In k (nd_tags nd) -> matters bd pf (differ_in_tag k) w) /\
    (nd_channel nd = true -> matters bd pf differ_in_channel w) /\
    (nd_nick nd = true -> matters bd pf differ_in_nick w) /\
    (nd_params nd = true -> matters bd pf differ_in_params w).
Proof. exact p_c84_each_part_matters. Qed.
Print Assumptions c84_each_part_matters.
