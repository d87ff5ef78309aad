(** * PropsCost: property theorems (generated from CostProofs.v by tools/gen_props.py).

    Only statements; each is closed by the lemma of the same name. *)

From Verif Require Import Base MsgBase Cost CostProofs.

(** C97. The badges are those of [parse_badges]. *)
Theorem c97_same :
  forall badges info : str, fst (parse_badges_counted badges info) = parse_badges badges info.
Proof. exact p_c97_same. Qed.
Print Assumptions c97_same.

(** C97. Every badge is compared with every info at most: the number of comparisons is at
    most a quarter of the product of the lengths of the two tags (and a little). *)
Theorem c97_at_most :
  forall badges info : str,
    4 * snd (parse_badges_counted badges info) <= S (length badges) * S (length info).
Proof. exact p_c97_at_most. Qed.
Print Assumptions c97_at_most.

(** C97. That many are reached, up to a factor: n badges and n infos, with n * n comparisons. *)
Theorem c97_reached :
  forall n : nat, exists badges info : str,
    length badges = 3 * n + 2 /\ length info = 3 * n + 2 /\
    snd (parse_badges_counted badges info) = S n * S n.
Proof. exact p_c97_reached. Qed.
Print Assumptions c97_reached.

(** C97. For one badge the infos are looked at one after the other, up to the first with its
    name. *)
Theorem c97_one :
  forall name version info : str,
    ~ In "/"%byte name -> ~ In ","%byte name -> ~ In ","%byte version ->
    let infos := map fst (split_slash (split "," info)) in
    let n := snd (parse_badges_counted (name ++ b "/" ++ version) info) in
    (exists before after, infos = before ++ name :: after /\ ~ In name before /\ n = S (length before)) \/
    (~ In name infos /\ n = length infos).
Proof. exact p_c97_one. Qed.
Print Assumptions c97_one.

(** C97. The comparisons of several badges add up. *)
Theorem c97_adds :
  forall one others info : str,
    snd (parse_badges_counted (one ++ b "," ++ others) info) =
    snd (parse_badges_counted one info) + snd (parse_badges_counted others info).
Proof. exact p_c97_adds. Qed.
Print Assumptions c97_adds.

(** C97. So the work is not linear in the length of the tags. *)
Theorem c97_linear_refuted :
  forall k : nat, exists badges info : str,
    k * (length badges + length info) < snd (parse_badges_counted badges info).
Proof. exact p_c97_linear_refuted. Qed.
Print Assumptions c97_linear_refuted.

Example example_c97 :
  parse_badges_counted (b "subscriber/12,bits/100,vip/1") (b "subscriber/13,bits/7") =
  (parse_badges (b "subscriber/12,bits/100,vip/1") (b "subscriber/13,bits/7"), 5).
Proof. exact ex_c97. Qed.
