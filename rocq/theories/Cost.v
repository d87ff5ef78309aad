(** * Cost: how many names are compared to find the badge info (model, no proofs).

    [parse_badges] again, with a count of the calls of the closure given to [find]. *)

From Verif Require Import Base MsgBase.

(** [Iterator::find] (core): the closure is called on one element after the other, up to the
    first for which it returns true. *)
Fixpoint find_counted {A : Type} (p : A -> bool) (l : list A) : option A * nat :=
  match l with
  | [] => (None, 0)
  | x :: l' => if p x then (Some x, 1) else let '(r, n) := find_counted p l' in (r, S n)
  end.

(** [parse_badges]: src/msg.rs:355-380; the closure is at src/msg.rs:374. *)
Definition parse_badges_counted (badges badge_info : str) : list (badge cow) * nat :=
  match badges with
  | [] => ([], 0)
  | _ =>
    let info := split_slash (split "," badge_info) in
    let each :=
      map (fun nv : str * str =>
             let '(r, n) := find_counted (fun kv : str * str => str_eqb (fst kv) (fst nv)) info in
             (badge_from (mk_badge_data (Borrowed (fst nv)) (Borrowed (snd nv))
                (option_map Borrowed (option_map snd r))), n))
        (split_slash (split "," badges)) in
    (map fst each, list_sum (map snd each))
  end.
