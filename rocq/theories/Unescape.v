(** * Unescape: tag value unescaping (model, no proofs). *)

From Verif Require Import Base.

Definition is_char (s : string) (c : uchar) : bool := str_eqb c (b s).

(** The character loop of [unescape], with the [escape] flag: irc.rs:341-368. *)
Fixpoint unescape_loop (escape : bool) (cs : list uchar) : str :=
  match cs with
  | [] => []
  | c :: cs' =>
    if is_char ":" c && escape then b ";" ++ unescape_loop false cs'
    else if is_char "s" c && escape then b " " ++ unescape_loop false cs'
    else if is_char "\" c && escape then b "\" ++ unescape_loop false cs'
    else if is_char "r" c && escape then [x0d] ++ unescape_loop false cs'
    else if is_char "n" c && escape then [x0a] ++ unescape_loop false cs'
    else if is_char "⸝" c then b "," ++ unescape_loop escape cs'
    else if is_char "\" c then unescape_loop true cs'
    else c ++ unescape_loop escape cs'
  end.

(** [irc::unescape(value)]: src/irc.rs:339-370. *)
Definition unescape (value : str) : str := unescape_loop false (chars value).

(** The character loop of [actually_unescape]: src/lib.rs:65-91. *)
Fixpoint actually_loop (escape : bool) (cs : list uchar) : str :=
  match cs with
  | [] => []
  | c :: cs' =>
    if is_char "\" c && escape then b "\" ++ actually_loop false cs'
    else if is_char "\" c then actually_loop true cs'
    else if is_char ":" c && escape then b ";" ++ actually_loop false cs'
    else if is_char "s" c && escape then b " " ++ actually_loop false cs'
    else if is_char "r" c && escape then [x0d] ++ actually_loop false cs'
    else if is_char "n" c && escape then [x0a] ++ actually_loop false cs'
    else if is_char "⸝" c then b "," ++ actually_loop escape cs'
    else c ++ actually_loop escape cs'
  end.

(** [actually_unescape(input, start)]: src/lib.rs:59-94. *)
Definition actually_unescape (input : str) (start : nat) : res str :=
  let! l := slice input 0 start in
  let! r := slice_from input start in
  Ret (l ++ actually_loop false (chars r)).

(** [maybe_unescape(value)]: src/lib.rs:48-57.  The byte loop stops at the
    first backslash.  [value] is either variant of [Cow]. *)
Definition maybe_unescape (value : cow) : res cow :=
  match find_byte "\" (deref value) with
  | Some i => rmap Owned (actually_unescape (deref value) i)
  | None => Ret value
  end.
