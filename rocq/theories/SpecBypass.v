(** * SpecBypass: sending the same text again and again (C90). *)

From Verif Require Import Base Wide Tags Irc MsgBase Common Client SpecClient.

(** A program that sends the text [t] to [ch] once for every element of the list,
    appending what the bypass gives, and changing the arguments of [reply] and
    [client_nonce] as it likes; the state of the bypass is [st] at the start. *)
Fixpoint repeated (ch t : str) (opts : list (option str * option str)) (st : bool) : list call :=
  match opts with
  | [] => []
  | (reply, nonce) :: opts' =>
    let '(st', out) := bypass_get st in
    CallPrivmsg ch (t ++ out) reply nonce :: repeated ch t opts' st'
  end.

(** What the reader of the channel is to see of message [i]. *)
Definition shown_text (t : str) (i : nat) : str :=
  if Nat.even i then t else t ++ [x20; xe2; xa0; x80].
