(** * SpecConn: host names, and what counts as a connection to Twitch. *)

From Verif Require Import Base Common Client Conn SpecIrc.

(** A host name as in RFC 1123: labels of letters, digits and hyphens, not beginning or
    ending with a hyphen, joined by dots; the last begins with a letter. *)
Definition letter (x : byte) : Prop := In x (b "abcdefghijklmnopqrstuvwxyz").
Definition digit (x : byte) : Prop := In x (b "0123456789").

Definition label (l : str) : Prop :=
  l <> [] /\ length l <= 63 /\ (forall x, In x l -> letter x \/ digit x \/ x = "-"%byte) /\
  (forall r, l <> "-"%byte :: r) /\ (forall r, l <> r ++ b "-").

Definition host_name (s : str) : Prop :=
  length s <= 253 /\
  exists ls x l, Forall label (ls ++ [x :: l]) /\ letter x /\ s = concat (map (fun y => y ++ b ".") ls) ++ x :: l.

(** The roots are all certificates of the system, each acceptable. *)
Definition all_roots (pl : platform) (roots : list str) : Prop :=
  pl_certs pl = Ok roots /\ Forall (fun x => pl_refuses pl x = None) roots.

(** A connection to Twitch, checked with the roots. *)
Definition to_twitch (roots : list str) : list net_event :=
  [NetTcp (b "irc.chat.twitch.tv") 6697; NetTls roots (b "irc.chat.twitch.tv")].

(** Opening ends as the first step that does not succeed, or else as the last. *)
Record opening_is (tcp th : step) (o : open_out) : Prop :=
  { oi_ok : o = OpOk <-> tcp = StepOk /\ th = StepOk;
    oi_failed : forall e, o = OpErr e <-> tcp = StepErr e \/ tcp = StepOk /\ th = StepErr e;
    oi_elapsed : o = OpElapsed <-> tcp = StepElapsed \/ tcp = StepOk /\ th = StepElapsed;
    oi_dropped : o = OpDrop <-> tcp = StepDrop \/ tcp = StepOk /\ th = StepDrop }.

(** How often a connection was tried. *)
Definition dials (tr : list full_event) : nat :=
  length (filter (fun e => match e with Net (NetTcp _ _) => true | _ => false end) tr).
