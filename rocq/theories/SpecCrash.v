(** * SpecCrash: what makes the example program panic (C93). *)

From Verif Require Import Base Wide Tags Irc SpecIrc MsgBase MsgTypes Message SpecMsg Common Client SpecClient Bot.

(** A ROOMSTATE whose minutes do not fit when counted in seconds. *)
Definition too_many_minutes (l : str) : Prop :=
  exists v n, spec_view l = Some v /\ v_command v = b "ROOMSTATE" /\
    (exists channel room, has_channel v channel /\ has v "room-id" room) /\
    has_i64 v "followers-only" n /\ (60 * n > 2 ^ 63 - 1)%Z.

Definition asks_to_reconnect (l : str) : Prop :=
  exists v, spec_view l = Some v /\ v_command v = b "RECONNECT".

(** An attempt to reconnect that panics: the next delay is too long, or an answer to
    the greeting is a line on which parsing panics. *)
Definition bad_attempt (bk : backoff) (fuel : nat) (oracle : nat -> attempt) : Prop :=
  exists k, k < fuel /\ within (max_tries bk) k /\ (forall j, j < k -> exists e, retried (oracle j) e) /\
    a_sleeps (oracle k) = true /\
    (~ delay_fits bk k \/
     a_open (oracle k) = OpOk /\ delivered (a_handshake (oracle k)) /\ chokes reader_new (a_handshake (oracle k))).

(** The turn panics. *)
Definition deadly (pf : profile) (c : client) (x : turn) : Prop :=
  exists r l, next_line (c_reader c) (t_reads x) r l /\
    (hostile (t_build x) l \/
     (pf = Debug /\ too_many_minutes l) \/
     (asks_to_reconnect l /\ bad_attempt (cf_backoff (c_config c)) (t_fuel x) (t_oracle x))).

(** Less than 4 GiB at once, no tag of 64 KiB or more. *)
Definition moderate (c : client) (x : turn) : Prop :=
  (N.of_nat (length (rd_buf (c_reader c)) + read_size (rd_reads (c_reader c)) + read_size (t_reads x)) < 4294967296)%N /\
  (forall r l, next_line (c_reader c) (t_reads x) r l -> all_short l) /\
  (forall j, small_answers reader_new (a_handshake (t_oracle x j))).
