(** * SpecTimed: what the clock allows. *)

From Verif Require Import Base Wide Tags Irc SpecIrc MsgBase MsgTypes Common Client SpecClient Timed.

Open Scope N_scope.

(** The sum of some durations. *)
Definition total (ds : list duration) : duration := fold_right N.add 0 ds.

(** A timer fires at most [slack] after it is due, and not before it is set. *)
Definition late_by (slack : duration) (fire : timers) : Prop :=
  forall now d, now <= fire now d <= now + d + slack.

(** No timer fires before it is due. *)
Definition not_early (fire : timers) : Prop := forall now d, now + d <= fire now d.

(** Every timer fires exactly when it is due. *)
Definition on_time : timers := fun now d => now + d.

(** Timers that count whole milliseconds (since time 0), rounding up. *)
Definition ms : duration := 1000000.
Definition whole_ms (fire : timers) : Prop :=
  forall now d, exists n, fire now d = n * ms /\ now + d <= n * ms < now + d + ms.

(** The answers of the peer have less than 4 GiB. *)
Definition small_peer (p : peer) : Prop := N.of_nat (read_size (map snd (p_reads p))) < 4294967296.

(** The peer accepts at least [n] bytes, in [d] altogether. *)
Inductive takes_in : list (duration * wrote) -> nat -> duration -> Prop :=
| tk_all ws : takes_in ws 0 0
| tk_some ws n k d d' :
    (0 < k)%nat -> takes_in ws (n - k) d -> (0 < n)%nat -> takes_in ((d', Wrote k) :: ws) n (d' + d).

(** The peer opens within [d0]; has taken the greeting [g] and its flush [d1] later. *)
Definition greeted_by (p : peer) (g : str) (d0 d1 : duration) : Prop :=
  p_open p = Some (d0, Ok tt) /\
  exists dw df, takes_in (p_writes p) (length g) dw /\ p_flush p = Some (df, Ok tt) /\ d1 = dw + df.

(** The answers taken from the peer are, in order, the reads it gave. *)
Definition took (p : peer) (h : handshake_out) : Prop :=
  w_build (h_first h) = p_build1 p /\ w_build (h_second h) = p_build2 p /\
  exists rest, map snd (p_reads p) = w_reads (h_first h) ++ w_reads (h_second h) ++ rest.
