(** Specification for how long the tool may run: how many packets come in. *)
From Coq Require Import ZArith List Bool.
From Verif Require Import GoBase GoProg PlmPacket Plm.
Import ListNotations.

(** The packets among what the goroutine reads. *)
Definition packets (es : list event) : nat := length (filter (fun e => match e with EvPacket _ => true | EvEnd => false end) es).
(** The packets that come in during [d] steps from step [t] on. *)
Fixpoint arrivals (sc : schedule) (t d : nat) : nat :=
  match d with
  | O => O
  | S k => packets (s_before (sc t)) + packets (s_wait (sc t)) + arrivals sc (S t) k
  end.
(** Counting those that wait in the queues, at most [P] packets ever come in. *)
Definition at_most (P : nat) (sc : schedule) (st : plm) : Prop :=
  forall d, (length (p_msgq st) + length (p_pktq st) + arrivals sc (p_time st) d <= P)%nat.
(** From step [T] on nothing comes in. *)
Definition quiet_from (T : nat) (sc : schedule) : Prop := forall t, (T <= t)%nat -> packets (s_before (sc t)) = O /\ packets (s_wait (sc t)) = O.
(** Within so many turns the program comes to an end: it returns or crashes, and allowing its loops more turns than [P] + 2 changes
    nothing.  [fuel] bounds the loop that waits for an acknowledgement, [n] the other ones. *)
Definition ends {W A} (P : nat) (p : nat -> nat -> prog W A) (w : W) : Prop :=
  exists r w', r <> NoFuel /\ forall fuel n, (P + 2 <= fuel)%nat -> (P + 2 <= n)%nat -> p fuel n w = (r, w').
(** However many turns are allowed, they are all used. *)
Definition never_ends {W A} (p : nat -> nat -> prog W A) (w : W) : Prop := forall fuel n, fst (p fuel n w) = NoFuel.
