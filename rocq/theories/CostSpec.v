(** Specification for how much a program sends and how often it waits. *)
From Coq Require Import ZArith List Bool.
From Verif Require Import GoBase GoProg PlmPacket Plm.
Import ListNotations.

(** How often a frame is tried: once, and once more for each retry. *)
Definition tries (st : plm) : nat := S (Z.to_nat (p_retries st)).
(** Between [st] and [st'] at most [frames] frames were sent and at most [waits] waits begun, each with the modem's time-out; what
    was sent and waited for before is still recorded. *)
Definition at_cost (frames waits : nat) (st st' : plm) : Prop :=
  exists fs ws, p_sent st' = p_sent st ++ fs /\ p_waits st' = p_waits st ++ ws /\
    (length fs <= frames)%nat /\ (length ws <= waits)%nat /\ Forall (eq (p_timeout st)) ws.
(** However many turns its loops are allowed and however it ends, the program costs no more. *)
Definition costs {S A} (frames waits : nat) (p : nat -> nat -> prog (S * plm) A) (w : S * plm) : Prop :=
  forall fuel n r w', p fuel n w = (r, w') -> at_cost frames waits (snd w) (snd w').
