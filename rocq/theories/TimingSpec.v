(** Specification of pauses. *)
From Coq Require Import ZArith List Bool.
From Verif Require Import GoBase GoProg PlmPacket Plm Timing.
Import ListNotations.
Open Scope Z_scope.

(** [d] is the time (in nanoseconds, rounded down) that [n] cycles of a 60 Hz mains take. *)
Definition cycles_60hz (n d : Z) : Prop := 60 * d <= 1000000000 * n < 60 * d + 60.

(** A clock that works: there is a time of the world, it never goes back, [now] returns it, and sleeping takes as long as asked at least. *)
Definition clock_works {W} (time : W -> Z) (ck : clock W) (pw : packet_writer W) : Prop :=
  (forall w, exists t w', ck_now ck w = (Ret t, w') /\ time w <= t <= time w') /\
  (forall d w, exists w', ck_sleep ck d w = (Ret tt, w') /\ time w <= time w' /\ time w + d <= time w') /\
  (forall w, time w <= time (snd (pw_read pw w))).
