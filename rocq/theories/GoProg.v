(** Programs over a world: the sequencing every imperative part of the model uses. *)
From Coq Require Import ZArith List Bool.
From Verif Require Import GoBase.
Import ListNotations.
Open Scope Z_scope.

(** A Go call that may read and change a world of type [W]: it returns, panics or runs out of fuel, leaving a world behind. *)
Definition prog (W A : Type) : Type := W -> outcome A * W.
Definition pret {W A} (a : A) : prog W A := fun w => (Ret a, w).
Definition ppanic {W A} : prog W A := fun w => (Panic, w).
Definition pnofuel {W A} : prog W A := fun w => (NoFuel, w).
(** Sequencing: a panic or exhausted fuel ends everything. *)
Definition pbind {W A B} (m : prog W A) (f : A -> prog W B) : prog W B :=
  fun w => match m w with (Ret a, w1) => f a w1 | (Panic, w1) => (Panic, w1) | (NoFuel, w1) => (NoFuel, w1) end.
(** A program on one half of a world. *)
Definition psnd {S W A} (m : prog W A) : prog (S * W) A := fun sw => match m (snd sw) with (r, w1) => (r, (fst sw, w1)) end.
Definition pfst {S W A} (m : prog S A) : prog (S * W) A := fun sw => match m (fst sw) with (r, s1) => (r, (s1, snd sw)) end.
Definition pget {W} : prog W W := fun w => (Ret w, w).
Definition pput {W} (w : W) : prog W unit := fun _ => (Ret tt, w).
(** A pure computation that may panic. *)
Definition plift {W A} (o : outcome A) : prog W A := fun w => (o, w).

Notation "'do' x <- e ;; k" := (pbind e (fun x => k))
  (at level 200, x pattern, e at level 100, k at level 200, right associativity).
Notation "'run' e ;; k" := (pbind e (fun _ => k))
  (at level 200, e at level 100, k at level 200, right associativity).
