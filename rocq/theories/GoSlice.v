(** Go slices with their memory: arrays that several slices may share. *)
From Coq Require Import List Bool Arith.
From Verif Require Import GoBase.
Import ListNotations.

(** The memory: arrays, by number.  A slice names an array, the position in it where the slice starts, its length and its capacity. *)
Definition heap (A : Type) : Type := list (list A).
Record slice : Type := mkSl { sl_arr : nat; sl_off : nat; sl_len : nat; sl_cap : nat }.
Definition arr {A} (h : heap A) (a : nat) : list A := nth a h [].

(** The elements of a slice. *)
Definition sl_view {A} (h : heap A) (s : slice) : list A := firstn (sl_len s) (skipn (sl_off s) (arr h (sl_arr s))).
(** s[i]; s[i] = x; s[i:j] (j may go up to the capacity). *)
Definition sl_get {A} (h : heap A) (s : slice) (i : nat) : outcome A :=
  if (i <? sl_len s)%nat then match nth_error (arr h (sl_arr s)) (sl_off s + i) with Some x => Ret x | None => Panic end else Panic.
Definition sl_set {A} (h : heap A) (s : slice) (i : nat) (x : A) : outcome (heap A) :=
  if (i <? sl_len s)%nat then Ret (list_set h (sl_arr s) (list_set (arr h (sl_arr s)) (sl_off s + i) x)) else Panic.
Definition sl_cut (s : slice) (i j : nat) : outcome slice :=
  if (i <=? j)%nat && (j <=? sl_cap s)%nat then Ret (mkSl (sl_arr s) (sl_off s + i) (j - i) (sl_cap s - i)) else Panic.
(** The list [l] with the elements from position [i] on replaced by [xs]. *)
Fixpoint write_at {A} (l : list A) (i : nat) (xs : list A) : list A :=
  match xs with [] => l | x :: t => write_at (list_set l i x) (S i) t end.
(** append(s, xs...): in place while the capacity lasts, otherwise in a new array with [grow n] elements to spare, [n] being the new
    length; Go does not say how many.  The elements to append are read before any is written, as memmove does. *)
Definition sl_append {A} (zero : A) (grow : nat -> nat) (h : heap A) (s : slice) (xs : list A) : heap A * slice :=
  let n := sl_len s + length xs in
  if (n <=? sl_cap s)%nat then
    (list_set h (sl_arr s) (write_at (arr h (sl_arr s)) (sl_off s + sl_len s) xs), mkSl (sl_arr s) (sl_off s) n (sl_cap s))
  else (h ++ [sl_view h s ++ xs ++ repeat zero (grow n)], mkSl (length h) 0 n (n + grow n)).
(** A slice that lies within its array. *)
Definition sl_ok {A} (h : heap A) (s : slice) : Prop :=
  sl_arr s < length h /\ sl_len s <= sl_cap s /\ sl_off s + sl_cap s <= length (arr h (sl_arr s)).
