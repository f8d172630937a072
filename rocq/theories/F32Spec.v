(** What float32 arithmetic is, without an algorithm: IEEE 754 binary32, values that are not negative. *)
From Coq Require Import ZArith QArith Qabs.
Open Scope Z_scope.

(** A number with 24 significant binary digits. *)
Definition f32_value (x : Q) : Prop := exists m e : Z, 0 <= m < 2 ^ 24 /\ (x == inject_Z m * 2 ^ e)%Q.
(** [r] is [q] rounded: no such number is nearer to [q], and if another one is as near then the last digit of [r] is 0. *)
Definition f32_nearest (q r : Q) : Prop :=
  f32_value r /\
  (forall x, f32_value x -> Qabs (r - q) <= Qabs (x - q))%Q /\
  (forall x, f32_value x -> Qabs (x - q) == Qabs (r - q) -> x == r \/ exists m e : Z, (2 ^ 23 <= m <= 2 ^ 24)%Z /\ Z.even m = true /\ r == inject_Z m * 2 ^ e)%Q.
