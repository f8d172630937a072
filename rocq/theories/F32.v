(** Go's float32 as far as devices/thermostat.go:161-166 and 190 use it.  A float is its value, a rational number.
    Simplification: only values that are not negative, and no limit on the exponent; the results lie between 0 and 12000. *)
From Coq Require Import ZArith QArith Qround Bool.
Open Scope Z_scope.

(** The integer nearest to [q]; of two the even one. *)
Definition rne (q : Q) : Z :=
  let n := Qfloor q in
  match (q - inject_Z n ?= 1 # 2)%Q with
  | Lt => n
  | Gt => n + 1
  | Eq => if Z.even n then n else n + 1
  end.

(** The exponent [e] that brings [q / 2^e] into the range of 24 binary digits. *)
Definition f32_exp (q : Q) : Z :=
  let k := Z.log2 (Qnum q) - Z.log2 (Zpos (Qden q)) in
  if Qle_bool (2 ^ k)%Q q then k - 23 else k - 24.
(** Rounding of an exact result (IEEE 754, to nearest, ties to even). *)
Definition f32_round (q : Q) : Q :=
  if Qle_bool q 0 then 0%Q
  else let e := f32_exp q in Qred (inject_Z (rne (q * 2 ^ (- e))) * 2 ^ e).
(** Conversion of an int, and the operations. *)
Definition f32_of_int (z : Z) : Q := f32_round (inject_Z z).
Definition f32_add (a b : Q) : Q := f32_round (a + b).
Definition f32_mul (a b : Q) : Q := f32_round (a * b).
Definition f32_div (a b : Q) : Q := f32_round (a / b).
