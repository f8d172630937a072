(** Independent specification of command-line command words and byte lists. *)
From Coq Require Import ZArith List Bool.
From Verif Require Import GoBase AddressSpec.
Import ListNotations.
Open Scope Z_scope.

(** Two hexadecimal digits, either case. *)
Definition hex_byte (t : list Z) (v : Z) : Prop :=
  exists c1 c0 n1 n0, t = [c1; c0] /\ hex_digit c1 n1 /\ hex_digit c0 n0 /\ v = 16 * n1 + n0.

(** A command word: two bytes, with or without a dot (46) between them. *)
Definition cmd_text (t : list Z) (a b : Z) : Prop :=
  exists p q, hex_byte p a /\ hex_byte q b /\ (t = p ++ [46] ++ q \/ t = p ++ q).

(** What is taken for half a command word: a byte below 128, or a sign and one digit. *)
Definition half_accepted (t : list Z) (v : Z) : Prop :=
  (hex_byte t v /\ v < 128) \/
  (exists c, t = [43; c] /\ hex_digit c v) \/
  (exists c n, t = [45; c] /\ hex_digit c n /\ v = - n mod 256).

(** [s] is [t] without its first dot (without any change when there is no dot). *)
Inductive without_first_dot : list Z -> list Z -> Prop :=
| wd_dot : forall p q, ~ In 46 p -> without_first_dot (p ++ 46 :: q) (p ++ q)
| wd_none : forall t, ~ In 46 t -> without_first_dot t t.

(** A number given as data: blanks, at least one digit, then anything that does not begin with a digit. *)
Fixpoint digits_value (acc : Z) (vs : list Z) : Z :=
  match vs with [] => acc | v :: t => digits_value (16 * acc + v) t end.
Definition data_text (t : list Z) (v : Z) : Prop :=
  exists sp ds vs rest, t = sp ++ ds ++ rest /\ Forall blank sp /\ Forall2 hex_digit ds vs /\ ds <> [] /\
    (forall c r, rest = c :: r -> ~ exists n, hex_digit c n) /\ v = digits_value 0 vs /\ v < 256.
