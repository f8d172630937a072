(** Independent specification of address texts. *)
From Coq Require Import ZArith List Bool.
From Verif Require Import GoBase.
Import ListNotations.
Open Scope Z_scope.

(** [c] is a hexadecimal digit character of value [v], either case. *)
Inductive hex_digit : Z -> Z -> Prop :=
| hd_dec : forall v, 0 <= v <= 9 -> hex_digit (48 + v) v
| hd_low : forall v, 10 <= v <= 15 -> hex_digit (97 + (v - 10)) v
| hd_upp : forall v, 10 <= v <= 15 -> hex_digit (65 + (v - 10)) v.

(** Text [t] is a six digit rendering of address [a]: dotted or not, any case. *)
Definition addr_rendering (a : Z) (t : list Z) : Prop :=
  exists c5 c4 c3 c2 c1 c0 n5 n4 n3 n2 n1 n0,
    hex_digit c5 n5 /\ hex_digit c4 n4 /\ hex_digit c3 n3 /\
    hex_digit c2 n2 /\ hex_digit c1 n1 /\ hex_digit c0 n0 /\
    a = n5 * 16 ^ 5 + n4 * 16 ^ 4 + n3 * 16 ^ 3 + n2 * 16 ^ 2 + n1 * 16 + n0 /\
    (t = [c5; c4; 46; c3; c2; 46; c1; c0] \/ t = [c5; c4; c3; c2; c1; c0]).

(** Blank characters which may precede a number: tab, vertical tab, form feed, carriage return, space, and those beyond ASCII: next
    line, no-break space, Ogham space mark, the spaces from en quad to hair space, line and paragraph separator, narrow no-break
    space, medium mathematical space, ideographic space. *)
Definition blank (c : Z) : Prop :=
  c = 9 \/ c = 11 \/ c = 12 \/ c = 13 \/ c = 32 \/ c = 133 \/ c = 160 \/ c = 5760 \/ (8192 <= c <= 8202) \/ c = 8232 \/ c = 8233 \/ c = 8239 \/ c = 8287 \/ c = 12288.

(** One number of the address: blanks, then one or two digits; with one digit only, what follows is not a digit. *)
Inductive hex_field : list Z -> Z -> list Z -> Prop :=
| hf_two : forall sp c1 c2 v1 v2 rest, Forall blank sp -> hex_digit c1 v1 -> hex_digit c2 v2 ->
    hex_field (sp ++ c1 :: c2 :: rest) (16 * v1 + v2) rest
| hf_one : forall sp c1 v1 rest, Forall blank sp -> hex_digit c1 v1 ->
    (forall c r, rest = c :: r -> ~ exists v, hex_digit c v) ->
    hex_field (sp ++ c1 :: rest) v1 rest.

(** Three numbers separated by dots; whatever follows the third is ignored. *)
Definition dotted (t : list Z) (x y z : Z) : Prop :=
  exists r1 r2 r3, hex_field t x (46 :: r1) /\ hex_field r1 y (46 :: r2) /\ hex_field r2 z r3.

(** A text of six ASCII characters is read as three pairs. *)
Definition addr_accepts (t : list Z) (a : Z) : Prop :=
  exists x y z, a = x * 65536 + y * 256 + z /\
    ((~ (length t = 6%nat /\ Forall (fun c => c < 128) t) /\ dotted t x y z) \/
     (exists a1 a2 b1 b2 c1 c2, t = [a1; a2; b1; b2; c1; c2] /\ Forall (fun c => c < 128) t /\ dotted [a1; a2; 46; b1; b2; 46; c1; c2] x y z)).
