(** What may happen to the memory of a list of links, C75. *)
From Coq Require Import ZArith List Bool.
From Verif Require Import GoBase GoSlice Link.
Import ListNotations.
Open Scope Z_scope.

(** The memory [h'] is [h] with the elements of [s] replaced by [ls] and nothing else changed: no other array, no other element of the
    array, no new array. *)
Definition only_elements (h : heap link) (s : slice) (ls : list link) (h' : heap link) : Prop :=
  sl_view h' s = ls /\ length h' = length h /\
  (forall b, b <> sl_arr s -> nth_error h' b = nth_error h b) /\
  (forall i, ~ (sl_off s <= i < sl_off s + sl_len s)%nat -> nth_error (arr h' (sl_arr s)) i = nth_error (arr h (sl_arr s)) i).
(** The record with the bit that says that more records follow. *)
Definition more_follow (l : link) : link := mkLink (Z.lor (l_flags l) 2) (l_group l) (l_addr l) (l_d0 l) (l_d1 l) (l_d2 l).
(** That and the bit that says that the record is in use. *)
Definition in_use (l : link) : link := mkLink (Z.lor (Z.lor (l_flags l) 128) 2) (l_group l) (l_addr l) (l_d0 l) (l_d1 l) (l_d2 l).
(** The link is not among the [ids] a device has: role, group and the three bytes of the address. *)
Definition unknown (ids : list (list Z)) (l : link) : bool :=
  negb (existsb (fun id => if list_eq_dec Z.eq_dec id [Z.land (l_flags l) 64; l_group l; byte_of (Z.shiftr (l_addr l) 16); byte_of (Z.shiftr (l_addr l) 8); byte_of (l_addr l)]
                           then true else false) ids).
