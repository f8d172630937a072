(** Independent specification of link records and their texts. *)
From Coq Require Import ZArith List Bool.
From Verif Require Import GoBase Link.
Import ListNotations.
Open Scope Z_scope.

Definition link_wf (l : link) : Prop :=
  is_byte (l_flags l) /\ is_byte (l_group l) /\ 0 <= l_addr l < 2 ^ 24 /\
  is_byte (l_d0 l) /\ is_byte (l_d1 l) /\ is_byte (l_d2 l).

(** Bits of the flags byte, counted arithmetically: 7 = in use, 6 = controller, 1 = not the last record. *)
Definition bit (n f : Z) : Z := (f / 2 ^ n) mod 2.

(** What the text form can express: availability and role; the "not last" bit is always set. *)
Definition expressible (l : link) : link :=
  mkLink (128 * bit 7 (l_flags l) + 64 * bit 6 (l_flags l) + 2) (l_group l) (l_addr l) (l_d0 l) (l_d1 l) (l_d2 l).

(** Same link: role, group and address agree. *)
Definition same_link (a b : link) : Prop :=
  bit 6 (l_flags a) = bit 6 (l_flags b) /\ l_group a = l_group b /\ l_addr a = l_addr b.

(** Wire layout of a record. *)
Definition link_layout (l : link) (b : list Z) : Prop :=
  exists a2 a1 a0, is_byte a2 /\ is_byte a1 /\ is_byte a0 /\
    l_addr l = a2 * 65536 + a1 * 256 + a0 /\
    b = [l_flags l; l_group l; a2; a1; a0; l_d0 l; l_d1 l; l_d2 l].
