(** Specifications for talking to one device: what goes on the wire, and what an answer says. *)
From Coq Require Import ZArith List Bool.
From Verif Require Import GoBase Message Plm.
Import ListNotations.
Open Scope Z_scope.

Fixpoint sum (l : list Z) : Z := match l with [] => 0 | x :: t => x + sum t end.
(** The part of an extended message that a checksum device adds up: both command bytes and the 14 data bytes, as transmitted
    (behind two addresses and the flags). *)
Definition checked_part (m : message) : list Z := skipn 7 (msg_marshal m).
Definition checksum_valid (m : message) : Prop := length (checked_part m) = 16%nat /\ sum (checked_part m) mod 256 = 0.

(** A data field filled up to [n] bytes with zeros. *)
Definition padded (n : nat) (l : list Z) : list Z := l ++ repeat 0 (n - length l).

(** A set-button announcement from [dst]: a command byte 1 or 2; the destination field carries category, subcategory, firmware. *)
Definition is_announcement (m : message) : Prop := (m_cmd m / 256) mod 256 = 1 \/ (m_cmd m / 256) mod 256 = 2.
Definition announces (m : message) (cat sub fw : Z) : Prop :=
  is_byte cat /\ is_byte sub /\ is_byte fw /\ m_dst m mod 2 ^ 24 = cat * 65536 + sub * 256 + fw.

(** The port does not make up the error that stands for a refusal by a device. *)
Definition port_never_naks (sc : schedule) : Prop := forall t, s_werr (sc t) <> Some EDevNak.
