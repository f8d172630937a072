(** Independent description of the flags byte, the command word and the wire layout, in plain arithmetic. *)
From Coq Require Import ZArith List Bool.
From Verif Require Import GoBase Message.
Import ListNotations.
Open Scope Z_scope.

(** The documented three-bit kinds (table in message.go:36-46). *)
Inductive kind := KDirect | KDirectAck | KCleanup | KCleanupAck | KBroadcast | KDirectNak | KAllLink | KCleanupNak.
Definition kind_bits (k : kind) : Z :=
  match k with
  | KDirect => 0 | KDirectAck => 1 | KCleanup => 2 | KCleanupAck => 3
  | KBroadcast => 4 | KDirectNak => 5 | KAllLink => 6 | KCleanupNak => 7
  end.
Definition flags_layout (f : Z) (k : kind) (ext : bool) (left max : Z) : Prop :=
  0 <= left <= 3 /\ 0 <= max <= 3 /\
  f = 32 * kind_bits k + (if ext then 16 else 0) + 4 * left + max.

(** Kinds that acknowledge, that refuse, that go to everybody, that belong to All-Linking. *)
Definition is_ack_kind (k : kind) : bool := match k with KDirectAck | KCleanupAck => true | _ => false end.
Definition is_nak_kind (k : kind) : bool := match k with KDirectNak | KCleanupNak => true | _ => false end.
Definition is_broadcast_kind (k : kind) : bool := match k with KBroadcast | KAllLink => true | _ => false end.
Definition is_alllink_kind (k : kind) : bool :=
  match k with KCleanup | KCleanupAck | KAllLink | KCleanupNak => true | _ => false end.

(** Command class of a flags byte. *)
Definition class_of (k : kind) (ext : bool) : Z :=
  if ext then 1 else
  match k with
  | KDirect | KDirectAck | KDirectNak => 0
  | KBroadcast => 8
  | _ => 12
  end.

(** Wire layout: three-byte big-endian addresses, flags, command bytes, and 14 data bytes when extended. *)
Definition msg_layout (src dst f c1 c2 : Z) (data : list Z) (b : list Z) : Prop :=
  exists s2 s1 s0 d2 d1 d0,
    is_byte s2 /\ is_byte s1 /\ is_byte s0 /\ is_byte d2 /\ is_byte d1 /\ is_byte d0 /\
    is_byte f /\ is_byte c1 /\ is_byte c2 /\ bytes_ok data /\
    src = s2 * 65536 + s1 * 256 + s0 /\ dst = d2 * 65536 + d1 * 256 + d0 /\
    length data = (if (f / 16) mod 2 =? 1 then 14%nat else 0%nat) /\
    b = [s2; s1; s0; d2; d1; d0; f; c1; c2] ++ data.

(** Well-formed message value: 24-bit addresses, byte flags, a command word whose class is the one the flags say. *)
Definition msg_wf (m : message) : Prop :=
  0 <= m_src m < 2 ^ 24 /\ 0 <= m_dst m < 2 ^ 24 /\ is_byte (m_flags m) /\ bytes_ok (m_payload m).

(** A retransmission: everything but the hops-left counter agrees. *)
Definition same_but_hops_left (m o : message) : Prop :=
  m_src m = m_src o /\ m_dst m = m_dst o /\ m_cmd m = m_cmd o /\ m_payload m = m_payload o /\
  exists k e l1 l2 h, flags_layout (m_flags m) k e l1 h /\ flags_layout (m_flags o) k e l2 h.
