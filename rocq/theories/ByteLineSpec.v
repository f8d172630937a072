(** Specification for the incoming direction of the serial line: bytes, given directly. *)
From Coq Require Import ZArith List Bool.
From Verif Require Import GoBase Message MessageSpec PlmPacket PlmReaderSpec Plm LineSpec ByteLine.
Import ListNotations.
Open Scope Z_scope.

(** The bytes received before time [t]; none after reading has failed. *)
Fixpoint failed_before (bs : nat -> bstep) (t : nat) : bool := match t with O => false | S k => failed_before bs k || bs_end (bs k) end.
Fixpoint received (bs : nat -> bstep) (t : nat) : list Z :=
  match t with
  | O => []
  | S k => received bs k ++ (if failed_before bs k then [] else bs_before (bs k) ++ bs_wait (bs k))
  end.
Definition bytes_only (bs : nat -> bstep) : Prop := forall t, bytes_ok (bs_before (bs t)) /\ bytes_ok (bs_wait (bs t)).
(** The packets the clients are offered before time [t], in order. *)
Definition packets_of (es : list event) : list packet := flat_map (fun e => match e with EvPacket p => [p] | EvEnd => [] end) es.
Fixpoint offered (sc : schedule) (t : nat) : list packet :=
  match t with
  | O => []
  | S k => offered sc k ++ packets_of (s_before (sc k)) ++ packets_of (s_wait (sc k))
  end.

(** A complete frame is next, after some noise. *)
Definition has_frame (l : list Z) : Prop := exists noise cmd body rest, l = noise ++ frame_bytes cmd body ++ rest /\ gap noise /\ modem_frame cmd body.
(** The stream [l] is made of frames that say [ps], with noise between them, and [rest], which holds no complete frame yet. *)
Definition reads_as (l : list Z) (ps : list packet) (rest : list Z) : Prop :=
  exists items, l = flat_map (fun it : list Z * Z * list Z => match it with (noise, cmd, body) => noise ++ frame_bytes cmd body end) items ++ rest /\
    Forall2 (fun it p => match it with (noise, cmd, body) => gap noise /\ modem_frame cmd body /\ decodes false cmd body p end) items ps /\
    ~ has_frame rest.

(** The bytes with which the modem passes on a message from device [a] that acknowledges ([good]) or refuses. *)
Definition answer_bytes (a : Z) (good : bool) (l : list Z) : Prop :=
  exists s2 s1 s0 d2 d1 d0 fl c1 c2 rest k ext h m,
    l = [0x02; (if (ext : bool) then 0x51 else 0x50); s2; s1; s0; d2; d1; d0; fl; c1; c2] ++ rest /\ addr3 a s2 s1 s0 /\
    flags_layout fl k ext h m /\ (if good then is_ack_kind k = true else is_nak_kind k = true) /\ List.length rest = (if ext then 14%nat else 0%nat).
(** Between times [t0] and [t] the last byte of [l] was received, with the rest of [l] before it. *)
Definition came_in (bs : nat -> bstep) (t0 t : nat) (l : list Z) : Prop :=
  exists before after, received bs t = before ++ l ++ after /\ (List.length (received bs t0) < List.length (before ++ l))%nat.
(** The bytes of a message, standard or extended, that says acknowledged and is from device [a]. *)
Definition ack_bytes (a : Z) (l : list Z) : Prop :=
  exists cmd s2 s1 s0 d2 d1 d0 fl c1 c2 rest k ext h m, l = [0x02; cmd; s2; s1; s0; d2; d1; d0; fl; c1; c2] ++ rest /\
    addr3 a s2 s1 s0 /\ flags_layout fl k ext h m /\ is_ack_kind k = true /\
    (cmd = 0x50 /\ List.length rest = 0%nat \/ cmd = 0x51 /\ List.length rest = 14%nat).

(** From time [t] on a frame is written, at once; then two waits.  By the end of the first the bytes [first] are there, by the end of the
    second [first ++ second], however they are divided; the port does not fail and no timer fires too early. *)
Definition bytes_come (bs : nat -> bstep) (t : nat) (first second : list Z) : Prop :=
  line_at bs t = Some [] /\
  bs_wait (bs t) = [] /\ bs_werr (bs t) = None /\ bs_end (bs t) = false /\
  bs_late (bs (S t)) = false /\ bs_end (bs (S t)) = false /\ bs_late (bs (S (S t))) = false /\ bs_end (bs (S (S t))) = false /\
  exists early, first ++ early = bs_before (bs t) ++ bs_before (bs (S t)) ++ bs_wait (bs (S t)) /\
    second = early ++ bs_before (bs (S (S t))) ++ bs_wait (bs (S (S t))).
