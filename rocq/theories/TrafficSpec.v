(** Specification for a request on a line with other traffic: what is heard meanwhile, given as bytes. *)
From Coq Require Import ZArith List Bool.
From Verif Require Import GoBase Message MessageSpec PlmPacket PlmReaderSpec Plm PlmSpec LineSpec ByteLine ByteLineSpec.
Import ListNotations.
Open Scope Z_scope.

(** Between two times the bytes received read as [ps], up to an incomplete frame. *)
Definition heard (bs : nat -> bstep) (t u : nat) (ps : list packet) : Prop :=
  exists l rest, received bs u = received bs t ++ l /\ reads_as l ps rest.
(** The messages of the Insteon network among the packets, and the other packets. *)
Definition messages_in (ps : list packet) : list packet := filter network_message ps.
Definition others_in (ps : list packet) : list packet := filter (fun p => negb (network_message p)) ps.
(** A message that is no answer of device [a]: it is from another device, or says neither acknowledged nor refused. *)
Definition unrelated (a : Z) (p : packet) : Prop :=
  (p_cmd p = 0x50 \/ p_cmd p = 0x51) /\
  exists b s2 s1 s0 d2 d1 d0 fl c1 c2 rest k ext l m, p_payload p = [s2; s1; s0; d2; d1; d0; fl; c1; c2] ++ rest /\ addr3 b s2 s1 s0 /\
    flags_layout fl k ext l m /\ (ext = true -> (14 <= List.length rest)%nat) /\ (b <> a \/ is_ack_kind k = false /\ is_nak_kind k = false).

(** From time [t] on the port takes a frame at once and does not fail; then one wait for the modem and one for each message up to the answer, and no
    timer fires too early.  The modem's word [echo] is there by the end of the first wait, and before the end of each other wait there is a
    message more.  Up to ten messages come, and no packet but [echo] beside them. *)
Definition busy_line (bs : nat -> bstep) (t : nat) (echo : packet) (before : list packet) (answer : packet) (after : list packet) : Prop :=
  let n := List.length before in
  line_at bs t = Some [] /\ bs_wait (bs t) = [] /\ bs_werr (bs t) = None /\
  (forall u, (t <= u <= t + 2 + n)%nat -> bs_end (bs u) = false) /\ (forall u, (t < u <= t + 2 + n)%nat -> bs_late (bs u) = false) /\
  (exists ps, heard bs t (t + 3 + n) ps /\ messages_in ps = before ++ answer :: after /\ others_in ps = [echo]) /\
  (List.length (before ++ answer :: after) <= 10)%nat /\
  (exists ps, heard bs t (t + 2) ps /\ others_in ps = [echo]) /\
  forall j, (j <= n)%nat -> exists ps, heard bs t (t + 3 + j) ps /\ (j < List.length (messages_in ps))%nat.
