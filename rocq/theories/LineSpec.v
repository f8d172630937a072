(** Specification for what goes over the serial line when the tool talks to a device: the bytes, given directly. *)
From Coq Require Import ZArith List Bool.
From Verif Require Import GoBase GoProg Message MessageSpec Database BasicDevice DeviceSpec PlmPacket Plm PlmSpec.
Import ListNotations.
Open Scope Z_scope.

(** The three bytes of an address, most significant first. *)
Definition addr3 (a a2 a1 a0 : Z) : Prop := is_byte a2 /\ is_byte a1 /\ is_byte a0 /\ a = a2 * 65536 + a1 * 256 + a0.
(** A frame that makes the modem send a direct message to device [a]: start, 0x62, address, flags, two command bytes and, if the flags
    say extended, fourteen data bytes. *)
Definition frame_to (a : Z) (f : list Z) : Prop :=
  exists a2 a1 a0 ext h c1 c2 data, addr3 a a2 a1 a0 /\ 0 <= h <= 3 /\ List.length data = (if (ext : bool) then 14%nat else 0%nat) /\
    f = [0x02; 0x62; a2; a1; a0; (if ext then 16 else 0) + 4 * h + h; c1; c2] ++ data.
(** The frame for the request [c1], [c2] with [data] to the device described by [i]. *)
Definition request_frame (i : dinfo) (c1 c2 : Z) (data : list Z) (f : list Z) : Prop :=
  exists a2 a1 a0 body, addr3 (di_addr i) a2 a1 a0 /\
    f = [0x02; 0x62; a2; a1; a0; (match data with [] => 0x0f | _ => 0x1a end); c1; c2] ++ body /\
    (data = [] -> body = []) /\
    (data <> [] -> List.length body = 14%nat /\ firstn 13 body = firstn 13 (padded 14 data) /\
       (di_engine i = 2 -> (c1 + c2 + sum body) mod 256 = 0 /\ is_byte (nth 13 body 0)) /\ (di_engine i <> 2 -> body = firstn 14 (padded 14 data))).

(** Between two states of the modem only frames to [a] were written to the line. *)
Definition line_only (a : Z) (st st' : plm) : Prop := exists fs, p_sent st' = p_sent st ++ fs /\ Forall (frame_to a) fs.

(** A packet that was waiting in [st] or comes in at some time. *)
Definition comes_in (sc : schedule) (st : plm) (p : packet) : Prop :=
  In p (p_msgq st) \/ In p (p_pktq st) \/ exists t, In (EvPacket p) (s_before (sc t)) \/ In (EvPacket p) (s_wait (sc t)).
(** Every packet has bytes for a payload. *)
Definition all_bytes (sc : schedule) (st : plm) : Prop := forall p, comes_in sc st p -> bytes_ok (p_payload p).
(** The packet is an acknowledgement from device [a]. *)
Definition ack_from (a : Z) (p : packet) : Prop :=
  exists s2 s1 s0 d2 d1 d0 fl c1 c2 rest k ext l m, p_payload p = [s2; s1; s0; d2; d1; d0; fl; c1; c2] ++ rest /\ addr3 a s2 s1 s0 /\
    flags_layout fl k ext l m /\ is_ack_kind k = true.

(** Every device is stored under its own address. *)
Definition own_addresses (db : memdb) : Prop := forall a i, db_get db a = (i, true) -> di_addr i = a.

(** The modem's echo of a frame it took, and a device's answer to it: an acknowledgement or a refusal. *)
Definition echo_of (frame : list Z) (p : packet) : Prop :=
  p_cmd p = 0x62 /\ p_ack p = 0x06 /\ exists x y z, p_payload p = x :: y :: z :: skipn 2 frame.
Definition answer_from (a : Z) (good : bool) (p : packet) : Prop :=
  (p_cmd p = 0x50 \/ p_cmd p = 0x51) /\
  exists s2 s1 s0 d2 d1 d0 fl c1 c2 rest k ext l m, p_payload p = [s2; s1; s0; d2; d1; d0; fl; c1; c2] ++ rest /\ addr3 a s2 s1 s0 /\
    flags_layout fl k ext l m /\ (if good then is_ack_kind k = true else is_nak_kind k = true) /\ (ext = true -> (14 <= List.length rest)%nat).
(** An idle modem, and from then on: the port takes a frame, [echo] comes in, [reply] comes in. *)
Definition idle (st : plm) : Prop := p_msgq st = [] /\ p_pktq st = [] /\ p_closed st = false.
Definition then_comes (sc : schedule) (st : plm) (echo reply : packet) : Prop :=
  sc (p_time st) = mkStep [] [] false None /\ sc (S (p_time st)) = mkStep [] [EvPacket echo] false None /\
  sc (S (S (p_time st))) = mkStep [] [EvPacket reply] false None.
