(** Specification for linking over the serial line: the frames, given directly. *)
From Coq Require Import ZArith List Bool.
From Verif Require Import GoBase BasicDevice PlmPacket Plm LineSpec.
Import ListNotations.
Open Scope Z_scope.

(** The modem is told to start linking group [g] (in either role), to start unlinking, to stop. *)
Definition modem_start (g : Z) : list Z := [0x02; 0x64; 0x03; g].
Definition modem_stop : list Z := [0x02; 0x65].
(** The device described by [i] is told [c1], [c2]: one frame, written one to [retries]+1 times. *)
Definition told (retries : Z) (i : dinfo) (c1 c2 : Z) (data : list Z) (fs : list (list Z)) : Prop :=
  exists frame k, request_frame i c1 c2 data frame /\ 1 <= Z.of_nat k <= retries + 1 /\ fs = repeat frame k.
(** Enter linking mode: 0x09, extended with fourteen zeros for the newest devices.  Leave it: 0x08. *)
Definition device_start (retries : Z) (i : dinfo) (g : Z) : list (list Z) -> Prop :=
  told retries i 0x09 g (if di_engine i =? 2 then repeat 0 14 else []).
Definition device_stop (retries : Z) (i : dinfo) : list (list Z) -> Prop := told retries i 0x08 0 [].

(** A link from the modem to the device: the modem starts; if that failed, nothing more; else the device starts and both are told
    to stop, whatever the device said. *)
Definition modem_controls (retries : Z) (i : dinfo) (g : Z) (e : option error) (fs : list (list Z)) : Prop :=
  (e <> None /\ fs = [modem_start g]) \/
  exists d1 d2, device_start retries i g d1 /\ device_stop retries i d2 /\ fs = [modem_start g] ++ d1 ++ [modem_stop] ++ d2.
(** A link from the device to the modem. *)
Definition device_controls (retries : Z) (i : dinfo) (g : Z) (e : option error) (fs : list (list Z)) : Prop :=
  (e <> None /\ device_start retries i g fs) \/
  exists d1 d2, device_start retries i g d1 /\ device_stop retries i d2 /\ fs = d1 ++ [modem_start g] ++ d2 ++ [modem_stop].
(** What is asked for: the first, the second, both in this order (the second only if the first succeeded), or nothing. *)
Definition link_frames (retries : Z) (i : dinfo) (controller responder : bool) (g : Z) (e : option error) (fs : list (list Z)) : Prop :=
  exists e1 f1 f2, fs = f1 ++ f2 /\ (if controller then modem_controls retries i g e1 f1 else e1 = None /\ f1 = []) /\
    match e1 with
    | Some _ => e = e1 /\ f2 = []
    | None => if responder then device_controls retries i g e f2 else e = None /\ f2 = []
    end.

(** A frame that belongs to linking group [g] with one of [addrs]. *)
Definition linking_frame (addrs : list Z) (g : Z) (f : list Z) : Prop :=
  (exists a, In a addrs /\ frame_to a f) \/ f = modem_start g \/ f = modem_stop.
(** The modem's acknowledgement that it started. *)
Definition start_taken (g : Z) (p : packet) : Prop := p_cmd p = 0x64 /\ p_ack p = 0x06 /\ p_payload p = [0x03; g].
Definition stop_taken (p : packet) : Prop := p_cmd p = 0x65 /\ p_ack p = 0x06 /\ p_payload p = [].
(** If, of the packets [P] that come in, none acknowledges the first start, then that start is all there is, and an error is told. *)
Definition lost_start (P : packet -> Prop) (retries : Z) (i : dinfo) (controller responder : bool) (g : Z) (e : option error) (fs : list (list Z)) : Prop :=
  (controller = true -> (forall p, P p -> ~ start_taken g p) -> e <> None /\ fs = [modem_start g]) /\
  (controller = false -> responder = true -> (forall p, P p -> ~ ack_from (di_addr i) p) -> e <> None /\ device_start retries i g fs).
(** What comes in during the coming steps of the modem, one packet or none a step. *)
Fixpoint in_turn (sc : schedule) (t : nat) (l : list (option packet)) : Prop :=
  match l with
  | [] => True
  | x :: rest => sc t = mkStep [] (match x with Some p => [EvPacket p] | None => [] end) false None /\ in_turn sc (S t) rest
  end.
