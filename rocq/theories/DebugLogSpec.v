(** Specification for linking with the debug log on: the frames, given directly. *)
From Coq Require Import ZArith List Bool.
From Verif Require Import GoBase BasicDevice PlmPacket Plm LineSpec LinkLineSpec.
Import ListNotations.
Open Scope Z_scope.

(** The modem is asked who it is. *)
Definition ask_modem : list Z := [0x02; 0x60].
(** It is asked one to [retries]+1 times, if [yes]; else not at all. *)
Definition asked (retries : Z) (yes : bool) (fs : list (list Z)) : Prop :=
  exists k, fs = repeat ask_modem k /\ (if yes then 1 <= Z.of_nat k <= retries + 1 else k = O).
(** The modem is told to start unlinking group [g]; a device is told so with 0x0a. *)
Definition modem_unlink (g : Z) : list Z := [0x02; 0x64; 0xff; g].
Definition device_unlink (retries : Z) (i : dinfo) (g : Z) : list (list Z) -> Prop :=
  told retries i 0x0a g (if di_engine i =? 2 then repeat 0 14 else []).
(** The modem is unlinked as the controller of the device: first [before], then the modem is told; if that failed, nothing more; else the
    device is told to start and both are told to stop. *)
Definition modem_unlinks (retries : Z) (i : dinfo) (g : Z) (e : option error) (before fs : list (list Z)) : Prop :=
  (e <> None /\ fs = before ++ [modem_unlink g]) \/
  exists d1 d2, device_start retries i g d1 /\ device_stop retries i d2 /\ fs = before ++ [modem_unlink g] ++ d1 ++ [modem_stop] ++ d2.
(** The device is unlinked as the controller of the modem: [between] comes when the device has accepted. *)
Definition device_unlinks (retries : Z) (i : dinfo) (g : Z) (e : option error) (between : list (list Z) -> Prop) (fs : list (list Z)) : Prop :=
  (e <> None /\ device_unlink retries i g fs) \/
  exists d1 m d2, device_unlink retries i g d1 /\ between m /\ device_stop retries i d2 /\ fs = d1 ++ m ++ [modem_start g] ++ d2 ++ [modem_stop].
