(** Model of devices/switch.go, devices/dimmer.go and devices/outlet.go.  [info] is the device's DeviceInfo and [mw] the message
    writer of its BasicDevice. *)
From Coq Require Import ZArith List Bool.
From Verif Require Import GoBase GoProg Command Message MsgWriter BasicDevice.
Import ListNotations.
Open Scope Z_scope.

(** devices/switch.go:27-33 [SwitchConfig]. *)
Record swcfg : Type := mkSC { sc_house : Z; sc_unit : Z }.
(** devices/switch.go:37-44 [UnmarshalBinary]: new receiver and error. *)
Definition sc_unmarshal (old : swcfg) (buf : list Z) : swcfg * option error :=
  if zlen buf <? 14 then (old, Some EBufferTooShort) else (mkSC (nth 4 buf 0) (nth 5 buf 0), None).
(** devices/switch.go:47-52 [MarshalBinary]. *)
Definition sc_marshal (c : swcfg) : list Z := list_set (list_set (zeros 14) 4 (byte_of (sc_house c))) 5 (byte_of (sc_unit c)).

(** devices/switch.go:55-91 [LightFlags], five bytes. *)
Definition lf_byte (lf : list Z) (i : nat) : Z := nth i lf 0.
Definition lf_program_lock (lf : list Z) : bool := Z.land (lf_byte lf 0) 0x01 =? 0x01.
Definition lf_tx_led (lf : list Z) : bool := Z.land (lf_byte lf 0) 0x02 =? 0x02.
Definition lf_resume_dim (lf : list Z) : bool := Z.land (lf_byte lf 0) 0x04 =? 0x04.
Definition lf_led (lf : list Z) : bool := Z.land (lf_byte lf 3) 0x10 =? 0x10.
Definition lf_load_sense (lf : list Z) : bool := Z.land (lf_byte lf 4) 0x20 =? 0x20.
Definition lf_db_delta (lf : list Z) : Z := lf_byte lf 1.
Definition lf_snr (lf : list Z) : Z := lf_byte lf 2.
Definition lf_x10_enabled (lf : list Z) : bool := negb (Z.land (lf_byte lf 4) 0x01 =? 0x01).
Definition lf_error_blink (lf : list Z) : bool := Z.land (lf_byte lf 4) 0x02 =? 0x02.
Definition lf_cleanup_report (lf : list Z) : bool := Z.land (lf_byte lf 4) 0x04 =? 0x04.

(** devices/switch.go:114-120 [Switch.Status]. *)
Definition switch_status {W} (info : dinfo) (mw : mwriter W) : prog W (Z * option error) :=
  do (ack, err) <- bd_send info mw c_LightStatusRequest [] ;;
  match err with Some e => pret (0, Some e) | None => pret (command2 ack, None) end.

(** devices/switch.go:126-136 and devices/dimmer.go:78-92: the payload the configuration is decoded from. *)
Definition config_payload {W} (fuel : nat) (info : dinfo) (mw : mwriter W) : prog W (option (list Z) * option error) :=
  do (_, err) <- bd_write info mw (mkMsg 0 0 0 c_ExtendedGetSet [0x01; 0x00]) ;;
  match err with
  | Some e => pret (None, Some e)
  | None =>
      do (msg, err1) <- read_match fuel (bd_mw info mw) (cmd_matcher c_ExtendedGetSet) ;;
      match err1 with
      | Some e => pret (None, Some e)
      | None => match msg with None => ppanic | Some m => pret (Some (m_payload m), None) end
      end
  end.
(** devices/switch.go:126-136 [Switch.Config]. *)
Definition switch_config {W} (fuel : nat) (info : dinfo) (mw : mwriter W) : prog W (swcfg * option error) :=
  do (p, err) <- config_payload fuel info mw ;;
  match p with Some buf => pret (sc_unmarshal (mkSC 0 0) buf) | None => pret (mkSC 0 0, err) end.

(** Loop of devices/switch.go:147-153 and devices/thermostat.go:242-248: one request after the other until one fails, the second
    command byte of each acknowledgement goes into the result; a nil acknowledgement is dereferenced. *)
Fixpoint ask_all {W} (info : dinfo) (mw : mwriter W) (cmds : list Z) (i : nat) (acc : list Z) : prog W (list Z * option error) :=
  match cmds with
  | [] => pret (acc, None)
  | c :: t =>
      do (ack, err) <- bd_write info mw (mkMsg 0 0 0 c []) ;;
      match err with
      | Some e => pret (acc, Some e)
      | None => match ack with None => ppanic | Some a => ask_all info mw t (S i) (list_set acc i (command2 (m_cmd a))) end
      end
  end.
(** devices/switch.go:138-155 [OperatingFlags]. *)
Definition switch_operating_flags {W} (info : dinfo) (mw : mwriter W) : prog W (list Z * option error) :=
  ask_all info mw (map (sub_command c_GetOperatingFlags) [0x01; 0x02; 0x04; 0x10; 0x20]) 0 (zeros 5).

(** devices/switch.go:157-177. *)
Definition switch_set_load_sense {W} (info : dinfo) (mw : mwriter W) (on : bool) : prog W (option error) :=
  if on then bd_send_command info mw c_EnableLoadSense (zeros 14) else bd_send_command info mw c_DisableLoadSense (zeros 14).
Definition switch_set_backlight {W} (info : dinfo) (mw : mwriter W) (on : bool) : prog W (option error) :=
  if on then bd_send_command info mw c_EnableLED (zeros 14) else bd_send_command info mw c_DisableLED (zeros 14).
Definition switch_turn_off {W} (info : dinfo) (mw : mwriter W) : prog W (option error) := bd_send_command info mw c_LightOff [].
Definition switch_turn_on {W} (info : dinfo) (mw : mwriter W) (level : Z) : prog W (option error) :=
  bd_send_command info mw (sub_command c_LightOn level) [].

(** devices/dimmer.go:26-41 [DimmerConfig]. *)
Record dimcfg : Type := mkDC { dc_house : Z; dc_unit : Z; dc_ramp : Z; dc_level : Z; dc_snt : Z }.
(** devices/dimmer.go:44-54. *)
Definition dc_unmarshal (old : dimcfg) (buf : list Z) : dimcfg * option error :=
  if zlen buf <? 14 then (old, Some EBufferTooShort)
  else (mkDC (nth 4 buf 0) (nth 5 buf 0) (nth 6 buf 0) (nth 7 buf 0) (nth 8 buf 0), None).
(** devices/dimmer.go:57-65. *)
Definition dc_marshal (c : dimcfg) : list Z :=
  list_set (list_set (list_set (list_set (list_set (zeros 14) 4 (byte_of (dc_house c))) 5 (byte_of (dc_unit c))) 6 (byte_of (dc_ramp c)))
    7 (byte_of (dc_level c))) 8 (byte_of (dc_snt c)).
(** devices/dimmer.go:78-92 [Dimmer.Config]. *)
Definition dimmer_config {W} (fuel : nat) (info : dinfo) (mw : mwriter W) : prog W (dimcfg * option error) :=
  do (p, err) <- config_payload fuel info mw ;;
  match p with Some buf => pret (dc_unmarshal (mkDC 0 0 0 0 0) buf) | None => pret (mkDC 0 0 0 0 0, err) end.

(** devices/dimmer.go:94-124. *)
Definition dimmer_brighten {W} (info : dinfo) (mw : mwriter W) := bd_send_command info mw c_LightBrighten [].
Definition dimmer_dim {W} (info : dinfo) (mw : mwriter W) := bd_send_command info mw c_LightDim [].
Definition dimmer_start_brighten {W} (info : dinfo) (mw : mwriter W) := bd_send_command info mw c_StartBrighten [].
Definition dimmer_start_dim {W} (info : dinfo) (mw : mwriter W) := bd_send_command info mw c_StartDim [].
Definition dimmer_stop_manual {W} (info : dinfo) (mw : mwriter W) := bd_send_command info mw c_LightStopManual [].
Definition dimmer_on_fast {W} (info : dinfo) (mw : mwriter W) := bd_send_command info mw c_LightOnFast [].
Definition dimmer_instant_change {W} (info : dinfo) (mw : mwriter W) (level : Z) := bd_send_command info mw (sub_command c_LightInstantChange level) [].
Definition dimmer_set_status {W} (info : dinfo) (mw : mwriter W) (level : Z) := bd_send_command info mw (sub_command c_LightSetStatus level) [].
(** devices/dimmer.go:126-135 [OnAtRamp]: byte arithmetic. *)
Definition dimmer_on_at_ramp {W} (info : dinfo) (mw : mwriter W) (level rate : Z) : prog W (option error) :=
  let lr := Z.lor (byte_of (Z.shiftl (byte_of level) 4)) (Z.land (byte_of rate) 0x0f) in
  bd_send_command info mw (sub_command (if 0x43 <=? di_fw info then c_LightOnAtRampV67 else c_LightOnAtRamp) lr) [].
(** devices/dimmer.go:137-143 [OffAtRamp]. *)
Definition dimmer_off_at_ramp {W} (info : dinfo) (mw : mwriter W) (rate : Z) : prog W (option error) :=
  bd_send_command info mw (sub_command (if 0x43 <=? di_fw info then c_LightOffAtRampV67 else c_LightOffAtRamp) (Z.land 0x0f rate)) [].
