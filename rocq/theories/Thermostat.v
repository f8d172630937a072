(** Model of devices/thermostat.go. *)
From Coq Require Import ZArith QArith List Bool.
From Verif Require Import F32 GoBase GoProg Command Message MsgWriter BasicDevice Lights.
Import ListNotations.
Open Scope Z_scope.

(** devices/thermostat.go:27-43 [ZoneInfo]: four numbers (never negative, so Go's division is the mathematical one). *)
Definition zi_temperature (zi : list Z) : Z := nth 0 zi 0 / 2.
Definition zi_deadband (zi : list Z) : Z := nth 1 zi 0 / 2.
Definition zi_setpoint (zi : list Z) : Z := nth 2 zi 0 / 2.
Definition zi_humidity (zi : list Z) : Z := nth 3 zi 0.

(** devices/thermostat.go:47-64, 92-97: modes, units, fan speeds. *)
Definition m_Off : Z := 0. Definition m_Heat : Z := 1. Definition m_Cool : Z := 2. Definition m_Auto : Z := 3. Definition m_FanOn : Z := 4.
Definition m_ProgramAuto : Z := 5. Definition m_ProgramHeat : Z := 6. Definition m_ProgramCool : Z := 7. Definition m_FanOff : Z := 8.
Definition u_Fahrenheit : Z := 0. Definition u_Celsius : Z := 1.
Definition s_Low : Z := 1. Definition s_Med : Z := 2. Definition s_High : Z := 3.

(** devices/thermostat.go:68-71 [EquipmentState]. *)
Definition es_cool (es : Z) : bool := Z.land es 0x01 =? 0x01.
Definition es_heat (es : Z) : bool := Z.land es 0x02 =? 0x02.
Definition es_output_available (es : Z) : bool := Z.land es 0x04 =? 0x04.
Definition es_output_state (es : Z) : bool := Z.land es 0x08 =? 0x08.

(** devices/thermostat.go:111-115 [ThermostatFlags]. *)
Definition tf_linking_lock (tf : Z) : bool := Z.land tf 0x01 =? 0x01.
Definition tf_button_beep (tf : Z) : bool := Z.land tf 0x02 =? 0x02.
Definition tf_button_lock (tf : Z) : bool := Z.land tf 0x04 =? 0x04.
Definition tf_temp_format (tf : Z) : Z := Z.shiftr (Z.land tf 0x08) 3.
Definition tf_time_format (tf : Z) : Z := Z.shiftr (Z.land tf 0x10) 5.

(** devices/thermostat.go:117-141 [ThermostatInfo].  The temperature, a float32 in the code, is its value. *)
Record tinfo : Type := mkTI {
  ti_temp : Q; ti_humidity : Z; ti_temp_offset : Z; ti_humidity_offset : Z; ti_mode : Z; ti_fan_mode : Z; ti_backlight : Z;
  ti_hysteresis : Z; ti_flags : Z; ti_hum_low : Z; ti_hum_high : Z; ti_rev : Z; ti_cool : Z; ti_heat : Z; ti_rf_offset : Z;
  ti_setback : Z; ti_ext_offset : Z; ti_report : bool; ti_ext_power : bool; ti_ext_temp : bool }.
Definition tinfo_zero : tinfo := mkTI 0%Q 0 0 0 0 0 0 0 0 0 0 0 0 0 0 0 0 false false false.

(** devices/thermostat.go:143-186 [UnmarshalBinary]. *)
Definition ti_unmarshal (ti : tinfo) (data : list Z) : tinfo * option error :=
  if zlen data <? 14 then (ti, Some (EWrap EBufferTooShort))
  else
    let d i := nth i data 0 in
    if d 2%nat =? 0x00 then
      let temp := Z.lor (Z.shiftl (d 13%nat) 8) (d 3%nat) in
      let flags := d 12%nat in
      (mkTI (let t := f32_div (f32_of_int temp) 10 in if tf_temp_format flags =? u_Fahrenheit then f32_add (f32_div (f32_mul t 9) 5) 32 else t)
            (d 4%nat) (d 5%nat) (d 6%nat) (d 7%nat) (d 8%nat) (d 9%nat) (d 10%nat) flags
            (ti_hum_low ti) (ti_hum_high ti) (d 13%nat) (ti_cool ti) (ti_heat ti) (ti_rf_offset ti) (ti_setback ti) (ti_ext_offset ti)
            (ti_report ti) (ti_ext_power ti) (ti_ext_temp ti), None)
    else if d 2%nat =? 0x01 then
      (mkTI (ti_temp ti) (ti_humidity ti) (ti_temp_offset ti) (ti_humidity_offset ti) (ti_mode ti) (ti_fan_mode ti) (ti_backlight ti)
            (ti_hysteresis ti) (ti_flags ti) (d 4%nat) (d 3%nat) (d 5%nat) (d 6%nat) (d 7%nat) (d 8%nat) (d 9%nat) (d 10%nat)
            (d 11%nat =? 0x01) (d 12%nat =? 0x01) (d 13%nat =? 0x02), None)
    else (ti, Some (EOther 182)).

(** devices/thermostat.go:226-232. *)
Definition therm_increase {W} (info : dinfo) (mw : mwriter W) (delta : Z) := bd_send_command info mw (sub_command c_IncreaseTemp (delta * 2)) [].
Definition therm_decrease {W} (info : dinfo) (mw : mwriter W) (delta : Z) := bd_send_command info mw (sub_command c_DecreaseTemp (delta * 2)) [].

(** devices/thermostat.go:234-250 [GetZoneInfo]. *)
Definition therm_zone_info {W} (info : dinfo) (mw : mwriter W) (zone : Z) : prog W (list Z * option error) :=
  ask_all info mw (map (sub_command c_GetZoneInfo)
    [Z.land zone 0x0f; Z.lor 0x10 (Z.land zone 0x0f); Z.lor 0x20 (Z.land zone 0x0f); Z.lor 0x30 (Z.land zone 0x0f)]) 0 (zeros 4).

(** devices/thermostat.go:252-266, 295-298, 326-329: questions answered in the acknowledgement.  [GetEquipmentState] and [GetFanSpeed]
    look at the (zero) command also when there was an error. *)
Definition therm_get_mode {W} (info : dinfo) (mw : mwriter W) : prog W (Z * option error) :=
  do (ack, err) <- bd_send info mw c_GetThermostatMode [] ;; match err with Some e => pret (0, Some e) | None => pret (command2 ack, None) end.
Definition therm_get_ambient {W} (info : dinfo) (mw : mwriter W) : prog W (Z * option error) :=
  do (ack, err) <- bd_send info mw c_GetAmbientTemp [] ;; match err with Some e => pret (0, Some e) | None => pret (command2 ack, None) end.
Definition therm_get_equipment {W} (info : dinfo) (mw : mwriter W) : prog W (Z * option error) :=
  do (ack, err) <- bd_send info mw c_GetEquipmentState [] ;; pret (command2 ack, err).
Definition therm_get_fan_speed {W} (info : dinfo) (mw : mwriter W) : prog W (Z * option error) :=
  do (ack, err) <- bd_send info mw c_GetFanOnSpeed [] ;; pret (command2 ack, err).

(** devices/thermostat.go:268-293 [SetMode]; a ThermostatMode is a byte. *)
Definition therm_set_mode {W} (info : dinfo) (mw : mwriter W) (mode : Z) : prog W (option error) :=
  if mode =? m_Off then bd_send_command info mw c_ThermOff []
  else if mode =? m_Heat then bd_send_command info mw c_SetHeat []
  else if mode =? m_Cool then bd_send_command info mw c_SetCool []
  else if mode =? m_Auto then bd_send_command info mw c_SetModeAuto []
  else if mode =? m_FanOn then bd_send_command info mw c_SetFan []
  else if mode =? m_FanOff then bd_send_command info mw c_ClearFan []
  else if mode =? m_ProgramAuto then bd_send_command info mw c_SetProgramAuto []
  else if mode =? m_ProgramHeat then bd_send_command info mw c_SetProgramHeat []
  else if mode =? m_ProgramCool then bd_send_command info mw c_SetProgramCool []
  else pret (Some EDevInvalidThermostatMode).

(** devices/thermostat.go:300-310 [GetInfo]: both data sets, whatever set an answer says it is. *)
Fixpoint therm_info_loop {W} (fuel : nat) (info : dinfo) (mw : mwriter W) (sets : list Z) (ti : tinfo) : prog W (tinfo * option error) :=
  match sets with
  | [] => pret (ti, None)
  | i :: t =>
      do (buf, err) <- bd_extended_get fuel info mw [0x00; 0x00; i] ;;
      match err with
      | Some e => pret (ti, Some e)
      | None => match ti_unmarshal ti buf with
                | (ti1, Some e) => pret (ti1, Some e)
                | (ti1, None) => therm_info_loop fuel info mw t ti1
                end
      end
  end.
Definition therm_get_info {W} (fuel : nat) (info : dinfo) (mw : mwriter W) : prog W (tinfo * option error) :=
  therm_info_loop fuel info mw [0; 1] tinfo_zero.
(** devices/thermostat.go:312-315 [GetTempUnit]. *)
Definition therm_get_unit {W} (fuel : nat) (info : dinfo) (mw : mwriter W) : prog W (Z * option error) :=
  do (ti, err) <- therm_get_info fuel info mw ;; pret (tf_temp_format (ti_flags ti), err).
(** devices/thermostat.go:317-324 [SetTempUnit]. *)
Definition therm_set_unit {W} (info : dinfo) (mw : mwriter W) (unit : Z) : prog W (option error) :=
  if unit =? u_Celsius then bd_send_command info mw c_ExtendedGetSet [0x00; 0x04; 0x00; 0x08]
  else if unit =? u_Fahrenheit then bd_send_command info mw c_ExtendedGetSet [0x00; 0x04; 0x00; 0x00]
  else pret (Some EDevInvalidUnit).
(** devices/thermostat.go:331-344 [SetFanSpeen]. *)
Definition therm_set_fan_speed {W} (info : dinfo) (mw : mwriter W) (speed : Z) : prog W (option error) :=
  if speed =? s_Low then bd_send_command info mw c_SetFanOnLow []
  else if speed =? s_Med then bd_send_command info mw c_SetFanOnMed []
  else if speed =? s_High then bd_send_command info mw c_SetFanOnHigh []
  else pret (Some EDevInvalidFanSpeed).

(** devices/thermostat.go:99-107, 346-364 [Status]. *)
Record tstatus : Type := mkTS { ts_temp : Z; ts_humidity : Z; ts_setpoint : Z; ts_deadband : Z; ts_unit : Z; ts_mode : Z; ts_state : Z }.
Definition therm_status {W} (fuel : nat) (info : dinfo) (mw : mwriter W) : prog W (tstatus * option error) :=
  do (zi, err) <- therm_zone_info info mw 0 ;;
  let st u m s := mkTS (zi_temperature zi) (zi_humidity zi) (zi_setpoint zi) (zi_deadband zi) u m s in
  match err with
  | Some e => pret (st 0 0 0, Some e)
  | None =>
      do (u, err1) <- therm_get_unit fuel info mw ;;
      match err1 with
      | Some e => pret (st u 0 0, Some e)
      | None =>
          do (m, err2) <- therm_get_mode info mw ;;
          match err2 with
          | Some e => pret (st u m 0, Some e)
          | None => do (s, err3) <- therm_get_equipment info mw ;; pret (st u m s, err3)
          end
      end
  end.

(** devices/thermostat.go:366-371 [SetStatusMessage]. *)
Definition therm_set_status_message {W} (info : dinfo) (mw : mwriter W) (enabled : bool) : prog W (option error) :=
  if enabled then bd_send_command info mw c_ExtendedGetSet [0x00; 0x08; 0x00] else bd_send_command info mw c_DisableStatusMessage [].
(** devices/thermostat.go:373-379: the zone is not used. *)
Definition therm_set_cool {W} (info : dinfo) (mw : mwriter W) (zone temp : Z) := bd_send_command info mw (sub_command c_SetCoolSetpoint (temp * 2)) [].
Definition therm_set_heat {W} (info : dinfo) (mw : mwriter W) (zone temp : Z) := bd_send_command info mw (sub_command c_SetHeatSetpoint (temp * 2)) [].
(** devices/thermostat.go:381-395. *)
Definition therm_zone_up {W} (info : dinfo) (mw : mwriter W) (zone delta : Z) := bd_send_command info mw (sub_command c_ZoneTempUp zone) [byte_of (delta * 2)].
Definition therm_zone_down {W} (info : dinfo) (mw : mwriter W) (zone delta : Z) := bd_send_command info mw (sub_command c_ZoneTempDown zone) [byte_of (delta * 2)].
Definition therm_zone_cool {W} (info : dinfo) (mw : mwriter W) (zone temp deadband : Z) :=
  bd_send_command info mw (sub_command c_SetZoneCoolSetpoint zone) [byte_of (temp * 2); byte_of deadband].
Definition therm_zone_heat {W} (info : dinfo) (mw : mwriter W) (zone temp deadband : Z) :=
  bd_send_command info mw (sub_command c_SetZoneHeatSetpoint zone) [byte_of (temp * 2); byte_of deadband].
