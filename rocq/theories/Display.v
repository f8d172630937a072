(** Model of the functions that turn messages, packets, records and settings into text.
    Texts are lists of character codes; "°" is its two UTF-8 bytes. *)
From Coq Require Import ZArith List Bool String Permutation Sorted.
From Verif Require Import GoBase GoText GoJson Command Message Address Link LinkText PlmPacket Plm DevLinkdb BasicDevice Thermostat.
Import ListNotations.
Open Scope Z_scope.

(** ** Insteon commands *)

(** commands/commands.go:347-450, the map [cmdStrings], in source order. *)
Definition cmd_strings : list (Z * list Z) :=
  [ (c_AssignToAllLinkGroup, zs "Assign to All-Link Group")
  ; (c_DeleteFromAllLinkGroup, zs "Delete from All-Link Group")
  ; (c_ProductDataReq, zs "Product Data Request")
  ; (c_FxUsernameReq, zs "Fx Username Request")
  ; (c_DeviceTextStringReq, zs "Text String Request")
  ; (c_ExitLinkingMode, zs "Exit Linking Mode")
  ; (c_EnterLinkingMode, zs "Enter Linking Mode")
  ; (c_EnterUnlinkingMode, zs "Enter Unlinking Mode")
  ; (c_GetEngineVersion, zs "Engine Version")
  ; (c_Ping, zs "Ping Request")
  ; (c_IDRequest, zs "ID Request")
  ; (c_GetOperatingFlags, zs "Get Operating Flags")
  ; (c_ProductDataResp, zs "Product Data Response")
  ; (c_FxUsernameResp, zs "Fx Username Response")
  ; (c_DeviceTextStringResp, zs "Text String Response")
  ; (c_SetDeviceTextString, zs "Set Text String")
  ; (c_SetAllLinkCommandAlias, zs "Set All-Link Command Alias")
  ; (c_SetAllLinkCommandAliasData, zs "Set All-Link Command Alias Data")
  ; (c_ExitLinkingModeExt, zs "Exit Linking Mode (i2cs)")
  ; (c_EnterLinkingModeExt, zs "Enter Linking Mode (i2cs)")
  ; (c_EnterUnlinkingModeExt, zs "Enter Unlinking Mode (i2cs)")
  ; (c_SetOperatingFlags, zs "Set Operating Flags")
  ; (c_ExtendedGetSet, zs "Extended Get/Set")
  ; (c_ReadWriteALDB, zs "Read/Write ALDB")
  ; (c_AllLinkSuccessReport, zs "All-link Success Report")
  ; (c_AllLinkRecall, zs "All-link recall")
  ; (c_AllLinkAlias2High, zs "All-link Alias 2 High")
  ; (c_AllLinkAlias1Low, zs "All-link Alias 1 Low")
  ; (c_AllLinkAlias2Low, zs "All-link Alias 2 Low")
  ; (c_AllLinkAlias3High, zs "All-link Alias 3 High")
  ; (c_AllLinkAlias3Low, zs "All-link Alias 3 Low")
  ; (c_AllLinkAlias4High, zs "All-link Alias 4 High")
  ; (c_AllLinkAlias4Low, zs "All-link Alias 4 Low")
  ; (c_AllLinkAlias5, zs "All-link Alias 5")
  ; (c_SetButtonPressedResponder, zs "Set-button Pressed (responder)")
  ; (c_SetButtonPressedController, zs "Set-button Pressed (controller)")
  ; (c_TestPowerlinePhase, zs "Test Powerline Phase")
  ; (c_Heartbeat, zs "Heartbeat")
  ; (c_BroadCastStatusChange, zs "Broadcast Status Change")
  ; (c_LightOn, zs "Light On")
  ; (c_LightOnFast, zs "Light On Fast")
  ; (c_LightOff, zs "Light Off")
  ; (c_LightOffFast, zs "Light Off Fast")
  ; (c_LightBrighten, zs "Brighten Light")
  ; (c_LightDim, zs "Dim Light")
  ; (c_LightStopManual, zs "Manual Light Change Stop")
  ; (c_LightStatusRequest, zs "Status Request")
  ; (c_LightInstantChange, zs "Light Instant Change")
  ; (c_LightManualOn, zs "Manual On")
  ; (c_LightManualOff, zs "Manual Off")
  ; (c_TapSetButtonOnce, zs "Set Button Tap")
  ; (c_TapSetButtonTwice, zs "Set Button Tap Twice")
  ; (c_LightSetStatus, zs "Set Status")
  ; (c_LightOnAtRamp, zs "Light On At Ramp")
  ; (c_LightOnAtRampV67, zs "Light On At Ramp")
  ; (c_LightOffAtRamp, zs "Light Off At Ramp")
  ; (c_LightOffAtRampV67, zs "Light Off At Ramp")
  ; (c_StartBrighten, zs "Manual Start Brighten")
  ; (c_StartDim, zs "Manual Start Dim")
  ; (c_EnableProgramLock, zs "Enable Program Lock")
  ; (c_DisableProgramLock, zs "Disable Program Lock")
  ; (c_EnableTxLED, zs "Enable Tx LED")
  ; (c_DisableTxLED, zs "Disable Tx LED")
  ; (c_EnableResumeDim, zs "Enable Resume Dim")
  ; (c_DisableResumeDim, zs "Disable Resume Dim")
  ; (c_EnableLoadSense, zs "Enable Load Sense")
  ; (c_DisableLoadSense, zs "Disable Load Sense")
  ; (c_DisableLED, zs "Disable Backlight")
  ; (c_EnableLED, zs "Enable Backlight")
  ; (c_SetKeyBeep, zs "Enable Key Beep")
  ; (c_ClearKeyBeep, zs "Disable Key Beep")
  ; (c_DecreaseTemp, zs "Decrease Temp")
  ; (c_IncreaseTemp, zs "Increase Temp")
  ; (c_GetZoneInfo, zs "Get Zone Info")
  ; (c_GetThermostatMode, zs "Get Mode")
  ; (c_GetAmbientTemp, zs "Get Ambient Temp")
  ; (c_SetHeat, zs "Set Heat")
  ; (c_SetCool, zs "Set Cool")
  ; (c_SetModeAuto, zs "Set Auto")
  ; (c_SetFan, zs "Turn Fan On")
  ; (c_ClearFan, zs "Turn Fan Off")
  ; (c_ThermOff, zs "Turn Thermostat Off")
  ; (c_SetProgramHeat, zs "Set Program Heat")
  ; (c_SetProgramCool, zs "Set Program Cool")
  ; (c_SetProgramAuto, zs "Set Program Auto")
  ; (c_GetEquipmentState, zs "Get State")
  ; (c_SetEquipmentState, zs "Set State")
  ; (c_GetTempUnits, zs "Get Temp Units")
  ; (c_SetFahrenheit, zs "Set Units Fahrenheit")
  ; (c_SetCelsius, zs "Set Units Celsius")
  ; (c_GetFanOnSpeed, zs "Get Fan On-Speed")
  ; (c_SetFanOnLow, zs "Set Fan-Speed Low")
  ; (c_SetFanOnMed, zs "Set Fan-Speed Med")
  ; (c_SetFanOnHigh, zs "Set Fan-Speed High")
  ; (c_EnableStatusMessage, zs "Enable Status Change")
  ; (c_DisableStatusMessage, zs "Disable Status Change")
  ; (c_SetCoolSetpoint, zs "Set Cool Set-Point")
  ; (c_SetHeatSetpoint, zs "Set Heat Set-Point")
  ; (c_ZoneTempUp, zs "Increase Zone Temp")
  ; (c_ZoneTempDown, zs "Decrease Zone Temp")
  ; (c_SetZoneCoolSetpoint, zs "Set Zone Cool Set-Point")
  ; (c_SetZoneHeatSetpoint, zs "Set Zone Heat Set-Point") ].

(** Map lookup; the keys of a Go map literal are distinct. *)
Fixpoint lookup_name (cmd : Z) (tbl : list (Z * list Z)) : option (list Z) :=
  match tbl with
  | [] => None
  | (k, n) :: t => if k =? cmd then Some n else lookup_name cmd t
  end.

(** commands/command.go:73-80 [String]. *)
Definition cmd_string (cmd : Z) : list Z :=
  match lookup_name cmd cmd_strings with
  | Some n => n
  | None =>
      match lookup_name (Z.land cmd 0xffff00) cmd_strings with
      | Some n => n ++ zs "(" ++ fmt_d_byte (command2 cmd) ++ zs ")"
      | None => zs "Command(0x" ++ fmt_02x (command0 cmd) ++ zs ", 0x" ++ fmt_02x (command1 cmd) ++ zs ", 0x"
                  ++ fmt_02x (command2 cmd) ++ zs ")"
      end
  end.

(** ** Messages *)

(** message.go:61-83 [MessageType.String]. *)
Definition mt_string (t : Z) : list Z :=
  if t =? mt_Direct then zs "D"
  else if t =? mt_DirectAck then zs "D Ack"
  else if t =? mt_AllLinkCleanup then zs "C"
  else if t =? mt_AllLinkCleanupAck then zs "C Ack"
  else if t =? mt_Broadcast then zs "B"
  else if t =? mt_DirectNak then zs "D NAK"
  else if t =? mt_AllLinkBroadcast then zs "A"
  else if t =? mt_AllLinkCleanupNak then zs "C NAK"
  else zs "unknown".

(** message.go:160-167 [Flags.String]. *)
Definition fl_string (f : Z) : list Z :=
  (if fl_extended f then zs "E" else zs "S") ++ pad_right 5 (mt_string (fl_type f)) ++ zs " "
    ++ fmt_d_byte (fl_max_ttl f) ++ zs ":" ++ fmt_d_byte (fl_ttl f).

(** insteon.go:93-95 [DevCat.String]. *)
Definition devcat_string (d0 d1 : Z) : list Z := fmt_02x d0 ++ zs "." ++ fmt_02x d1.

(** insteon.go:51-53 [FirmwareVersion.String] ([%d] of an int). *)
Definition fw_string (fv : Z) : list Z := fmt_int fv.

(** strings.Join of the bytes in two hexadecimal digits: message.go:269-273, and plm/plm.go:49-55 [hexDump] with "%02x". *)
Definition hex_join (sep : list Z) (l : list Z) : list Z := join sep (map fmt_02x l).

(** message.go:237-276 [Message.String]. *)
Definition msg_string (m : message) : list Z :=
  let t := fl_type (m_flags m) in
  let start := fl_string (m_flags m) ++ zs " " ++ addr_string (m_src m) ++ zs " -> " in
  let dst :=
    if t =? mt_AllLinkBroadcast then zs "ff.ff.ff"
    else if t =? mt_Broadcast then
      zs "ff.ff.ff DevCat " ++ devcat_string (byte_of (m_dst m / 65536)) (byte_of (m_dst m / 256))
        ++ zs " Firmware " ++ fw_string (byte_of (m_dst m))
    else if t =? mt_AllLinkCleanup then addr_string (m_dst m) ++ zs " Cleanup"
    else addr_string (m_dst m) in
  let cmd := if fl_ack (m_flags m) then fmt_d_byte (command1 (m_cmd m)) ++ zs "." ++ fmt_d_byte (command2 (m_cmd m))
             else cmd_string (m_cmd m) in
  let group := if t =? mt_AllLinkBroadcast then zs " Group(" ++ fmt_d_byte (byte_of (m_dst m)) ++ zs ")" else [] in
  let data := if fl_extended (m_flags m) then zs " [" ++ hex_join (zs " ") (m_payload m) ++ zs "]" else [] in
  start ++ dst ++ zs " " ++ cmd ++ group ++ data.

(** ** Stringer-generated tables *)

(** [name[index[i]:index[i+1]]]: both indexings and the slicing are checked. *)
Definition slice_name (name : list Z) (index : list Z) (i : Z) : outcome (list Z) :=
  if i <? 0 then Panic
  else match nth_error index (Z.to_nat i), nth_error index (Z.to_nat i + 1) with
       | Some a, Some b =>
           if (0 <=? a) && (a <=? b) && (b <=? zlen name)
           then Ret (firstn (Z.to_nat (b - a)) (skipn (Z.to_nat a) name))
           else Panic
       | _, _ => Panic
       end.

(** plm/command_string.go:7-16. *)
Definition plm_name_1 : list Z := zs "Std Msg ReceivedExt Msg ReceivedX10 Msg ReceivedAll Link CompleteButton Event ReportUser Reset DetectedLink Cleanup ReportLink Record RespLink Cleanup Status".
Definition plm_name_2 : list Z := zs "Get InfoSend All LinkSend INSTEON MsgSend X10 MsgStart All LinkCancel All LinkSet Host CategoryResetSet ACK MsgGet First All LinkGet Next All LinkSet ConfigGet Sender All LinkLED OnLED OffManage All Link RecordSet NAK Msg ByteSet NAK Msg Two BytesRF SleepGet Config".
Definition plm_index_1 : list Z := [0; 16; 32; 48; 65; 84; 103; 122; 138; 157].
Definition plm_index_2 : list Z := [0; 8; 21; 37; 49; 63; 78; 95; 100; 111; 129; 146; 156; 175; 181; 188; 210; 226; 247; 255; 265].

(** plm/command_string.go:18-31 [Command.String] on a byte. *)
Definition plm_cmd_string (i : Z) : outcome (list Z) :=
  if i =? 21 then Ret (zs "NAK")
  else if (80 <=? i) && (i <=? 88) then slice_name plm_name_1 plm_index_1 (i - 80)
  else if (96 <=? i) && (i <=? 115) then slice_name plm_name_2 plm_index_2 (i - 96)
  else Ret (zs "Command(" ++ fmt_int i ++ zs ")").

(** devices/thermostatmode_string.go:22-31 [ThermostatMode.String] on a byte. *)
Definition tmode_string (i : Z) : outcome (list Z) :=
  if 9 <=? i then Ret (zs "ThermostatMode(" ++ fmt_int i ++ zs ")")
  else slice_name (zs "Thermostat OffHeat ModeCool ModeAuto ModeFan OnProgram AutoProgram HeatProgram CoolFan Off")
                  [0; 14; 23; 32; 41; 47; 59; 71; 83; 90] i.
(** devices/thermostatmode_string.go:40-49 [Unit.String] on an int. *)
Definition unit_string (i : Z) : outcome (list Z) :=
  if (i <? 0) || (2 <=? i) then Ret (zs "Unit(" ++ fmt_int i ++ zs ")")
  else slice_name [194; 176; 70; 194; 176; 67] [0; 3; 6] i.
(** devices/thermostatmode_string.go:60-69 [FanSpeed.String] on an int. *)
Definition fan_speed_string (i : Z) : outcome (list Z) :=
  if (i <? 0) || (4 <=? i) then Ret (zs "FanSpeed(" ++ fmt_int i ++ zs ")")
  else slice_name (zs "Single SpeedLow SpeedMedium SpeedHigh Speed") [0; 12; 21; 33; 43] i.

(** ** Modem packets, modem settings *)

(** plm/packet.go:68-79 [Packet.String]. *)
Definition pkt_string (p : packet) : outcome (list Z) :=
  match plm_cmd_string (p_cmd p) with
  | Ret s => Ret (s ++ (if 0x60 <=? p_cmd p then (if pkt_is_ack p then zs " ACK" else if pkt_is_nak p then zs " NAK" else []) else []))
  | Panic => Panic | NoFuel => NoFuel
  end.

(** plm/packet.go:43-66 [Format] with the verb v. *)
Definition pkt_format_v (p : packet) : outcome (list Z) :=
  match plm_cmd_string (p_cmd p) with
  | Ret s => Ret (s ++ (match p_payload p with [] => [] | _ => zs " " ++ hex_join (zs " ") (p_payload p) end)
                    ++ (if pkt_is_ack p then zs " ACK" else if pkt_is_nak p then zs " NAK" else []))
  | Panic => Panic | NoFuel => NoFuel
  end.

(** plm/packet.go:44-46, 43 [Format] with the verb x. *)
Definition pkt_format_x (p : packet) : list Z := fmt_02x (p_cmd p) ++ hex_join [] (p_payload p) ++ fmt_02x (p_ack p).

(** plm/config.go:42-69 [Config.String]. *)
Definition cfg_string (c : Z) : list Z :=
  (if cfg_auto_linking c then zs "L" else zs ".") ++ (if cfg_monitor c then zs "M" else zs ".") ++
  (if cfg_auto_led c then zs "A" else zs ".") ++ (if cfg_deadman c then zs "D" else zs ".").

(** plm/info.go:25 and 33-35 [Info.String]. *)
Definition plm_info_string (i : info) : list Z :=
  addr_string (i_addr i) ++ zs " category " ++ devcat_string (i_dc0 i) (i_dc1 i) ++ zs " version " ++ fmt_d_byte (i_fw i).

(** ** Records and requests *)

(** link.go:189-191 [LinkRecord.String]; the group prints as a number because [String] of a group has a pointer receiver. *)
Definition link_string (l : link) : list Z :=
  rcf_string (l_flags l) ++ zs " " ++ fmt_d_byte (l_group l) ++ zs " " ++ addr_string (l_addr l) ++
  zs " 0x" ++ fmt_02x (l_d0 l) ++ zs " 0x" ++ fmt_02x (l_d1 l) ++ zs " 0x" ++ fmt_02x (l_d2 l).

(** devices/linkdb.go:42-44 [MemAddress.String] (a 16-bit value). *)
Definition mem_string (ma : Z) : list Z := fmt_02x (byte_of (ma / 256)) ++ zs "." ++ fmt_02x (byte_of (Z.land ma 0xff)).
(** devices/linkdb.go:58-68 [LinkRequestType.String]. *)
Definition lrt_string (t : Z) : list Z :=
  if t =? 0x00 then zs "Link Read" else if t =? 0x01 then zs "Link Resp" else if t =? 0x02 then zs "Link Write" else zs "Unknown".
(** devices/linkdb.go:79-84 [LinkRequest.String]. *)
Definition lr_string (r : linkreq) : list Z :=
  lrt_string (lr_type r) ++ zs " " ++ mem_string (lr_mem r) ++ zs " " ++ fmt_int (lr_num r) ++
  match lr_link r with None => [] | Some l => zs " " ++ link_string l end.

(** ** Devices *)

(** insteon.go:35-45 [EngineVersion.String]. *)
Definition ev_string (ev : Z) : list Z :=
  if ev =? 0 then zs "I1" else if ev =? 1 then zs "I2" else if ev =? 2 then zs "I2Cs" else zs "unknown".
(** insteon.go:59-61 [ProductKey.String]. *)
Definition pk_string (a b c : Z) : list Z := zs "0x" ++ fmt_02x a ++ fmt_02x b ++ fmt_02x c.

(** devices/basic.go:182-184, switch.go:122-124, dimmer.go:145-147. *)
Definition basic_string (i : dinfo) : list Z := ev_string (di_engine i) ++ zs " Device (" ++ addr_string (di_addr i) ++ zs ")".
Definition switch_string (i : dinfo) : list Z := zs "Switch (" ++ addr_string (di_addr i) ++ zs ")".
Definition dimmer_string (i : dinfo) : list Z := zs "Dimmer (" ++ addr_string (di_addr i) ++ zs ")".

(** devices/thermostat.go:215-225: the value made by [NewThermostat] has, beside the device, an [info] field of its own, left zero. *)
Record therm_value : Type := mkTherm { tv_device : dinfo; tv_info : dinfo }.
Definition new_thermostat (d : dinfo) : therm_value := mkTherm d dinfo_zero.
(** devices/thermostat.go:397-399 [String]. *)
Definition therm_string (t : therm_value) : list Z := zs "Thermostat (" ++ addr_string (di_addr (tv_info t)) ++ zs ")".

(** devices/basic.go:32-37 and 186-190 [Dump].  The template escapes no character that occurs. *)
Definition basic_dump (i : dinfo) : list Z :=
  zs "        Device: " ++ basic_string i ++ [ch_nl] ++
  zs "      Category: " ++ devcat_string (di_dc0 i) (di_dc1 i) ++ [ch_nl] ++
  zs "      Firmware: " ++ fw_string (di_fw i) ++ [ch_nl] ++
  zs "Engine Version: " ++ ev_string (di_engine i) ++ [ch_nl].

(** devices/thermostat.go:73-88 [EquipmentState.String]. *)
Definition es_string (es : Z) : list Z :=
  join (zs ",")
    ((if es_cool es then [zs "cooling"] else []) ++ (if es_heat es then [zs "heating"] else []) ++
     (if es_output_available es then [zs "programmable output available"] else []) ++
     (if es_output_state es then [zs "programmable output state"] else [])).

(** ** Listings of a link database *)

(** util/link.go:439-441 [DumpLinks] with util/dumplinks.tmpl. *)
Definition dump_line (l : link) : list Z := zs "- [" ++ join (zs ", ") (map (fun b => zs "0x" ++ fmt_02x b) (link_marshal l)) ++ zs "]".
Definition dump_links (links : list link) : list Z :=
  match links with
  | [] => unlines [zs "no links"]
  | _ => unlines (zs "links" :: map dump_line links)
  end.

(** util/link.go:57-65 [Less], the order in which [PrintLinks] sorts: addresses by their text, then groups. *)
Fixpoint text_lt (a b : list Z) : bool :=
  match a, b with
  | _, [] => false
  | [], _ :: _ => true
  | x :: a', y :: b' => if x =? y then text_lt a' b' else x <? y
  end.
Definition link_less (a b : link) : bool :=
  if l_addr a =? l_addr b then l_group a <? l_group b else text_lt (addr_string (l_addr a)) (addr_string (l_addr b)).

(** util/printlinks.tmpl on the sorted records. *)
Definition print_line (l : link) : list Z :=
  zs "    " ++ pad_right 5 (rcf_string (l_flags l)) ++ zs " " ++ pad_left 5 (fmt_d_byte (l_group l)) ++ zs " " ++
  pad_left 8 (addr_string (l_addr l)) ++ zs "   " ++ fmt_02x (l_d0 l) ++ zs " " ++ fmt_02x (l_d1 l) ++ zs " " ++ fmt_02x (l_d2 l).
Definition print_template (links : list link) : list Z :=
  match links with
  | [] => unlines [zs "Link Database:"; zs "    No links defined"]
  | _ => unlines (zs "Link Database:" :: zs "    Flags Group Address    Data" :: map print_line links)
  end.

(** util/link.go:451-454 [PrintLinks].  [sort.Sort] leaves some arrangement of the records in which no record is less than an earlier one;
    which one, when several are possible, is left open. *)
Definition print_links (links : list link) (out : list Z) : Prop :=
  exists sorted, Permutation links sorted /\ StronglySorted (fun a b => link_less b a = false) sorted /\ out = print_template sorted.
