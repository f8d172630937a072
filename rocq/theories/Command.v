(** Model of commands/command.go: command words (Go type [Command int]). *)
From Coq Require Import ZArith List Bool.
From Verif Require Import GoBase GoText.
Import ListNotations.
Open Scope Z_scope.

(** commands/command.go:36-41. *)
Definition cmd_StandardDirect : Z := 0x000000.
Definition cmd_ExtendedDirect : Z := 0x010000.
Definition cmd_Broadcast : Z := 0x080000.
Definition cmd_AllLink : Z := 0x0c0000.

(** commands/command.go:45-47 [SubCommand]. *)
Definition sub_command (cmd c2 : Z) : Z := Z.lor (Z.land cmd 0xffff00) (Z.land 0xff c2).

(** commands/command.go:57-67 [Command0], [Command1], [Command2]. *)
Definition command0 (cmd : Z) : Z := Z.land (Z.shiftr cmd 16) 0xff.
Definition command1 (cmd : Z) : Z := Z.land (Z.shiftr cmd 8) 0xff.
Definition command2 (cmd : Z) : Z := Z.land cmd 0xff.

(** commands/command.go:69-71 [Matches]. *)
Definition cmd_matches (cmd other : Z) : bool := command1 cmd =? command1 other.

(** commands/command.go:49-55 [Set]: new receiver and error. *)
Definition cmd_set (cmd : Z) (value : list Z) : Z * option error :=
  match atoi value with
  | Some i => (Z.lor (Z.land cmd 0xffff00) (Z.land 0xff i), None)
  | None => (cmd, Some (EOther 49))
  end.

(** commands/command.go:82-104 [From]. *)
Definition cmd_from (flags c1 c2 : Z) : Z :=
  let cls :=
    if Z.land flags 0x10 =? 0x10 then cmd_ExtendedDirect
    else if 0 <? flags then
      let f := Z.land flags 0xe0 in
      if (f =? 0x00) || (f =? 0x20) then cmd_StandardDirect
      else if f =? 0x80 then cmd_Broadcast
      else if (f =? 0x40) || (f =? 0x60) || (f =? 0xc0) || (f =? 0xe0) then cmd_AllLink
      else 0
    else 0 in
  Z.lor (Z.lor cls (Z.shiftl c1 8)) c2.

(** commands/commands.go:18-345: every named command word (line of each in the comment). *)
Definition c_AssignToAllLinkGroup : Z := 0x000100. (* 20 *)
Definition c_DeleteFromAllLinkGroup : Z := 0x000200. (* 23 *)
Definition c_ProductDataReq : Z := 0x000300. (* 26 *)
Definition c_FxUsernameReq : Z := 0x000301. (* 29 *)
Definition c_DeviceTextStringReq : Z := 0x000302. (* 32 *)
Definition c_ExitLinkingMode : Z := 0x000800. (* 35 *)
Definition c_EnterLinkingMode : Z := 0x000900. (* 38 *)
Definition c_EnterUnlinkingMode : Z := 0x000a00. (* 41 *)
Definition c_GetEngineVersion : Z := 0x000d00. (* 44 *)
Definition c_Ping : Z := 0x000f00. (* 47 *)
Definition c_IDRequest : Z := 0x001000. (* 50 *)
Definition c_GetOperatingFlags : Z := 0x001f00. (* 53 *)
Definition c_ProductDataResp : Z := 0x010300. (* 59 *)
Definition c_FxUsernameResp : Z := 0x010301. (* 62 *)
Definition c_DeviceTextStringResp : Z := 0x010302. (* 65 *)
Definition c_SetDeviceTextString : Z := 0x010303. (* 68 *)
Definition c_SetAllLinkCommandAlias : Z := 0x010304. (* 71 *)
Definition c_SetAllLinkCommandAliasData : Z := 0x010305. (* 74 *)
Definition c_ExitLinkingModeExt : Z := 0x010800. (* 77 *)
Definition c_EnterLinkingModeExt : Z := 0x010900. (* 80 *)
Definition c_EnterUnlinkingModeExt : Z := 0x010a00. (* 83 *)
Definition c_SetOperatingFlags : Z := 0x012000. (* 86 *)
Definition c_ExtendedGetSet : Z := 0x012e00. (* 89 *)
Definition c_ReadWriteALDB : Z := 0x012f00. (* 92 *)
Definition c_AllLinkSuccessReport : Z := 0x0c0600. (* 98 *)
Definition c_AllLinkRecall : Z := 0x0c1100. (* 101 *)
Definition c_AllLinkAlias2High : Z := 0x0c1200. (* 104 *)
Definition c_AllLinkAlias1Low : Z := 0x0c1300. (* 107 *)
Definition c_AllLinkAlias2Low : Z := 0x0c1400. (* 110 *)
Definition c_AllLinkAlias3High : Z := 0x0c1500. (* 113 *)
Definition c_AllLinkAlias3Low : Z := 0x0c1600. (* 116 *)
Definition c_AllLinkAlias4High : Z := 0x0c1700. (* 119 *)
Definition c_AllLinkAlias4Low : Z := 0x0c1800. (* 122 *)
Definition c_AllLinkAlias5 : Z := 0x0c2100. (* 125 *)
Definition c_SetButtonPressedResponder : Z := 0x080100. (* 131 *)
Definition c_SetButtonPressedController : Z := 0x080200. (* 134 *)
Definition c_TestPowerlinePhase : Z := 0x080300. (* 137 *)
Definition c_Heartbeat : Z := 0x080400. (* 140 *)
Definition c_BroadCastStatusChange : Z := 0x082700. (* 143 *)
Definition c_LightOn : Z := 0x001100. (* 149 *)
Definition c_LightOnFast : Z := 0x001200. (* 152 *)
Definition c_LightOff : Z := 0x001300. (* 155 *)
Definition c_LightOffFast : Z := 0x001400. (* 158 *)
Definition c_LightBrighten : Z := 0x001500. (* 161 *)
Definition c_LightDim : Z := 0x001600. (* 164 *)
Definition c_LightStopManual : Z := 0x001800. (* 167 *)
Definition c_LightStatusRequest : Z := 0x001900. (* 170 *)
Definition c_LightInstantChange : Z := 0x002100. (* 173 *)
Definition c_LightManualOn : Z := 0x002201. (* 176 *)
Definition c_LightManualOff : Z := 0x002301. (* 179 *)
Definition c_TapSetButtonOnce : Z := 0x002501. (* 182 *)
Definition c_TapSetButtonTwice : Z := 0x002502. (* 185 *)
Definition c_LightSetStatus : Z := 0x002700. (* 188 *)
Definition c_LightOnAtRamp : Z := 0x002e00. (* 191 *)
Definition c_LightOnAtRampV67 : Z := 0x003400. (* 194 *)
Definition c_LightOffAtRamp : Z := 0x002f00. (* 197 *)
Definition c_LightOffAtRampV67 : Z := 0x003500. (* 200 *)
Definition c_StartBrighten : Z := 0x001701. (* 206 *)
Definition c_StartDim : Z := 0x001700. (* 209 *)
Definition c_EnableProgramLock : Z := 0x002000. (* 212 *)
Definition c_DisableProgramLock : Z := 0x002001. (* 215 *)
Definition c_EnableTxLED : Z := 0x002002. (* 218 *)
Definition c_DisableTxLED : Z := 0x002003. (* 221 *)
Definition c_EnableResumeDim : Z := 0x002004. (* 224 *)
Definition c_DisableResumeDim : Z := 0x002005. (* 227 *)
Definition c_EnableLoadSense : Z := 0x002006. (* 230 *)
Definition c_DisableLoadSense : Z := 0x002007. (* 233 *)
Definition c_DisableLED : Z := 0x002008. (* 236 *)
Definition c_EnableLED : Z := 0x002009. (* 239 *)
Definition c_SetKeyBeep : Z := 0x00200a. (* 242 *)
Definition c_ClearKeyBeep : Z := 0x00200b. (* 245 *)
Definition c_DecreaseTemp : Z := 0x006800. (* 251 *)
Definition c_IncreaseTemp : Z := 0x006900. (* 254 *)
Definition c_GetZoneInfo : Z := 0x006a00. (* 257 *)
Definition c_GetThermostatMode : Z := 0x006b02. (* 260 *)
Definition c_GetAmbientTemp : Z := 0x006b03. (* 263 *)
Definition c_SetHeat : Z := 0x006b04. (* 266 *)
Definition c_SetCool : Z := 0x006b05. (* 269 *)
Definition c_SetModeAuto : Z := 0x006b06. (* 272 *)
Definition c_SetFan : Z := 0x006b07. (* 275 *)
Definition c_ClearFan : Z := 0x006b08. (* 278 *)
Definition c_ThermOff : Z := 0x006b09. (* 281 *)
Definition c_SetProgramHeat : Z := 0x006b0a. (* 284 *)
Definition c_SetProgramCool : Z := 0x006b0b. (* 287 *)
Definition c_SetProgramAuto : Z := 0x006b0c. (* 290 *)
Definition c_GetEquipmentState : Z := 0x006b0d. (* 293 *)
Definition c_SetEquipmentState : Z := 0x006b0e. (* 296 *)
Definition c_GetTempUnits : Z := 0x006b0f. (* 299 *)
Definition c_SetFahrenheit : Z := 0x006b10. (* 302 *)
Definition c_SetCelsius : Z := 0x006b11. (* 305 *)
Definition c_GetFanOnSpeed : Z := 0x006b12. (* 308 *)
Definition c_SetFanOnLow : Z := 0x006b13. (* 311 *)
Definition c_SetFanOnMed : Z := 0x006b14. (* 314 *)
Definition c_SetFanOnHigh : Z := 0x006b15. (* 317 *)
Definition c_EnableStatusMessage : Z := 0x006b16. (* 320 *)
Definition c_DisableStatusMessage : Z := 0x006b17. (* 323 *)
Definition c_SetCoolSetpoint : Z := 0x006c00. (* 326 *)
Definition c_SetHeatSetpoint : Z := 0x006d00. (* 329 *)
Definition c_ZoneTempUp : Z := 0x016800. (* 335 *)
Definition c_ZoneTempDown : Z := 0x016900. (* 338 *)
Definition c_SetZoneCoolSetpoint : Z := 0x016c00. (* 341 *)
Definition c_SetZoneHeatSetpoint : Z := 0x016d00. (* 344 *)
