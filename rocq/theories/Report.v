(** Texts that describe what a thermostat or a modem reported: devices/thermostat.go:188-212, plm/plm.go:261-263, plm/linkdb.go:40-42
    and 79-81, util/snoop.go:118-127. *)
From Coq Require Import ZArith QArith List Bool String.
From Verif Require Import F32 GoBase GoText GoJson Message Address Link LinkText Thermostat Plm PlmLinkdb Display IcDev.
Import ListNotations.
Open Scope Z_scope.

(** fmt verb %.01f of a float: the nearest number of tenths, of two the even one (strconv rounds the exact decimal value). *)
Definition fmt_tenth (q : Q) : list Z := let t := rne (q * 10) in fmt_int (t / 10) ++ zs "." ++ fmt_int (t mod 10).
(** fmt verb %v of a bool. *)
Definition fmt_bool (b : bool) : list Z := if b then zs "true" else zs "false".

(** devices/thermostat.go:188-212 [ThermostatInfo.String]. *)
Definition ti_string (ti : tinfo) : list Z :=
  let unit := name_of (unit_string (tf_temp_format (ti_flags ti))) in
  unlines
  [ zs "                Temp: " ++ fmt_tenth (ti_temp ti) ++ zs " " ++ unit
  ; zs "            Humidity: " ++ fmt_int (ti_humidity ti) ++ zs " %"
  ; zs "          Temp Offset: " ++ fmt_int (ti_temp_offset ti)
  ; zs "      Humidity Offset: " ++ fmt_int (ti_humidity_offset ti)
  ; zs "                 Mode: " ++ name_of (tmode_string (ti_mode ti))
  ; zs "             Fan Mode: " ++ fmt_int (ti_fan_mode ti)
  ; zs "    Backlight Seconds: " ++ fmt_int (ti_backlight ti)
  ; zs "   Hysteresis Minutes: " ++ fmt_int (ti_hysteresis ti)
  ; zs " Energy Set Backpoint: " ++ fmt_int (ti_setback ti)
  ; zs "   Temperature Format: " ++ unit
  ; zs "         Humidity Low: " ++ fmt_int (ti_hum_low ti)
  ; zs "        Humidity High: " ++ fmt_int (ti_hum_high ti)
  ; zs "                  Rev: " ++ fmt_int (ti_rev ti)
  ; zs "       Cool Set Point: " ++ fmt_int (ti_cool ti)
  ; zs "       Heat Set Point: " ++ fmt_int (ti_heat ti)
  ; zs "            RF Offset: " ++ fmt_int (ti_rf_offset ti)
  ; zs " Energy Set Backpoint: " ++ fmt_int (ti_setback ti)
  ; zs " External Temp Offset: " ++ fmt_int (ti_ext_offset ti)
  ; zs "Status Report Enabled: " ++ fmt_bool (ti_report ti)
  ; zs "       External Power: " ++ fmt_bool (ti_ext_power ti)
  ; zs "        External Temp: " ++ fmt_bool (ti_ext_temp ti) ].

(** plm/plm.go:261-263 [PLM.String]: asks the modem for its address when it is not known. *)
Definition plm_string (sc : schedule) (st : plm) : outcome (list Z) * plm :=
  match plm_address sc st with
  | (Ret a, st1) => (Ret (zs "PLM (" ++ addr_string a ++ zs ")"), st1)
  | (Panic, st1) => (Panic, st1)
  | (NoFuel, st1) => (NoFuel, st1)
  end.

(** plm/linkdb.go:40-42 [manageRecordRequest.String] (the record is never nil) and 79-81 [allLinkReq.String]. *)
Definition mrr_string (cmd : Z) (l : link) : list Z := fmt_02x cmd ++ zs " " ++ link_string l.
Definition alr_string (mode group : Z) : list Z := fmt_02x mode ++ zs " " ++ fmt_d_byte group.

(** util/snoop.go:118-127 [payloadStr]: the loop with its index. *)
Fixpoint payload_go (i n : Z) (l : list Z) : list Z :=
  match l with
  | [] => []
  | v :: t => fmt_02x v ++ (if i <? n - 1 then zs ", " else []) ++ payload_go (i + 1) n t
  end.
Definition payload_str (l : list Z) : list Z := payload_go 0 (zlen l) l.
