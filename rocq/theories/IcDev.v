(** Model of the device subcommands of the command-line tool (cmd/ic/device.go, dimmer.go, switch.go, thermostat.go), of
    cmd/ic/plm.go:110-125, of the log flags in cmd/ic/main.go and of cmd/iwalk/main.go.
    Simplifications: the command-line library is taken to call a command's callback, then that of its subcommand, and to stop at the
    first error; the arguments are the values it has already made of the texts.  What is printed before a crash is not kept. *)
From Coq Require Import ZArith List Bool String.
From Verif Require Import GoBase GoProg GoText GoJson Command Address Message MsgWriter BasicDevice Query Database Link LinkText Lights Thermostat Plm Display.
Import ListNotations.
Open Scope Z_scope.

(** What a subcommand prints: a text and then, possibly, the listing (util.PrintLinks) of some records. *)
Record shown : Type := mkShown { sh_text : list Z; sh_links : option (list link) }.
Definition nothing_shown : shown := mkShown [] None.
Definition text_shown (t : list Z) : shown := mkShown t None.
(** A finished subcommand. *)
Definition cmdres : Type := shown * option error.
Definition silent {W} (p : prog W (option error)) : prog W cmdres := do e <- p ;; pret (nothing_shown, e).

(** ** Opening *)

(** [db.Open(modem, addr, filters...)] of cmd/ic/main.go:109, as a parameter. *)
Definition dev_opener (W : Type) : Type := Z -> prog W (option (bdev W) * option error).
(** cmd/ic/main.go:103-119 [open] for a caller that wants the device; [link a] is [pc.link(true, false)(1, {a})], [yes] the answer. *)
Definition ic_open_dev {W} (raw : dev_opener W) (link : Z -> prog W (option error)) (ask : bool) (yes : prog W bool) (a : Z)
  : prog W (option (bdev W) * option error) :=
  do (dev, err) <- raw a ;;
  match err with
  | Some EDevNotLinked =>
      if ask then
        do y <- yes ;;
        if (y : bool) then do err1 <- link a ;; pret (dev, err1) else pret (dev, Some EDevNotLinked)
      else pret (dev, Some EDevNotLinked)
  | e => pret (dev, e)
  end.

(** The errors of cmd/ic/dimmer.go:69, switch.go:56 and thermostat.go:54. *)
Definition err_not_dimmer : error := EOther 1069.
Definition err_not_switch : error := EOther 1056.
Definition err_not_thermostat : error := EOther 1054.

(** cmd/ic/device.go:57-63, dimmer.go:62-73, switch.go:49-60, thermostat.go:47-58 [init]: the device the command will use, or an
    error.  A nil device is dereferenced. *)
Definition ic_init {W} (open : prog W (option (bdev W) * option error)) (accept : dkind -> bool) (refusal : error) : prog W (bdev W + error) :=
  do (dev, err) <- open ;;
  match err with
  | Some e => pret (inr e)
  | None => match dev with
            | None => ppanic
            | Some d => if accept (dev_lookup (bd_info d)) then pret (inl d) else pret (inr refusal)
            end
  end.
Definition is_dimmer (k : dkind) : bool := match k with KDimmer => true | _ => false end.
Definition is_switch (k : dkind) : bool := match k with KSwitch => true | _ => false end.
Definition is_thermostat (k : dkind) : bool := match k with KThermostat => true | _ => false end.
Definition is_any (k : dkind) : bool := true.
(** A command, then its subcommand. *)
Definition ic_then {W} (init : prog W (bdev W + error)) (sub : bdev W -> prog W cmdres) : prog W cmdres :=
  do r <- init ;;
  match r with
  | inr e => pret (nothing_shown, Some e)
  | inl d => sub d
  end.

(** ** device *)

(** devices/device.go:186-202 and the String methods: the text of the value [Lookup] makes. *)
Definition kind_string (i : dinfo) : list Z :=
  match dev_lookup i with
  | KBasic => basic_string i
  | KDimmer => dimmer_string i
  | KSwitch | KOutlet => switch_string i
  | KThermostat => therm_string (new_thermostat i)
  end.
(** cmd/ic/device.go:73-90 [printDevInfo]; all devices are linkable; [links] is [device.Links()]. *)
Definition print_dev_info {W} (name : list Z) (i : dinfo) (extra : list Z) (links : prog W (list link * option error)) : prog W cmdres :=
  let head := unlines
    ([ zs "       Device: " ++ name
     ; zs "       Engine: " ++ ev_string (di_engine i)
     ; zs "     Category: " ++ devcat_string (di_dc0 i) (di_dc1 i)
     ; zs "     Firmware: " ++ fw_string (di_fw i) ] ++ match extra with [] => [] | _ => [extra] end) in
  do (ls, err) <- links ;;
  match err with
  | Some e => pret (mkShown head None, Some e)
  | None => pret (mkShown head (Some ls), None)
  end.

(** The subcommands of cmd/ic/device.go:41-51, except edit (which is [ic_edit] in IcCmd.v). *)
Inductive devcmd : Type :=
| DInfo | DLink (g : Z) | DUnlink (g : Z) | DExitLink | DDump | DVersion | DSend (cmd : Z) | DESend (cmd : Z) (data : list Z).
(** cmd/ic/device.go:65-71, 92-95, 117-123 and util/link.go:431-437 [DumpLinkDatabase]. *)
Definition device_sub {W} (links : bdev W -> prog W (list link * option error)) (c : devcmd) (d : bdev W) : prog W cmdres :=
  let i := bd_info d in let mw := bd_writer d in
  match c with
  | DInfo => print_dev_info (kind_string i) i [] (links d)
  | DLink g => silent (bd_enter_linking i mw g)
  | DUnlink g => silent (bd_enter_unlinking i mw g)
  | DExitLink => silent (bd_exit_linking i mw)
  | DDump => do (ls, err) <- links d ;;
             match err with Some e => pret (nothing_shown, Some e) | None => pret (text_shown (dump_links ls), None) end
  | DVersion => pret (text_shown (unlines [zs "Device version: " ++ fw_string (di_fw i)]), None)
  | DSend cmd => silent (bd_send_command i mw cmd [])
  | DESend cmd data => silent (bd_send_command i mw cmd data)
  end.
Definition ic_device {W} (open : Z -> prog W (option (bdev W) * option error)) links (a : Z) (c : devcmd) : prog W cmdres :=
  ic_then (ic_init (open a) is_any err_not_dimmer) (device_sub links c).

(** ** dimmer *)

(** The subcommands of cmd/ic/dimmer.go:39-56. *)
Inductive dimcmd : Type :=
| MConfig | MStatus | MOn (level : Z) | MOff | MBacklight (on : bool) | MLoadSense (on : bool) | MBrighten | MDim | MStartBrighten
| MStartDim | MStop | MOnFast | MInstant (level : Z) | MSetStatus (level : Z) | MOnRamp (level rate : Z) | MOffRamp (rate : Z).
(** %v of a boolean. *)
Definition bool_string (b : bool) : list Z := if b then zs "true" else zs "false".
(** cmd/ic/dimmer.go:78-81. *)
Definition dim_config_text (c : dimcfg) : list Z := unlines
  [ zs "           X10 Address: " ++ fmt_02x (dc_house c) ++ zs "." ++ fmt_02x (dc_unit c)
  ; zs "          Default Ramp: " ++ fmt_int (dc_ramp c)
  ; zs "         Default Level: " ++ fmt_int (dc_level c)
  ; zs "                   SNR: " ++ fmt_int (dc_snt c) ].
(** cmd/ic/dimmer.go:86-95. *)
Definition dim_flags_text (lf : list Z) : list Z := unlines
  [ zs "          Program Lock: " ++ bool_string (lf_program_lock lf)
  ; zs "             LED on Tx: " ++ bool_string (lf_tx_led lf)
  ; zs "            Resume Dim: " ++ bool_string (lf_resume_dim lf)
  ; zs "                LED On: " ++ bool_string (lf_led lf)
  ; zs "         Load Sense On: " ++ bool_string (lf_load_sense lf)
  ; zs "              DB Delta: " ++ fmt_int (lf_db_delta lf)
  ; zs "                   SNR: " ++ fmt_int (lf_snr lf)
  ; zs "           X10 Enabled: " ++ bool_string (lf_x10_enabled lf)
  ; zs "        Blink on Error: " ++ bool_string (lf_error_blink lf)
  ; zs "Cleanup Report Enabled: " ++ bool_string (lf_cleanup_report lf) ].
(** cmd/ic/dimmer.go:75-98 [configCmd]: line 84 assigns to the same [err]. *)
Definition dim_config_cmd {W} (fuel : nat) (i : dinfo) (mw : mwriter W) : prog W cmdres :=
  do (c, err) <- dimmer_config fuel i mw ;;
  let t1 := match err with None => dim_config_text c | Some _ => [] end in
  do (lf, err1) <- switch_operating_flags i mw ;;
  let t2 := match err1 with None => dim_flags_text lf | Some _ => [] end in
  pret (text_shown (t1 ++ t2), err1).
(** cmd/ic/dimmer.go:100-112 [statusCmd]. *)
Definition dim_status_cmd {W} (i : dinfo) (mw : mwriter W) : prog W cmdres :=
  do (level, err) <- switch_status i mw ;;
  match err with
  | Some e => pret (nothing_shown, Some e)
  | None => pret (text_shown (unlines [if level =? 0 then zs "Dimer is off" else if level =? 255 then zs "Dimer is on"
                                       else zs "Dimer is on at level " ++ fmt_int level]), None)
  end.
Definition dimmer_sub {W} (fuel : nat) (c : dimcmd) (d : bdev W) : prog W cmdres :=
  let i := bd_info d in let mw := bd_writer d in
  match c with
  | MConfig => dim_config_cmd fuel i mw
  | MStatus => dim_status_cmd i mw
  | MOn level => silent (switch_turn_on i mw level)
  | MOff => silent (switch_turn_off i mw)
  | MBacklight on => silent (switch_set_backlight i mw on)
  | MLoadSense on => silent (switch_set_load_sense i mw on)
  | MBrighten => silent (dimmer_brighten i mw)
  | MDim => silent (dimmer_dim i mw)
  | MStartBrighten => silent (dimmer_start_brighten i mw)
  | MStartDim => silent (dimmer_start_dim i mw)
  | MStop => silent (dimmer_stop_manual i mw)
  | MOnFast => silent (dimmer_on_fast i mw)
  | MInstant level => silent (dimmer_instant_change i mw level)
  | MSetStatus level => silent (dimmer_set_status i mw level)
  | MOnRamp level rate => silent (dimmer_on_at_ramp i mw level rate)
  | MOffRamp rate => silent (dimmer_off_at_ramp i mw rate)
  end.
Definition ic_dimmer {W} (fuel : nat) (open : Z -> prog W (option (bdev W) * option error)) (a : Z) (c : dimcmd) : prog W cmdres :=
  ic_then (ic_init (open a) is_dimmer err_not_dimmer) (dimmer_sub fuel c).

(** ** switch *)

(** The subcommands of cmd/ic/switch.go:38-45. *)
Inductive swcmd : Type := SConfig | SStatus | SOn (level : Z) | SOff | SBacklight (on : bool) | SLoadSense (on : bool).
(** cmd/ic/switch.go:70-80 [switchStatusCmd]. *)
Definition sw_status_cmd {W} (i : dinfo) (mw : mwriter W) : prog W cmdres :=
  do (level, err) <- switch_status i mw ;;
  match err with
  | Some e => pret (nothing_shown, Some e)
  | None => pret (text_shown (unlines [if level =? 0 then zs "Switch is off" else zs "Switch is on"]), None)
  end.
(** cmd/ic/switch.go:62-68 [switchConfigCmd]. *)
Definition sw_config_cmd {W} (fuel : nat) (i : dinfo) (mw : mwriter W) (links : prog W (list link * option error)) : prog W cmdres :=
  do (c, err) <- switch_config fuel i mw ;;
  match err with
  | Some e => pret (nothing_shown, Some e)
  | None => print_dev_info (switch_string i) i (zs "  X10 Address: " ++ fmt_02x (sc_house c) ++ zs "." ++ fmt_02x (sc_unit c)) links
  end.
(** cmd/ic/switch.go:29-30, 41-44: the method values [sw.TurnOn] and so on are made when the program starts, when the pointer
    [sw.Switch] is nil; [init] (line 54) later puts another pointer into [sw.Switch], which these method values do not see.  The
    other two subcommands are methods of [*swtch] and look at [sw.Switch] when they run. *)
Record swtch (W : Type) : Type := mkSwtch { sw_bound : option (bdev W); sw_Switch : option (bdev W) }.
Arguments mkSwtch {W}. Arguments sw_bound {W}. Arguments sw_Switch {W}.
Definition sw_start {W} : swtch W := mkSwtch None None.
Definition sw_assign {W} (d : bdev W) (sw : swtch W) : swtch W := mkSwtch (sw_bound sw) (Some d).
(** A method of *Switch that uses its receiver: a nil receiver is dereferenced (devices/switch.go:157-177 through basic.go:95-98). *)
Definition on_receiver {W A} (recv : option (bdev W)) (f : dinfo -> mwriter W -> prog W A) : prog W A :=
  match recv with None => ppanic | Some d => f (bd_info d) (bd_writer d) end.
Definition switch_sub {W} (fuel : nat) (links : bdev W -> prog W (list link * option error)) (c : swcmd) (d : bdev W) : prog W cmdres :=
  let sw := sw_assign d sw_start in
  match c with
  | SConfig => on_receiver (sw_Switch sw) (fun i mw => sw_config_cmd fuel i mw (links d))
  | SStatus => on_receiver (sw_Switch sw) sw_status_cmd
  | SOn level => silent (on_receiver (sw_bound sw) (fun i mw => switch_turn_on i mw level))
  | SOff => silent (on_receiver (sw_bound sw) switch_turn_off)
  | SBacklight on => silent (on_receiver (sw_bound sw) (fun i mw => switch_set_backlight i mw on))
  | SLoadSense on => silent (on_receiver (sw_bound sw) (fun i mw => switch_set_load_sense i mw on))
  end.
Definition ic_switch {W} (fuel : nat) (open : Z -> prog W (option (bdev W) * option error)) links (a : Z) (c : swcmd) : prog W cmdres :=
  ic_then (ic_init (open a) is_switch err_not_switch) (switch_sub fuel links c).

(** ** thermostat *)

Inductive thcmd : Type := TStatus | TSetStatus (on : bool).
(** cmd/ic/thermostat.go:69-76; a name that cannot be made is left empty (fmt catches the panic; it does not happen for bytes). *)
Definition name_of (o : outcome (list Z)) : list Z := match o with Ret s => s | _ => [] end.
Definition therm_text (s : tstatus) : list Z := unlines
  [ zs "Temperature: " ++ fmt_int (ts_temp s) ++ zs " " ++ name_of (unit_string (ts_unit s))
  ; zs "   Humidity: " ++ fmt_int (ts_humidity s) ++ zs "%"
  ; zs "   Setpoint: " ++ fmt_int (ts_setpoint s) ++ zs " " ++ name_of (unit_string (ts_unit s))
  ; zs "   Deadband: " ++ fmt_int (ts_deadband s)
  ; zs "       Mode: " ++ name_of (tmode_string (ts_mode s))
  ; zs "      State: " ++ es_string (ts_state s) ].
(** cmd/ic/thermostat.go:60-79 [thermStatusCmd]. *)
Definition therm_status_cmd {W} (fuel : nat) (i : dinfo) (mw : mwriter W) : prog W cmdres :=
  do err <- therm_set_unit i mw u_Fahrenheit ;;
  match err with
  | Some e => pret (nothing_shown, Some e)
  | None =>
      do (s, err1) <- therm_status fuel i mw ;;
      match err1 with
      | Some e => pret (nothing_shown, Some e)
      | None => pret (text_shown (therm_text s), None)
      end
  end.
Definition therm_sub {W} (fuel : nat) (c : thcmd) (d : bdev W) : prog W cmdres :=
  match c with
  | TStatus => therm_status_cmd fuel (bd_info d) (bd_writer d)
  | TSetStatus on => silent (therm_set_status_message (bd_info d) (bd_writer d) on)
  end.
Definition ic_thermostat {W} (fuel : nat) (open : Z -> prog W (option (bdev W) * option error)) (a : Z) (c : thcmd) : prog W cmdres :=
  ic_then (ic_init (open a) is_thermostat err_not_thermostat) (therm_sub fuel c).

(** ** The opener of the program *)

(** The message writer of the modem seen from the world that also holds the device file and the database. *)
Definition lift_mw {S W} (mw : mwriter W) : mwriter (S * W) := mkMW (psnd (mw_read mw)) (fun m => psnd (mw_write mw m)).
Definition lift_bdev {S W} (d : bdev W) : bdev (S * W) := mkBD (bd_info d) (lift_mw (bd_writer d)).
(** [db.Open] with the file database of cmd/ic/main.go:94. *)
Definition db_opener {W} (fuel : nat) (os : osresp) (mw : mwriter W) (filters : list (mfilter W)) : dev_opener ((fstate * memdb) * W) :=
  fun a st =>
    let '((f, db), w) := st in
    match filedb_open fuel os f db mw a filters w with
    | (Ret (dev, fd, err), w1) => (Ret (option_map lift_bdev dev, err), (fd, w1))
    | (Panic, w1) => (Panic, ((f, db), w1))
    | (NoFuel, w1) => (NoFuel, ((f, db), w1))
    end.

(** ** plm info *)

(** cmd/ic/plm.go:110-125 [infoCmd]; [links] is [modem.Links()]. *)
Definition plm_info_cmd {W} (get_info : prog W (option info * option error)) (get_config : prog W (Z * option error))
    (links : prog W (list link * option error)) : prog W cmdres :=
  let t0 := unlines [zs "PLM Info"] in
  do (inf, err) <- get_info ;;
  match err with
  | Some e => pret (text_shown t0, Some e)
  | None =>
      match inf with
      | None => ppanic
      | Some i =>
          let t1 := t0 ++ unlines [ zs "      Address: " ++ addr_string (i_addr i)
                                  ; zs "     Category: " ++ fmt_02x (i_dc0 i) ++ zs " Sub-Category: " ++ fmt_02x (i_dc1 i)
                                  ; zs "     Firmware: " ++ fmt_int (i_fw i) ] in
          do (c, err1) <- get_config ;;
          match err1 with
          | Some e => pret (text_shown t1, Some e)
          | None =>
              let t2 := t1 ++ unlines [zs "       Config: " ++ cfg_string c] in
              do (ls, err2) <- links ;;
              match err2 with
              | Some e => pret (text_shown t2, Some e)
              | None => pret (mkShown t2 (Some ls), None)
              end
          end
      end
  end.

(** ** Log flags *)

(** cmd/ic/main.go:41-43: the three variables. *)
Record logflags : Type := mkLF { lg_log : bool; lg_debug : bool; lg_quiet : bool }.
Inductive logname : Type := NLog | NDebug | NQuiet.
(** cmd/ic/main.go:54-56: which variable each flag sets when it is given ("quietFlag" sets [debugFlag]). *)
Definition give_flag (st : logflags) (n : logname) : logflags :=
  match n with
  | NLog => mkLF true (lg_debug st) (lg_quiet st)
  | NDebug => mkLF (lg_log st) true (lg_quiet st)
  | NQuiet => mkLF (lg_log st) true (lg_quiet st)
  end.
Definition give_flags (ns : list logname) : logflags := fold_left give_flag ns (mkLF false false false).
(** devices/logging.go:24-25, plm/plm.go:45-46 and cmd/ic/main.go:66-77: which of the two logs reach the terminal. *)
Record logging : Type := mkLogging { to_log : bool; to_debug : bool }.
Definition ic_logging (st : logflags) : logging :=
  let l0 := mkLogging true false in
  let l1 := if lg_debug st then mkLogging (to_log l0) true else l0 in
  if lg_quiet st then mkLogging false false else l1.

(** ** iwalk *)

(** The lines of cmd/iwalk/main.go:79, 84 and 87. *)
Inductive wline : Type := WQuery (a : Z) | WLinksFailed (a : Z) (e : error) | WOpenFailed (a : Z) (e : error).
(** cmd/iwalk/main.go:78-90: the callback. *)
Definition walk_one {W} (open : dev_opener W) (links : bdev W -> prog W (list link * option error)) (a : Z) : prog W (list wline) :=
  do (dev, err) <- open a ;;
  match err with
  | Some e => pret [WQuery a; WOpenFailed a e]
  | None =>
      match dev with
      | None => ppanic
      | Some d =>
          do (_, err1) <- links d ;;
          pret (WQuery a :: match err1 with Some e => [WLinksFailed a e] | None => [] end)
      end
  end.
Fixpoint walk_all {W} (open : dev_opener W) links (addrs : list Z) : prog W (list wline) :=
  match addrs with
  | [] => pret []
  | a :: t => do l1 <- walk_one open links a ;; do l2 <- walk_all open links t ;; pret (l1 ++ l2)
  end.
(** cmd/iwalk/main.go:77-95: [iterate] gives the addresses plm/linkdb.go:197-210 calls back with; the error ends the program. *)
Definition iwalk {W} (iterate : prog W (list Z * option error)) (open : dev_opener W) links : prog W (list wline * option error) :=
  do (addrs, err) <- iterate ;;
  match err with
  | Some e => pret ([], Some e)
  | None => do ls <- walk_all open links addrs ;; pret (ls, None)
  end.
