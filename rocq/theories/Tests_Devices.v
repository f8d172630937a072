(** The tests of the package devices, transcribed as cases of the model: basic_test.go, connection_test.go, device_test.go, dimmer_test.go,
    filters_test.go, linkdb_test.go, matcher_test.go, switch_test.go and util_test.go in /repo/devices. *)
From Coq Require Import ZArith List Bool String.
From Verif Require Import GoBase GoProg GoText Command Message Link LinkText Display MsgWriter Filters BasicDevice Query Lights DevLinkdb.
Import ListNotations.
Open Scope Z_scope.

(** devices/device_test.go:35-37. *)
Definition mk_payload (buf : list Z) : list Z := buf ++ zeros (14 - List.length buf).

(** devices/connection_test.go:25-50: the writer of the tests. *)
Record tester : Type := mkT { t_read : list message; t_written : list message; t_acks : list message; t_ackErr : option error }.
Definition test_writer : mwriter tester :=
  mkMW (fun w => match t_read w with
                 | m :: rest => (Ret (Some m, None), mkT rest (t_written w) (t_acks w) (t_ackErr w))
                 | [] => (Ret (None, Some EEOF), w)
                 end)
       (fun m w => match t_acks w with
                   | a :: rest => (Ret (Some a, t_ackErr w), mkT (t_read w) (t_written w ++ [m]) rest (t_ackErr w))
                   | [] => (Ret (Some (mkMsg (m_dst m) (m_src m) fl_StandardDirectAck 0 []), t_ackErr w), mkT (t_read w) (t_written w ++ [m]) [] (t_ackErr w))
                   end).
Definition idle : tester := mkT [] [] [] None.
Definition reading (l : list message) : tester := mkT l [] [] None.
Definition acking (l : list message) (e : option error) : tester := mkT [] [] l e.
Definition with_version (v : Z) : dinfo := mkDI 0 0 0 0 v.
Definition with_firmware (f : Z) : dinfo := mkDI 0 0 0 f 0.
Definition plain (cmd : Z) (payload : list Z) : message := mkMsg 0 0 0 cmd payload.
(** The first written message. *)
Definition first_written {A} (r : outcome A * tester) : option (Z * list Z) :=
  match t_written (snd r) with m :: _ => Some (m_cmd m, m_payload m) | [] => None end.
Definition sends (r : outcome (option error) * tester) (cmd : Z) (payload : list Z) : bool :=
  match fst r, first_written r with
  | Ret None, Some (c, p) => (c =? cmd) && bytes_eqb p payload
  | _, _ => false
  end.

(** devices/basic_test.go:31-59. *)
Definition test_write (c : Z * list Z * list Z) : bool :=
  let '(version, payload, want) := c in
  match bd_write (with_version version) test_writer (plain 0 payload) idle with
  | (Ret (_, None), w) => match t_written w with m :: _ => bytes_eqb (m_payload m) want | [] => false end
  | _ => false
  end.
Example TestI1DeviceWrite : forallb test_write
  [(ver_I1, [], []); (ver_I1, zeros 14, zeros 14); (ver_I2Cs, [], []);
   (ver_I2Cs, [0x2F; 0; 0; 0; 0x0F; 0xFF; 1; 0; 0; 0; 0; 0; 0; 0; 0], [0x2F; 0; 0; 0; 0x0F; 0xFF; 1; 0; 0; 0; 0; 0; 0; 0; 0xC2]);
   (ver_I2Cs, [0x2e; 0; 1], [0x2E; 0; 1; 0; 0; 0; 0; 0; 0; 0; 0; 0; 0; 0xd1])] = true.
Proof. vm_compute. reflexivity. Qed.

(** devices/basic_test.go:61-92. *)
Definition test_lookup_error (c : Z * message * option error * option error) : bool :=
  let '(version, m, err, want) := c in
  match err_lookup (with_version version) m err, want with
  | None, None => true
  | Some g, Some e => errors_is g e
  | _, _ => false
  end.
Definition refusal (cmd : Z) : message := mkMsg 0 0 fl_StandardDirectNak cmd [].
Example TestI1DeviceErrLookup : forallb test_lookup_error
  [(ver_I1, msg_zero, None, None); (ver_I1, refusal 0xfd, Some EDevNak, Some EUnknownCommand); (ver_I1, refusal 0xfe, Some EDevNak, Some EDevNoLoadDetected);
   (ver_I1, refusal 0xff, Some EDevNak, Some EDevNotLinked); (ver_I1, refusal 0xfc, Some EDevNak, Some EDevUnexpectedResponse);
   (ver_I2Cs, msg_zero, None, None); (ver_I2Cs, refusal 0xfb, Some EDevNak, Some EDevIllegalValue); (ver_I2Cs, refusal 0xfc, Some EDevNak, Some EPreNak);
   (ver_I2Cs, refusal 0xfd, Some EDevNak, Some EDevIncorrectChecksum); (ver_I2Cs, refusal 0xfe, Some EDevNak, Some EDevNoLoadDetected);
   (ver_I2Cs, refusal 0xff, Some EDevNak, Some EDevNotLinked); (ver_I2Cs, refusal 0xfa, Some EDevNak, Some EDevUnexpectedResponse)] = true.
Proof. vm_compute. reflexivity. Qed.

(** devices/basic_test.go:94-115. *)
Example TestI1DeviceSendCommand : let cmd := Z.lor (Z.shiftl (Z.land 0xff fl_StandardDirectMessage) 16) 0x0102 in
  sends (bd_send_command dinfo_zero test_writer cmd [] idle) cmd [] = true.
Proof. vm_compute. reflexivity. Qed.
(** devices/basic_test.go:117-148. *)
Example TestI1DeviceProductData : let want := ([1; 2; 3], [4; 5]) in
  fst (bd_product_data 3 dinfo_zero test_writer
         (reading [mkMsg 0x010203 0x030405 fl_ExtendedDirectMessage c_ProductDataResp (go_copy (zeros 14) (pd_marshal want))])) = Ret (Some want, None).
Proof. vm_compute. reflexivity. Qed.
(** devices/basic_test.go:150-163. *)
Example TestI1DeviceDump : basic_dump (mkDI 0x010203 5 6 42 2) =
  zs "        Device: I2Cs Device (01.02.03)" ++ [10] ++ zs "      Category: 05.06" ++ [10] ++ zs "      Firmware: 42" ++ [10] ++ zs "Engine Version: I2Cs" ++ [10].
Proof. vm_compute. reflexivity. Qed.
(** devices/basic_test.go:165-201. *)
Example TestI1DeviceCommands :
  let summed cmd := set_checksum cmd (zeros 14) in
  let enter := sub_command c_EnterLinkingMode 40 in let enterExt := sub_command c_EnterLinkingModeExt 40 in let un := sub_command c_EnterUnlinkingMode 41 in
  sends (bd_enter_linking (with_version ver_I2) test_writer 40 idle) enter [] = true /\
  sends (bd_enter_linking (with_version ver_I2Cs) test_writer 40 idle) enterExt (summed enterExt) = true /\
  sends (bd_enter_unlinking (with_version ver_I2) test_writer 41 idle) un [] = true /\
  sends (bd_enter_unlinking (with_version ver_I2Cs) test_writer 41 idle) un (summed un) = true /\
  sends (bd_exit_linking (with_version ver_I2) test_writer idle) c_ExitLinkingMode [] = true.
Proof. vm_compute. repeat split. Qed.
(** devices/basic_test.go:203-221. *)
Example TestI1DeviceExtendedGet : let want := [1; 2; 3; 4; 5; 6; 7; 8; 9; 10; 11; 12; 13; 14] in
  let r := bd_extended_get 3 dinfo_zero test_writer (zeros 14) (reading [plain c_ExtendedGetSet want]) in
  fst r = Ret (want, None) /\ option_map fst (first_written r) = Some c_ExtendedGetSet.
Proof. vm_compute. auto. Qed.

(** devices/connection_test.go:52-83. *)
Example TestConnectionIDRequest :
  fst (id_request 3 test_writer 0 (reading [mkMsg 0x030405 (7 * 65536 + 79 * 256 + 42) fl_StandardBroadcast c_SetButtonPressedController []])) = Ret (42, (7, 79), None).
Proof. vm_compute. reflexivity. Qed.
(** devices/connection_test.go:85-111; the version counts only where there is no error. *)
Example TestConnectionEngineVersion :
  let ask flags sub err := fst (get_engine_version test_writer 0 (acking [mkMsg 0 0 flags (sub_command c_GetEngineVersion sub) []] err)) in
  let error_of (o : outcome (Z * option error)) := match o with Ret (_, e) => e | _ => None end in
  ask fl_StandardDirectAck 42 None = Ret (42, None) /\ error_of (ask fl_StandardDirectNak 0xff (Some EDevNak)) = Some EDevNotLinked /\
  error_of (ask fl_StandardDirectNak 0xfd (Some EDevNak)) = Some EDevNak.
Proof. vm_compute. auto. Qed.
(** devices/connection_test.go:113-151: reading until an error. *)
Fixpoint read_commands {W} (n : nat) (mw : mwriter W) (p : matcher) (w : W) : list Z :=
  match n with
  | O => []
  | S k => match read_match 10 mw p w with (Ret (Some m, None), w1) => m_cmd m :: read_commands k mw p w1 | _ => [] end
  end.
Example TestRead : read_commands 10 test_writer (fun m => m_cmd m mod 2 =? 0) (reading [plain 1 []; plain 2 []; plain 3 []; plain 4 []]) = [2; 4].
Proof. vm_compute. reflexivity. Qed.

(** devices/device_test.go:39-75. *)
Example TestProductDataMarshaling : let input := [0; 1; 2; 3; 4; 5; 255; 0; 0; 0; 0; 0; 0; 0] in
  pd_unmarshal ([], []) input = (([1; 2; 3], [4; 5]), None) /\ pd_marshal ([1; 2; 3], [4; 5]) = firstn 7 input /\
  match snd (pd_unmarshal ([], []) []) with Some e => errors_is e EBufferTooShort | None => false end = true.
Proof. vm_compute. auto. Qed.
(** devices/device_test.go:77-137. *)
Example TestDeviceCommands : forallb (fun c => match c with (r, cmd, payload) => sends r cmd payload end)
  [(switch_turn_on dinfo_zero test_writer 42 idle, sub_command c_LightOn 42, []);
   (switch_turn_off dinfo_zero test_writer idle, c_LightOff, []);
   (switch_set_backlight dinfo_zero test_writer true idle, c_EnableLED, zeros 14);
   (switch_set_backlight dinfo_zero test_writer false idle, c_DisableLED, zeros 14);
   (switch_set_load_sense dinfo_zero test_writer true idle, c_EnableLoadSense, zeros 14);
   (switch_set_load_sense dinfo_zero test_writer false idle, c_DisableLoadSense, zeros 14);
   (dimmer_brighten dinfo_zero test_writer idle, c_LightBrighten, []);
   (dimmer_dim dinfo_zero test_writer idle, c_LightDim, []);
   (dimmer_start_brighten dinfo_zero test_writer idle, c_StartBrighten, []);
   (dimmer_start_dim dinfo_zero test_writer idle, c_StartDim, []);
   (dimmer_stop_manual dinfo_zero test_writer idle, c_LightStopManual, []);
   (dimmer_on_fast dinfo_zero test_writer idle, c_LightOnFast, []);
   (dimmer_instant_change dinfo_zero test_writer 42 idle, sub_command c_LightInstantChange 42, []);
   (dimmer_set_status dinfo_zero test_writer 42 idle, sub_command c_LightSetStatus 42, []);
   (dimmer_on_at_ramp (with_firmware 0) test_writer 4 2 idle, sub_command c_LightOnAtRamp 0x42, []);
   (dimmer_on_at_ramp (with_firmware 0x43) test_writer 4 2 idle, sub_command c_LightOnAtRampV67 0x42, []);
   (dimmer_off_at_ramp (with_firmware 0) test_writer 15 idle, sub_command c_LightOffAtRamp 15, []);
   (dimmer_off_at_ramp (with_firmware 0x43) test_writer 15 idle, sub_command c_LightOffAtRampV67 15, [])] = true.
Proof. vm_compute. reflexivity. Qed.
(** devices/device_test.go:139-185; the filters Open puts around the writer pass these messages. *)
Example TestOpen : let pressed := mkMsg 0 (2 * 65536 + 1 * 256 + 59) 0 c_SetButtonPressedResponder [] in
  let opened (o : outcome (option dinfo * dinfo * option error)) := match o with Ret (_, info, e) => Some (info, e) | _ => None end in
  opened (fst (dev_open 3 test_writer 0 (mkT [pressed] [] [plain 1 []] None))) = Some (mkDI 0 2 1 59 ver_I2, None) /\
  opened (fst (dev_open 3 test_writer 0 (mkT [pressed] [] [refusal 0xff] (Some EDevNak)))) = Some (mkDI 0 0 0 0 ver_I2Cs, Some EDevNotLinked).
Proof. vm_compute. auto. Qed.
(** devices/device_test.go:187-209. *)
Example TestNew : dev_lookup (mkDI 0 2 0 0 1) = KSwitch /\ dev_lookup (mkDI 0 1 0 0 1) = KDimmer /\ dev_lookup (mkDI 0 2 8 0 1) = KOutlet /\
  dev_lookup (mkDI 0 5 0 0 1) = KThermostat.
Proof. vm_compute. auto. Qed.
(** devices/device_test.go:211-232. *)
Example TestDeviceString : let d := mkDI 0x010203 0 0 0 0 in
  basic_string d = zs "I1 Device (01.02.03)" /\ switch_string d = zs "Switch (01.02.03)" /\ dimmer_string d = zs "Dimmer (01.02.03)" /\
  lr_string (mkLR lt_readLink base_address 2 None) = zs "Link Read 0f.ff 2" /\
  lr_string (mkLR lt_readLink base_address 2 (Some (mkLink 0xd0 1 0x010203 4 5 6))) = zs "Link Read 0f.ff 2 UC 1 01.02.03 0x04 0x05 0x06".
Proof. vm_compute. repeat split. Qed.

(** devices/dimmer_test.go:11-57. *)
Example TestDimmerConfig : let input := mk_payload [0; 0; 0; 0; 4; 5; 6; 7; 8] in let c := mkDC 4 5 6 7 8 in
  dc_unmarshal (mkDC 0 0 0 0 0) input = (c, None) /\ dc_marshal c = input /\ snd (dc_unmarshal (mkDC 0 0 0 0 0) []) = Some EBufferTooShort.
Proof. vm_compute. auto. Qed.
(** devices/dimmer_test.go:59-77. *)
Example TestDimmableDeviceConfig : let want := mkDC 31 42 15 27 4 in
  fst (dimmer_config 3 (with_firmware 67) test_writer (reading [plain c_ExtendedGetSet (go_copy (zeros 14) (dc_marshal want))])) = Ret (want, None).
Proof. vm_compute. reflexivity. Qed.

(** devices/switch_test.go:11-42. *)
Example TestSwitchConfig : let input := mk_payload [0; 0; 0; 0; 4; 5] in
  sc_unmarshal (mkSC 0 0) input = (mkSC 4 5, None) /\ sc_marshal (mkSC 4 5) = input /\ snd (sc_unmarshal (mkSC 0 0) []) = Some EBufferTooShort.
Proof. vm_compute. auto. Qed.
(** devices/switch_test.go:44-75. *)
Example TestLightFlags : forallb (fun c => Bool.eqb (fst c) (snd c))
  [(lf_program_lock [1; 0; 0; 0; 0], true); (lf_program_lock [0; 0; 0; 0; 0], false); (lf_tx_led [2; 0; 0; 0; 0], true); (lf_tx_led [0; 0; 0; 0; 0], false);
   (lf_resume_dim [4; 0; 0; 0; 0], true); (lf_resume_dim [0; 0; 0; 0; 0], false); (lf_led [0; 0; 0; 16; 0], true); (lf_led [0; 0; 0; 0; 0], false);
   (lf_load_sense [0; 0; 0; 0; 32], true); (lf_load_sense [0; 0; 0; 0; 0], false); (lf_db_delta [16; 22; 0; 0; 0] =? 22, true);
   (lf_snr [16; 22; 42; 0; 0] =? 42, true); (lf_x10_enabled [16; 22; 42; 31; 0], true); (lf_x10_enabled [16; 22; 42; 31; 1], false);
   (lf_error_blink [16; 22; 42; 31; 2], true); (lf_error_blink [16; 22; 42; 31; 1], false); (lf_cleanup_report [16; 22; 42; 31; 4], true);
   (lf_cleanup_report [16; 22; 42; 31; 1], false)] = true.
Proof. vm_compute. reflexivity. Qed.
(** devices/switch_test.go:77-94. *)
Example TestSwitchedDeviceConfig : let want := mkSC 31 42 in
  fst (switch_config 3 dinfo_zero test_writer (reading [plain c_ExtendedGetSet (go_copy (zeros 14) (sc_marshal want))])) = Ret (want, None).
Proof. vm_compute. reflexivity. Qed.
(** devices/switch_test.go:96-116. *)
Example TestSwitchedDeviceOperatingFlags :
  match fst (switch_operating_flags dinfo_zero test_writer (acking (map (fun i => plain (sub_command c_GetOperatingFlags i) []) [3; 4; 5; 6; 7]) None)) with
  | Ret (flags, _) => bytes_eqb flags [3; 4; 5; 6; 7] | _ => false
  end = true.
Proof. vm_compute. reflexivity. Qed.
(** devices/switch_test.go:118-128. *)
Example TestSwitchStatus :
  match fst (switch_status dinfo_zero test_writer (acking [plain (sub_command c_LightStatusRequest 43) []] None)) with Ret (level, _) => level =? 43 | _ => false end = true.
Proof. vm_compute. reflexivity. Qed.

(** devices/util_test.go:9-42: the command bytes, the data and the checksum. *)
Definition test_checksum (c : Z * Z * list Z * Z) : bool :=
  let '(c1, c2, data, want) := c in
  let cmd := Z.lor (Z.shiftl c1 8) c2 in (byte_of (command1 cmd + command2 cmd) =? byte_of (c1 + c2)) && (checksum cmd data =? want).
Example TestChecksum : forallb test_checksum
  [(0x2E, 0, [1; 0; 0; 0; 0; 0; 0; 0; 0; 0; 0; 0; 0], 0xd1);
   (0x2F, 0, [0; 0; 0x0F; 0xFF; 1; 0; 0; 0; 0; 0; 0; 0; 0], 0xC2);
   (0x2F, 0, [1; 1; 0x0F; 0xFF; 0; 0xA2; 0; 0x19; 0x70; 0x1A; 0xFF; 0x1F; 1], 0x5D);
   (0x2F, 0, [0; 0; 0x0F; 0xF7; 1; 0; 0; 0; 0; 0; 0; 0; 0], 0xCA);
   (0x2F, 0, [1; 1; 0x0F; 0xF7; 0; 0xE2; 1; 0x19; 0x70; 0x1A; 0xFF; 0x1F; 1], 0x24);
   (0x2F, 0, [0; 0; 0x0F; 0xEF; 1; 0; 0; 0; 0; 0; 0; 0; 0], 0xD2);
   (0x2F, 0, [1; 1; 0x0F; 0xEF; 0; 0; 0; 0; 0; 0; 0; 0; 0], 0xD1);
   (0x2F, 0, [1; 2; 0x0F; 0xFF; 8; 0xE2; 1; 8; 0xB6; 0xEA; 0; 0x1B; 1], 0x11);
   (0x09, 1, [0; 0; 0; 0; 0; 0; 0; 0; 0; 0; 0; 0; 0], 0xF6);
   (0x2f, 0, [0; 2; 0x0f; 0xff; 8; 0xe2; 1; 8; 0xb6; 0xea; 0; 0x1b; 1], 0x12)] = true.
Proof. vm_compute. reflexivity. Qed.

(** devices/matcher_test.go:24-76.  A message built in the test is an object of its own, so DuplicateMatcher's pointer test (identity numbers here) is false. *)
Definition with_flags_only (f : Z) : message := mkMsg 0 0 f 0 [].
Example TestMatchers :
  let ping := mkMsg 0x010303 0x030405 fl_StandardDirectMessage c_Ping [] in let pingNak := mkMsg 0x010203 0x030405 fl_StandardDirectNak 0x000f00 [] in
  let yes : matcher := fun _ => true in let no : matcher := fun _ => false in
  forallb (fun c => Bool.eqb (fst c) (snd c))
    [(ack_matcher (with_flags_only fl_StandardDirectAck), true); (ack_matcher ping, false); (ack_matcher (with_flags_only fl_StandardDirectNak), true);
     (ack_matcher pingNak, true); (cmd_matcher c_Ping ping, true); (cmd_matcher c_Ping msg_zero, false);
     (and_matcher [yes; yes] msg_zero, true); (and_matcher [no; yes] msg_zero, false); (and_matcher [no; no] msg_zero, false);
     (or_matcher [yes; yes] msg_zero, true); (or_matcher [no; yes] msg_zero, true); (or_matcher [no; no] msg_zero, false);
     (not_matcher ack_matcher (with_flags_only fl_StandardDirectAck), false); (not_matcher ack_matcher msg_zero, true);
     (src_matcher 0x010203 (mkMsg 0x010203 0 0 0 []), true); (src_matcher 0x030405 (mkMsg 0x010203 0 0 0 []), false);
     (alllink_matcher (with_flags_only fl_StandardAllLinkBroadcast), true); (alllink_matcher (with_flags_only fl_StandardDirectAck), false);
     (duplicate_matcher 0 (with_flags_only (fl_make mt_Direct false 3 3)) (1, with_flags_only (fl_make mt_Direct false 2 3)), true);
     (duplicate_matcher 0 (with_flags_only (fl_make mt_Direct false 3 3)) (1, with_flags_only (fl_make mt_Direct true 2 3)), true);
     (match_ack (mkMsg 0 0x030405 (fl_make mt_DirectAck false 0 1) 0x010203 []) (mkMsg 0x030405 0 (fl_make mt_Direct false 0 1) 0x010205 []), true);
     (match_ack (mkMsg 0x030405 0 (fl_make mt_DirectAck false 0 1) 0x010203 []) (mkMsg 0x010203 0 (fl_make mt_Direct false 0 1) 0x010205 []), false)] = true.
Proof. vm_compute. reflexivity. Qed.

(** devices/filters_test.go:11-34. *)
Definition from (a : Z) : message := mkMsg a 0 0 0 [].
Example TestCacheReadWrite :
  match new_cache 3 [] with
  | Ret c =>
      match mw_write (cache_filter test_writer) (from 0x010203) (c, reading [from 0x090807]) with
      | (Ret _, w) =>
          match mw_read (cache_filter test_writer) w with
          | (Ret (Some m, _), (c2, _)) => m = from 0x090807 /\ map snd (c_msgs c2) = [from 0x010203; from 0x090807] /\ c_msgs (fst w) = [(0, from 0x010203)]
          | _ => False
          end
      | _ => False
      end
  | _ => False
  end.
Proof. vm_compute. auto. Qed.
(** devices/filters_test.go:36-73. *)
Definition sources (o : outcome cache) : list Z := match o with Ret c => map (fun x => m_src (snd x)) (c_msgs c) | _ => [] end.
Example TestCachePush :
  let c3 := new_cache 3 [from 1; from 2; from 3] in let c4 := bindo c3 (fun c => cache_push_opt c (Some (from 4))) in
  let c5 := bindo c4 (fun c => cache_push_opt c (Some (from 1))) in let c6 := bindo c5 (fun c => cache_push_opt c None) in
  sources c4 = [4; 2; 3] /\ sources c6 = [4; 1; 3].
Proof. vm_compute. auto. Qed.
(** devices/filters_test.go:75-143. *)
Definition test_lookup (c : Z * list message * matcher * bool) : bool :=
  let '(i, msgs, p, want) := c in
  match new_cache (zlen msgs) msgs with
  | Ret c0 => match cache_lookup (fun x => p (snd x)) (mkCache (c_msgs c0) (c_cap c0) i (c_next c0)) with
              | Ret found => Bool.eqb (match found with Some _ => true | None => false end) want | _ => false end
  | _ => false
  end.
Example TestCacheLookup : forallb test_lookup
  [(1, [], src_matcher 0x010203, false); (1, [from 0x000102; from 0x010203], src_matcher 0x010203, true);
   (1, [from 0x000102; from 0x010203], src_matcher 0x030405, false);
   (0, [from 0x000102; from 0x010203; from 0x040102; from 0x030507], src_matcher 0x010203, true);
   (0, [mkMsg 0 0x000102 (fl_make mt_Direct true 2 2) c_ReadWriteALDB (zeros 14)],
      match_ack (mkMsg 0x000102 0 (fl_make mt_DirectAck false 2 2) c_ReadWriteALDB []), true)] = true.
Proof. vm_compute. reflexivity. Qed.
(** devices/filters_test.go:145-169. *)
Example TestTTLFilter :
  forallb (fun ttl => match t_written (snd (mw_write (ttl_filter ttl test_writer) msg_zero idle)) with
                      | m :: _ => (fl_ttl (m_flags m) =? ttl) && (fl_max_ttl (m_flags m) =? ttl) | [] => false end) [1; 2; 3] = true.
Proof. vm_compute. reflexivity. Qed.
(** devices/filters_test.go:171-210. *)
Fixpoint read_all {W} (n : nat) (mw : mwriter W) (w : W) : list message :=
  match n with O => [] | S k => match mw_read mw w with (Ret (Some m, None), w1) => m :: read_all k mw w1 | _ => [] end end.
Example TestFilterDuplicates :
  let filtered l := read_all 10 (dup_filter 10 test_writer) (dup_cache, reading l) in
  let a f := mkMsg 0x010203 0 f 0 [] in
  filtered [from 0x010203; from 0x010204; from 0x010205] = [from 0x010203; from 0x010204; from 0x010205] /\
  filtered [a (fl_make mt_Direct false 3 3); a (fl_make mt_Direct false 2 3); from 0x010204; from 0x010205] =
    [a (fl_make mt_Direct false 3 3); from 0x010204; from 0x010205].
Proof. vm_compute. auto. Qed.

(** devices/linkdb_test.go:29-68. *)
Example TestMemAddress : mem_string 0xffff = zs "ff.ff" /\ mem_string 0x0fff = zs "0f.ff" /\ mem_string 0x0f00 = zs "0f.00".
Proof. vm_compute. auto. Qed.
Example TestLinkRequestType : map lrt_string [0; 1; 2; 3] = [zs "Link Read"; zs "Link Resp"; zs "Link Write"; zs "Unknown"].
Proof. vm_compute. reflexivity. Qed.
(** devices/linkdb_test.go:70-116. *)
Definition wants (want : error) (got : option error) : bool := match got with Some g => errors_is g want | None => false end.
Example TestLinkRequestUnmarshalBinary : let l := mkLink 0xd0 1 0x010203 4 5 6 in
  wants EBufferTooShort (snd (lr_unmarshal linkreq_zero [])) = true /\
  lr_unmarshal linkreq_zero (mk_payload [0; 0; 0x0f; 0xff; 1]) = (mkLR 0 0x0fff 1 None, None) /\
  lr_unmarshal linkreq_zero (mk_payload [0; 1; 0x0f; 0xff; 0; 0xd0; 1; 1; 2; 3; 4; 5; 6]) = (mkLR 1 0x0fff 0 (Some l), None) /\
  lr_unmarshal linkreq_zero (mk_payload [0; 2; 0x0f; 0xff; 1; 0xd0; 1; 1; 2; 3; 4; 5; 6]) = (mkLR 2 0x0fff 1 (Some l), None) /\
  wants EDevInvalidResponse (snd (lr_unmarshal linkreq_zero [0xff; 0xf9; 0xe7; 0x8b; 0x20; 0xaa; 1; 0xb6; 0xd5; 0x1a; 7; 0xe3; 0xfd; 0xb8])) = true.
Proof. vm_compute. repeat split. Qed.
(** devices/linkdb_test.go:118-146. *)
Example TestLinkRequestMarshalBinary : let l := mkLink 0xd0 1 0x010203 4 5 6 in
  lr_marshal (mkLR 0 0x0fff 1 None) = Ret (mk_payload [0; 0; 0x0f; 0xff; 1]) /\
  lr_marshal (mkLR 1 0x0fff 1 (Some l)) = Ret (mk_payload [0; 1; 0x0f; 0xff; 0; 0xd0; 1; 1; 2; 3; 4; 5; 6]) /\
  lr_marshal (mkLR 2 0x0fff 1 (Some l)) = Ret (mk_payload [0; 2; 0x0f; 0xff; 8; 0xd0; 1; 1; 2; 3; 4; 5; 6]).
Proof. vm_compute. repeat split. Qed.
(** devices/linkdb_test.go:148-159.  The tests set [MaxLinkDbAge]; the model keeps the hour of linkdb.go, and times are seconds. *)
Definition now : Z := 100000.
Example TestLinkDbOld : ld_old now linkdb_new = true /\ ld_old now (mkLdb (now + 10) [] []) = false.
Proof. vm_compute. auto. Qed.
(** devices/linkdb_test.go:161-206; the test looks at the number of links only. *)
Definition responses (links : list link) : list message :=
  map (fun x => mkMsg 0 0 fl_ExtendedDirectMessage c_ReadWriteALDB
                  match lr_marshal (mkLR lt_linkResponse (fst x) 0 (Some (snd x))) with Ret b => go_copy (zeros 14) b | _ => [] end)
      (combine (map (fun i => base_address - record_size * Z.of_nat i) (seq 0 (List.length links))) links).
Definition test_links (c : Z * list link) : bool :=
  let '(age, want) := c in
  let acks := [mkMsg 0 0 fl_StandardDirectAck c_ReadWriteALDB []; mkMsg 0 0 fl_StandardDirectNak c_ReadWriteALDB []] in
  match fst (ld_get_links 10 test_writer now (mkLdb age [] [], mkT (responses (want ++ [link_zero])) [] acks None)) with
  | Ret (got, None) => (List.length got =? List.length want)%nat | _ => false
  end.
Example TestLinkdbLinks : forallb test_links
  [(now + 3600, []); (now - 7200, [controller_link 1 0x010203]); (now - 7200, [controller_link 1 0x040506; controller_link 1 0x010203]); (now - 7200, [])] = true.
Proof. vm_compute. reflexivity. Qed.
(** devices/linkdb_test.go:208-294. *)
Definition requests (w : tester) : list linkreq := map (fun m => fst (lr_unmarshal linkreq_zero (m_payload m))) (t_written w).
Definition test_write_link (c : list link * Z * link * nat * Z) : bool :=
  let '(links, index, l, size, mem) := c in
  match ld_write_link test_writer index l (mkLdb 0 links [], idle) with
  | (Ret None, (db, w)) =>
      match requests w with
      | r :: _ => (lr_type r =? lt_writeLink) && (lr_mem r =? mem) && (List.length (ld_links db) =? size)%nat &&
                  (if index <? Z.of_nat size then bytes_eqb (link_marshal (nth (Z.to_nat index) (ld_links db) link_zero)) (link_marshal l) else true)
      | [] => false
      end
  | _ => false
  end.
Example TestLinkdbWriteLink :
  let three := [controller_link 1 0x010203; responder_link 1 0x010203; controller_link 1 0x040506] in
  fst (ld_write_link test_writer 1 link_zero (linkdb_new, idle)) = Ret (Some EDevLinkIndexOutOfRange) /\
  forallb test_write_link
    [([], 0, controller_link 1 0x010203, 1%nat, base_address); (three, 2, mkLink 0xfc 0 0 0 0 0, 2%nat, base_address - record_size * 2);
     (three, 1, responder_link 43 0x0b0c0d, 3%nat, base_address - record_size)] = true.
Proof. vm_compute. auto. Qed.
(** devices/linkdb_test.go:296-345. *)
Definition test_write_links (links : list link) : bool :=
  match ld_write_links test_writer now links (linkdb_new, idle) with
  | (_, (db, w)) =>
      bytes_eqb (map lr_mem (requests w)) (map (fun i => base_address - record_size * Z.of_nat i) (seq 0 (S (List.length links)))) &&
      negb (ld_age db + 10 <? now) && (List.length (ld_links db) =? List.length links)%nat &&
      forallb (fun x => link_equal (fst x) (snd x)) (combine links (ld_links db)) &&
      match last (map lr_link (requests w)) None with Some l => rcf_last_record (l_flags l) | None => false end
  end.
Example TestLinkdbWriteLinks : forallb test_write_links [[]; [controller_link 1 0x010203]; [controller_link 1 0x010203; controller_link 1 0x040506]] = true.
Proof. vm_compute. reflexivity. Qed.
(** devices/linkdb_test.go:347-406. *)
Definition test_update (c : list link * list link * list Z) : bool :=
  let '(existing, input, want) := c in
  let index := rev (combine (map link_id existing) (seq 0 (List.length existing))) in
  bytes_eqb (map lr_mem (requests (snd (snd (ld_update_links 10 test_writer now input (mkLdb (now + 3600) existing index, idle)))))) want.
Example TestLinkdbUpdateLinks : let spare := mkLink rcf_AvailableController 1 0x010203 0 0 0 in
  forallb test_update
    [([], [controller_link 1 0x010203], [base_address; base_address - record_size]);
     ([controller_link 1 0x010203], [controller_link 1 0x010203], []);
     ([spare], [controller_link 1 0x010203], [base_address]);
     ([spare; controller_link 1 0x040506], [controller_link 1 0x060708; responder_link 1 0x050607],
        [base_address; base_address - 2 * record_size; base_address - 3 * record_size])] = true.
Proof. vm_compute. reflexivity. Qed.
