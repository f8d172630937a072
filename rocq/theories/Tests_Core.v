(** The project's own tests, transcribed as cases of the model: the package insteon (address_test.go, insteon_test.go, string_test.go,
    util_test.go, message_test.go, link_test.go) and commands/command_test.go, cmd/ic/vars_test.go, util/vars_test.go. *)
From Coq Require Import ZArith List Bool String.
From Verif Require Import GoBase GoText GoJson Command Address Message Link LinkText Display Database Timing IcVars BasicDevice.
Import ListNotations.
Open Scope Z_scope.

(** The code tells errors apart by these tests: none, or an error that is [e] or wraps it. *)
Definition wants (want : option error) (got : option error) : bool :=
  match want, got with None, None => true | Some e, Some g => errors_is g e | _, _ => false end.

(** address_test.go:22-60; where an error is wanted the address stays 0. *)
Definition test_address (c : string * Z * string * bool) : bool :=
  let '(input, want, text, fails) := c in
  match addr_unmarshal_text 0 (zs input) with
  | (a, None) => negb fails && (a =? want) && bytes_eqb (addr_string a) (zs text)
  | (a, Some _) => fails && (a =? want)
  end.
Example TestAddressMarshalUnmarshalText : forallb test_address
  [("01.02.03", 0x010203, "01.02.03", false); ("a1.b2.c3", 0xa1b2c3, "a1.b2.c3", false); ("D1.E2.F3", 0xd1e2f3, "d1.e2.f3", false);
   ("a1b2c3", 0xa1b2c3, "a1.b2.c3", false); ("D1E2F3", 0xd1e2f3, "d1.e2.f3", false); ("abcd", 0, "00.00.00", true);
   ("abcdefg", 0, "00.00.00", true); ("01b.02.03", 0, "00.00.00", true); ("vx.02.03", 0, "00.00.00", true)]%string = true.
Proof. vm_compute. reflexivity. Qed.
(** address_test.go:62-77, insteon_test.go:22-39. *)
Example TestAddressString : addr_string 0x000102 = zs "00.01.02" /\ addr_string 0x472d10 = zs "47.2d.10".
Proof. vm_compute. auto. Qed.
(** address_test.go:79-108: the text of a JSON string, read and written. *)
Definition address_from_json (s : list Z) : Z * option error :=
  match json_parse s with
  | None => (0, Some EJsonSyntax)
  | Some j => match json_text j with None => (0, Some EJsonType) | Some t => addr_unmarshal_text 0 t end
  end.
Example TestAddressMarshaling : address_from_json (zs """01.02.03""") = (0x010203, None) /\
  jprint (JStr (addr_string 0x010203)) = zs """01.02.03""" /\ snd (address_from_json (zs """01.02""")) = Some EAddrFormat.
Proof. vm_compute. auto. Qed.

(** insteon_test.go:41-57. *)
Example TestProductKey : pk_string 1 2 3 = zs "0x010203".
Proof. vm_compute. auto. Qed.
(** insteon_test.go:59-85. *)
Example TestDevCat : Display.devcat_string 1 2 = zs "01.02".
Proof. vm_compute. auto. Qed.
(** insteon_test.go:87-107: Dimmer 1, Switch 2, Thermostat 5. *)
Example TestDevCatIn : let d := mkDI 0 1 0 0 0 in dc_in d [1] = true /\ dc_in d [2; 1] = true /\ dc_in d [5] = false.
Proof. vm_compute. auto. Qed.
(** insteon_test.go:109-138. *)
Definition devcat_from_json (s : list Z) : option (Z * Z) :=
  match json_parse s with None => None | Some j => match json_text j with None => None | Some t => devcat_scan t end end.
Example TestDevCatMarshaling : devcat_from_json (zs """01.02""") = Some (1, 2) /\ jprint (JStr (Database.devcat_string 1 2)) = zs """01.02""" /\
  devcat_from_json (zs """01""") = None.
Proof. vm_compute. auto. Qed.

(** string_test.go:11-42. *)
Example TestGetSet : group_set 0 (zs "128") = (128, None) /\ fmt_d_byte 128 = zs "128" /\
  addr_unmarshal_text 0 (zs "01.04.07") = (0x10407, None) /\ addr_unmarshal_text 0 (zs "1.4.7") = (0x10407, None) /\ addr_string 0x10407 = zs "01.04.07".
Proof. vm_compute. auto. Qed.
(** string_test.go:44-77. *)
Example TestDeviceString :
  ev_string 0 = zs "I1" /\ ev_string 1 = zs "I2" /\ ev_string 2 = zs "I2Cs" /\ ev_string 3 = zs "unknown" /\
  link_string (mkLink 0xd0 1 0x10203 4 5 6) = zs "UC 1 01.02.03 0x04 0x05 0x06" /\
  fl_string fl_StandardDirectMessage = zs "SD     2:2" /\ fl_string fl_ExtendedDirectMessage = zs "ED     2:2" /\
  rcf_string rcf_AvailableController = zs "AC" /\ rcf_string rcf_UnavailableController = zs "UC" /\
  rcf_string rcf_AvailableResponder = zs "AR" /\ rcf_string rcf_UnavailableResponder = zs "UR" /\ fw_string 42 = zs "42" /\
  msg_string (mkMsg 0x10203 0x040506 fl_StandardBroadcast c_SetButtonPressedController []) =
    zs "SB     2:2 01.02.03 -> ff.ff.ff DevCat 04.05 Firmware 6 Set-button Pressed (controller)" /\
  msg_string (mkMsg 0x010203 0x04050e fl_StandardAllLinkBroadcast c_AllLinkRecall []) = zs "SA     2:2 01.02.03 -> ff.ff.ff All-link recall Group(14)" /\
  msg_string (mkMsg 0x010203 0x04050e (fl_make mt_AllLinkCleanup false 2 2) c_AllLinkRecall []) = zs "SC     2:2 01.02.03 -> 04.05.0e Cleanup All-link recall" /\
  msg_string (mkMsg 0x010203 0x040506 fl_ExtendedDirectMessage c_EnterLinkingModeExt (zeros 14)) =
    zs "ED     2:2 01.02.03 -> 04.05.06 Enter Linking Mode (i2cs) [00 00 00 00 00 00 00 00 00 00 00 00 00 00]" /\
  msg_string (mkMsg 0x010203 0x040506 fl_StandardDirectAck c_EnterLinkingMode []) = zs "SD Ack 2:2 01.02.03 -> 04.05.06 9.0".
Proof. vm_compute. repeat split. Qed.

(** util_test.go:43-64. *)
Example TestPropagationDelay : propagation_delay 0 10 = second * 10 / 60 /\ propagation_delay 0 24 = second * 24 / 60 /\
  propagation_delay 2 10 = second * 30 / 60 /\ propagation_delay 2 24 = second * 72 / 60.
Proof. vm_compute. auto. Qed.
(** util_test.go:66-93. *)
Example TestReadWithTimeout : read_with_timeout (Some (0, Some msg_zero)) second = [(Some msg_zero, None)] /\
  read_with_timeout None 1000 = [(None, Some EInsteonReadTimeout)].
Proof. vm_compute. auto. Qed.
(** message_test.go:44-81. *)
Definition test_message_type (c : Z * bool * bool * bool * string) : bool :=
  let '(t, direct, broadcast, alllink, text) := c in
  Bool.eqb (mt_is_direct t) direct && Bool.eqb (mt_is_broadcast t) broadcast && Bool.eqb (mt_is_alllink t) alllink && bytes_eqb (mt_string t) (zs text).
Example TestMessageType : forallb test_message_type
  [(mt_Direct, true, false, false, "D"); (mt_DirectAck, true, false, false, "D Ack"); (mt_AllLinkCleanup, true, false, true, "C");
   (mt_AllLinkCleanupAck, true, false, true, "C Ack"); (mt_Broadcast, false, true, false, "B"); (mt_DirectNak, true, false, false, "D NAK");
   (mt_AllLinkBroadcast, false, true, true, "A"); (mt_AllLinkCleanupNak, true, false, true, "C NAK")]%string = true.
Proof. vm_compute. reflexivity. Qed.
(** message_test.go:83-137. *)
Definition test_flags (c : Z * Z * bool * bool * Z * Z) : bool :=
  let '(f, t, ext, std, ttl, max) := c in
  (fl_type f =? t) && Bool.eqb (fl_standard f) std && Bool.eqb (fl_extended f) ext && (fl_ttl f =? ttl) && (fl_max_ttl f =? max).
Example TestFlags : forallb test_flags
  [(0x0f, mt_Direct, false, true, 3, 3); (0x2f, mt_DirectAck, false, true, 3, 3); (0x4f, mt_AllLinkCleanup, false, true, 3, 3);
   (0x6f, mt_AllLinkCleanupAck, false, true, 3, 3); (0x8f, mt_Broadcast, false, true, 3, 3); (0xaf, mt_DirectNak, false, true, 3, 3);
   (0xcf, mt_AllLinkBroadcast, false, true, 3, 3); (0xef, mt_AllLinkCleanupNak, false, true, 3, 3); (0x1f, mt_Direct, true, false, 3, 3);
   (0x3f, mt_DirectAck, true, false, 3, 3); (0x5f, mt_AllLinkCleanup, true, false, 3, 3); (0x7f, mt_AllLinkCleanupAck, true, false, 3, 3);
   (0x9f, mt_Broadcast, true, false, 3, 3); (0xbf, mt_DirectNak, true, false, 3, 3); (0xdf, mt_AllLinkBroadcast, true, false, 3, 3);
   (0xff, mt_AllLinkCleanupNak, true, false, 3, 3); (fl_make mt_Direct false 2 2, mt_Direct, false, true, 2, 2);
   (fl_make mt_Direct true 3 3, mt_Direct, true, false, 3, 3); (fl_make mt_Direct false 4 4, mt_Direct, false, true, 0, 0)] = true.
Proof. vm_compute. reflexivity. Qed.
(** message_test.go:139-281.  [None]: the buffer is too short. *)
Definition test_message (c : list Z * option (Z * Z * Z * bool * bool * Z)) : bool :=
  match msg_unmarshal msg_zero (fst c), snd c with
  | (m, None), Some (src, dst, flags, ack, nak, cmd) =>
      (m_src m =? src) && (m_dst m =? dst) && (m_flags m =? flags) && Bool.eqb (fl_ack (m_flags m)) ack && Bool.eqb (fl_nak (m_flags m)) nak && (m_cmd m =? cmd) &&
      bytes_eqb (msg_marshal m) (fst c)
  | (_, Some e), None => errors_is e EBufferTooShort
  | _, _ => false
  end.
Example TestMessageMarshalUnmarshal : forallb test_message
  [([1; 2; 3; 4; 5; 6; 0x0a; 0x10; 0], Some (0x010203, 0x040506, fl_StandardDirectMessage, false, false, 0x001000));
   ([1; 2; 3; 4; 5; 6; 0x8a; 1; 0], Some (0x010203, 0x040506, 0x8a, false, false, 0x080100));
   ([1; 2; 3; 4; 5; 6; 0x0a; 0x10], None);
   ([1; 2; 3; 4; 5; 6; 0x1a; 9; 0; 0xff; 0xff; 0xff; 0xff; 0xff; 0xff; 0xff; 0xff; 0xff; 0xff; 0xff; 0xff; 0xff; 0xfe],
     Some (0x010203, 0x040506, fl_ExtendedDirectMessage, false, false, 0x010900));
   ([1; 2; 3; 4; 5; 6; 0x1a; 9; 0; 0xff; 0xff; 0xff; 0xff; 0xff; 0xff; 0xff; 0xff; 0xff; 0xff; 0xff; 0xff; 0xff], None);
   ([1; 2; 3; 4; 5; 6; 0x1a; 0x2f; 0; 0; 2; 0x0f; 0xff; 8; 0xe2; 1; 8; 0xb6; 0xea; 0; 0x1b; 1; 0x12],
     Some (0x010203, 0x040506, fl_ExtendedDirectMessage, false, false, 0x012f00));
   ([1; 2; 3; 4; 5; 6; 0xaa; 1; 0], Some (0x010203, 0x040506, 0xaa, false, true, 0x000100));
   ([1; 2; 3; 4; 5; 6; 0x2a; 1; 0], Some (0x010203, 0x040506, 0x2a, true, false, 0x000100));
   ([1; 2; 3; 4; 5; 6; 0x4a; 0x11; 3], Some (0x010203, 0x040506, Z.lor mt_AllLinkCleanup 0x0a, false, false, sub_command c_AllLinkRecall 3))] = true.
Proof. vm_compute. reflexivity. Qed.
(** message_test.go:283-307. *)
Example TestCommonTypeConsts :
  fl_make mt_Broadcast false 2 2 = fl_StandardBroadcast /\ fl_make mt_AllLinkBroadcast false 2 2 = fl_StandardAllLinkBroadcast /\
  fl_make mt_Direct false 2 2 = fl_StandardDirectMessage /\ fl_make mt_DirectAck false 2 2 = fl_StandardDirectAck /\
  fl_make mt_DirectNak false 2 2 = fl_StandardDirectNak /\ fl_make mt_Direct true 2 2 = fl_ExtendedDirectMessage /\
  fl_make mt_DirectAck true 2 2 = fl_ExtendedDirectAck /\ fl_make mt_DirectNak true 2 2 = fl_ExtendedDirectNak.
Proof. vm_compute. repeat split. Qed.
(** message_test.go:29-31, 309-336. *)
Definition mk_payload (buf : list Z) : list Z := buf ++ zeros (14 - List.length buf).
Definition test_same (c : message * message * bool * bool) : bool :=
  let '(a, b, equal, duplicate) := c in Bool.eqb (msg_equals a b) equal && Bool.eqb (msg_duplicate a b) duplicate.
Example TestMessageEqualsDuplicate : forallb test_same
  [(msg_zero, msg_zero, true, true);
   (mkMsg 0 0 (fl_make mt_Direct false 3 3) 0 [], mkMsg 0 0 (fl_make mt_Direct false 2 3) 0 [], false, true);
   (mkMsg 0 0 (fl_make mt_Direct true 3 3) 0 (mk_payload [42; 53; 64]), mkMsg 0 0 (fl_make mt_Direct true 3 3) 0 (mk_payload [42; 53; 64]), true, true);
   (mkMsg 0 0 (fl_make mt_Direct true 3 3) 0 (mk_payload [42; 53; 64]), mkMsg 0 0 (fl_make mt_Direct true 3 3) 0 (mk_payload [42; 64]), false, false)] = true.
Proof. vm_compute. reflexivity. Qed.

(** link_test.go:24-61. *)
Definition test_control (c : Z * bool * bool * bool) : bool :=
  let '(f, used, controller, last) := c in
  Bool.eqb (rcf_in_use f) used && Bool.eqb (rcf_available f) (negb used) && Bool.eqb (rcf_controller f) controller && Bool.eqb (rcf_responder f) (negb controller) &&
  Bool.eqb (rcf_last_record f) last.
Example TestRecordControlFlags : forallb test_control
  [(rcf_AvailableController, false, true, true); (rcf_AvailableResponder, false, false, true); (rcf_UnavailableController, true, true, true);
   (rcf_UnavailableResponder, true, false, true); (Z.lor rcf_AvailableController 2, false, true, false)] = true.
Proof. vm_compute. reflexivity. Qed.
(** link_test.go:63-93; the errors are told apart by their lines in link.go. *)
Example TestRecordControlFlagsUnmarshalText :
  snd (rcf_unmarshal_text 0 (zs "A")) = Some (EOther 114) /\ rcf_unmarshal_text 0 (zs "AR") = (rcf_AvailableResponder, None) /\
  rcf_unmarshal_text 0 (zs "UR") = (rcf_UnavailableResponder, None) /\ rcf_unmarshal_text 0 (zs "AC") = (rcf_AvailableController, None) /\
  rcf_unmarshal_text 0 (zs "UC") = (rcf_UnavailableController, None) /\ snd (rcf_unmarshal_text 0 (zs "FR")) = Some (EOther 122) /\
  snd (rcf_unmarshal_text 0 (zs "AZ")) = Some (EOther 130).
Proof. vm_compute. repeat split. Qed.
(** link_test.go:95-118: one after the other, from 0xff. *)
Example TestSettingRecordControlFlags :
  let f1 := rcf_set_available 0xff in let f2 := rcf_set_in_use f1 in let f3 := rcf_set_responder f2 in let f4 := rcf_set_controller f3 in
  let f5 := rcf_set_last_record f4 in let f6 := rcf_clear_last_record f5 in [f1; f2; f3; f4; f5; f6] = [0x7f; 0xff; 0xbf; 0xff; 0xfd; 0xff].
Proof. vm_compute. reflexivity. Qed.
(** link_test.go:120-151. *)
Example TestLinkEqual : let l f a := mkLink f 1 a 0 0 0 in
  link_equal (controller_link 1 0x010203) (l rcf_AvailableController 0x010203) = true /\
  link_equal (responder_link 1 0x010203) (l rcf_AvailableController 0x010203) = false /\
  link_equal (l rcf_AvailableController 0x010203) (l rcf_AvailableController 0x010203) = true /\
  link_equal (l rcf_AvailableResponder 0x010203) (l rcf_AvailableController 0x010203) = false /\
  link_equal (l rcf_AvailableController 0x010203) (l rcf_AvailableController 0x010204) = false /\
  link_equal (l rcf_AvailableController 0x010203) link_zero = false.
Proof. vm_compute. repeat split. Qed.
(** link_test.go:153-218. *)
Example TestLinkMarshalUnmarshal : let l := mkLink 1 2 0x030405 6 7 8 in
  link_unmarshal link_zero [1; 2; 3; 4; 5; 6; 7; 8] = (l, None) /\ link_string l = zs "AR 2 03.04.05 0x06 0x07 0x08" /\
  link_marshal l = [1; 2; 3; 4; 5; 6; 7; 8] /\ wants (Some EBufferTooShort) (snd (link_unmarshal link_zero [1; 2; 3; 4; 5; 6; 7])) = true.
Proof. vm_compute. repeat split. Qed.
(** link_test.go:220-252. *)
Example TestLinkRecordMarshalText : let l := mkLink 0xc2 1 0x010101 0 0 0 in
  link_marshal_text l = zs "UC        1 01.01.01   00 00 00" /\ link_unmarshal_text link_zero (zs "UC        1 01.01.01   00 00 00") = (l, None) /\
  snd (link_unmarshal_text link_zero (zs "UC        1 01.01.01   00 00")) = Some (EOther 253).
Proof. vm_compute. repeat split. Qed.
(** link_test.go:254-281. *)
Example TestGroupUnmarshalText : group_unmarshal_text 0 (zs "1") = (1, None) /\ group_unmarshal_text 0 (zs "wxyz") = (0, Some (EOther 162)) /\
  group_unmarshal_text 0 (zs "256") = (0, Some (EOther 159)) /\ group_unmarshal_text 0 (zs "-1") = (0, Some (EOther 159)).
Proof. vm_compute. repeat split. Qed.

(** commands/command_test.go:27-41. *)
Example TestCommandSubCommand : command2 (sub_command 0x000102 3) = 3 /\ command2 (fst (cmd_set 0x000102 (zs "42"))) = 42.
Proof. vm_compute. auto. Qed.
(** commands/command_test.go:87-97.  Lines 44-85 look for composite literals among the variables of commands.go; that file declares constants only,
    so they check nothing. *)
Example TestCommandString : cmd_string (sub_command c_AssignToAllLinkGroup 1) = cmd_string c_AssignToAllLinkGroup ++ zs "(1)" /\
  cmd_string 0xffffff = zs "Command(0xff, 0xff, 0xff)".
Proof. vm_compute. auto. Qed.
(** commands/command_test.go:100-123. *)
Definition test_from (c : Z * Z) : bool := cmd_from (fst c) (command1 (snd c)) (command2 (snd c)) =? snd c.
Example TestFrom : forallb test_from
  [(0x0a, c_AssignToAllLinkGroup); (0x2a, c_AssignToAllLinkGroup); (0xaa, c_AssignToAllLinkGroup); (0x1a, c_ProductDataResp);
   (0x3a, c_ProductDataResp); (0xfa, c_ProductDataResp); (0x4a, c_AllLinkRecall)] = true.
Proof. vm_compute. reflexivity. Qed.

(** cmd/ic/vars_test.go:12-41. *)
Example TestDataVar : datavar_set [] [zs "01"] = ([1], None) /\ datavar_set [] [zs "01"; zs "02"] = ([1; 2], None) /\
  datavar_set [] [zs "a"; zs "b"] = ([10; 11], None).
Proof. vm_compute. auto. Qed.
(** cmd/ic/vars_test.go:43-70. *)
Example TestCmdVar : cmdvar_set 0 (zs "01.02") = (0x0102, None) /\ cmdvar_set 0 (zs "0102") = (0x0102, None) /\
  snd (cmdvar_set 0 (zs "123")) = Some err_syntax /\ snd (cmdvar_set 0 (zs "xx.01")) = Some err_syntax /\ snd (cmdvar_set 0 (zs "01.xx")) = Some err_syntax.
Proof. vm_compute. repeat split. Qed.
(** util/vars_test.go:10-37. *)
Example TestAddresses : addresses_set [] [zs "01.02.03"] = ([0x010203], None) /\ addresses_string [0x010203] = zs "01.02.03".
Proof. vm_compute. auto. Qed.
