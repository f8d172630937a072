(** The tests of the package plm, transcribed as cases of the model: command_test.go, config_test.go, info_test.go, linkdb_test.go,
    options_test.go, packet_test.go, port_test.go and string_test.go in /repo/plm.
    Left out, because the model does not have what they look at: the log writer (port_test.go:18-48) and the verbs X, q and d of a packet
    (packet_test.go:119, 123 and 124). *)
From Coq Require Import ZArith List Bool String.
From Verif Require Import GoBase GoProg GoText Message Link LinkText Display Report PlmPacket Plm PlmReader PlmLinkdb PlmObj.
Import ListNotations.
Open Scope Z_scope.

(** plm/command_test.go:26-50: every constant of command.go:22-51 with its comment. *)
Definition command_comments : list (Z * string) :=
  [(0x15, "NAK"); (0x50, "Std Msg Received"); (0x51, "Ext Msg Received"); (0x52, "X10 Msg Received"); (0x53, "All Link Complete");
   (0x54, "Button Event Report"); (0x55, "User Reset Detected"); (0x56, "Link Cleanup Report"); (0x57, "Link Record Resp");
   (0x58, "Link Cleanup Status"); (0x60, "Get Info"); (0x61, "Send All Link"); (0x62, "Send INSTEON Msg"); (0x63, "Send X10 Msg");
   (0x64, "Start All Link"); (0x65, "Cancel All Link"); (0x66, "Set Host Category"); (0x67, "Reset"); (0x68, "Set ACK Msg");
   (0x69, "Get First All Link"); (0x6a, "Get Next All Link"); (0x6b, "Set Config"); (0x6c, "Get Sender All Link"); (0x6d, "LED On");
   (0x6e, "LED Off"); (0x6f, "Manage All Link Record"); (0x70, "Set NAK Msg Byte"); (0x71, "Set NAK Msg Two Bytes"); (0x72, "RF Sleep");
   (0x73, "Get Config")]%string.
Definition ret_is (s : string) (x : outcome (list Z)) : bool := match x with Ret t => bytes_eqb t (zs s) | _ => false end.
Example TestCommand :
  forallb (fun '(c, s) => ret_is s (plm_cmd_string c) && match command_len c with Some _ => true | None => false end) command_comments = true /\
  plm_cmd_string 255 = Ret (zs "Command(255)").
Proof. vm_compute. repeat split. Qed.

(** plm/config_test.go:22-59. *)
Definition flag_test (get : Z -> bool) (set clear : Z -> Z) (expected : Z) : bool :=
  negb (get 0) && get (set 0) && (set 0 =? expected) && (clear (set 0) =? 0).
Example TestSettingConfigFlags :
  flag_test cfg_auto_linking cfg_set_auto_linking cfg_clear_auto_linking 0x80 = true /\
  flag_test cfg_monitor cfg_set_monitor cfg_clear_monitor 0x40 = true /\
  flag_test cfg_auto_led cfg_set_auto_led cfg_clear_auto_led 0x20 = true /\
  flag_test cfg_deadman cfg_set_deadman cfg_clear_deadman 0x10 = true.
Proof. vm_compute. repeat split. Qed.

(** plm/config_test.go:61-93. *)
Example TestConfigMarshalUnmarshal :
  snd (cfg_unmarshal 0 []) <> None /\
  map (fun b => fst (cfg_unmarshal 0 [b])) [0x00; 0x80; 0x40; 0x20; 0x10; 0xf0] = [0x00; 0x80; 0x40; 0x20; 0x10; 0xf0] /\
  map cfg_marshal [0x00; 0x80; 0x40; 0x20; 0x10; 0xf0] = [[0x00]; [0x80]; [0x40]; [0x20]; [0x10]; [0xf0]].
Proof. vm_compute. repeat split; discriminate. Qed.

(** plm/info_test.go:10-37. *)
Example TestInfoMarshalUnmarshalBinary :
  info_unmarshal [1; 2; 3; 4; 5; 6] = Ret (mkInfo 0x010203 4 5 6) /\ info_marshal (mkInfo 0x010203 4 5 6) = [1; 2; 3; 4; 5; 6].
Proof. vm_compute. repeat split. Qed.

(** plm/options_test.go:9-31; the model counts seconds, so the 1234 ms of the test are 1234 s here. *)
Example TestOptions :
  o_delay (plm_new 0 []) = 0 /\ o_delay (plm_new 0 [OWriteDelay 1234]) = 1234 /\
  o_timeout (plm_new 0 []) = 3 /\ o_timeout (plm_new 0 [OTimeout 1234]) = 1234.
Proof. vm_compute. repeat split. Qed.

(** plm/packet_test.go:24-49. *)
Example TestPacketAckNak :
  map (fun '(cmd, b) => (pkt_is_ack (mkPkt cmd [] b), pkt_is_nak (mkPkt cmd [] b))) [(0x60, 0x06); (0x60, 0x15); (0x01, 0x06); (0x01, 0x15)] =
  [(true, false); (false, true); (false, false); (false, false)].
Proof. vm_compute. reflexivity. Qed.

(** plm/packet_test.go:51-90; what an error leaves in the packet is not looked at. *)
Definition pkt_new : packet := mkPkt 0 [] 0.
Example TestPacketMarshalUnmarshalBinary :
  (exists p, pkt_unmarshal pkt_new [0x00] = Ret (p, Some EPlmNoSync)) /\
  pkt_unmarshal pkt_new [0x02; 0x62; 0x3d; 0x96; 0xe1; 0x0f; 0x0d; 0x00; 0x06] =
    Ret (mkPkt pc_SendInsteonMsg [0x00; 0x00; 0x00; 0x3d; 0x96; 0xe1; 0x0f; 0x0d; 0x00] 0x06, None) /\
  pkt_unmarshal pkt_new [0x02; 0x62; 0x57; 0x2c; 0x5c; 0x1f; 0x2f; 0x00; 0x00; 0x00; 0x00; 0x00; 0x00; 0x00; 0x00; 0x00; 0x00; 0x00; 0x00; 0x00; 0x00;
                         0xd1; 0x06] =
    Ret (mkPkt pc_SendInsteonMsg [0; 0; 0; 0x57; 0x2c; 0x5c; 0x1f; 0x2f; 0x00; 0x00; 0x00; 0x00; 0x00; 0x00; 0x00; 0x00; 0x00; 0x00; 0x00; 0x00; 0x00;
                                  0x00; 0xd1] 0x06, None) /\
  pkt_unmarshal pkt_new [0x02; pc_SendInsteonMsg; 0x01; 0x02; 0x03; 0x04] =
    Ret (mkPkt pc_SendInsteonMsg [0x00; 0x00; 0x00; 0x01; 0x02; 0x03; 0x04] 0x00, None) /\
  pkt_unmarshal pkt_new [0x02; pc_SendInsteonMsg; 0x01; 0x02; 0x03; 0x04; 5; 6; 7; 8; 9; 10; 11; 12; 13; 14; 15; 16; 17; 18; 19; 20] =
    Ret (mkPkt pc_SendInsteonMsg [0x00; 0x00; 0x00; 0x01; 0x02; 0x03; 0x04; 5; 6; 7; 8; 9; 10; 11; 12; 13; 14; 15; 16; 17; 18; 19; 20] 0x00, None).
Proof. vm_compute. repeat split. eexists; reflexivity. Qed.

(** plm/packet_test.go:92-109. *)
Example TestPacketMarshalBinary :
  pkt_marshal (mkPkt pc_SendInsteonMsg [0x01; 0x02; 0x03; 0x04] 0x06) = [0x02; pc_SendInsteonMsg; 0x01; 0x02; 0x03; 0x04].
Proof. vm_compute. reflexivity. Qed.

(** plm/packet_test.go:111-135. *)
Example TestPacketFormat :
  pkt_format_x (mkPkt 0x01 [] 0x06) = zs "0106" /\
  pkt_format_x (mkPkt 0x01 [2; 3; 4; 5; 15] 0x06) = zs "01020304050f06" /\
  pkt_string (mkPkt pc_GetInfo [] 0x06) = Ret (zs "Get Info ACK") /\
  pkt_format_v (mkPkt pc_GetInfo [2; 3; 4; 5; 15] 0x06) = Ret (zs "Get Info 02 03 04 05 0f ACK") /\
  pkt_format_v (mkPkt pc_GetInfo [2; 3; 4; 5; 15] 0x15) = Ret (zs "Get Info 02 03 04 05 0f NAK").
Proof. vm_compute. repeat split. Qed.

(** plm/port_test.go:50-79: the number of bytes still to read is looked at, not the command; the two bytes that [sync] leaves in the buffer of
    the caller (the test's [wantN]) are not a result of the model. *)
Definition reader_of (input : list Z) : bufrd := mkBuf [] None [input] EEOF.
Definition paclen (x : outcome (Z * Z + error) * bufrd) : option Z := match x with (Ret (inl (_, n)), _) => Some n | _ => None end.
Example TestPacketReaderSync :
  paclen (pr_sync 20 false (reader_of [0x88; 0x55; 0x02; 0x37; 0x48; 0x02; 0x6a; 0x15])) = Some 1 /\
  paclen (pr_sync 20 false (reader_of [0x02; 0x6a; 0x15])) = Some 1.
Proof. vm_compute. repeat split. Qed.

(** plm/port_test.go:81-112. *)
Example TestPacketReaderRead :
  fst (pr_read_packet 20 false (reader_of [0x02; 0x6a; 0x15])) = Ret (inl (mkPkt pc_GetNextAllLink [] 0x15)) /\
  fst (pr_read_packet 20 false (reader_of [0x02; 0x62; 0x54; 0x88; 0x55; 0x1f; 0x2f; 0x00; 0x00; 0x00; 0x00; 0x00; 0x00; 0x00; 0x00; 0x00; 0x00; 0x00;
                                           0x00; 0x00; 0x00; 0xd1; 0x06])) =
    Ret (inl (mkPkt pc_SendInsteonMsg [0; 0; 0; 0x54; 0x88; 0x55; 0x1f; 0x2f; 0x00; 0x00; 0x00; 0x00; 0x00; 0x00; 0x00; 0x00; 0x00; 0x00; 0x00; 0x00;
                                       0x00; 0x00; 0xd1] 0x06)).
Proof. vm_compute. repeat split. Qed.

(** plm/string_test.go:10-38; [ctrlLink] is ControllerLink(1, 04.05.06). *)
Example TestStrings :
  map cfg_string [0x80; 0x40; 0x20; 0x10; 0xF0] = [zs "L..."; zs ".M.."; zs "..A."; zs "...D"; zs "LMAD"] /\
  fmt_d_byte 42 = zs "42" /\
  plm_info_string (mkInfo 0x010203 4 5 6) = zs "01.02.03 category 04.05 version 6" /\
  mrr_string 0x25 (controller_link 1 0x040506) = zs "25 UC 1 04.05.06 0x00 0x00 0x00" /\
  alr_string 0x42 22 = zs "42 22" /\
  pkt_string (mkPkt pc_GetInfo [] 0x06) = Ret (zs "Get Info ACK") /\
  pkt_string (mkPkt pc_GetInfo [] 0x15) = Ret (zs "Get Info NAK").
Proof. vm_compute. repeat split. Qed.

(** plm/linkdb_test.go:19-50. *)
Example TestMarshalUnmarshalBinary :
  mrr_unmarshal [lc_FindFirst; Z.lor rcf_UnavailableController 0x02; 0x42; 4; 5; 6; 0; 0; 0] = Ret (lc_FindFirst, controller_link 0x42 0x040506, None) /\
  mrr_marshal lc_FindFirst (controller_link 0x42 0x040506) = [lc_FindFirst; Z.lor rcf_UnavailableController 0x02; 0x42; 4; 5; 6; 0; 0; 0] /\
  alr_unmarshal (0, 0) [0x42; 0x75] = ((0x42, 0x75), None) /\ alr_marshal 0x42 0x75 = [0x42; 0x75] /\
  match snd (alr_unmarshal (0, 0) []) with Some e => errors_is e EBufferTooShort | None => false end = true.
Proof. vm_compute. repeat split. Qed.

(** plm/linkdb_test.go:52-63: an hour; the clock of the model starts with the zero time at 0, and 2000000 is some later moment. *)
Example TestLinkDBOld : pdb_old 2000000 (mkPdb 0 [] 0 3600) = true /\ pdb_old 2000000 (mkPdb 2000000 [] 0 3600) = false.
Proof. vm_compute. repeat split. Qed.

(** plm/linkdb_test.go:65-97: the modem of the tests. *)
Record test_modem : Type := mkTM { tm_rx : list packet; tm_rxErr : option error; tm_tx : list packet; tm_txErr : option error; tm_ack : list packet }.
Definition test_plm : packet_writer test_modem :=
  mkPW
    (fun pkt w =>
       let tx := tm_tx w ++ [pkt] in
       match tm_ack w with
       | a :: rest => (Ret (Some a, if p_ack a =? 0x15 then Some EPlmNak else tm_txErr w), mkTM (tm_rx w) (tm_rxErr w) tx (tm_txErr w) rest)
       | [] => (Ret (None, match tm_txErr w with None => Some (EOther 900) | e => e end), mkTM (tm_rx w) (tm_rxErr w) tx (tm_txErr w) [])
       end)
    (fun w =>
       match tm_rx w with
       | p :: rest => (Ret (Some p, tm_rxErr w), mkTM rest (tm_rxErr w) (tm_tx w) (tm_txErr w) (tm_ack w))
       | [] => (Ret (None, match tm_rxErr w with None => Some (EOther 901) | e => e end), w)
       end).

(** plm/linkdb_test.go:99-166: links, error and packets sent; only the error is looked at when there is one. *)
Definition refresh_test (age timeout : Z) (rx : list packet) (rxErr : option error) (ack : list packet) : option (list link * option error * list packet) :=
  match pdb_links 20 test_plm 2000000 (mkPdb age [] 0 timeout, mkTM rx rxErr [] None ack) with
  | (Ret (ls, err), (_, w)) => Some (ls, err, tm_tx w)
  | _ => None
  end.
Definition pkt_link (l : link) : packet := mkPkt pc_AllLinkRecordResp (link_marshal l) 0.
Example TestLinkDBRefresh :
  refresh_test 0 0 [pkt_link (controller_link 42 0x010203)] None [mkPkt pc_GetFirstAllLink [] 0x06; mkPkt pc_GetNextAllLink [] 0x15] =
    Some ([controller_link 42 0x010203], None, [mkPkt pc_GetFirstAllLink [] 0; mkPkt pc_GetNextAllLink [] 0]) /\
  refresh_test 0 0 [pkt_link (controller_link 42 0x010203); pkt_link (controller_link 35 0x040506)] None
      [mkPkt pc_GetFirstAllLink [] 0x06; mkPkt pc_GetNextAllLink [] 0x06; mkPkt pc_GetNextAllLink [] 0x15] =
    Some ([controller_link 42 0x010203; controller_link 35 0x040506], None,
          [mkPkt pc_GetFirstAllLink [] 0; mkPkt pc_GetNextAllLink [] 0; mkPkt pc_GetNextAllLink [] 0]) /\
  refresh_test (2000000 + 42 * 3600) 0 [] None [] = Some ([], None, []) /\
  (exists ls tx, refresh_test 0 (-3600) [] (Some EPlmReadTimeout) [mkPkt pc_GetFirstAllLink [] 0] = Some (ls, Some EPlmReadTimeout, tx)).
Proof. vm_compute. repeat split. do 2 eexists; reflexivity. Qed.

(** plm/linkdb_test.go:168-199. *)
Definition command_test (p : prog test_modem (option error)) : option (list packet) :=
  match p (mkTM [] None [] None [mkPkt 0 [] 0x06]) with (Ret None, w) => Some (tm_tx w) | _ => None end.
Example TestLinkdbCommand :
  command_test (pdb_enter_linking test_plm 42) = Some [mkPkt pc_StartAllLink (alr_marshal 0x03 42) 0] /\
  command_test (pdb_exit_linking test_plm) = Some [mkPkt pc_CancelAllLink [] 0] /\
  command_test (pdb_enter_unlinking test_plm 42) = Some [mkPkt pc_StartAllLink (alr_marshal 0xff 42) 0].
Proof. vm_compute. repeat split. Qed.
