(** Model of plm/command.go and plm/packet.go: modem commands and packets. *)
From Coq Require Import ZArith List Bool.
From Verif Require Import GoBase.
Import ListNotations.
Open Scope Z_scope.

(** plm/command.go:22-53. *)
Definition pc_Nak : Z := 0x15.
Definition pc_StdMsgReceived : Z := 0x50.
Definition pc_ExtMsgReceived : Z := 0x51.
Definition pc_X10MsgReceived : Z := 0x52.
Definition pc_AllLinkComplete : Z := 0x53.
Definition pc_ButtonEventReport : Z := 0x54.
Definition pc_UserResetDetected : Z := 0x55.
Definition pc_AllLinkCleanupFailure : Z := 0x56.
Definition pc_AllLinkRecordResp : Z := 0x57.
Definition pc_AllLinkCleanupStatus : Z := 0x58.
Definition pc_GetInfo : Z := 0x60.
Definition pc_SendAllLink : Z := 0x61.
Definition pc_SendInsteonMsg : Z := 0x62.
Definition pc_SendX10 : Z := 0x63.
Definition pc_StartAllLink : Z := 0x64.
Definition pc_CancelAllLink : Z := 0x65.
Definition pc_SetHostCategory : Z := 0x66.
Definition pc_Reset : Z := 0x67.
Definition pc_SetAckMsg : Z := 0x68.
Definition pc_GetFirstAllLink : Z := 0x69.
Definition pc_GetNextAllLink : Z := 0x6a.
Definition pc_SetConfig : Z := 0x6b.
Definition pc_GetAllLinkForSender : Z := 0x6c.
Definition pc_LedOn : Z := 0x6d.
Definition pc_LedOff : Z := 0x6e.
Definition pc_ManageAllLinkRecord : Z := 0x6f.
Definition pc_SetNakMsgByte : Z := 0x70.
Definition pc_SetNakMsgTwoBytes : Z := 0x71.
Definition pc_RfSleep : Z := 0x72.
Definition pc_GetConfig : Z := 0x73.

(** plm/command.go:55-88 [commandLens]: the map as an association list. *)
Definition command_lens_table : list (Z * Z) :=
  [(pc_Nak, 1); (pc_StdMsgReceived, 9); (pc_ExtMsgReceived, 23); (pc_X10MsgReceived, 2);
   (pc_AllLinkComplete, 8); (pc_ButtonEventReport, 1); (pc_UserResetDetected, 0);
   (pc_AllLinkCleanupFailure, 5); (pc_AllLinkRecordResp, 8); (pc_AllLinkCleanupStatus, 1);
   (pc_GetInfo, 7); (pc_SendAllLink, 4); (pc_SendInsteonMsg, 7); (pc_SendX10, 3);
   (pc_StartAllLink, 3); (pc_CancelAllLink, 1); (pc_SetHostCategory, 4); (pc_Reset, 1);
   (pc_SetAckMsg, 2); (pc_GetFirstAllLink, 1); (pc_GetNextAllLink, 1); (pc_SetConfig, 2);
   (pc_GetAllLinkForSender, 1); (pc_LedOn, 1); (pc_LedOff, 1); (pc_ManageAllLinkRecord, 10);
   (pc_SetNakMsgByte, 2); (pc_SetNakMsgTwoBytes, 3); (pc_RfSleep, 1); (pc_GetConfig, 4)].

Fixpoint assoc (k : Z) (l : list (Z * Z)) : option Z :=
  match l with
  | [] => None
  | (a, v) :: t => if a =? k then Some v else assoc k t
  end.
(** [commandLens[c]] with the comma-ok form. *)
Definition command_len (c : Z) : option Z := assoc c command_lens_table.

(** plm/packet.go:23-27 [Packet]. *)
Record packet : Type := mkPkt { p_cmd : Z; p_payload : list Z; p_ack : Z }.
Definition pkt_zero : packet := mkPkt 0 [] 0.

(** plm/packet.go:29-41 [ACK], [NAK]. *)
Definition pkt_is_ack (p : packet) : bool := if 0x60 <=? p_cmd p then p_ack p =? 0x06 else false.
Definition pkt_is_nak (p : packet) : bool := if 0x60 <=? p_cmd p then p_ack p =? 0x15 else false.

(** plm/packet.go:81-89 [MarshalBinary]: the error is always nil. *)
Definition pkt_marshal (p : packet) : list Z := [0x02; p_cmd p] ++ p_payload p.

(** Last element and the rest, as in [buf[len(buf)-1]] and [buf[0:len(buf)-1]]; panics on an empty slice. *)
Definition split_last (buf : list Z) : outcome (list Z * Z) :=
  match buf with [] => Panic | _ => Ret (removelast buf, last buf 0) end.

(** plm/packet.go:91-123 [UnmarshalBinary] on receiver [old]. *)
Definition pkt_unmarshal (old : packet) (buf : list Z) : outcome (packet * option error) :=
  match buf with
  | [] => Panic                                       (* buf[0] out of range *)
  | b0 :: t =>
      if negb (b0 =? 0x02) then Ret (old, Some EPlmNoSync)
      else match t with
      | [] => Panic                                   (* buf[1] out of range *)
      | c :: body =>
          let pl0 := if c =? pc_SendInsteonMsg then zeros 3 else p_payload old in
          let has_ack :=
            (0x60 <=? c) && (c <=? 0x7f) &&
            (if c =? pc_SendInsteonMsg then (zlen body =? 21) || (zlen body =? 7)
             else zlen body =? match command_len c with Some n => n | None => 0 end) in
          if has_ack then
            let! (front, a) := split_last body in
            Ret (mkPkt c (pl0 ++ front) a, None)
          else Ret (mkPkt c (pl0 ++ body) (p_ack old), None)
      end
  end.
