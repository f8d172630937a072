(** Independent description of what the displayed texts must and need not tell, in plain arithmetic. *)
From Coq Require Import ZArith List Bool String.
From Verif Require Import GoBase GoText Message Link LinkText PlmPacket DevLinkdb.
Import ListNotations.
Open Scope Z_scope.

(** ** Commands and messages *)

(** The two generations of the ramp commands carry the same two names; [r] is the rate byte. *)
Definition ramp_twins (a b : Z) : Prop :=
  exists r, is_byte r /\
    ((a = 0x2e00 + r /\ b = 0x3400 + r) \/ (a = 0x2f00 + r /\ b = 0x3500 + r)).
Definition named_alike (a b : Z) : Prop := a = b \/ ramp_twins a b \/ ramp_twins b a.

(** The kind of a flags byte is its top three bits: 6 is an all-link broadcast, 1 and 3 are acknowledgements; then one bit for extended. *)
Definition all_link_flags (f : Z) : Prop := f / 32 = 6.
Definition ack_flags (f : Z) : Prop := f / 32 = 1 \/ f / 32 = 3.
Definition ext_flags (f : Z) : Prop := (f / 16) mod 2 = 1.

Definition word24 (c : Z) : Prop := 0 <= c < 16777216.
Definition msg_ok (m : message) : Prop :=
  word24 (m_src m) /\ word24 (m_dst m) /\ is_byte (m_flags m) /\ word24 (m_cmd m) /\ bytes_ok (m_payload m).

(** Two messages a reader of the text cannot tell apart. *)
Definition shown_alike (m o : message) : Prop :=
  m_flags m = m_flags o /\ m_src m = m_src o /\
  m_dst m mod 256 = m_dst o mod 256 /\
  (~ all_link_flags (m_flags m) -> m_dst m = m_dst o) /\
  (ack_flags (m_flags m) -> m_cmd m mod 65536 = m_cmd o mod 65536) /\
  (~ ack_flags (m_flags m) -> named_alike (m_cmd m) (m_cmd o)) /\
  (ext_flags (m_flags m) -> m_payload m = m_payload o).

(** ** Documented names *)

(** plm/command.go:22-52, the comment of each constant. *)
Definition modem_names : list (Z * string) :=
  [ (0x15, "NAK");
    (0x50, "Std Msg Received"); (0x51, "Ext Msg Received"); (0x52, "X10 Msg Received"); (0x53, "All Link Complete");
    (0x54, "Button Event Report"); (0x55, "User Reset Detected"); (0x56, "Link Cleanup Report"); (0x57, "Link Record Resp");
    (0x58, "Link Cleanup Status");
    (0x60, "Get Info"); (0x61, "Send All Link"); (0x62, "Send INSTEON Msg"); (0x63, "Send X10 Msg"); (0x64, "Start All Link");
    (0x65, "Cancel All Link"); (0x66, "Set Host Category"); (0x67, "Reset"); (0x68, "Set ACK Msg"); (0x69, "Get First All Link");
    (0x6a, "Get Next All Link"); (0x6b, "Set Config"); (0x6c, "Get Sender All Link"); (0x6d, "LED On"); (0x6e, "LED Off");
    (0x6f, "Manage All Link Record"); (0x70, "Set NAK Msg Byte"); (0x71, "Set NAK Msg Two Bytes"); (0x72, "RF Sleep");
    (0x73, "Get Config") ]%string.
(** devices/thermostat.go:47-57, 60-63 and 90-97, the comments of the constants. *)
Definition mode_names : list (Z * string) :=
  [ (0, "Thermostat Off"); (1, "Heat Mode"); (2, "Cool Mode"); (3, "Auto Mode"); (4, "Fan On"); (5, "Program Auto");
    (6, "Program Heat"); (7, "Program Cool"); (8, "Fan Off") ]%string.
Definition speed_names : list (Z * string) :=
  [ (0, "Single Speed"); (1, "Low Speed"); (2, "Medium Speed"); (3, "High Speed") ]%string.

(** ** Packets, settings, records *)

(** The three endings of a packet: acknowledged, refused, or neither (always neither for what the modem sends unasked, below 0x60). *)
Inductive ending := Acked | Refused | Neither.
Definition ending_of (p : packet) (e : ending) : Prop :=
  match e with
  | Acked => 0x60 <= p_cmd p /\ p_ack p = 6
  | Refused => 0x60 <= p_cmd p /\ p_ack p = 21
  | Neither => p_cmd p < 0x60 \/ (p_ack p <> 6 /\ p_ack p <> 21)
  end.
Definition packet_ok (p : packet) : Prop := is_byte (p_cmd p) /\ bytes_ok (p_payload p) /\ is_byte (p_ack p).

Definition link_ok (l : link) : Prop :=
  is_byte (l_flags l) /\ is_byte (l_group l) /\ word24 (l_addr l) /\ is_byte (l_d0 l) /\ is_byte (l_d1 l) /\ is_byte (l_d2 l).
(** Same record but for the six low flag bits. *)
Definition record_alike (a b : link) : Prop :=
  l_flags a / 64 = l_flags b / 64 /\ l_group a = l_group b /\ l_addr a = l_addr b /\
  l_d0 a = l_d0 b /\ l_d1 a = l_d1 b /\ l_d2 a = l_d2 b.

Definition request_ok (r : linkreq) : Prop :=
  is_byte (lr_type r) /\ 0 <= lr_mem r < 65536 /\ match lr_link r with None => True | Some l => link_ok l end.
Definition request_alike (a b : linkreq) : Prop :=
  (lr_type a = lr_type b \/ (3 <= lr_type a /\ 3 <= lr_type b)) /\ lr_mem a = lr_mem b /\ lr_num a = lr_num b /\
  match lr_link a, lr_link b with
  | None, None => True
  | Some l, Some k => record_alike l k
  | _, _ => False
  end.

(** [listed_before a b]: the address of [a] is the smaller number, or the addresses agree and the group of [a] is smaller. *)
Definition listed_before (a b : link) : Prop :=
  l_addr a < l_addr b \/ (l_addr a = l_addr b /\ l_group a < l_group b).
