(** Independent specification of what a modem sends: frames and how they decode. *)
From Coq Require Import ZArith List Bool.
From Verif Require Import GoBase PlmPacket PlmReader.
Import ListNotations.
Open Scope Z_scope.

(** Total frame sizes (start byte included) a modem uses towards the host, by command; [None]: no such command.
    0x62 is the echo of a standard message; the echo of an extended one is 14 bytes longer. *)
Definition frame_size (cmd : Z) : option nat :=
  match cmd with
  | 0x15 => Some 3%nat
  | 0x50 => Some 11%nat | 0x51 => Some 25%nat | 0x52 => Some 4%nat | 0x53 => Some 10%nat
  | 0x54 => Some 3%nat | 0x55 => Some 2%nat | 0x56 => Some 7%nat | 0x57 => Some 10%nat | 0x58 => Some 3%nat
  | 0x60 => Some 9%nat | 0x61 => Some 6%nat | 0x62 => Some 9%nat | 0x63 => Some 5%nat
  | 0x64 => Some 5%nat | 0x65 => Some 3%nat | 0x66 => Some 6%nat | 0x67 => Some 3%nat | 0x68 => Some 4%nat
  | 0x69 => Some 3%nat | 0x6a => Some 3%nat | 0x6b => Some 4%nat | 0x6c => Some 3%nat | 0x6d => Some 3%nat
  | 0x6e => Some 3%nat | 0x6f => Some 12%nat | 0x70 => Some 4%nat | 0x71 => Some 5%nat | 0x72 => Some 3%nat
  | 0x73 => Some 6%nat
  | _ => None
  end.

(** Frames as cut from a stream.  With [host = false] these are the frames a modem sends.  For 0x62 bit 4 of the message
    flags (the fourth body byte) says extended.  With [host = true] they are what the code takes the host-to-modem
    direction to look like: commands 0x60..0x64 without an acknowledgement byte. *)
Inductive rx_frame (host : bool) : Z -> list Z -> Prop :=
| rx_plain : forall cmd body n, frame_size cmd = Some n -> cmd <> 0x62 ->
    length body = (n - 2 - (if host && (0x60 <=? cmd)%Z && (cmd <=? 0x64)%Z then 1 else 0))%nat ->
    rx_frame host cmd body
| rx_message : forall a b c f c1 c2 data ack,
    length data = (if ((f / 16) mod 2 =? 1)%Z then 14 else 0)%nat -> is_byte f ->
    length ack = (if host then 0 else 1)%nat ->
    rx_frame host 0x62 ([a; b; c; f; c1; c2] ++ data ++ ack).
Definition modem_frame := rx_frame false.

Definition frame_bytes (cmd : Z) (body : list Z) : list Z := 0x02 :: cmd :: body.

(** What is to be got from a frame: unsolicited frames (below 0x60) carry only a payload, replies end in
    an acknowledgement byte; the echo of a sent message is given a zero source address. *)
Inductive decodes (host : bool) : Z -> list Z -> packet -> Prop :=
| dec_unsolicited : forall cmd body, cmd < 0x60 -> decodes host cmd body (mkPkt cmd body 0)
| dec_reply : forall cmd front ack, 0x60 <= cmd -> cmd <> 0x62 -> host = false \/ 0x64 < cmd ->
    decodes host cmd (front ++ [ack]) (mkPkt cmd front ack)
| dec_echo : forall front ack, host = false ->
    decodes host 0x62 (front ++ [ack]) (mkPkt 0x62 ([0; 0; 0] ++ front) ack)
| dec_host : forall cmd body, host = true -> 0x60 <= cmd <= 0x64 -> cmd <> 0x62 ->
    decodes host cmd body (mkPkt cmd body 0)
| dec_host_message : forall body, host = true ->
    decodes host 0x62 body (mkPkt 0x62 ([0; 0; 0] ++ body) 0).

(** The bytes a reader will still see. *)
Definition stream (b : bufrd) : list Z := b_buf b ++ concat (b_chunks b).

(** A start byte followed by a known command. *)
Definition frame_start (l : list Z) : Prop := exists c t, l = 0x02 :: c :: t /\ frame_size c <> None.
(** No frame starts anywhere inside [l]. *)
Definition gap (l : list Z) : Prop := forall k, ~ frame_start (skipn k l).
