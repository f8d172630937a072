(** Independent specification of the traffic on a serial line between a host and a modem. *)
From Coq Require Import ZArith List Bool.
From Verif Require Import GoBase Message MessageSpec PlmReaderSpec PlmSnoop.
Import ListNotations.
Open Scope Z_scope.

(** The message laid out in some bytes. *)
Inductive line_message : list Z -> message -> Prop :=
| lm : forall src dst f c1 c2 data b k e left max,
    msg_layout src dst f c1 c2 data b -> flags_layout f k e left max ->
    line_message b (mkMsg src dst f (class_of k e * 65536 + c1 * 256 + c2) data).

(** Frames the host sends (sizes with the two leading bytes): commands without acknowledgement. *)
Definition host_size (cmd : Z) : option nat :=
  match cmd with
  | 0x60 => Some 2%nat | 0x61 => Some 5%nat | 0x63 => Some 4%nat | 0x64 => Some 4%nat | 0x65 => Some 2%nat
  | 0x66 => Some 5%nat | 0x67 => Some 2%nat | 0x68 => Some 3%nat | 0x69 => Some 2%nat | 0x6a => Some 2%nat
  | 0x6b => Some 3%nat | 0x6c => Some 2%nat | 0x6d => Some 2%nat | 0x6e => Some 2%nat | 0x6f => Some 11%nat
  | 0x70 => Some 3%nat | 0x71 => Some 4%nat | 0x72 => Some 2%nat | 0x73 => Some 2%nat
  | _ => None
  end.
Inductive host_frame : Z -> list Z -> Prop :=
| hf_plain : forall cmd body n, host_size cmd = Some n -> length body = (n - 2)%nat -> host_frame cmd body
| hf_message : forall a b c f c1 c2 data,
    length data = (if ((f / 16) mod 2 =? 1)%Z then 14 else 0)%nat -> is_byte f ->
    host_frame 0x62 ([a; b; c; f; c1; c2] ++ data).

(** The Insteon messages that a frame from the modem stands for: received messages. *)
Inductive modem_traffic : Z -> list Z -> list message -> Prop :=
| mt_std : forall body m, line_message body m -> modem_traffic 0x50 body [m]
| mt_ext : forall body m, line_message body m -> modem_traffic 0x51 body [m]
| mt_other : forall cmd body, cmd <> 0x50 -> cmd <> 0x51 -> modem_traffic cmd body [].
(** And a frame from the host: a message sent; the host does not say the source address. *)
Inductive host_traffic : Z -> list Z -> list message -> Prop :=
| ht_msg : forall body m, line_message ([0; 0; 0] ++ body) m -> host_traffic 0x62 body [m]
| ht_other : forall cmd body, cmd <> 0x62 -> host_traffic cmd body [].

(** What the code shows of the modem's frames: also echoes that are not positive acknowledgements. *)
Inductive modem_shown : Z -> list Z -> list message -> Prop :=
| ms_traffic : forall cmd body ms, cmd <> 0x62 -> modem_traffic cmd body ms -> modem_shown cmd body ms
| ms_acked : forall front, modem_shown 0x62 (front ++ [0x06]) []
| ms_refused : forall front ack m, ack <> 0x06 -> line_message ([0; 0; 0] ++ front) m ->
    modem_shown 0x62 (front ++ [ack]) [m].

(** [m] is an interleaving of [l] and [r]. *)
Inductive merge {A} : list A -> list A -> list A -> Prop :=
| merge_nil : merge [] [] []
| merge_left : forall a l r m, merge l r m -> merge (a :: l) r (a :: m)
| merge_right : forall a l r m, merge l r m -> merge l (a :: r) (a :: m).

(** Nothing more can happen. *)
Definition snoop_stuck (s : snoop_state) : Prop := forall a, snoop_do a s = None.
(** The bytes of a session: frames with noise before each and after the last. *)
Definition session (items : list (list Z * Z * list Z)) (tail : list Z) : list Z :=
  flat_map (fun it => match it with (noise, cmd, body) => noise ++ frame_bytes cmd body end) items ++ tail.
