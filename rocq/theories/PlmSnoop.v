(** Model of plm/snoop.go and of the way cmd/isnoop/main.go uses it: two goroutines cut the two directions of a serial line
    into packets and put the Insteon messages among them on one channel; a third one reads from it. *)
From Coq Require Import ZArith List Bool.
From Verif Require Import GoBase Message PlmPacket PlmReader.
Import ListNotations.
Open Scope Z_scope.

(** plm/snoop.go:47-48: packets put on the channel. *)
Definition snoop_wanted (p : packet) : bool :=
  ((p_cmd p =? pc_StdMsgReceived) || (p_cmd p =? pc_ExtMsgReceived) || (p_cmd p =? pc_SendInsteonMsg)) &&
  negb (pkt_is_ack p).

(** plm/snoop.go:37-53 [readLoop], [n] rounds of it: the packets put on the channel and, when reading ended, the error. *)
Fixpoint snoop_loop (n : nat) (fuel : nat) (ignore_ack : bool) (b : bufrd)
  : outcome (list packet * option error) * bufrd :=
  match n with
  | O => (Ret ([], None), b)
  | S k =>
      match pr_read_packet fuel ignore_ack b with
      | (Ret (inr e), b1) => (Ret ([], Some e), b1)
      | (Panic, b1) => (Panic, b1)
      | (NoFuel, b1) => (NoFuel, b1)
      | (Ret (inl p), b1) =>
          match snoop_loop k fuel ignore_ack b1 with
          | (Ret (ps, e), b2) => (Ret (if snoop_wanted p then p :: ps else ps, e), b2)
          | (Panic, b2) => (Panic, b2)
          | (NoFuel, b2) => (NoFuel, b2)
          end
      end
  end.

(** plm/snoop.go:32-33: the direction from the modem is read with ignoreAck false, the one from the host with true. *)
Definition snoop_tx_loop (n fuel : nat) (b : bufrd) := snoop_loop n fuel false b.
Definition snoop_rx_loop (n fuel : nat) (b : bufrd) := snoop_loop n fuel true b.

(** plm/snoop.go:15-20 [Read], once a packet has come out of the channel. *)
Definition snoop_read (p : packet) : message * option error := msg_unmarshal msg_zero (p_payload p).

(** plm/snoop.go:22-25 [Write]. *)
Definition snoop_write (m : message) : option message * option error := (None, Some EPlmNotImplemented).

(** plm/snoop.go:28: capacity of the channel. *)
Definition snoop_cap : nat := 10.

(** State of the three goroutines: what the two loops have still to put on the channel, the channel, what has been read. *)
Record snoop_state : Type := mkSn {
  sn_rx : list packet; sn_tx : list packet; sn_buf : list packet; sn_out : list (message * option error)
}.
Definition snoop_start (rx tx : list packet) : snoop_state := mkSn rx tx [] [].

(** cmd/isnoop/main.go:75: reading goes on as long as there was no error (decoding errors are never time-outs). *)
Definition listening (s : snoop_state) : bool :=
  forallb (fun r => match snd r with None => true | Some _ => false end) (sn_out s).

(** One action of one goroutine: sending to a full channel and receiving from an empty one are not possible. *)
Inductive snoop_act := ARx | ATx | ARead.
Definition snoop_do (a : snoop_act) (s : snoop_state) : option snoop_state :=
  match a with
  | ARx => match sn_rx s with
           | p :: t => if Nat.ltb (length (sn_buf s)) snoop_cap
                       then Some (mkSn t (sn_tx s) (sn_buf s ++ [p]) (sn_out s)) else None
           | [] => None
           end
  | ATx => match sn_tx s with
           | p :: t => if Nat.ltb (length (sn_buf s)) snoop_cap
                       then Some (mkSn (sn_rx s) t (sn_buf s ++ [p]) (sn_out s)) else None
           | [] => None
           end
  | ARead => match sn_buf s with
             | p :: t => if listening s then Some (mkSn (sn_rx s) (sn_tx s) t (sn_out s ++ [snoop_read p])) else None
             | [] => None
             end
  end.
Fixpoint snoop_run (acts : list snoop_act) (s : snoop_state) : option snoop_state :=
  match acts with
  | [] => Some s
  | a :: t => match snoop_do a s with Some s1 => snoop_run t s1 | None => None end
  end.
