(** Model of plm/port.go:105-218: the packet reader, over a bufio.Reader over an io.Reader that
    delivers its bytes in arbitrary chunks and then fails for ever with a fixed error. *)
From Coq Require Import ZArith List Bool.
From Verif Require Import GoBase Message PlmPacket.
Import ListNotations.
Open Scope Z_scope.

(** bufio.Reader: unread part of the buffer, the last byte read (for UnreadByte), the chunks the underlying
    reader will still deliver, and the error it then returns.
    Simplification: empty reads (0, nil) are skipped without bufio's limit of 100. *)
Record bufrd : Type := mkBuf {
  b_buf : list Z; b_last : option Z; b_chunks : list (list Z); b_end : error
}.

(** bufio.Reader.fill when the buffer is empty: next non-empty chunk. *)
Fixpoint next_chunk (cs : list (list Z)) : option (list Z * list (list Z)) :=
  match cs with
  | [] => None
  | [] :: t => next_chunk t
  | c :: t => Some (c, t)
  end.

(** bufio.Reader.ReadByte: byte (0 on error), error, new state. *)
Definition read_byte (b : bufrd) : Z * option error * bufrd :=
  match b_buf b with
  | c :: t => (c, None, mkBuf t (Some c) (b_chunks b) (b_end b))
  | [] =>
      match next_chunk (b_chunks b) with
      | Some (c :: t, cs) => (c, None, mkBuf t (Some c) cs (b_end b))
      | _ => (0, Some (b_end b), mkBuf [] (b_last b) [] (b_end b))
      end
  end.

(** bufio.Reader.UnreadByte (bufio.ErrInvalidUnreadByte when there is nothing to unread). *)
Definition unread_byte (b : bufrd) : option error * bufrd :=
  match b_last b with
  | Some c => (None, mkBuf (c :: b_buf b) None (b_chunks b) (b_end b))
  | None => (Some (EOther 1), b)
  end.

(** io.ReadAtLeast(r, buf[:n], n) and io.ReadFull: bytes obtained, error, new state.  The loop over Read calls is
    modelled byte by byte; a short read reports io.ErrUnexpectedEOF when some bytes were read and the stream
    ended with io.EOF. *)
Fixpoint read_full_go (got : bool) (n : nat) (b : bufrd) : list Z * option error * bufrd :=
  match n with
  | O => ([], None, b)
  | S k =>
      match read_byte b with
      | (c, None, b1) =>
          match read_full_go true k b1 with (cs, e, b2) => (c :: cs, e, b2) end
      | (_, Some e, b1) => ([], Some (if got && error_eqb e EEOF then EUnexpectedEOF else e), b1)
      end
  end.
Definition read_full (n : nat) (b : bufrd) := read_full_go false n b.

(** plm/port.go:152-184 [sync]: command and number of bytes still to read, or an error. *)
Fixpoint pr_sync (fuel : nat) (ignore_ack : bool) (b : bufrd) : outcome ((Z * Z) + error) * bufrd :=
  match fuel with
  | O => (NoFuel, b)
  | S k =>
      match read_byte b with
      | (_, Some e, b1) => (Ret (inr e), b1)
      | (c, None, b1) =>
          if negb (c =? 0x02) then pr_sync k ignore_ack b1
          else
            match read_byte b1 with
            | (c2, _, b2) =>
                match command_len c2 with
                | Some n =>
                    let n' := if ignore_ack && (0x60 <=? c2) && (c2 <=? 0x64) then n - 1 else n in
                    (Ret (inl (c2, n')), b2)
                | None =>
                    match unread_byte b2 with
                    | (None, b3) => pr_sync k ignore_ack b3
                    | (Some e, b3) => (Ret (inr e), b3)
                    end
                end
            end
      end
  end.

(** plm/port.go:134 and plm/packet.go:21: size of the packet buffer. *)
Definition max_paclen : Z := 25.

(** plm/port.go:186-206 [read]: the bytes of one packet, or an error.  Slicing the fixed buffer beyond its end panics. *)
Definition pr_read (fuel : nat) (ignore_ack : bool) (b : bufrd) : outcome (list Z + error) * bufrd :=
  match pr_sync fuel ignore_ack b with
  | (Ret (inr e), b1) => (Ret (inr e), b1)
  | (Panic, b1) => (Panic, b1)
  | (NoFuel, b1) => (NoFuel, b1)
  | (Ret (inl (c, n)), b1) =>
      if (n <? 0) || (max_paclen <? 2 + n) then (Panic, b1)
      else
        match read_full (Z.to_nat n) b1 with
        | (_, Some e, b2) => (Ret (inr e), b2)
        | (body, None, b2) =>
            let buf := [0x02; c] ++ body in
            if (c =? pc_SendInsteonMsg) && fl_extended (nth 5 buf 0) then
              if max_paclen <? zlen buf + 14 then (Panic, b2)
              else match read_full 14 b2 with
                   | (_, Some e, b3) => (Ret (inr e), b3)
                   | (more, None, b3) => (Ret (inl (buf ++ more)), b3)
                   end
            else (Ret (inl buf), b2)
        end
  end.

(** plm/port.go:208-218 [ReadPacket]. *)
Definition pr_read_packet (fuel : nat) (ignore_ack : bool) (b : bufrd) : outcome (packet + error) * bufrd :=
  match pr_read fuel ignore_ack b with
  | (Ret (inr e), b1) => (Ret (inr e), b1)
  | (Panic, b1) => (Panic, b1)
  | (NoFuel, b1) => (NoFuel, b1)
  | (Ret (inl buf), b1) =>
      match pkt_unmarshal pkt_zero buf with
      | Ret (p, None) => (Ret (inl p), b1)
      | Ret (_, Some e) => (Ret (inr e), b1)
      | Panic => (Panic, b1)
      | NoFuel => (NoFuel, b1)
      end
  end.

(** Read up to [n] packets in a row, as plm/plm.go:94-104 and plm/snoop.go:33-40 do: the packets read and, when reading
    stopped early, the error. *)
Fixpoint pr_read_packets (n : nat) (fuel : nat) (ignore_ack : bool) (b : bufrd)
  : outcome (list packet * option error) * bufrd :=
  match n with
  | O => (Ret ([], None), b)
  | S k =>
      match pr_read_packet fuel ignore_ack b with
      | (Ret (inr e), b1) => (Ret ([], Some e), b1)
      | (Panic, b1) => (Panic, b1)
      | (NoFuel, b1) => (NoFuel, b1)
      | (Ret (inl p), b1) =>
          match pr_read_packets k fuel ignore_ack b1 with
          | (Ret (ps, e), b2) => (Ret (p :: ps, e), b2)
          | (Panic, b2) => (Panic, b2)
          | (NoFuel, b2) => (NoFuel, b2)
          end
      end
  end.
