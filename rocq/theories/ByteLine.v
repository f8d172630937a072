(** The reader goroutine of the modem between the bytes of the serial port and the packets of Plm.v: plm/plm.go:94-120 over
    plm/port.go:105-218, when bytes arrive bit by bit while commands are going on. *)
From Coq Require Import ZArith List Bool.
From Verif Require Import GoBase PlmPacket PlmReader Plm.
Import ListNotations.
Open Scope Z_scope.

(** plm/plm.go:95-96 with plm/port.go:208-218: the packets the goroutine gets out of the bytes that are there, and the bytes it then
    still holds.  Simplification: a goroutine blocked in the middle of a packet is taken back to where the search for that packet began;
    it goes over the same bytes again when more are there.  A read that runs out of bytes, with an error or (a lone start byte) in an
    endless loop, stands for being blocked. *)
Fixpoint drain_go (n : nat) (bs : list Z) : list packet * list Z :=
  match n with
  | O => ([], bs)
  | S k =>
      match pr_read_packet (S (length bs)) false (mkBuf [] None [bs] EEOF) with
      | (Ret (inl p), b1) => match drain_go k (b_buf b1 ++ concat (b_chunks b1)) with (ps, r) => (p :: ps, r) end
      | _ => ([], bs)
      end
  end.
Definition drain (bs : list Z) : list packet * list Z := drain_go (S (length bs)) bs.
(** plm/plm.go:97-104: the port fails while the goroutine holds [bs].  It ends, unless the search for a packet never returns. *)
Definition end_events (bs : list Z) : list event :=
  match pr_read_packet (S (length bs)) false (mkBuf [] None [bs] EEOF) with
  | (Ret (inr _), _) => [EvEnd]
  | _ => []
  end.

(** What the port does during one operation of a client: the bytes that arrive before it and while it waits, whether the timer fires,
    the outcome of a write, and whether reading fails for good after these bytes. *)
Record bstep : Type := mkB { bs_before : list Z; bs_wait : list Z; bs_late : bool; bs_werr : option error; bs_end : bool }.
(** The goroutine: the bytes it holds, or nothing once reading has failed. *)
Definition arrive (l : option (list Z)) (bs : list Z) : list event * option (list Z) :=
  match l with
  | None => ([], None)
  | Some pend => match drain (pend ++ bs) with (ps, r) => (map EvPacket ps, Some r) end
  end.
Definition hang_up (l : option (list Z)) (e : bool) : list event * option (list Z) :=
  if e then (match l with Some pend => end_events pend | None => [] end, None) else ([], l).
Definition line_step (l : option (list Z)) (s : bstep) : step * option (list Z) :=
  match arrive l (bs_before s) with
  | (ev1, l1) =>
      match arrive l1 (bs_wait s) with
      | (ev2, l2) =>
          match hang_up l2 (bs_end s) with
          | (ev3, l3) => (mkStep ev1 (ev2 ++ ev3) (bs_late s) (bs_werr s), l3)
          end
      end
  end.
(** A port that starts empty, and the schedule of packets it amounts to.  A write does not wait (plm/plm.go:152): what is to arrive
    while a write waits never does, as everywhere in Plm.v. *)
Fixpoint line_at (bs : nat -> bstep) (t : nat) : option (list Z) :=
  match t with
  | O => Some []
  | S k => snd (line_step (line_at bs k) (bs k))
  end.
Definition byte_schedule (bs : nat -> bstep) : schedule := fun t => fst (line_step (line_at bs t) (bs t)).
