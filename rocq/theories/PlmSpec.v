(** Independent specifications for the PLM: bounded queues, retries, acknowledgements. *)
From Coq Require Import ZArith List Bool.
From Verif Require Import GoBase Message PlmPacket PlmReader PlmReaderSpec Plm.
Import ListNotations.
Open Scope Z_scope.

(** ** A lossy queue of ten places *)
Inductive qact : Type := Arr (p : packet) | Out (p : packet).
(** [fifo h q]: history [h] (oldest first) is possible for such a queue and leaves it holding [q]. *)
Inductive fifo : list qact -> list packet -> Prop :=
| fifo_start : fifo [] []
| fifo_kept : forall h q p, fifo h q -> (length q < 10)%nat -> fifo (h ++ [Arr p]) (q ++ [p])
| fifo_lost : forall h q p, fifo h q -> length q = 10%nat -> fifo (h ++ [Arr p]) q
| fifo_out : forall h q p, fifo h (p :: q) -> fifo (h ++ [Out p]) q.
Definition arrivals (h : list qact) : list packet := flat_map (fun a => match a with Arr p => [p] | Out _ => [] end) h.
Definition takings (h : list qact) : list packet := flat_map (fun a => match a with Arr _ => [] | Out p => [p] end) h.

(** The packets among a list of events that arrive before the stream ends. *)
Fixpoint live (es : list event) : list packet :=
  match es with [] => [] | EvEnd :: _ => [] | EvPacket p :: t => p :: live t end.
(** Insteon messages from the network: commands 0x50 and 0x51. *)
Definition network_message (p : packet) : bool := (p_cmd p =? 0x50) || (p_cmd p =? 0x51).
Definition goes_to (q : which) (p : packet) : bool := match q with QMsg => network_message p | QPkt => negb (network_message p) end.

(** Clients calling receive one after the other, each on the queue it names. *)
Fixpoint clients (sc : schedule) (ops : list which) (st : plm) : list (which * received) * plm :=
  match ops with
  | [] => ([], st)
  | q :: t => match receive sc q st with (r, st1) => match clients sc t st1 with (rs, st2) => ((q, r) :: rs, st2) end end
  end.
Definition which_eqb (a b : which) : bool := match a, b with QMsg, QMsg | QPkt, QPkt => true | _, _ => false end.
(** What clients of queue [q] got. *)
Definition got (q : which) (rs : list (which * received)) : list packet :=
  flat_map (fun x => match x with (q', RPacket p) => if which_eqb q q' then [p] else [] | _ => [] end) rs.
(** All events of [n] steps of a schedule. *)
Fixpoint events_from (sc : schedule) (t n : nat) : list event :=
  match n with O => [] | S k => s_before (sc t) ++ s_wait (sc t) ++ events_from sc (S t) k end.

(** A freshly opened PLM. *)
Definition fresh (st : plm) : Prop := p_msgq st = [] /\ p_pktq st = [] /\ p_closed st = false.

(** ** Packets a PLM may come to see *)
Definition sched_all (P : packet -> Prop) (sc : schedule) : Prop :=
  forall t p, In (EvPacket p) (s_before (sc t)) \/ In (EvPacket p) (s_wait (sc t)) -> P p.
Definition queues_all (P : packet -> Prop) (st : plm) : Prop := Forall P (p_msgq st) /\ Forall P (p_pktq st).
(** Only packets the packet reader can deliver. *)
Definition from_reader (p : packet) : Prop := exists body, modem_frame (p_cmd p) body /\ decodes false (p_cmd p) body p.
(** The port never fails on the reading side. *)
Definition no_end (sc : schedule) : Prop := forall t, ~ In EvEnd (s_before (sc t)) /\ ~ In EvEnd (s_wait (sc t)).

(** ** Matching acknowledgement of a command *)
Definition echoes (pkt a : packet) : Prop :=
  p_cmd a = p_cmd pkt /\
  (p_cmd pkt = 0x60 \/ p_cmd pkt = 0x73 \/
   (p_cmd pkt = 0x62 /\ exists x y z, p_payload a = x :: y :: z :: p_payload pkt) \/
   (p_cmd pkt <> 0x62 /\ p_payload a = p_payload pkt)).
Definition good_ack (pkt a : packet) : Prop := 0x60 <= p_cmd a /\ p_ack a = 0x06 /\ echoes pkt a.
Definition nak_reply (a : packet) : Prop := 0x60 <= p_cmd a /\ p_ack a = 0x15.

(** ** Retries *)
(** A packet writer that also writes down every transmission and its outcome. *)
Definition logged {W} (pw : packet_writer W) : packet_writer (W * list (packet * outcome pw_result)) :=
  mkPW (fun pkt wl => match pw_write pw pkt (fst wl) with (r, w1) => (r, (w1, snd wl ++ [(pkt, r)])) end)
       (fun wl => match pw_read pw (fst wl) with (r, w1) => (r, (w1, snd wl)) end).
(** Outcomes after which a command is to be sent again. *)
Definition again (retry_nak : bool) (r : outcome pw_result) : Prop :=
  exists ack e, r = Ret (ack, Some e) /\ ((e = EPlmNak /\ retry_nak = true) \/ e = EPlmReadTimeout).

(** Only reader-made packets in the queues, and the port open. *)
Definition sound (st : plm) : Prop := queues_all from_reader st /\ p_closed st = false.
(** Nothing happens. *)
Definition quiet : schedule := fun _ => mkStep [] [] false None.
