(** Model of plm/plm.go: the PLM object, its reader goroutine and its two queues; of the retrying packet writer
    (plm/port.go:79-103); of plm/info.go and plm/config.go. *)
From Coq Require Import ZArith List Bool.
From Verif Require Import GoBase Address Message PlmPacket.
Import ListNotations.
Open Scope Z_scope.

(** ** Packet writers *)
(** plm/port.go:25-28 [packetWriter]: an interface, hence any pair of functions over any world.  A nil [*Packet] is [None]. *)
Definition pw_result : Type := option packet * option error.
Record packet_writer (W : Type) : Type := mkPW {
  pw_write : packet -> W -> outcome pw_result * W;
  pw_read : W -> outcome pw_result * W
}.
Arguments mkPW {W}. Arguments pw_write {W}. Arguments pw_read {W}.

(** plm/port.go:85-99 [retryWriter.WritePacket]: [n] is the number of transmissions still allowed
    (Go: [0 <= retries], i.e. retries+1).  [last] are the named results so far, nil at first. *)
Fixpoint retry_loop {W} (pw : packet_writer W) (n : nat) (retry_nak : bool) (pkt : packet) (last : pw_result) (w : W)
  : outcome pw_result * W :=
  match n with
  | O => (Ret last, w)
  | S k =>
      match pw_write pw pkt w with
      | (Ret (ack, err), w1) =>
          if (err_is err EPlmNak && retry_nak) || err_is err EPlmReadTimeout
          then retry_loop pw k retry_nak pkt (ack, err) w1
          else (Ret (ack, err), w1)
      | (Panic, w1) => (Panic, w1)
      | (NoFuel, w1) => (NoFuel, w1)
      end
  end.
(** plm/port.go:101-103 [retry]; [ReadPacket] is that of the embedded writer. *)
Definition retry {W} (pw : packet_writer W) (retries : Z) (retry_nak : bool) : packet_writer W :=
  mkPW (fun pkt w => retry_loop pw (Z.to_nat (retries + 1)) retry_nak pkt (None, None) w) (pw_read pw).

(** ** The PLM and its reader goroutine *)
(** What the reader goroutine does next: it has read a packet, or reading failed. *)
Inductive event : Type := EvPacket (p : packet) | EvEnd.

(** State of a PLM (plm/plm.go:57-69) together with what was written to the serial port.
    [p_waits] records the time-outs the selects were entered with. *)
Record plm : Type := mkPlm {
  p_msgq : list packet; p_pktq : list packet; p_closed : bool;
  p_sent : list (list Z); p_waits : list Z; p_time : nat;
  p_timeout : Z; p_retries : Z; p_addr : Z
}.

(** plm/plm.go:79-80: capacity of both channels. *)
Definition queue_cap : nat := 10.

Definition is_msg_packet (p : packet) : bool := (p_cmd p =? pc_StdMsgReceived) || (p_cmd p =? pc_ExtMsgReceived).

(** A non-blocking channel send: dropped when the buffer is full. *)
Definition offer (q : list packet) (p : packet) : list packet :=
  if Nat.ltb (length q) queue_cap then q ++ [p] else q.

(** plm/plm.go:94-120 [readLoop], one turn.  After an error both channels are closed and the goroutine is gone. *)
Definition reader_turn (st : plm) (e : event) : plm :=
  if p_closed st then st
  else match e with
  | EvEnd => mkPlm (p_msgq st) (p_pktq st) true (p_sent st) (p_waits st) (p_time st) (p_timeout st) (p_retries st) (p_addr st)
  | EvPacket p =>
      if is_msg_packet p
      then mkPlm (offer (p_msgq st) p) (p_pktq st) false (p_sent st) (p_waits st) (p_time st) (p_timeout st) (p_retries st) (p_addr st)
      else mkPlm (p_msgq st) (offer (p_pktq st) p) false (p_sent st) (p_waits st) (p_time st) (p_timeout st) (p_retries st) (p_addr st)
  end.
Definition reader_turns (st : plm) (es : list event) : plm := fold_left reader_turn es st.

(** The environment's choices for one client operation: what the reader goroutine does before the operation, what it does while
    the operation waits, whether the time-out branch is taken, and the result of a write to the serial port. *)
Record step : Type := mkStep { s_before : list event; s_wait : list event; s_late : bool; s_werr : option error }.
(** A schedule gives a step for every moment. *)
Definition schedule : Type := nat -> step.

Definition set_msgq st q := mkPlm q (p_pktq st) (p_closed st) (p_sent st) (p_waits st) (p_time st) (p_timeout st) (p_retries st) (p_addr st).
Definition set_pktq st q := mkPlm (p_msgq st) q (p_closed st) (p_sent st) (p_waits st) (p_time st) (p_timeout st) (p_retries st) (p_addr st).
Definition set_timeout st t := mkPlm (p_msgq st) (p_pktq st) (p_closed st) (p_sent st) (p_waits st) (p_time st) t (p_retries st) (p_addr st).
Definition set_addr st a := mkPlm (p_msgq st) (p_pktq st) (p_closed st) (p_sent st) (p_waits st) (p_time st) (p_timeout st) (p_retries st) a.
Definition tick st := mkPlm (p_msgq st) (p_pktq st) (p_closed st) (p_sent st) (p_waits st) (S (p_time st)) (p_timeout st) (p_retries st) (p_addr st).
Definition log_wait st := mkPlm (p_msgq st) (p_pktq st) (p_closed st) (p_sent st) (p_waits st ++ [p_timeout st]) (p_time st) (p_timeout st) (p_retries st) (p_addr st).
Definition log_sent st b := mkPlm (p_msgq st) (p_pktq st) (p_closed st) (p_sent st ++ [b]) (p_waits st) (p_time st) (p_timeout st) (p_retries st) (p_addr st).

(** Which queue a client receives from. *)
Inductive which : Type := QMsg | QPkt.
Definition queue_of (q : which) (st : plm) : list packet := match q with QMsg => p_msgq st | QPkt => p_pktq st end.
Definition set_queue (q : which) (st : plm) (l : list packet) : plm := match q with QMsg => set_msgq st l | QPkt => set_pktq st l end.

(** Result of a select over a queue and a timer: a packet, a nil packet from a closed channel, or the time-out. *)
Inductive received : Type := RPacket (p : packet) | RNil | RTimeout.

(** A blocked receiver: it gets the first packet that lands in its queue, or nil when the channel is closed; if neither
    happens the timer fires.  The rest of the goroutine's turns follow. *)
Fixpoint wait_for (q : which) (st : plm) (es : list event) : received * plm :=
  match queue_of q st with
  | p :: rest => (RPacket p, reader_turns (set_queue q st rest) es)
  | [] =>
      if p_closed st then (RNil, st)
      else match es with
      | [] => (RTimeout, st)
      | e :: es' => wait_for q (reader_turn st e) es'
      end
  end.

(** plm/plm.go:184-188 and 193-202: the select statements. *)
Definition receive (sc : schedule) (q : which) (st : plm) : received * plm :=
  let s := sc (p_time st) in
  let st1 := log_wait (tick (reader_turns st (s_before s))) in
  if s_late s then (RTimeout, reader_turns st1 (s_wait s)) else wait_for q st1 (s_wait s).

(** plm/plm.go:183-190 [ReadPacket]. *)
Definition plm_read_packet (sc : schedule) (st : plm) : outcome pw_result * plm :=
  match receive sc QPkt st with
  | (RPacket p, st1) => (Ret (Some p, None), st1)
  | (RNil, st1) => (Ret (None, None), st1)
  | (RTimeout, st1) => (Ret (None, Some (EWrap EPlmReadTimeout)), st1)
  end.

(** plm/plm.go:192-205 [Read]: a nil packet is dereferenced. *)
Definition plm_read (sc : schedule) (st : plm) : outcome (option message * option error) * plm :=
  match receive sc QMsg st with
  | (RPacket p, st1) => match msg_unmarshal msg_zero (p_payload p) with (m, e) => (Ret (Some m, e), st1) end
  | (RNil, st1) => (Panic, st1)
  | (RTimeout, st1) => (Ret (None, Some (EWrap EInsteonReadTimeout)), st1)
  end.

(** plm/plm.go:152 [plm.writer.Write(buf)]. *)
Definition port_write (sc : schedule) (st : plm) (buf : list Z) : option error * plm :=
  let s := sc (p_time st) in
  (s_werr s, log_sent (tick (reader_turns st (s_before s))) buf).

(** plm/plm.go:157-175: judging a reply; a nil reply is dereferenced. *)
Definition judge_ack (pkt : packet) (ack : option packet) : outcome pw_result :=
  match ack with
  | None => Panic
  | Some a =>
      let! err :=
        (if negb (pkt_is_ack a) && negb (pkt_is_nak a) then Ret (Some EPlmNoAck)
         else if negb (p_cmd a =? p_cmd pkt) then Ret (Some EPlmWrongAck)
         else if negb (p_cmd a =? pc_GetInfo) && negb (p_cmd a =? pc_GetConfig) then
           if p_cmd a =? pc_SendInsteonMsg then
             if zlen (p_payload a) <? 3 then Panic
             else Ret (if bytes_eqb (skipn 3 (p_payload a)) (p_payload pkt) then None else Some EPlmWrongPayload)
           else Ret (if bytes_eqb (p_payload a) (p_payload pkt) then None else Some EPlmWrongPayload)
         else Ret None) in
      Ret (Some a, if pkt_is_nak a then Some EPlmNak else err)
  end.

(** plm/plm.go:148-181 [WritePacket]. *)
Definition plm_write_packet (sc : schedule) (pkt : packet) (st : plm) : outcome pw_result * plm :=
  match port_write sc st (pkt_marshal pkt) with
  | (Some e, st1) => (Ret (None, Some e), st1)
  | (None, st1) =>
      match plm_read_packet sc st1 with
      | (Ret (ack, Some e), st2) => (Ret (ack, Some e), st2)
      | (Ret (ack, None), st2) => (judge_ack pkt ack, st2)
      | (Panic, st2) => (Panic, st2)
      | (NoFuel, st2) => (NoFuel, st2)
      end
  end.

(** The PLM as a packet writer (plm/plm.go:87). *)
Definition plm_pw (sc : schedule) : packet_writer plm := mkPW (plm_write_packet sc) (plm_read_packet sc).

(** plm/plm.go:133-141: waiting for the acknowledgement of a message.  The loop has no bound of its own. *)
Fixpoint await_ack (fuel : nat) (sc : schedule) (dst : Z) (st : plm) : outcome (option message * option error) * plm :=
  match fuel with
  | O => (NoFuel, st)
  | S k =>
      match plm_read sc st with
      | (Ret (m, Some e), st1) => (Ret (m, Some e), st1)
      | (Ret (None, None), st1) => (Panic, st1)
      | (Ret (Some m, None), st1) =>
          if (m_src m =? dst) && (fl_ack (m_flags m) || fl_nak (m_flags m))
          then (Ret (Some m, if fl_nak (m_flags m) then Some EDevNak else None), st1)
          else await_ack k sc dst st1
      | (Panic, st1) => (Panic, st1)
      | (NoFuel, st1) => (NoFuel, st1)
      end
  end.

(** plm/plm.go:123-146 [Write]. *)
Definition plm_write (fuel : nat) (sc : schedule) (msg : message) (st : plm) : outcome (option message * option error) * plm :=
  match pw_write (retry (plm_pw sc) (p_retries st) true) (mkPkt pc_SendInsteonMsg (skipn 3 (msg_marshal msg)) 0) st with
  | (Ret (_, Some e), st1) => (Ret (None, Some e), st1)
  | (Ret (_, None), st1) => await_ack fuel sc (m_dst msg) st1
  | (Panic, st1) => (Panic, st1)
  | (NoFuel, st1) => (NoFuel, st1)
  end.

(** ** Info, configuration, reset *)
(** plm/info.go:27-31 [Info]. *)
Record info : Type := mkInfo { i_addr : Z; i_dc0 : Z; i_dc1 : Z; i_fw : Z }.
(** plm/info.go:37-44 [MarshalBinary]. *)
Definition info_marshal (i : info) : list Z := addr_bytes (i_addr i) ++ [i_dc0 i; i_dc1 i; i_fw i].
(** plm/info.go:46-51 [UnmarshalBinary].  Simplification: data shorter than six bytes is a panic (in Go [data[0:3]] may also reach
    into spare capacity before [data[5]] panics). *)
Definition info_unmarshal (data : list Z) : outcome info :=
  match data with
  | a2 :: a1 :: a0 :: c0 :: c1 :: fw :: _ => Ret (mkInfo (addr_put [a2; a1; a0]) c0 c1 fw)
  | _ => Panic
  end.

(** plm/plm.go:207-214 [Info]. *)
Definition plm_info (sc : schedule) (st : plm) : outcome (option info * option error) * plm :=
  match pw_write (retry (plm_pw sc) (p_retries st) true) (mkPkt pc_GetInfo [] 0) st with
  | (Ret (_, Some e), st1) => (Ret (None, Some e), st1)
  | (Ret (Some ack, None), st1) => ((let! i := info_unmarshal (p_payload ack) in Ret (Some i, None)), st1)
  | (Ret (None, None), st1) => (Panic, st1)
  | (Panic, st1) => (Panic, st1)
  | (NoFuel, st1) => (NoFuel, st1)
  end.

(** plm/plm.go:216-224 [Reset]. *)
Definition reset_timeout : Z := 20.
Definition plm_reset (sc : schedule) (st : plm) : outcome (option error) * plm :=
  match pw_write (retry (plm_pw sc) (p_retries st) true) (mkPkt pc_Reset [] 0) (set_timeout st reset_timeout) with
  | (Ret (_, e), st1) => (Ret e, set_timeout st1 (p_timeout st))
  | (Panic, st1) => (Panic, st1)
  | (NoFuel, st1) => (NoFuel, st1)
  end.

(** plm/config.go:21-40 [Config] bits. *)
Definition cfg_set_bit (c pos : Z) : Z := Z.lor c (Z.shiftl 1 pos).
Definition cfg_clear_bit (c pos : Z) : Z := Z.land c (255 - Z.shiftl 1 pos).
Definition cfg_auto_linking (c : Z) : bool := Z.land c 0x80 =? 0x80.
Definition cfg_set_auto_linking (c : Z) : Z := cfg_set_bit c 7.
Definition cfg_clear_auto_linking (c : Z) : Z := cfg_clear_bit c 7.
Definition cfg_monitor (c : Z) : bool := Z.land c 0x40 =? 0x40.
Definition cfg_set_monitor (c : Z) : Z := cfg_set_bit c 6.
Definition cfg_clear_monitor (c : Z) : Z := cfg_clear_bit c 6.
Definition cfg_auto_led (c : Z) : bool := Z.land c 0x20 =? 0x20.
Definition cfg_set_auto_led (c : Z) : Z := cfg_set_bit c 5.
Definition cfg_clear_auto_led (c : Z) : Z := cfg_clear_bit c 5.
Definition cfg_deadman (c : Z) : bool := Z.land c 0x10 =? 0x10.
Definition cfg_set_deadman (c : Z) : Z := cfg_set_bit c 4.
Definition cfg_clear_deadman (c : Z) : Z := cfg_clear_bit c 4.
(** plm/config.go:71-73, 75-81. *)
Definition cfg_marshal (c : Z) : list Z := [Z.land c 0xf0].
Definition cfg_unmarshal (old : Z) (buf : list Z) : Z * option error :=
  match buf with [] => (old, Some (EOther 77)) | c :: _ => (c, None) end.

(** plm/plm.go:226-232 [Config]. *)
Definition plm_config (sc : schedule) (st : plm) : outcome (Z * option error) * plm :=
  match pw_write (retry (plm_pw sc) (p_retries st) true) (mkPkt pc_GetConfig [] 0) st with
  | (Ret (_, Some e), st1) => (Ret (0, Some e), st1)
  | (Ret (Some ack, None), st1) => (Ret (cfg_unmarshal 0 (p_payload ack)), st1)
  | (Ret (None, None), st1) => (Panic, st1)
  | (Panic, st1) => (Panic, st1)
  | (NoFuel, st1) => (NoFuel, st1)
  end.
(** plm/plm.go:234-238 [SetConfig]. *)
Definition plm_set_config (sc : schedule) (c : Z) (st : plm) : outcome (option error) * plm :=
  match pw_write (retry (plm_pw sc) (p_retries st) true) (mkPkt pc_SetConfig (cfg_marshal c) 0) st with
  | (Ret (_, e), st1) => (Ret e, st1)
  | (Panic, st1) => (Panic, st1)
  | (NoFuel, st1) => (NoFuel, st1)
  end.

(** plm/plm.go:250-259 [Address]. *)
Definition plm_address (sc : schedule) (st : plm) : outcome Z * plm :=
  if p_addr st =? 0 then
    match plm_info sc st with
    | (Ret (Some i, None), st1) => (Ret (i_addr i), set_addr st1 (i_addr i))
    | (Ret (_, Some _), st1) => (Ret (p_addr st1), st1)
    | (Ret (None, None), st1) => (Panic, st1)
    | (Panic, st1) => (Panic, st1)
    | (NoFuel, st1) => (NoFuel, st1)
    end
  else (Ret (p_addr st), st).
