(** Properties C11-C15, C47, C52: the modem object. *)
From Coq Require Import ZArith List Bool Lia ZifyBool ZifyNat.
From Verif Require Import GoBase GoLemmas Message MessageProofs PlmPacket PlmReader PlmReaderSpec Plm PlmSpec PlmProofs.
Import ListNotations.
Open Scope Z_scope.

Definition ex_plm : plm := mkPlm [] [] false [] [] 0 3 3 0.
(** A schedule given by its first steps, silent afterwards. *)
Definition steps (l : list step) : schedule := fun t => nth t l (mkStep [] [] false None).

(** * C11.  Whatever the reader goroutine receives and whenever clients come for a packet, each queue behaves as the ten-place
    lossy queue of PlmSpec: its history of arrivals is exactly the packets meant for it, in order of arrival, and its history of
    takings is exactly what the clients of that queue got. *)
Theorem C11_queues_are_fifo : forall sc ops st rs st' q, fresh st -> clients sc ops st = (rs, st') ->
  exists h, fifo h (queue_of q st') /\ takings h = got q rs /\
    arrivals h = filter (goes_to q) (live (events_from sc (p_time st) (length ops))).
Proof. exact queues_are_fifo. Qed.
Theorem C11_at_most_ten : forall h q, fifo h q -> (length q <= 10)%nat.
Proof. exact fifo_bound. Qed.
Example C11_at_most_ten_case : fifo [Arr (mkPkt 0x65 [] 6); Arr (mkPkt 0x66 [] 6); Out (mkPkt 0x65 [] 6)] [mkPkt 0x66 [] 6].
Proof.
  apply (fifo_out [Arr (mkPkt 0x65 [] 6); Arr (mkPkt 0x66 [] 6)]). apply (fifo_kept [Arr (mkPkt 0x65 [] 6)] [mkPkt 0x65 [] 6]); [|cbn; lia].
  apply (fifo_kept [] []); [constructor|cbn; lia].
Qed.
(** Nothing is lost while no more than ten packets have come. *)
Theorem C11_nothing_lost_below_ten : forall h q, fifo h q -> (length (arrivals h) <= 10)%nat -> arrivals h = takings h ++ q.
Proof. exact fifo_balance. Qed.

Definition ex_msg (k : Z) : packet := mkPkt 0x50 [1;2;3;4;5;6;0x2b;0x11;k] 0.
Definition ex_ackp (k : Z) : packet := mkPkt 0x65 [] k.
Definition ex_sc11 : schedule :=
  steps [mkStep (map (fun k => EvPacket (ex_msg k)) (zrange_from 0 12)) [] false None;
         mkStep [EvPacket (ex_ackp 6)] [EvPacket (ex_msg 12)] false None;
         mkStep [] [EvPacket (ex_ackp 0x15); EvEnd; EvPacket (ex_ackp 6)] true None;
         mkStep [] [] false None].
Example C11_ex : fresh ex_plm /\
  fst (clients ex_sc11 [QMsg; QPkt; QMsg; QPkt; QPkt] ex_plm) =
    [(QMsg, RPacket (ex_msg 0)); (QPkt, RPacket (ex_ackp 6)); (QMsg, RTimeout); (QPkt, RPacket (ex_ackp 0x15)); (QPkt, RNil)] /\
  p_msgq (snd (clients ex_sc11 [QMsg; QPkt; QMsg; QPkt; QPkt] ex_plm)) = map ex_msg [1;2;3;4;5;6;7;8;9;12].
Proof. vm_compute. auto. Qed.
Print Assumptions C11_queues_are_fifo.
Print Assumptions C11_at_most_ten.
Print Assumptions C11_nothing_lost_below_ten.

(** * C12. *)
Theorem C12_sends_once : forall sc pkt st r st', plm_write_packet sc pkt st = (r, st') ->
  p_sent st' = p_sent st ++ [0x02 :: p_cmd pkt :: p_payload pkt].
Proof. exact write_packet_sends_once. Qed.
(** Success: the port took the bytes, and the next packet the modem queue gave was a good acknowledgement. *)
Theorem C12_success_needs_ack : forall sc pkt st a st',
  plm_write_packet sc pkt st = (Ret (a, None), st') -> exists p, a = Some p /\ good_ack pkt p /\
    exists st1, port_write sc st (pkt_marshal pkt) = (None, st1) /\ receive sc QPkt st1 = (RPacket p, st').
Proof. exact write_packet_success. Qed.
Theorem C12_ack_gives_success : forall sc pkt st st1 p st',
  port_write sc st (0x02 :: p_cmd pkt :: p_payload pkt) = (None, st1) -> receive sc QPkt st1 = (RPacket p, st') ->
  good_ack pkt p -> plm_write_packet sc pkt st = (Ret (Some p, None), st').
Proof. exact write_packet_accepts. Qed.
Theorem C12_nak_gives_nak_error : forall sc pkt st st1 p st',
  port_write sc st (0x02 :: p_cmd pkt :: p_payload pkt) = (None, st1) -> receive sc QPkt st1 = (RPacket p, st') ->
  nak_reply p -> from_reader p -> plm_write_packet sc pkt st = (Ret (Some p, Some EPlmNak), st').
Proof. exact write_packet_nak. Qed.
(** With an open port and packets as the packet reader makes them a command never crashes. *)
Theorem C12_no_crash : forall sc pkt st r st', sched_all from_reader sc -> no_end sc -> queues_all from_reader st /\ p_closed st = false ->
  plm_write_packet sc pkt st = (r, st') -> (queues_all from_reader st' /\ p_closed st' = false) /\ exists x, r = Ret x.
Proof. exact write_packet_sound. Qed.
(** "Next packet" is the oldest in the queue: an unsolicited report that was already waiting is taken for the reply, so a
    command the modem acknowledges can be reported as failed. *)
Theorem C12_waiting_report_taken_for_reply_refuted : exists sc pkt st a st1,
  s_before (sc (p_time st)) = [] /\ s_wait (sc (S (p_time st))) = [EvPacket a] /\ good_ack pkt a /\
  plm_write_packet sc pkt st = (Ret (Some (mkPkt 0x54 [2] 0), Some EPlmNoAck), st1).
Proof.
  exists (steps [mkStep [] [] false None; mkStep [] [EvPacket (mkPkt 0x65 [] 6)] false None]), (mkPkt 0x65 [] 0),
    (mkPlm [] [mkPkt 0x54 [2] 0] false [] [] 0 3 3 0), (mkPkt 0x65 [] 6). eexists.
  split; [reflexivity|]. split; [reflexivity|]. split; [|vm_compute; reflexivity].
  unfold good_ack, echoes. cbn. split; [lia|]. split; [reflexivity|]. split; [reflexivity|]. right. right. right. split; [lia|reflexivity].
Qed.

Definition ex_pkt12 : packet := mkPkt 0x62 [4;5;6;0x0f;0x11;0xff] 0.
Definition ex_ack12 (k : Z) : packet := mkPkt 0x62 [0;0;0;4;5;6;0x0f;0x11;0xff] k.
Lemma ex_ack12_from_reader : forall k, from_reader (ex_ack12 k).
Proof.
  intro k. exists [4;5;6;0x0f;0x11;0xff;k]. split.
  - apply (rx_message false 4 5 6 0x0f 0x11 0xff [] [k]); [reflexivity|unfold is_byte; lia|reflexivity].
  - unfold ex_ack12. cbn [p_cmd].
    change (mkPkt 0x62 [0;0;0;4;5;6;0x0f;0x11;0xff] k) with (mkPkt 0x62 ([0;0;0] ++ [4;5;6;0x0f;0x11;0xff]) k).
    change [4;5;6;0x0f;0x11;0xff;k] with ([4;5;6;0x0f;0x11;0xff] ++ [k]).
    apply dec_echo. reflexivity.
Qed.
Example C12_ex :
  (exists st', plm_write_packet (steps [mkStep [] [] false None; mkStep [EvPacket (ex_msg 1)] [EvPacket (ex_ack12 6)] false None])
     ex_pkt12 ex_plm = (Ret (Some (ex_ack12 6), None), st')) /\
  good_ack ex_pkt12 (ex_ack12 6) /\ nak_reply (ex_ack12 0x15) /\ from_reader (ex_ack12 0x15) /\
  (exists st', plm_write_packet (steps [mkStep [] [] false None; mkStep [] [EvPacket (ex_ack12 0x15)] false None])
     ex_pkt12 ex_plm = (Ret (Some (ex_ack12 0x15), Some EPlmNak), st')).
Proof.
  split; [eexists; vm_compute; reflexivity|]. split.
  - unfold good_ack, echoes. cbn. split; [lia|]. split; [reflexivity|]. split; [reflexivity|].
    right. right. left. split; [reflexivity|]. exists 0, 0, 0. reflexivity.
  - split; [split; cbn; [lia|reflexivity]|]. split; [apply ex_ack12_from_reader|eexists; vm_compute; reflexivity].
Qed.
Print Assumptions C12_sends_once.
Print Assumptions C12_success_needs_ack.
Print Assumptions C12_ack_gives_success.
Print Assumptions C12_nak_gives_nak_error.
Print Assumptions C12_no_crash.
Print Assumptions C12_waiting_report_taken_for_reply_refuted.

(** * C13.  Over every packet writer whatsoever; [logged] only adds a log of the transmissions and their outcomes. *)
Theorem C13_retry_trace : forall W (pw : packet_writer W) retries nak pkt w r w' log,
  0 <= retries ->
  pw_write (retry (logged pw) retries nak) pkt (w, []) = (r, (w', log)) ->
  Forall (fun x => fst x = pkt) log /\ (Z.of_nat (length log) <= retries + 1) /\
  exists init lst, map snd log = init ++ [lst] /\ r = lst /\ Forall (again nak) init /\
    (again nak lst -> Z.of_nat (length log) = retries + 1).
Proof. exact retry_trace. Qed.
Theorem C13_logging_is_harmless : forall W (pw : packet_writer W) retries nak pkt w,
  fst (pw_write (retry (logged pw) retries nak) pkt (w, [])) = fst (pw_write (retry pw retries nak) pkt w).
Proof. exact retry_same_result. Qed.
(** On the PLM itself the bytes on the line are the same frame, one to retries+1 times. *)
Theorem C13_bytes_on_the_line : forall sc retries nak pkt st r st', 0 <= retries ->
  pw_write (retry (plm_pw sc) retries nak) pkt st = (r, st') ->
  exists k, 1 <= Z.of_nat k <= retries + 1 /\ p_sent st' = p_sent st ++ repeat (0x02 :: p_cmd pkt :: p_payload pkt) k.
Proof.
  intros sc retries nak pkt st r st' Hr H. unfold retry in H. cbn [pw_write] in H.
  destruct (retry_sent _ _ _ _ _ _ _ _ H) as (k & H1 & H2 & H3). exists k. split; [lia|exact H3].
Qed.
(** The modem refuses twice, then acknowledges. *)
Example C13_bytes_on_the_line_case : let reply k := mkStep [] [EvPacket (mkPkt 0x65 [] k)] false None in let idle := mkStep [] [] false None in
  exists st', pw_write (retry (plm_pw (steps [idle; reply 0x15; idle; reply 0x15; idle; reply 6])) 3 true) (mkPkt 0x65 [] 0) ex_plm =
    (Ret (Some (mkPkt 0x65 [] 6), None), st') /\ p_sent st' = [[2; 0x65]; [2; 0x65]; [2; 0x65]].
Proof. eexists. split; vm_compute; reflexivity. Qed.
(** But the PLM reports a read time-out wrapped, so a real modem time-out is never retried: this modem stays silent once and
    would answer the second transmission, which is never made. *)
Theorem C13_modem_timeout_not_retried_refuted : exists sc pkt st e st',
  p_retries st = 3 /\ pw_write (retry (plm_pw sc) (p_retries st) true) pkt st = (Ret (None, Some e), st') /\
  errors_is e EPlmReadTimeout = true /\ length (p_sent st') = 1%nat.
Proof.
  exists (steps [mkStep [] [] false None; mkStep [] [] false None; mkStep [] [] false None; mkStep [] [EvPacket (mkPkt 0x65 [] 6)] false None]),
    (mkPkt 0x65 [] 0), ex_plm. do 2 eexists.
  split; [reflexivity|]. split; [vm_compute; reflexivity|]. split; reflexivity.
Qed.
Theorem C13_plm_never_reports_bare_timeout : forall sc pkt st ack e st', plm_write_packet sc pkt st = (Ret (ack, Some e), st') ->
  s_werr (sc (p_time st)) <> Some EPlmReadTimeout -> e <> EPlmReadTimeout.
Proof. exact plm_timeout_not_retried. Qed.
Example C13_plm_never_reports_bare_timeout_case : exists st', plm_write_packet (steps []) (mkPkt 0x65 [] 0) ex_plm = (Ret (None, Some (EWrap EPlmReadTimeout)), st').
Proof. eexists. vm_compute. reflexivity. Qed.

(** A writer over a list of outcomes to come. *)
Definition scripted : packet_writer (list pw_result) :=
  mkPW (fun _ w => match w with [] => (Ret (None, Some EEOF), []) | r :: t => (Ret r, t) end) (fun w => (Ret (None, None), w)).
Example C13_ex : pw_write (retry (logged scripted) 2 true) ex_pkt12
    ([(None, Some EPlmNak); (None, Some EPlmReadTimeout); (Some (ex_ack12 6), None); (None, None)], []) =
  (Ret (Some (ex_ack12 6), None), ([(None, None)],
     [(ex_pkt12, Ret (None, Some EPlmNak)); (ex_pkt12, Ret (None, Some EPlmReadTimeout)); (ex_pkt12, Ret (Some (ex_ack12 6), None))])) /\
  fst (pw_write (retry scripted 1 false) ex_pkt12 [(None, Some EPlmNak); (Some (ex_ack12 6), None)]) = Ret (None, Some EPlmNak).
Proof. split; reflexivity. Qed.
Print Assumptions C13_retry_trace.
Print Assumptions C13_logging_is_harmless.
Print Assumptions C13_bytes_on_the_line.
Print Assumptions C13_modem_timeout_not_retried_refuted.
Print Assumptions C13_plm_never_reports_bare_timeout.

(** * C14.  [P] may be any property of packets that all queued and all arriving packets have (for instance "arrived since ..."). *)
Theorem C14_reply_is_addressees_partial : forall (P : packet -> Prop) fuel sc msg st m e st', sched_all P sc -> queues_all P st -> 0 <= p_retries st ->
  plm_write fuel sc msg st = (Ret (Some m, e), st') -> e = None \/ e = Some EDevNak ->
  exists p, P p /\ msg_unmarshal msg_zero (p_payload p) = (m, None) /\ m_src m = m_dst msg /\
    (e = None -> fl_ack (m_flags m) = true /\ fl_nak (m_flags m) = false) /\ (e = Some EDevNak -> fl_nak (m_flags m) = true).
Proof. exact plm_write_result. Qed.
Theorem C14_success_has_message : forall fuel sc msg st m st', 0 <= p_retries st ->
  plm_write fuel sc msg st = (Ret (m, None), st') -> exists x, m = Some x.
Proof. exact plm_write_some. Qed.
(** The first acknowledgement of the addressee is the one taken; messages before it are passed over, those after it stay. *)
Theorem C14_first_match_taken : forall pre fuel dst st p m rest,
  p_msgq st = pre ++ p :: rest -> (length pre < fuel)%nat ->
  Forall (fun q => exists x, msg_unmarshal msg_zero (p_payload q) = (x, None) /\
     ~ (m_src x = dst /\ (fl_ack (m_flags x) = true \/ fl_nak (m_flags x) = true))) pre ->
  msg_unmarshal msg_zero (p_payload p) = (m, None) -> m_src m = dst ->
  fl_ack (m_flags m) = true \/ fl_nak (m_flags m) = true ->
  exists st', await_ack fuel quiet dst st = (Ret (Some m, if fl_nak (m_flags m) then Some EDevNak else None), st') /\ p_msgq st' = rest.
Proof. exact await_first_match. Qed.
Example C14_first_match_taken_case :
  let other := mkPkt 0x50 [7;8;9;1;2;3;0x2f;0x11;0xff] 0 in let report := mkPkt 0x50 [4;5;6;1;2;3;0x0f;0x11;0xff] 0 in
  let p := mkPkt 0x50 [4;5;6;1;2;3;0xaf;0x11;0xff] 0 in
  Forall (fun q => exists x, msg_unmarshal msg_zero (p_payload q) = (x, None) /\
     ~ (m_src x = 0x040506 /\ (fl_ack (m_flags x) = true \/ fl_nak (m_flags x) = true))) [other; report] /\
  fl_nak 0xaf = true /\
  exists st', await_ack 3 quiet 0x040506 (mkPlm [other; report; p; other] [] false [] [] 0 3 3 0) = (Ret (Some (mkMsg 0x040506 0x010203 0xaf 0x11ff []), Some EDevNak), st') /\ p_msgq st' = [other].
Proof.
  cbv zeta. split; [|split; [reflexivity|eexists; split; vm_compute; reflexivity]].
  constructor; [|constructor; [|constructor]]; eexists; (split; [vm_compute; reflexivity|]).
  - intros [H _]. discriminate H.
  - intros [_ [H|H]]; discriminate H.
Qed.
(** The full property is false: an acknowledgement of an earlier command that is still queued is returned for this one
    although it names another command. *)
Theorem C14_stale_reply_refuted : exists fuel sc msg st m st',
  p_closed st = false /\ plm_write fuel sc msg st = (Ret (Some m, None), st') /\
  In (mkPkt 0x50 [4;5;6;1;2;3;0x2f;0x13;0x00] 0) (p_msgq st) /\
  msg_unmarshal msg_zero [4;5;6;1;2;3;0x2f;0x13;0x00] = (m, None) /\ m_cmd m <> m_cmd msg /\
  s_before (sc (p_time st)) = [] /\ (forall t, s_before (sc t) = [] /\ ~ In (EvPacket (mkPkt 0x50 [4;5;6;1;2;3;0x2f;0x11;0xff] 0)) (s_wait (sc t))).
Proof.
  exists 5%nat, (steps [mkStep [] [] false None; mkStep [] [EvPacket (ex_ack12 6)] false None]),
    (mkMsg 0 0x040506 0x0f 0x11ff []), (mkPlm [mkPkt 0x50 [4;5;6;1;2;3;0x2f;0x13;0x00] 0] [] false [] [] 0 3 3 0).
  do 2 eexists. split; [reflexivity|]. split; [vm_compute; reflexivity|]. split; [left; reflexivity|].
  split; [vm_compute; reflexivity|]. split; [discriminate|]. split; [reflexivity|].
  intros [|[|[|t]]]; cbn; (split; [reflexivity|]); intros H; repeat (destruct H as [H|H]; [discriminate|]); exact H.
Qed.
Example C14_ex : exists st', plm_write 5
    (steps [mkStep [] [] false None; mkStep [] [EvPacket (ex_ack12 6)] false None;
            mkStep [] [EvPacket (ex_msg 7); EvPacket (mkPkt 0x50 [4;5;6;1;2;3;0x2f;0x11;0xff] 0)] false None])
    (mkMsg 0 0x040506 0x0f 0x11ff []) ex_plm = (Ret (Some (mkMsg 0x040506 0x010203 0x2f 0x11ff []), None), st').
Proof. eexists. vm_compute. reflexivity. Qed.
Print Assumptions C14_reply_is_addressees_partial.
Print Assumptions C14_success_has_message.
Print Assumptions C14_first_match_taken.
Print Assumptions C14_stale_reply_refuted.

(** * C15.  False: once the reader goroutine has ended, reading a message or writing a command that the port still accepts
    dereferences a nil packet, and reading a packet returns neither a packet nor an error. *)
Theorem C15_closed_port_crashes_refuted : exists sc st, p_closed st = true /\
  (exists st', plm_read sc st = (Panic, st')) /\ (exists st', plm_write_packet sc (mkPkt 0x65 [] 0) st = (Panic, st')) /\
  (exists st', plm_read_packet sc st = (Ret (None, None), st')).
Proof.
  exists (steps []), (mkPlm [] [] true [] [] 0 3 3 0). repeat split; eexists; vm_compute; reflexivity.
Qed.
(** It is not a corner case: with drained queues and no time-out racing, reading always crashes. *)
Theorem C15_closed_read_always_crashes : forall sc st, p_closed st = true -> p_msgq st = [] -> s_late (sc (p_time st)) = false ->
  exists st', plm_read sc st = (Panic, st').
Proof.
  intros sc st Hc Hq Hl. unfold plm_read, receive. rewrite Hl.
  assert (Ht : forall es, reader_turns st es = st).
  { induction es as [|e es IH]; [reflexivity|]. unfold reader_turns in *. cbn [fold_left]. unfold reader_turn at 2. rewrite Hc. exact IH. }
  rewrite Ht. destruct (s_wait (sc (p_time st))); cbn [wait_for queue_of]; cbn; rewrite Hq, Hc; eauto.
Qed.
Example C15_closed_read_case : let st := reader_turns ex_plm [EvPacket (mkPkt 0x65 [] 6); EvEnd] in
  p_closed st = true /\ p_msgq st = [] /\ fst (plm_read (steps []) st) = Panic.
Proof. repeat split. Qed.
(** What does hold: when the port refuses the bytes, every command returns that error without crashing. *)
Theorem C15_refused_write_partial : forall sc retries nak pkt st, 0 <= retries ->
  (forall t, exists e, s_werr (sc t) = Some e) ->
  exists a e st', pw_write (retry (plm_pw sc) retries nak) pkt st = (Ret (a, Some e), st').
Proof. exact write_fails_always. Qed.
Example C15_ex : exists st', pw_write (retry (plm_pw (fun _ => mkStep [EvEnd] [] false (Some (EIO 5)))) 3 true) ex_pkt12 ex_plm =
  (Ret (None, Some (EIO 5)), st') /\ p_closed st' = true.
Proof. eexists. vm_compute. auto. Qed.
Print Assumptions C15_closed_port_crashes_refuted.
Print Assumptions C15_closed_read_always_crashes.
Print Assumptions C15_refused_write_partial.

(** * C47.  The four flags are bits 7, 6, 5 and 4. *)
Theorem C47_flag_positions : forall c, is_byte c ->
  (cfg_auto_linking c = true <-> (c / 2 ^ 7) mod 2 = 1) /\ (cfg_monitor c = true <-> (c / 2 ^ 6) mod 2 = 1) /\
  (cfg_auto_led c = true <-> (c / 2 ^ 5) mod 2 = 1) /\ (cfg_deadman c = true <-> (c / 2 ^ 4) mod 2 = 1).
Proof. exact cfg_accessors. Qed.
(** Each setter and clearer changes its own flag only. *)
Theorem C47_flags_independent : forall c, is_byte c ->
  let flags x := (cfg_auto_linking x, cfg_monitor x, cfg_auto_led x, cfg_deadman x) in
  match flags c with (a, m, l, d) =>
    flags (cfg_set_auto_linking c) = (true, m, l, d) /\ flags (cfg_clear_auto_linking c) = (false, m, l, d) /\
    flags (cfg_set_monitor c) = (a, true, l, d) /\ flags (cfg_clear_monitor c) = (a, false, l, d) /\
    flags (cfg_set_auto_led c) = (a, m, true, d) /\ flags (cfg_clear_auto_led c) = (a, m, false, d) /\
    flags (cfg_set_deadman c) = (a, m, l, true) /\ flags (cfg_clear_deadman c) = (a, m, l, false)
  end.
Proof. exact cfg_independent. Qed.
Theorem C47_wire_roundtrip : forall c old rest, is_byte c ->
  cfg_unmarshal old (cfg_marshal c ++ rest) = (c / 16 * 16, None).
Proof. exact cfg_roundtrip. Qed.
(** SetConfig transmits the four flags; Config returns the byte of an acknowledged reply. *)
Theorem C47_set_config_bytes : forall sc c st e st', is_byte c -> 0 <= p_retries st -> plm_set_config sc c st = (Ret e, st') ->
  exists k, 1 <= Z.of_nat k <= p_retries st + 1 /\ p_sent st' = p_sent st ++ repeat [0x02; 0x6b; c / 16 * 16] k.
Proof. exact set_config_bytes. Qed.
Theorem C47_config_read : forall (P : packet -> Prop) sc st c st', sched_all P sc -> queues_all P st -> 0 <= p_retries st ->
  plm_config sc st = (Ret (c, None), st') ->
  exists p rest, P p /\ p_cmd p = 0x73 /\ p_ack p = 0x06 /\ p_payload p = c :: rest.
Proof. exact config_correct. Qed.
Example C47_ex : is_byte 0x5a /\ cfg_set_auto_linking 0x5a = 0xda /\ cfg_clear_monitor 0x5a = 0x1a /\
  (exists st', plm_config (steps [mkStep [] [] false None; mkStep [] [EvPacket (mkPkt 0x73 [0x60; 0; 0] 6)] false None]) ex_plm = (Ret (0x60, None), st')) /\
  (exists st', plm_set_config (steps [mkStep [] [] false None; mkStep [] [EvPacket (mkPkt 0x6b [0x50] 6)] false None]) 0x5a ex_plm = (Ret None, st')).
Proof.
  split; [unfold is_byte; lia|]. split; [reflexivity|]. split; [reflexivity|]. split; eexists; vm_compute; reflexivity.
Qed.
Print Assumptions C47_flag_positions.
Print Assumptions C47_flags_independent.
Print Assumptions C47_wire_roundtrip.
Print Assumptions C47_set_config_bytes.
Print Assumptions C47_config_read.

(** * C52. *)
Theorem C52_info_layout : forall a2 a1 a0 c0 c1 fw rest,
  info_unmarshal ([a2; a1; a0; c0; c1; fw] ++ rest) = Ret (mkInfo (a2 * 65536 + a1 * 256 + a0) c0 c1 fw).
Proof. exact info_decodes. Qed.
(** On an open port, whatever the packet reader delivers, Info returns. *)
Theorem C52_info_no_crash : forall sc st, sched_all from_reader sc -> no_end sc ->
  queues_all from_reader st /\ p_closed st = false -> 0 <= p_retries st ->
  exists r st', plm_info sc st = (Ret r, st') /\ (queues_all from_reader st' /\ p_closed st' = false).
Proof. exact info_no_crash. Qed.
(** A report, the reply of the modem to the request, and a stray acknowledgement. *)
Example C52_info_no_crash_case : let sc := steps [mkStep [EvPacket (mkPkt 0x54 [3] 0)] [EvPacket (mkPkt 0x60 [0x11;0x22;0x33;3;0x15;0x9b] 6)] true None;
    mkStep [EvPacket (mkPkt 0x65 [] 6)] [] false None] in
  sched_all from_reader sc /\ no_end sc /\ queues_all from_reader ex_plm /\ p_closed ex_plm = false.
Proof.
  cbv zeta. split; [|split; [|split; [split; constructor|reflexivity]]].
  - intros [|[|t]] p H; cbn in H; repeat match goal with H : _ \/ _ |- _ => destruct H as [H|H] end;
      try contradiction; try (destruct t; contradiction); injection H as <-.
    + exists [3]. split; [apply (rx_plain false 0x54 [3] 3); [reflexivity|lia|reflexivity]|apply dec_unsolicited; cbn; lia].
    + exists ([0x11;0x22;0x33;3;0x15;0x9b] ++ [6]). split; [apply (rx_plain false 0x60 _ 9); [reflexivity|lia|reflexivity]|].
      apply (dec_reply false 0x60 [0x11;0x22;0x33;3;0x15;0x9b] 6); [cbn; lia|cbn; lia|left; reflexivity].
    + exists ([] ++ [6]). split; [apply (rx_plain false 0x65 _ 3); [reflexivity|lia|reflexivity]|].
      apply (dec_reply false 0x65 [] 6); [cbn; lia|cbn; lia|left; reflexivity].
  - intros [|[|t]]; cbn; split; intro H; repeat match goal with H : _ \/ _ |- _ => destruct H as [H|H] end; try contradiction; try discriminate H; destruct t; contradiction.
Qed.
Theorem C52_info_correct : forall (P : packet -> Prop) sc st i st', sched_all P sc -> queues_all P st -> 0 <= p_retries st ->
  plm_info sc st = (Ret (i, None), st') ->
  exists p a2 a1 a0 c0 c1 fw rest, P p /\ p_cmd p = 0x60 /\ p_ack p = 0x06 /\
    p_payload p = [a2; a1; a0; c0; c1; fw] ++ rest /\ i = Some (mkInfo (a2 * 65536 + a1 * 256 + a0) c0 c1 fw).
Proof. exact info_correct. Qed.
(** A known address is returned without touching the line; a learnt address is remembered. *)
Theorem C52_known_address_not_asked : forall sc st, p_addr st <> 0 -> plm_address sc st = (Ret (p_addr st), st).
Proof. exact address_known. Qed.
Example C52_known_address_case : plm_address (steps []) (mkPlm [] [] false [] [] 0 3 3 0x112233) = (Ret 0x112233, mkPlm [] [] false [] [] 0 3 3 0x112233).
Proof. reflexivity. Qed.
Theorem C52_address_learnt : forall sc st a st', plm_address sc st = (Ret a, st') ->
  p_addr st' = a /\ (a <> 0 -> plm_address sc st' = (Ret a, st')).
Proof. exact address_asked. Qed.
(** The address learnt is the one in the modem's reply. *)
Theorem C52_address_correct : forall (P : packet -> Prop) sc st a st', sched_all P sc -> queues_all P st -> 0 <= p_retries st ->
  p_addr st = 0 -> plm_address sc st = (Ret a, st') -> a <> 0 ->
  exists p a2 a1 a0 c0 c1 fw rest, P p /\ p_cmd p = 0x60 /\ p_ack p = 0x06 /\
    p_payload p = [a2; a1; a0; c0; c1; fw] ++ rest /\ a = a2 * 65536 + a1 * 256 + a0.
Proof. exact address_correct. Qed.
(** Reset waits with 20 seconds, then restores the time-out, whether it succeeded or not. *)
Theorem C52_reset_restores_timeout : forall sc st e st', plm_reset sc st = (Ret e, st') ->
  p_timeout st' = p_timeout st /\ p_retries st' = p_retries st /\
  exists k, Z.of_nat k <= Z.max 0 (p_retries st + 1) /\ p_waits st' = p_waits st ++ repeat 20 k.
Proof. exact reset_timeouts. Qed.
Example C52_ex :
  let sc := steps [mkStep [] [] false None; mkStep [] [EvPacket (mkPkt 0x60 [0x11;0x22;0x33;3;0x15;0x9b] 6)] false None] in
  (exists st', plm_address sc ex_plm = (Ret 0x112233, st') /\ p_sent st' = [[2; 0x60]]) /\
  (exists st', plm_info sc ex_plm = (Ret (Some (mkInfo 0x112233 3 0x15 0x9b), None), st')) /\
  (exists st', plm_reset (steps []) ex_plm = (Ret (Some (EWrap EPlmReadTimeout)), st') /\ p_timeout st' = 3 /\ p_waits st' = [20]).
Proof. cbv zeta. split; [|split]; eexists; vm_compute; auto. Qed.
Print Assumptions C52_info_layout.
Print Assumptions C52_info_no_crash.
Print Assumptions C52_info_correct.
Print Assumptions C52_known_address_not_asked.
Print Assumptions C52_address_learnt.
Print Assumptions C52_address_correct.
Print Assumptions C52_reset_restores_timeout.
