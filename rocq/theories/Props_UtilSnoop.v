(** Properties C57, C58: showing the messages that go by, and the monitor command. *)
From Coq Require Import ZArith List Bool Lia ZifyBool ZifyNat.
From Verif Require Import GoBase GoLemmas GoProg Command Message MessageSpec MessageProofs MsgWriter Filters FiltersSpec FiltersProofs
  Link BasicDevice DevLinkdb DevLinkdbSpec Lights Plm PlmPacket PlmReader PlmReaderSpec PlmSpec PlmProofs UtilSnoop UtilSnoopSpec UtilSnoopProofs.
Import ListNotations.
Open Scope Z_scope.
Ltac Zify.zify_post_hook ::= Z.div_mod_to_equations.

(** * C57.  Below the filter there is any message writer [mw], wrapped so that everything asked of it is written down. *)
(** Whoever reads and writes through the filter gets exactly what they would get without it, and the same requests go down. *)
Theorem C57_transparent : forall W (mw : mwriter W) db ops w rs ls c w' log,
  do_ops (snoop_filter db (mlogged mw)) ops ([], (snoop_cache, (w, []))) = (Ret rs, (ls, (c, (w', log)))) ->
  do_ops (mlogged mw) ops (w, []) = (Ret rs, (w', log)).
Proof. intros W mw db ops w rs ls c w' log H. apply (snoop_ops W mw db ops [] snoop_cache w [] rs ls c w' log dup_cache_inv H). Qed.
(** Exactly the messages that went by are shown, in order, each with what it says. *)
Theorem C57_lines : forall W (mw : mwriter W) db ops w rs ls c w' log,
  do_ops (snoop_filter db (mlogged mw)) ops ([], (snoop_cache, (w, []))) = (Ret rs, (ls, (c, (w', log)))) ->
  Forall ev_well log -> display db [] log ls.
Proof.
  intros W mw db ops w rs ls c w' log H Hw. destruct (snoop_ops W mw db ops [] snoop_cache w [] rs ls c w' log dup_cache_inv H) as (_ & _ & t & new & -> & -> & Hd).
  apply Hd; [constructor|exact Hw].
Qed.
(** Showing never crashes as long as the writer below returns and gives a message or an error for every read. *)
Theorem C57_never_crashes : forall W (mw : mwriter W) db ops w, returns mw -> (forall w w1, mw_read mw w <> (Ret (None, None), w1)) ->
  exists rs s, do_ops (snoop_filter db (mlogged mw)) ops ([], (snoop_cache, (w, []))) = (Ret rs, s).
Proof. intros W mw db ops w Hr Hi. apply snoop_ops_return; [exact Hr|exact Hi|exact dup_cache_inv]. Qed.
(** Without that it does: a read that gives neither. *)
Theorem C57_nothing_read_crashes_refuted : exists (mw : mwriter unit) db, returns mw /\
  fst (do_ops (snoop_filter db mw) [DoRead] ([], (snoop_cache, tt))) = Panic.
Proof.
  exists (mkMW (pret (None, None)) (fun _ => pret (None, None))), None. split; [|vm_compute; reflexivity].
  split; intros; do 2 eexists; reflexivity.
Qed.
(** The acknowledgement that a write returns is shown with the command that was written. *)
Theorem C57_ack_names_its_command : forall W (mw : mwriter W) db ops w rs ls c w' log m a err w1 k ext l h,
  do_ops (snoop_filter db (mlogged mw)) ops ([], (snoop_cache, (w, []))) = (Ret rs, (ls, (c, (w', log)))) ->
  Forall ev_well log -> well m -> no_reply m = true ->
  mw_write mw m w' = (Ret (Some a, err), w1) -> m_src a = m_dst m -> flags_layout (m_flags a) k ext l h -> k = KDirectAck \/ k = KCleanupAck ->
  exists l1 l2 s, mw_write (snoop_filter db (mlogged mw)) m (ls, (c, (w', log))) = (Ret (Some a, err), (ls ++ [l1; l2], s)) /\
    sn_wh l2 = WhAck (m_cmd m).
Proof.
  intros W mw db ops w rs ls c w' log m a err w1 k ext l h H Hw Hm Hn Ew Hs HL Hk.
  destruct (snoop_ops W mw db ops [] snoop_cache w [] rs ls c w' log dup_cache_inv H) as (_ & Hc & _).
  destruct (accessors_layout _ _ _ _ _ HL) as (_ & _ & _ & _ & _ & _ & Ha & _).
  destruct (snoop_write_ack W mw db m a err ls c w' log w1 Hc (passed_well _ Hw) Hm Ew Hn Hs) as (l1 & l2 & c1 & E & El).
  - rewrite Ha. destruct Hk as [->| ->]; reflexivity.
  - exists l1, l2. eexists. split; [exact E|exact El].
Qed.
(** Not so for acknowledgements overheard: who they are meant for is not looked at, so another controller's command may be named. *)
Definition ex_57 (src dst flags cmd : Z) (p : list Z) : message := mkMsg src dst flags cmd p.
Theorem C57_overheard_ack_refuted : exists first second ack l ls c rest,
  m_src ack = m_dst first /\ m_dst ack = m_src first /\ m_src second <> m_src first /\ m_cmd second <> m_cmd first /\
  do_ops (snoop_filter None (list_mw EEOF)) [DoRead; DoRead; DoRead] ([], (snoop_cache, [first; second; ack])) =
    (Ret [(Some first, None); (Some second, None); (Some ack, None)], (ls ++ [l], (c, rest))) /\
  sn_wh l = WhAck (m_cmd second).
Proof.
  exists (ex_57 1 9 0x0a 0x1100 []), (ex_57 2 9 0x0a 0x1300 []), (ex_57 9 1 0x2a 0x1100 []).
  eexists; exists [mkLine (RtDirect false 1 9) 2 2 (WhCommand 0x1100) PyNone; mkLine (RtDirect false 2 9) 2 2 (WhCommand 0x1300) PyNone]; eexists; eexists.
  do 2 (split; [reflexivity|]). do 2 (split; [discriminate|]). split; [vm_compute; reflexivity|]. reflexivity.
Qed.
(** A switch turned on, its acknowledgement, an All-Link broadcast, a product data response and a database record. *)
Example C57_ex :
  fst (snd (do_ops (snoop_filter None (list_mw EEOF)) [DoRead; DoRead; DoRead; DoRead; DoRead; DoRead]
    ([], (snoop_cache, [ex_57 0x010203 0x112233 0x0f 0x11ff []; ex_57 0x112233 0x010203 0x2b 0x11ff [];
      ex_57 0x112233 0x000001 0xcf 0x0c1100 []; ex_57 0x112233 0x021a45 0x8b 0x080100 [];
      ex_57 0x112233 0x010203 0x1b 0x012f00 [0; 1; 0x0f; 0xff; 0; 0xe2; 1; 0x0a; 0x0b; 0x0c; 1; 2; 3; 0]])))) =
  [mkLine (RtDirect false 0x010203 0x112233) 3 3 (WhCommand 0x11ff) PyNone;
   mkLine (RtDirect false 0x112233 0x010203) 3 2 (WhAck 0x11ff) PyNone;
   mkLine (RtAllLink 0x112233) 3 3 (WhGroup 0x0c1100 1) PyNone;
   mkLine (RtBroadcast 0x112233 2 0x1a 0x45) 3 2 (WhCommand 0x080100) PyNone;
   mkLine (RtDirect true 0x112233 0x010203) 3 2 (WhCommand 0x012f00) (PyLink (mkLR 1 0x0fff 0 (Some (mkLink 0xe2 1 0x0a0b0c 1 2 3))))].
Proof. vm_compute. reflexivity. Qed.
(** A writer that answers every write with the next reply and reads from a list of messages. *)
Definition ex_answering (a : message) : mwriter (list message) := mkMW (fun w => match w with [] => (Ret (None, Some EEOF), []) | m :: t => (Ret (Some m, None), t) end) (fun _ w => (Ret (Some a, None), w)).
Example C57_never_crashes_case : returns (ex_answering (ex_57 0x112233 0x010203 0x2b 0x11ff [])) /\
  (forall w w1, mw_read (ex_answering (ex_57 0x112233 0x010203 0x2b 0x11ff [])) w <> (Ret (None, None), w1)).
Proof. split; [split; [intros [|m t]; eexists _, _; reflexivity|intros m w; eexists _, _; reflexivity]|intros [|m t] w1; cbn; discriminate]. Qed.
(** A command is written after another message was read: its acknowledgement comes with its name. *)
Example C57_ack_names_case : let a := ex_57 0x112233 0x010203 0x2b 0x11ff [] in let m := ex_57 0x010203 0x112233 0x0f 0x11ff [] in
  exists ls s l1 l2 s', do_ops (snoop_filter None (mlogged (ex_answering a))) [DoRead] ([], (snoop_cache, ([ex_57 0x112233 0x000001 0xcf 0x0c1100 []], []))) = (Ret [(Some (ex_57 0x112233 0x000001 0xcf 0x0c1100 []), None)], (ls, s)) /\
  mw_write (snoop_filter None (mlogged (ex_answering a))) m (ls, s) = (Ret (Some a, None), (ls ++ [l1; l2], s')) /\ sn_wh l2 = WhAck 0x11ff.
Proof.
  intros a m.
  destruct (do_ops (snoop_filter None (mlogged (ex_answering a))) [DoRead] ([], (snoop_cache, ([ex_57 0x112233 0x000001 0xcf 0x0c1100 []], [])))) as [r [ls [c [w' log]]]] eqn:E.
  assert (Er : r = Ret [(Some (ex_57 0x112233 0x000001 0xcf 0x0c1100 []), None)]) by (apply (f_equal fst) in E; vm_compute in E; symmetry; exact E). subst r.
  assert (El : log = [MR (Ret (Some (ex_57 0x112233 0x000001 0xcf 0x0c1100 []), None))]) by (apply (f_equal (fun x => snd (snd (snd (snd x))))) in E; vm_compute in E; symmetry; exact E).
  destruct (C57_ack_names_its_command _ (ex_answering a) None [DoRead] _ _ ls c w' log m a None w' KDirectAck false 2 3 E) as (l1 & l2 & s' & H & Hw).
  - rewrite El. repeat constructor; vm_compute; repeat split; (reflexivity || discriminate).
  - repeat constructor; vm_compute; repeat split; (reflexivity || discriminate).
  - reflexivity.
  - reflexivity.
  - reflexivity.
  - vm_compute. repeat split; (reflexivity || discriminate).
  - left. reflexivity.
  - exists ls, (c, (w', log)), l1, l2, s'. split; [reflexivity|]. split; [exact H|exact Hw].
Qed.

(** * C58.  The monitor. *)
(** First the monitor bit of the modem's configuration is set and nothing else in it changed: [c'] is that configuration. *)
Theorem C58_monitor_mode : forall W fuel db (config : prog W (Z * option error)) set_config (modem : mwriter W) w c c' w1 w2, is_byte c -> is_byte c' ->
  (forall j, 0 <= j <= 7 -> (c' / 2 ^ j) mod 2 = if j =? 6 then 1 else (c / 2 ^ j) mod 2) ->
  config w = (Ret (c, None), w1) -> set_config c' w1 = (Ret None, w2) ->
  monitor fuel db config set_config modem ([], (snoop_cache, w)) = monitor_loop fuel (snoop_filter db modem) ([], (snoop_cache, w2)).
Proof.
  intros W fuel db config set_config modem w c c' w1 w2 Hc Hc' Hb E1 E2. unfold monitor, pbind, psnd. cbn [fst snd]. rewrite E1. cbn [fst snd].
  rewrite (set_monitor_bits c c' Hc Hc' Hb), E2. reflexivity.
Qed.
(** An error in either step ends the command with that error before anything is read. *)
Theorem C58_no_monitor_mode : forall W fuel db (config : prog W (Z * option error)) set_config (modem : mwriter W) w c e w1,
  (config w = (Ret (c, Some e), w1) ->
   monitor fuel db config set_config modem ([], (snoop_cache, w)) = (Ret (Some e), ([], (snoop_cache, w1)))) /\
  (forall c' w2, is_byte c -> is_byte c' -> (forall j, 0 <= j <= 7 -> (c' / 2 ^ j) mod 2 = if j =? 6 then 1 else (c / 2 ^ j) mod 2) ->
   config w = (Ret (c, None), w1) -> set_config c' w1 = (Ret (Some e), w2) ->
   monitor fuel db config set_config modem ([], (snoop_cache, w)) = (Ret (Some e), ([], (snoop_cache, w2)))).
Proof.
  intros W fuel db config set_config modem w c e w1. split.
  - intro E. unfold monitor, pbind, psnd. cbn [fst snd]. rewrite E. reflexivity.
  - intros c' w2 Hc Hc' Hb E1 E2. unfold monitor, pbind, psnd. cbn [fst snd]. rewrite E1. cbn [fst snd].
    rewrite (set_monitor_bits c c' Hc Hc' Hb), E2. reflexivity.
Qed.
(** Then it reads, and nothing else, again and again.  It shows every message it gets.  It stops at, and returns, the first error that
    is not the modem's time-out; if it has not stopped after [fuel] reads, all of them were messages and time-outs. *)
Theorem C58_loop : forall W (mw : mwriter W) db fuel w r ls c w' log,
  monitor_loop fuel (snoop_filter db (mlogged mw)) ([], (snoop_cache, (w, []))) = (r, (ls, (c, (w', log)))) ->
  exists t last, log = t ++ last /\ Forall goes_on t /\ (Forall ev_well t -> display db [] t ls) /\
    match r with
    | Ret x => exists e a, x = Some e /\ last = [MR (Ret (a, Some e))] /\ errors_is e EInsteonReadTimeout = false
    | Panic => last = [MR (Ret (None, None))] \/ last = [MR Panic]
    | NoFuel => (last = [] /\ length t = fuel) \/ last = [MR NoFuel]
    end.
Proof.
  intros W mw db fuel w r ls c w' log H.
  destruct (monitor_loop_log W mw db fuel [] snoop_cache w [] r ls c w' log dup_cache_inv H) as (t & last & new & -> & Ht & -> & Hd & Hr).
  exists t, last. split; [reflexivity|]. split; [exact Ht|]. split; [|exact Hr]. apply Hd. constructor.
Qed.
(** Over the modem, with the port open and packets that are what they claim to be, it never stops and never crashes once
    monitor mode is on: however many reads one allows, all are used. *)
Theorem C58_never_ends : forall k fuel db sc st,
  sched_all (fun p => from_reader p /\ honest p) sc -> no_end sc ->
  queues_all (fun p => from_reader p /\ honest p) st -> p_closed st = false -> Forall (fun p => network_message p = true) (p_msgq st) -> 0 <= p_retries st ->
  exists s, monitor fuel db (plm_config sc) (plm_set_config sc) (plm_mw k sc) ([], (snoop_cache, st)) = (NoFuel, s) \/
    exists e, monitor fuel db (plm_config sc) (plm_set_config sc) (plm_mw k sc) ([], (snoop_cache, st)) = (Ret (Some e), s) /\ fst s = [] /\
      ((exists c st1, plm_config sc st = (Ret (c, Some e), st1)) \/
       exists c st1 st2, plm_config sc st = (Ret (c, None), st1) /\ plm_set_config sc (cfg_set_monitor c) st1 = (Ret (Some e), st2)).
Proof. intros k fuel db sc st Hs Hn Hq Ho Hm Hr. apply monitor_plm; try assumption. split; [exact Hq|]. split; assumption. Qed.
(** Both conditions are needed.  One mislabelled message on the line ends the monitor. *)
Definition ex_58_plm : plm := mkPlm [] [] false [] [] 0 3 3 0.
Definition ex_58_sched (l : list step) : schedule := fun t => nth t l (mkStep [] [] false None).
Definition ex_58_start : list step :=
  [mkStep [] [] false None; mkStep [] [EvPacket (mkPkt 0x73 [0x00; 0; 0] 6)] false None;
   mkStep [] [] false None; mkStep [] [EvPacket (mkPkt 0x6b [0x40] 6)] false None].
Lemma ex_58_message : forall cmd b n, frame_size cmd = Some n -> cmd < 0x60 -> length b = (n - 2)%nat -> from_reader (mkPkt cmd b 0).
Proof.
  intros cmd b n Hn Hc Hl. exists b. cbn [p_cmd]. split; [|apply dec_unsolicited; exact Hc]. apply rx_plain with n; [exact Hn|lia|cbn [andb]; lia].
Qed.
Lemma ex_58_reply : forall cmd b ack n, frame_size cmd = Some n -> 0x60 <= cmd -> cmd <> 0x62 -> length b = (n - 3)%nat -> (3 <= n)%nat -> from_reader (mkPkt cmd b ack).
Proof.
  intros cmd b ack n Hn Hc Hc2 Hl H3. exists (b ++ [ack]). cbn [p_cmd]. split; [|apply dec_reply; auto].
  apply rx_plain with n; [exact Hn|exact Hc2|rewrite app_length; cbn [andb length]; lia].
Qed.
Theorem C58_one_bad_message_ends_it_refuted : exists fuel db sc st e s, sched_all from_reader sc /\ no_end sc /\ p_closed st = false /\
  monitor fuel db (plm_config sc) (plm_set_config sc) (plm_mw 5 sc) ([], (snoop_cache, st)) = (Ret (Some e), s) /\ length (fst s) = 1%nat.
Proof.
  exists 5%nat, None, (ex_58_sched (ex_58_start ++ [mkStep [] [EvPacket (mkPkt 0x50 [1; 2; 3; 4; 5; 6; 0x0f; 0x11; 0xff] 0)] false None;
    mkStep [] [EvPacket (mkPkt 0x50 [1; 2; 3; 4; 5; 6; 0x1f; 0x11; 0xff] 0)] false None])), ex_58_plm. do 2 eexists.
  split; [|split; [|split; [reflexivity|split; [vm_compute; reflexivity|reflexivity]]]].
  - intros t p. unfold ex_58_sched.
    do 6 (destruct t as [|t]; [cbn; intros [[]|H]; try contradiction; destruct H as [H|[]]; inversion H; subst; clear H;
      (eapply ex_58_message; [reflexivity|lia|reflexivity]) || (eapply ex_58_reply; [reflexivity|lia|lia|reflexivity|lia])|]).
    destruct t; cbn; intros [[]|[]].
  - intro t. unfold ex_58_sched. do 6 (destruct t as [|t]; [cbn; split; intros H; repeat (destruct H as [H|H]; try discriminate H); exact H|]).
    destruct t; cbn; tauto.
Qed.
(** And when the port goes away, it crashes. *)
Theorem C58_closed_port_crashes_refuted : exists fuel db sc st,
  fst (monitor fuel db (plm_config sc) (plm_set_config sc) (plm_mw 5 sc) ([], (snoop_cache, st))) = Panic.
Proof. exists 5%nat, None, (ex_58_sched (ex_58_start ++ [mkStep [] [EvEnd] false None])), ex_58_plm. vm_compute. reflexivity. Qed.
(** Two messages among silences: shown, and the monitor still running. *)
Example C58_ex : exists s,
  monitor 6 None (plm_config (ex_58_sched (ex_58_start ++ [mkStep [] [EvPacket (mkPkt 0x50 [1; 2; 3; 4; 5; 6; 0x0f; 0x11; 0xff] 0)] false None;
      mkStep [] [] true None; mkStep [EvPacket (mkPkt 0x50 [4; 5; 6; 1; 2; 3; 0x2b; 0x11; 0xff] 0)] [] false None])))
    (plm_set_config (ex_58_sched (ex_58_start ++ [mkStep [] [EvPacket (mkPkt 0x50 [1; 2; 3; 4; 5; 6; 0x0f; 0x11; 0xff] 0)] false None;
      mkStep [] [] true None; mkStep [EvPacket (mkPkt 0x50 [4; 5; 6; 1; 2; 3; 0x2b; 0x11; 0xff] 0)] [] false None])))
    (plm_mw 5 (ex_58_sched (ex_58_start ++ [mkStep [] [EvPacket (mkPkt 0x50 [1; 2; 3; 4; 5; 6; 0x0f; 0x11; 0xff] 0)] false None;
      mkStep [] [] true None; mkStep [EvPacket (mkPkt 0x50 [4; 5; 6; 1; 2; 3; 0x2b; 0x11; 0xff] 0)] [] false None])))
    ([], (snoop_cache, ex_58_plm)) = (NoFuel, s) /\
  fst s = [mkLine (RtDirect false 0x010203 0x040506) 3 3 (WhCommand 0x11ff) PyNone; mkLine (RtDirect false 0x040506 0x010203) 3 2 (WhAck 0x11ff) PyNone] /\
  p_sent (snd (snd s)) = [[0x02; 0x73]; [0x02; 0x6b; 0x40]].
Proof. eexists. split; [vm_compute; reflexivity|]. vm_compute. split; reflexivity. Qed.
Example C58_monitor_mode_case : let cfg := fun w : list Z => (Ret (0x20, None), w) in let set := fun (c : Z) (w : list Z) => (Ret None, w ++ [c]) in
  monitor 3 None cfg set (mkMW (fun w => (Ret (None, Some EEOF), w)) (fun _ w => (Ret (None, None), w))) ([], (snoop_cache, [])) =
  monitor_loop 3 (snoop_filter None (mkMW (fun w => (Ret (None, Some EEOF), w)) (fun _ w => (Ret (None, None), w)))) ([], (snoop_cache, [0x60])).
Proof.
  intros cfg set. apply (C58_monitor_mode _ 3 None cfg set _ [] 0x20 0x60 [] [0x60]); try (unfold is_byte; lia); try reflexivity.
  intros j Hj. assert (H : j = 0 \/ j = 1 \/ j = 2 \/ j = 3 \/ j = 4 \/ j = 5 \/ j = 6 \/ j = 7) by lia.
  repeat (destruct H as [->|H]; [reflexivity|]). subst j. reflexivity.
Qed.
(** Two messages among silences, as in [C58_ex]. *)
Definition ex_58_quiet : schedule := ex_58_sched (ex_58_start ++ [mkStep [] [EvPacket (mkPkt 0x50 [1; 2; 3; 4; 5; 6; 0x0f; 0x11; 0xff] 0)] false None;
  mkStep [] [] true None; mkStep [EvPacket (mkPkt 0x50 [4; 5; 6; 1; 2; 3; 0x2b; 0x11; 0xff] 0)] [] false None]).
Example C58_never_ends_case : sched_all (fun p => from_reader p /\ honest p) ex_58_quiet /\ no_end ex_58_quiet /\
  queues_all (fun p => from_reader p /\ honest p) ex_58_plm /\ p_closed ex_58_plm = false /\ Forall (fun p => network_message p = true) (p_msgq ex_58_plm) /\ 0 <= p_retries ex_58_plm.
Proof.
  split; [|split; [|repeat split; try constructor; discriminate]].
  - intros t p. unfold ex_58_quiet, ex_58_sched.
    do 7 (destruct t as [|t]; [cbn; intros [H|H]; try contradiction; destruct H as [H|[]]; inversion H; subst; clear H;
      (split; [(eapply ex_58_message; [reflexivity|lia|reflexivity]) || (eapply ex_58_reply; [reflexivity|lia|lia|reflexivity|lia])|intro; (discriminate || reflexivity)])|]).
    destruct t; cbn; intros [[]|[]].
  - intro t. unfold ex_58_quiet, ex_58_sched. do 7 (destruct t as [|t]; [cbn; split; intros H; repeat (destruct H as [H|H]; try discriminate H); exact H|]).
    destruct t; cbn; tauto.
Qed.

Print Assumptions C57_transparent.
Print Assumptions C57_lines.
Print Assumptions C57_never_crashes.
Print Assumptions C57_nothing_read_crashes_refuted.
Print Assumptions C57_ack_names_its_command.
Print Assumptions C57_overheard_ack_refuted.
Print Assumptions C58_monitor_mode.
Print Assumptions C58_no_monitor_mode.
Print Assumptions C58_loop.
Print Assumptions C58_never_ends.
Print Assumptions C58_one_bad_message_ends_it_refuted.
Print Assumptions C58_closed_port_crashes_refuted.
