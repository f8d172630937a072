(** Properties C20-C23 and C50: message filters, matchers and waiting for a message. *)
From Coq Require Import ZArith List Bool Lia ZifyBool ZifyNat.
From Verif Require Import GoBase GoLemmas GoProg Command Message MessageSpec MessageProofs PlmPacket Plm MsgWriter Filters FiltersSpec FiltersProofs.
Import ListNotations.
Open Scope Z_scope.

Definition ex_m (src c2 : Z) : message := mkMsg src 0x0a0b0c 0x2b (0x1100 + c2) [].
Definition ex_mt (src c2 flags : Z) : message := mkMsg src 0x0a0b0c flags (0x1100 + c2) [].

(** * C20.  After any reads and writes through it, over any message writer, the cache holds exactly the last n messages that went
    by (in ring order) and a lookup finds the most recent match. *)
Theorem C20_most_recent : forall W (mw : mwriter W) size msgs ops c w rs c' w' log,
  let n := Z.to_nat (Z.max size (zlen msgs)) in let seen := msgs ++ passed log in (1 <= n)%nat ->
  new_cache size msgs = Ret c -> do_ops (cache_filter (mlogged mw)) ops (c, (w, [])) = (Ret rs, (c', (w', log))) ->
  (exists a b, map snd (c_msgs c') = b ++ a /\ lastn n seen = a ++ b) /\
  (forall p, exists r, cache_lookup (fun x => p (snd x)) c' = Ret r /\ option_map snd r = find p (rev (lastn n seen))) /\
  map Ret rs = map ev_result log.
Proof.
  intros W mw size msgs ops c w rs c' w' log n seen Hn Hc H.
  destruct (new_cache_cinv size msgs Hn) as (c0 & H0 & H1). rewrite Hc in H0. injection H0 as <-.
  destruct (cache_ops W mw n ops c w [] msgs Hn) as (r & s & t & H2 & H3 & H4); [rewrite app_nil_r; exact H1|].
  rewrite H2 in H. apply pair_equal_spec in H. destruct H as [-> ->]. cbn [fst snd app] in *. subst t. destruct H4 as [H4 H5].
  split; [apply cinv_contents; exact H4|]. split; [intro p; apply cinv_lookup; exact H4|exact H5].
Qed.
(** A cache of size at least one never crashes, whatever the sizes and whatever passes. *)
Theorem C20_never_crashes : forall W (mw : mwriter W) size msgs ops w,
  1 <= Z.max size (zlen msgs) -> returns mw ->
  exists c rs s, new_cache size msgs = Ret c /\ do_ops (cache_filter (mlogged mw)) ops (c, (w, [])) = (Ret rs, s).
Proof.
  intros W mw size msgs ops w Hn Hr. assert (Hn' : (1 <= Z.to_nat (Z.max size (zlen msgs)))%nat) by lia.
  destruct (new_cache_cinv size msgs Hn') as (c & H0 & H1). exists c.
  assert (H : forall ops c w log, cinv (Z.to_nat (Z.max size (zlen msgs))) (msgs ++ passed log) c ->
    exists rs s, do_ops (cache_filter (mlogged mw)) ops (c, (w, log)) = (Ret rs, s)).
  { clear - Hn' Hr. induction ops as [|o ops IH]; intros c w log Hc; cbn [do_ops]; [eexists _, _; reflexivity|].
    destruct (cache_op W mw _ o c w log msgs Hn' Hc) as (e & r & w' & H1 & He & H2). unfold pbind.
    assert (Hx : exists x, r = Ret x).
    { destruct o as [|m]; cbn [do_op mlogged mw_read mw_write fst snd] in H1.
      - destruct (proj1 Hr w) as (x & w1 & Hw). rewrite Hw in H1. injection H1 as <- _ _. eauto.
      - destruct (proj2 Hr m w) as (x & w1 & Hw). rewrite Hw in H1. injection H1 as <- _ _. eauto. }
    destruct Hx as (x & ->). destruct H2 as (c' & H2 & H3). rewrite H2.
    destruct (IH c' w' (log ++ [e]) H3) as (rs & s & H4). rewrite H4. eexists _, _. reflexivity. }
  destruct (H ops c w []) as (rs & s & H2); [rewrite app_nil_r; exact H1|]. exists rs, s. auto.
Qed.
Example C20_never_crashes_case : returns (list_mw EEOF).
Proof. split; [intros [|m w]|intros m w]; do 2 eexists; reflexivity. Qed.
(** Size zero without messages is outside the claim: the first message crashes it. *)
Theorem C20_size_zero_crashes : forall m, exists c, new_cache 0 [] = Ret c /\ cache_push c m = Panic.
Proof. intro m. eexists. split; reflexivity. Qed.
Definition ex_stream : list message := map (ex_m 1) [1; 2; 3; 4; 5].
Example C20_ex : exists c c' w' log,
  new_cache 3 [ex_m 9 9] = Ret c /\
  do_ops (cache_filter (mlogged (list_mw EEOF))) [DoRead; DoRead; DoWrite (ex_m 7 7); DoRead; DoRead] (c, (ex_stream, [])) =
    (Ret [(Some (ex_m 1 1), None); (Some (ex_m 1 2), None); (None, Some EEOF); (Some (ex_m 1 3), None); (Some (ex_m 1 4), None)], (c', (w', log))) /\
  map snd (c_msgs c') = [ex_m 7 7; ex_m 1 3; ex_m 1 4] /\
  cache_lookup (fun x => m_src (snd x) =? 7) c' = Ret (Some (3, ex_m 7 7)) /\
  cache_lookup (fun x => m_src (snd x) =? 9) c' = Ret None.
Proof. eexists _, _, _, _. split; [reflexivity|]. split; [vm_compute; reflexivity|]. vm_compute. auto. Qed.
Print Assumptions C20_most_recent.
Print Assumptions C20_never_crashes.
Print Assumptions C20_size_zero_crashes.

(** * C21.  Whatever is read and written through the duplicate filter, over any message writer, what its users get is exactly what
    the specification [deliveries] computes from what went on below. *)
Theorem C21_deliveries : forall W (mw : mwriter W) fuel ops w rs c' w' log,
  do_ops (dup_filter fuel (mlogged mw)) ops (dup_cache, (w, [])) = (Ret rs, (c', (w', log))) -> rs = deliveries [] log.
Proof.
  intros W mw fuel ops w rs c' w' log H.
  destruct (dup_ops_deliveries W mw fuel ops dup_cache w [] rs c' w' log dup_cache_inv H) as (t & -> & _ & Hd).
  symmetry. exact Hd.
Qed.
(** It does not crash as long as the writer below returns and gives a message or an error for every read. *)
Theorem C21_never_crashes : forall W (mw : mwriter W) fuel ops w, returns mw -> informative mw ->
  fst (do_ops (dup_filter fuel (mlogged mw)) ops (dup_cache, (w, []))) <> Panic.
Proof. intros W mw fuel ops w Hr Hi. apply dup_ops_no_panic; [exact Hr|exact Hi|exact dup_cache_inv]. Qed.
Example C21_never_crashes_case : returns (list_mw EEOF) /\ informative (list_mw EEOF).
Proof. split; [exact C20_never_crashes_case|]. intros [|m w] w1 H; discriminate H. Qed.
(** Because of C04 a message that is not a retransmission can be dropped: a NAK after an ACK with the same content. *)
Theorem C21_drops_a_nak_refuted : exists a b c' w' log, ~ same_but_hops_left a b /\ fl_ack (m_flags a) = true /\ fl_nak (m_flags b) = true /\
  do_ops (dup_filter 5 (mlogged (list_mw EEOF))) [DoRead; DoRead] (dup_cache, ([a; b], [])) = (Ret [(Some a, None); (None, Some EEOF)], (c', (w', log))).
Proof.
  exists (ex_mt 1 1 0x2b), (ex_mt 1 1 0xab). eexists _, _, _. split.
  - intros (_ & _ & _ & _ & (k & e & l1 & l2 & h & (H1 & H2 & H3) & (H4 & H5 & H6))).
    unfold ex_mt in *. cbn [m_flags] in *. clear - H1 H2 H3 H4 H6. lia.
  - split; [reflexivity|]. split; [reflexivity|]. vm_compute. reflexivity.
Qed.
Example C21_ex : exists c' w' log,
  do_ops (dup_filter 9 (mlogged (list_mw EEOF))) [DoRead; DoRead; DoRead]
    (dup_cache, ([ex_mt 1 1 0x2b; ex_mt 1 1 0x27; ex_mt 2 1 0x2b; ex_mt 1 1 0x23], [])) =
  (Ret [(Some (ex_mt 1 1 0x2b), None); (Some (ex_mt 2 1 0x2b), None); (None, Some EEOF)], (c', (w', log))).
Proof. eexists _, _, _. vm_compute. reflexivity. Qed.
(** Nine other messages in between and it is delivered again. *)
Example C21_ex_window : exists c' w' log,
  do_ops (dup_filter 9 (mlogged (list_mw EEOF))) (repeat DoRead 11)
    (dup_cache, (map (fun k => ex_mt k 1 0x2b) [0;1;2;3;4;5;6;7;8;9;0], [])) =
  (Ret (map (fun k => (Some (ex_mt k 1 0x2b), None)) [0;1;2;3;4;5;6;7;8;9;0]), (c', (w', log))).
Proof. eexists _, _, _. vm_compute. reflexivity. Qed.
Print Assumptions C21_deliveries.
Print Assumptions C21_never_crashes.
Print Assumptions C21_drops_a_nak_refuted.

(** * C22.  One to max(1,tries) writes of the same message, each but the last answered by a read time-out; the last answer is
    returned, and it is a time-out only when all tries are used up. *)
Theorem C22_bounded_retries_partial : forall W (mw : mwriter W) tries m w r w' log,
  mw_write (retry_filter tries (mlogged mw)) m (w, []) = (r, (w', log)) ->
  exists pre, log = pre ++ [MW m r] /\ Forall (fun e => exists ack, e = MW m (Ret (ack, Some EDevReadTimeout))) pre /\
    zlen pre + 1 <= Z.max 1 tries /\ (forall ack, r = Ret (ack, Some EDevReadTimeout) -> zlen pre + 1 = Z.max 1 tries).
Proof.
  intros W mw tries m w r w' log H. cbn [retry_filter mw_write] in H.
  destruct (retry_writes_log W mw _ tries m w [] r w' log (Nat.lt_succ_diag_r _) H) as (pre & H1). exists pre. exact H1.
Qed.
Theorem C22_reads_unchanged : forall W (mw : mwriter W) tries, mw_read (retry_filter tries mw) = mw_read mw.
Proof. reflexivity. Qed.
(** Missing: a time-out of the modem is a different error value, so it is not retried.  Here the device never answers: one write
    reaches the port although three tries were asked for. *)
Definition ex_write : message := mkMsg 0 0x010203 0x0f 0x1100 [].
Definition ex_silent : schedule := fun t =>
  match t with
  | 1%nat => mkStep [EvPacket (mkPkt 0x62 (skipn 0 (msg_marshal (mkMsg 0 0x010203 0x0f 0x1100 []))) 0x06)] [] false None
  | _ => mkStep [] [] true None
  end.
Theorem C22_modem_timeout_refuted : exists sc st m e st',
  mw_write (retry_filter 3 (plm_mw 20 sc)) m st = (Ret (None, Some e), st') /\
  errors_is e EInsteonReadTimeout = true /\ length (p_sent st') = 1%nat.
Proof.
  exists ex_silent, (mkPlm [] [] false [] [] 0 3 3 0), ex_write. eexists _, _.
  split; [vm_compute; reflexivity|]. split; vm_compute; reflexivity.
Qed.
Definition script_mw : mwriter (list mresult) :=
  mkMW (fun w => match w with [] => (Ret (None, Some EEOF), []) | r :: t => (Ret r, t) end)
       (fun _ w => match w with [] => (Ret (None, Some EEOF), []) | r :: t => (Ret r, t) end).
Example C22_ex :
  mw_write (retry_filter 3 script_mw) ex_write [(None, Some EDevReadTimeout); (Some ex_write, None); (None, None)] = (Ret (Some ex_write, None), [(None, None)]) /\
  mw_write (retry_filter 2 script_mw) ex_write (repeat (None, Some EDevReadTimeout) 4) = (Ret (None, Some EDevReadTimeout), repeat (None, Some EDevReadTimeout) 2) /\
  mw_write (retry_filter (-1) script_mw) ex_write (repeat (None, Some EDevReadTimeout) 4) = (Ret (None, Some EDevReadTimeout), repeat (None, Some EDevReadTimeout) 3).
Proof. vm_compute. auto. Qed.
Print Assumptions C22_bounded_retries_partial.
Print Assumptions C22_reads_unchanged.
Print Assumptions C22_modem_timeout_refuted.

(** * C23.  The message written on has both counters set and is otherwise the same; nothing else is done. *)
Theorem C23_sets_both : forall W (mw : mwriter W) ttl m w k e l h, 0 <= ttl <= 3 -> flags_layout (m_flags m) k e l h ->
  exists m', mw_write (ttl_filter ttl mw) m w = mw_write mw m' w /\ flags_layout (m_flags m') k e ttl ttl /\
    m_src m' = m_src m /\ m_dst m' = m_dst m /\ m_cmd m' = m_cmd m /\ m_payload m' = m_payload m.
Proof.
  intros W mw ttl m w k e l h Ht Hf. exists (ttl_message ttl m). split; [reflexivity|].
  split; [apply (ttl_flags _ _ _ _ _ _ Hf Ht)|]. auto.
Qed.
Theorem C23_every_byte_has_a_layout : forall f, is_byte f -> exists k e l h, flags_layout f k e l h.
Proof.
  intros f Hf.
  exists (match f / 32 with 0 => KDirect | 1 => KDirectAck | 2 => KCleanup | 3 => KCleanupAck | 4 => KBroadcast | 5 => KDirectNak | 6 => KAllLink | _ => KCleanupNak end),
    ((f / 16) mod 2 =? 1), ((f / 4) mod 4), (f mod 4).
  unfold is_byte in Hf. split; [lia|]. split; [lia|].
  assert (Hc : f / 32 = 0 \/ f / 32 = 1 \/ f / 32 = 2 \/ f / 32 = 3 \/ f / 32 = 4 \/ f / 32 = 5 \/ f / 32 = 6 \/ f / 32 = 7) by lia.
  destruct Hc as [E|[E|[E|[E|[E|[E|[E|E]]]]]]]; rewrite E; cbn [kind_bits]; destruct ((f / 16) mod 2 =? 1) eqn:E16; lia.
Qed.
Theorem C23_reads_unchanged : forall W (mw : mwriter W) ttl, mw_read (ttl_filter ttl mw) = mw_read mw.
Proof. reflexivity. Qed.
Example C23_ex : ttl_message 1 (mkMsg 5 6 0x1f 0x1234 [7]) = mkMsg 5 6 0x15 0x1234 [7] /\ flags_layout 0x1f KDirect true 3 3.
Proof. split; [reflexivity|]. repeat split; lia. Qed.
Print Assumptions C23_sets_both.
Print Assumptions C23_every_byte_has_a_layout.
Print Assumptions C23_reads_unchanged.

(** * C50.  Everything consumed before the returned message did not match; an error is the first one; a message returned without
    error matches. *)
Theorem C50_first_match : forall W (mw : mwriter W) p fuel w m e w' log,
  read_match fuel (mlogged mw) p (w, []) = (Ret (m, e), (w', log)) ->
  exists pre, log = map (fun x => MR (Ret (Some x, None))) pre ++ [MR (Ret (m, e))] /\ Forall (fun x => p x = false) pre /\
    (e = None -> exists x, m = Some x /\ p x = true).
Proof. intros W mw p fuel w m e w' log H. exact (read_match_log W mw p fuel w [] m e w' log H). Qed.
Example C50_first_match_case : exists w' log, read_match 5 (mlogged (list_mw EEOF)) (src_matcher 7) ([ex_m 1 1; ex_m 7 3; ex_m 7 4], []) =
  (Ret (Some (ex_m 7 3), None), (w', log)) /\ log = [MR (Ret (Some (ex_m 1 1), None)); MR (Ret (Some (ex_m 7 3), None))] /\ w' = [ex_m 7 4].
Proof. do 2 eexists. split; [vm_compute; reflexivity|]. split; reflexivity. Qed.
(** Conversely, with a stream of messages the first match is returned and everything after it is still there. *)
Theorem C50_rest_remains : forall err p pre x rest fuel, Forall (fun y => p y = false) pre -> p x = true -> (length pre < fuel)%nat ->
  read_match fuel (list_mw err) p (pre ++ x :: rest) = (Ret (Some x, None), rest).
Proof. exact read_match_list. Qed.
Theorem C50_no_match : forall err p pre fuel, Forall (fun y => p y = false) pre -> (length pre < fuel)%nat ->
  read_match fuel (list_mw err) p pre = (Ret (None, Some err), []).
Proof. exact read_match_none. Qed.
Theorem C50_and : forall l m, and_matcher l m = true <-> forall p, In p l -> p m = true.
Proof. exact and_matcher_spec. Qed.
Theorem C50_or : forall l m, or_matcher l m = true <-> exists p, In p l /\ p m = true.
Proof. exact or_matcher_spec. Qed.
Theorem C50_not : forall p m, not_matcher p m = true <-> p m = false.
Proof. intros p m. unfold not_matcher. destruct (p m); split; discriminate || reflexivity. Qed.
(** The elementary matchers, and the one for the request an acknowledgement belongs to. *)
Theorem C50_elementary : forall m k e l h a c, flags_layout (m_flags m) k e l h ->
  (src_matcher a m = true <-> m_src m = a) /\ (dst_matcher a m = true <-> m_dst m = a) /\
  (cmd_matcher c m = true <-> (c / 256) mod 256 = (m_cmd m / 256) mod 256) /\
  (ack_matcher m = true <-> is_ack_kind k = true \/ is_nak_kind k = true) /\
  (alllink_matcher m = true <-> is_alllink_kind k = true).
Proof.
  intros m k e l h a c (Hl & Hh & Hf).
  split; [unfold src_matcher; lia|]. split; [unfold dst_matcher; lia|]. split.
  - unfold cmd_matcher, cmd_matches, command1. change 0xff with (Z.ones 8). rewrite !Z.land_ones, !Z.shiftr_div_pow2 by lia.
    change (2 ^ 8) with 256. lia.
  - unfold ack_matcher, alllink_matcher.
    assert (Hc : (l = 0 \/ l = 1 \/ l = 2 \/ l = 3) /\ (h = 0 \/ h = 1 \/ h = 2 \/ h = 3)) by lia. destruct Hc as [Hc2 Hc3].
    rewrite Hf. destruct Hc2 as [->|[->|[->| ->]]], Hc3 as [->|[->|[->| ->]]], k, e; vm_compute; intuition congruence.
Qed.
Example C50_elementary_case : flags_layout 0x2b KDirectAck false 2 3 /\ ack_matcher (ex_m 1 1) = true /\ alllink_matcher (ex_m 1 1) = false.
Proof. split; [unfold flags_layout; cbn; repeat split; lia|]. split; reflexivity. Qed.
Theorem C50_match_ack : forall ack m, match_ack ack m = true <-> ack_matcher m = false /\ m_dst m = m_src ack.
Proof.
  intros ack m. unfold match_ack. cbn [and_matcher]. unfold not_matcher, dst_matcher.
  destruct (ack_matcher m); cbn [negb]; [split; [discriminate|intros [? _]; discriminate]|].
  destruct (m_dst m =? m_src ack) eqn:E; cbn [negb]; (split; [intro H; try discriminate; (split; [reflexivity|lia])|intros [_ H]; try reflexivity; lia]).
Qed.
Example C50_ex : read_match 5 (list_mw EEOF) (or_matcher [cmd_matcher 0x1200; src_matcher 7]) [ex_m 1 1; ex_m 2 2; ex_m 7 3; ex_m 7 4] = (Ret (Some (ex_m 7 3), None), [ex_m 7 4]).
Proof. vm_compute. reflexivity. Qed.
Print Assumptions C50_first_match.
Print Assumptions C50_rest_remains.
Print Assumptions C50_no_match.
Print Assumptions C50_and.
Print Assumptions C50_or.
Print Assumptions C50_not.
Print Assumptions C50_elementary.
Print Assumptions C50_match_ack.
