(** Property C49: what the snooper shows of a serial line. *)
From Coq Require Import ZArith List Bool Lia ZifyBool ZifyNat.
From Verif Require Import GoBase GoLemmas Message MessageSpec MessageProofs PlmPacket PlmReader PlmReaderSpec PlmReaderProofs
  PlmSnoop PlmSnoopSpec PlmSnoopProofs.
Import ListNotations.
Open Scope Z_scope.

(** * C49.  Full statement: for every session of the host and every session of the modem, whatever the goroutines do, what is
    read in the end is an interleaving of the messages sent ([host_traffic]) and received ([modem_traffic]).
    Missing here: host commands other than 0x61..0x64, and echoes which the modem does not acknowledge positively. *)
Theorem C49_line_is_shown_partial : forall hitems htail hmss hfuel hb hn mitems mtail mmss mfuel mb mn,
  bytes_ok (stream hb) -> (length (stream hb) < hfuel)%nat -> stream hb = session hitems htail ->
  Forall (fun it => match it with (noise, cmd, body) => gap noise /\ host_frame cmd body /\ 0x61 <= cmd <= 0x64 end) hitems ->
  gap htail -> last htail 0 <> 0x02 -> (length hitems < hn)%nat ->
  Forall2 (fun it ms => match it with (_, cmd, body) => host_traffic cmd body ms end) hitems hmss ->
  bytes_ok (stream mb) -> (length (stream mb) < mfuel)%nat -> stream mb = session mitems mtail ->
  Forall (fun it => match it with (noise, cmd, body) =>
    gap noise /\ modem_frame cmd body /\ (cmd = 0x62 -> last body 0 = 0x06) end) mitems ->
  gap mtail -> last mtail 0 <> 0x02 -> (length mitems < mn)%nat ->
  Forall2 (fun it ms => match it with (_, cmd, body) => modem_traffic cmd body ms end) mitems mmss ->
  exists hps hb' mps mb',
    snoop_rx_loop hn hfuel hb = (Ret (hps, Some (b_end hb)), hb') /\
    snoop_tx_loop mn mfuel mb = (Ret (mps, Some (b_end mb)), mb') /\
    forall acts s', snoop_run acts (snoop_start hps mps) = Some s' -> snoop_stuck s' ->
      exists ms, merge (concat hmss) (concat mmss) ms /\ sn_out s' = map (fun m => (m, None)) ms.
Proof.
  intros hitems htail hmss hfuel hb hn mitems mtail mmss mfuel mb mn
    H1 H2 H3 H4 H5 H6 H7 H8 M1 M2 M3 M4 M5 M6 M7 M8.
  destruct (host_shows hitems htail hmss hfuel hb hn) as (hps & hb' & HL & HM); auto.
  destruct (modem_shows mitems mtail mmss mfuel mb mn) as (mps & mb' & ML & MM); auto.
  - eapply Forall_impl; [|exact M4]. intros [[noise cmd] body] (? & ? & _). auto.
  - clear - M4 M8. induction M8 as [|[[noise cmd] body] ms mitems mmss Hm Hms IH]; [constructor|].
    inversion M4 as [|? ? HM M4']; subst. destruct HM as (Hg & Hf & Ha). constructor; [|apply IH; exact M4'].
    destruct (Z.eq_dec cmd 0x62) as [->|Hne]; [|apply ms_traffic; auto].
    inversion Hm; subst. inversion Hf as [|a b c f c1 c2 data ack Hd Hfb Hk]; subst; [lia|].
    destruct ack as [|k [|? ?]]; try discriminate Hk. specialize (Ha eq_refl).
    change ([a; b; c; f; c1; c2] ++ data ++ [k]) with (([a; b; c; f; c1; c2] ++ data) ++ [k]) in Ha |- *.
    rewrite last_last in Ha. subst k. apply ms_acked.
  - exists hps, hb', mps, mb'. repeat apply conj; auto.
    intros acts s' Hrun Hst. exact (snoop_all_arrives _ _ _ _ _ _ HM MM Hrun Hst).
Qed.
(** What is shown of the modem's direction, echoes included. *)
Theorem C49_modem_direction : forall items tail mss fuel b n,
  bytes_ok (stream b) -> (length (stream b) < fuel)%nat -> stream b = session items tail ->
  Forall (fun it => match it with (noise, cmd, body) => gap noise /\ modem_frame cmd body end) items ->
  gap tail -> last tail 0 <> 0x02 -> (length items < n)%nat ->
  Forall2 (fun it ms => match it with (_, cmd, body) => modem_shown cmd body ms end) items mss ->
  exists ps b', snoop_tx_loop n fuel b = (Ret (ps, Some (b_end b)), b') /\
    map snoop_read ps = map (fun m => (m, None)) (concat mss).
Proof. exact modem_shows. Qed.
(** A message the modem refused is shown again, as if it had been on the line twice. *)
Theorem C49_refused_echo_refuted : exists body m ps b',
  modem_frame 0x62 body /\ modem_traffic 0x62 body [] /\
  snoop_tx_loop 2 50 (mkBuf [] None [frame_bytes 0x62 body] EEOF) = (Ret (ps, Some EEOF), b') /\
  map snoop_read ps = [(m, None)].
Proof.
  exists [1; 2; 3; 0x0f; 0x11; 0xff; 0x15], (mkMsg 0 0x010203 0x0f 0x11ff []). do 2 eexists. repeat apply conj.
  - apply (rx_message false 1 2 3 0x0f 0x11 0xff [] [0x15]); [reflexivity|unfold is_byte; lia|reflexivity].
  - apply mt_other; lia.
  - vm_compute. reflexivity.
  - vm_compute. reflexivity.
Qed.
(** The host asks for the modem's data, then sends a message: the message is swallowed. *)
Theorem C49_host_message_lost_refuted : exists body m ps b',
  host_frame 0x60 [] /\ host_frame 0x62 body /\ host_traffic 0x62 body [m] /\
  snoop_rx_loop 3 50 (mkBuf [] None [frame_bytes 0x60 []; frame_bytes 0x62 body] EEOF) = (Ret (ps, Some EEOF), b') /\
  ps = [].
Proof.
  exists [1; 4; 3; 0x0f; 0x11; 0xff], (mkMsg 0 0x010403 0x0f 0x11ff []). do 2 eexists. repeat apply conj.
  - apply (hf_plain 0x60 [] 2); reflexivity.
  - apply (hf_message 1 4 3 0x0f 0x11 0xff []); [reflexivity|unfold is_byte; lia].
  - apply ht_msg. apply (lm 0 0x010403 0x0f 0x11 0xff [] _ KDirect false 3 3).
    + exists 0, 0, 0, 1, 4, 3. unfold is_byte, bytes_ok. repeat apply conj; try lia; try reflexivity; constructor.
    + unfold flags_layout. cbn. lia.
  - vm_compute. reflexivity.
  - reflexivity.
Qed.
(** Not an accident: whichever command from 0x65 to 0x72 comes before it, the message is not seen (unless it happens to
    contain what looks like a start of packet). *)
Theorem C49_host_message_lost_always : forall cmd body mbody fuel b n,
  0x65 <= cmd -> cmd <> 0x73 -> host_frame cmd body -> host_frame 0x62 mbody ->
  gap (0x62 :: mbody) -> last (0x62 :: mbody) 0 <> 0x02 ->
  bytes_ok (stream b) -> (length (stream b) < fuel)%nat -> (1 < n)%nat ->
  stream b = frame_bytes cmd body ++ frame_bytes 0x62 mbody ->
  exists b', snoop_rx_loop n fuel b = (Ret ([], Some (b_end b)), b').
Proof. intros cmd body mbody fuel b n Hc Hne Hh Hm Hg Hl Hok Hf Hn Hs. eapply late_command_eats; eauto. Qed.
(** The two loops survive anything. *)
Theorem C49_loops_never_panic : forall n fuel b b', bytes_ok (stream b) ->
  snoop_tx_loop n fuel b <> (Panic, b') /\ snoop_rx_loop n fuel b <> (Panic, b').
Proof. intros n fuel b b' H. split; apply snoop_loop_no_panic; exact H. Qed.
(** Any execution: order per direction is kept, nothing is invented or dropped on the way. *)
Theorem C49_order_kept : forall acts rx tx s', snoop_run acts (snoop_start rx tx) = Some s' ->
  exists r1 t1 done, rx = r1 ++ sn_rx s' /\ tx = t1 ++ sn_tx s' /\ merge r1 t1 (done ++ sn_buf s') /\
    sn_out s' = map snoop_read done.
Proof. exact snoop_order. Qed.
(** Executions end; one that ends without a decoding error has shown everything. *)
Theorem C49_everything_arrives : forall acts rx tx s', snoop_run acts (snoop_start rx tx) = Some s' ->
  (length acts <= 2 * (length rx + length tx))%nat /\
  (snoop_stuck s' -> Forall (fun r => snd r = None) (sn_out s') -> sn_rx s' = [] /\ sn_tx s' = [] /\ sn_buf s' = []).
Proof.
  intros acts rx tx s' H. split.
  - pose proof (snoop_bounded _ _ _ H) as HB. cbn [snoop_start sn_rx sn_tx sn_buf length] in HB. lia.
  - intros Hs Ho. apply snoop_stuck_done; [exact Hs|]. unfold listening. apply forallb_forall.
    intros r Hr. rewrite Forall_forall in Ho. rewrite (Ho r Hr). reflexivity.
Qed.
(** One frame that does not decode (a standard-length frame whose flags say extended) ends the listening; ten packets later
    both loops hang with traffic unread. *)
Theorem C49_bad_frame_stalls_refuted : exists bad tx acts s', modem_frame 0x50 bad /\
  decodes false 0x50 bad (hd pkt_zero tx) /\
  snoop_run acts (snoop_start [] tx) = Some s' /\ snoop_stuck s' /\ sn_tx s' <> [] /\ length (sn_out s') = 1%nat.
Proof.
  pose (bad := [1; 2; 3; 4; 5; 6; 0x1f; 0x11; 0xff]). pose (good := mkPkt 0x50 [1; 2; 3; 4; 5; 6; 0x0f; 0x11; 0xff] 0).
  exists bad, (mkPkt 0x50 bad 0 :: repeat good 11), (ATx :: ARead :: repeat ATx 10). eexists. repeat apply conj.
  - apply (rx_plain false 0x50 bad 11); [reflexivity|lia|reflexivity].
  - apply dec_unsolicited. lia.
  - vm_compute. reflexivity.
  - intros []; vm_compute; reflexivity.
  - cbn [sn_tx]. discriminate.
  - reflexivity.
Qed.
Definition ex_host : bufrd := mkBuf [] None [[2; 0x62; 1; 4; 3]; [0x0f; 0x11; 0xff; 9]; [2; 0x61; 5; 0x11; 0]] EEOF.
Definition ex_modem : bufrd :=
  mkBuf [] None [[2; 0x62; 1; 4; 3; 0x0f; 0x11; 0xff; 6; 2; 0x50; 1; 4; 3; 7; 8; 9; 0x2f; 0x11; 0xff; 2; 0x6a; 0x15]] EEOF.
Example C49_ex : exists hps hb mps mb,
  snoop_rx_loop 5 60 ex_host = (Ret (hps, Some EEOF), hb) /\ snoop_tx_loop 5 60 ex_modem = (Ret (mps, Some EEOF), mb) /\
  option_map (fun s => sn_out s) (snoop_run [ATx; ARx; ARead; ARead] (snoop_start hps mps)) =
    Some [(mkMsg 0x010403 0x070809 0x2f 0x11ff [], None); (mkMsg 0 0x010403 0x0f 0x11ff [], None)].
Proof. do 4 eexists. repeat apply conj; vm_compute; reflexivity. Qed.
(** The sessions of [C49_ex]: noise, three frames of the modem and two of the host; they meet the hypotheses of the theorems above. *)
Lemma no_start_nil : gap [].
Proof. intros k (c & t & E & _). destruct k; discriminate E. Qed.
Lemma no_start_cons : forall x l, x <> 2 -> gap l -> gap (x :: l).
Proof. intros x l Hx Hl [|k] H; [destruct H as (c & t & E & _); injection E as E _; exact (Hx E)|exact (Hl k H)]. Qed.
Ltac no_start := repeat (apply no_start_cons; [lia|]); apply no_start_nil.
Example C49_line_is_shown_case : exists hps hb' mps mb',
  snoop_rx_loop 5 60 ex_host = (Ret (hps, Some EEOF), hb') /\ snoop_tx_loop 5 60 ex_modem = (Ret (mps, Some EEOF), mb') /\
  forall acts s', snoop_run acts (snoop_start hps mps) = Some s' -> snoop_stuck s' ->
    exists ms, merge [mkMsg 0 0x010403 0x0f 0x11ff []] [mkMsg 0x010403 0x070809 0x2f 0x11ff []] ms /\ sn_out s' = map (fun m => (m, None)) ms.
Proof.
  refine (C49_line_is_shown_partial [([], 0x62, [1; 4; 3; 0x0f; 0x11; 0xff]); ([9], 0x61, [5; 0x11; 0])] [] [[mkMsg 0 0x010403 0x0f 0x11ff []]; []] 60 ex_host 5
    [([], 0x62, [1; 4; 3; 0x0f; 0x11; 0xff; 6]); ([], 0x50, [1; 4; 3; 7; 8; 9; 0x2f; 0x11; 0xff]); ([], 0x6a, [0x15])] [] [[]; [mkMsg 0x010403 0x070809 0x2f 0x11ff []]; []] 60 ex_modem 5
    _ _ _ _ _ _ _ _ _ _ _ _ _ _ _ _).
  - vm_compute. repeat constructor; lia || discriminate.
  - vm_compute. lia.
  - reflexivity.
  - repeat (apply Forall_cons; [split; [no_start|split; [|lia]]|]); [apply (hf_message 1 4 3 0x0f 0x11 0xff []); [reflexivity|unfold is_byte; lia]|apply (hf_plain 0x61 _ 5); reflexivity|apply Forall_nil].
  - no_start.
  - discriminate.
  - cbn. lia.
  - apply Forall2_cons; [|apply Forall2_cons; [apply ht_other; lia|apply Forall2_nil]].
    apply ht_msg. apply (lm 0 0x010403 0x0f 0x11 0xff [] _ KDirect false 3 3).
    + exists 0, 0, 0, 1, 4, 3. unfold is_byte, bytes_ok. repeat apply conj; try lia; try reflexivity; constructor.
    + unfold flags_layout. cbn. lia.
  - vm_compute. repeat constructor; lia || discriminate.
  - vm_compute. lia.
  - reflexivity.
  - repeat (apply Forall_cons; [split; [no_start|split; [|cbn; lia]]|]);
      [apply (rx_message false 1 4 3 0x0f 0x11 0xff [] [6]); [reflexivity|unfold is_byte; lia|reflexivity]|apply (rx_plain false 0x50 _ 11); [reflexivity|lia|reflexivity]|apply (rx_plain false 0x6a _ 3); [reflexivity|lia|reflexivity]|apply Forall_nil].
  - no_start.
  - discriminate.
  - cbn. lia.
  - apply Forall2_cons; [apply mt_other; lia|]. apply Forall2_cons; [|apply Forall2_cons; [apply mt_other; lia|apply Forall2_nil]].
    apply mt_std. apply (lm 0x010403 0x070809 0x2f 0x11 0xff [] _ KDirectAck false 3 3).
    + exists 1, 4, 3, 7, 8, 9. unfold is_byte, bytes_ok. repeat apply conj; try lia; try reflexivity; constructor.
    + unfold flags_layout. cbn. lia.
Qed.
(** An echo that was refused, behind noise. *)
Example C49_modem_direction_case : exists ps b', snoop_tx_loop 5 60 (mkBuf [9] None [[2; 0x62; 1; 4; 3]; [0x0f; 0x11; 0xff; 0x15]] EEOF) = (Ret (ps, Some EEOF), b') /\
  map snoop_read ps = [(mkMsg 0 0x010403 0x0f 0x11ff [], None)].
Proof.
  apply (C49_modem_direction [([9], 0x62, [1; 4; 3; 0x0f; 0x11; 0xff; 0x15])] [] [[mkMsg 0 0x010403 0x0f 0x11ff []]]).
  - vm_compute. repeat constructor; lia || discriminate.
  - vm_compute. lia.
  - reflexivity.
  - apply Forall_cons; [|apply Forall_nil]. split; [no_start|]. apply (rx_message false 1 4 3 0x0f 0x11 0xff [] [0x15]); [reflexivity|unfold is_byte; lia|reflexivity].
  - no_start.
  - discriminate.
  - cbn. lia.
  - apply Forall2_cons; [|apply Forall2_nil]. apply (ms_refused [1; 4; 3; 0x0f; 0x11; 0xff] 0x15); [lia|].
    apply (lm 0 0x010403 0x0f 0x11 0xff [] _ KDirect false 3 3).
    + exists 0, 0, 0, 1, 4, 3. unfold is_byte, bytes_ok. repeat apply conj; try lia; try reflexivity; constructor.
    + unfold flags_layout. cbn. lia.
Qed.
(** The host asks for the next record of the modem's links (0x6a), then sends a message. *)
Example C49_host_message_lost_case : exists b', snoop_rx_loop 2 60 (mkBuf [2; 0x6a] None [[2; 0x62; 1; 4]; [3; 0x0f; 0x11; 0xff]] EEOF) = (Ret ([], Some EEOF), b').
Proof.
  apply (C49_host_message_lost_always 0x6a [] [1; 4; 3; 0x0f; 0x11; 0xff]); try lia.
  - apply (hf_plain 0x6a [] 2); reflexivity.
  - apply (hf_message 1 4 3 0x0f 0x11 0xff []); [reflexivity|unfold is_byte; lia].
  - no_start.
  - discriminate.
  - vm_compute. repeat constructor; lia || discriminate.
  - vm_compute. lia.
  - reflexivity.
Qed.
Print Assumptions C49_line_is_shown_partial.
Print Assumptions C49_modem_direction.
Print Assumptions C49_refused_echo_refuted.
Print Assumptions C49_host_message_lost_refuted.
Print Assumptions C49_host_message_lost_always.
Print Assumptions C49_loops_never_panic.
Print Assumptions C49_order_kept.
Print Assumptions C49_everything_arrives.
Print Assumptions C49_bad_frame_stalls_refuted.
