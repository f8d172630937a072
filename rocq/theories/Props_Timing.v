(** C60: pauses between packets. *)
From Coq Require Import ZArith List Bool Lia ZifyBool ZifyNat.
From Verif Require Import GoBase GoText GoLemmas GoProg Message PlmPacket Plm Timing TimingSpec.
Import ListNotations.
Open Scope Z_scope.
Ltac Zify.zify_post_hook ::= Z.div_mod_to_equations.

(** * C60 *)
Lemma wrap64_id : forall x, - 2 ^ 63 <= x < 2 ^ 63 -> wrap64 x = x.
Proof. intros x H. unfold wrap64. change (2 ^ 63) with 9223372036854775808 in *. change (2 ^ 64) with 18446744073709551616. lia. Qed.

Lemma pd_value : forall ttl l, 0 <= ttl < 255 -> 0 <= l <= 1000000 -> propagation_delay ttl l = 1000000000 * (l * (ttl + 1)) / 60.
Proof.
  intros ttl l Ht Hl. unfold propagation_delay, second, byte_of. rewrite (Z.mod_small (ttl + 1) 256) by lia.
  rewrite (wrap64_id (1000000000 * l)) by (change (2 ^ 63) with 9223372036854775808; lia).
  assert (Hb : 0 <= 1000000000 * l * (ttl + 1) <= 1000000000 * 1000000 * 255) by nia.
  rewrite wrap64_id by (change (2 ^ 63) with 9223372036854775808; lia).
  rewrite Z.quot_div_nonneg by lia. f_equal. ring.
Qed.
(** The delay is that of one mains cycle for each byte and transmission: the first and [ttl] repetitions.  All lengths of packets are far below the bound. *)
Theorem C60_propagation_delay : forall ttl l, 0 <= ttl < 255 -> 0 <= l <= 1000000 -> cycles_60hz (l * (ttl + 1)) (propagation_delay ttl l).
Proof. intros ttl l Ht Hl. rewrite pd_value by assumption. unfold cycles_60hz. lia. Qed.
(** More bytes or more repetitions never take less time. *)
Theorem C60_delay_monotone : forall ttl ttl' l l', 0 <= ttl <= ttl' -> ttl' < 255 -> 0 <= l <= l' -> l' <= 1000000 ->
  propagation_delay ttl l <= propagation_delay ttl' l'.
Proof. intros. rewrite !pd_value by lia. apply Z.div_le_mono; [lia|]. nia. Qed.
(** The parameter allows for 255 repetitions, for which the delay is zero. *)
Theorem C60_delay_255_refuted : exists ttl ttl' l, 0 <= ttl <= ttl' /\ is_byte ttl' /\ 0 < l <= 1000000 /\ propagation_delay ttl' l < propagation_delay ttl l.
Proof. exists 0, 255, 10. split; [lia|]. split; [unfold is_byte; lia|]. split; [lia|]. vm_compute. reflexivity. Qed.

(** What writeDelay asks for. *)
Definition asks_delay (dw : dwriter) (d : Z) : Prop :=
  match dw_last dw with
  | None => d = 0
  | Some last =>
      if (p_cmd last =? 0x62) || (p_cmd last =? 0x64)
      then dw_min dw <= d /\ propagation_delay (dw_ttl dw) (dw_len dw) <= d
      else d = Z.max 0 (dw_min dw)
  end.

Lemma write_delay_spec : forall W time (ck : clock W) (pw : packet_writer W), clock_works time ck pw -> forall dw w,
  exists d w', dw_write_delay ck (dw, w) = (Ret d, (dw, w')) /\ time w <= time w' /\ asks_delay dw d.
Proof.
  intros W time ck pw (Hn & _ & _) dw w. unfold dw_write_delay, pbind, pget, psnd, pret, asks_delay. cbn [fst snd].
  destruct (dw_last dw) as [p|]; [|exists 0, w; split; [reflexivity|split; [lia|reflexivity]]].
  change pc_SendInsteonMsg with 0x62. change pc_StartAllLink with 0x64.
  destruct ((p_cmd p =? 98) || (p_cmd p =? 100)).
  - cbn [fst snd]. destruct (Hn w) as (t1 & w1 & E1 & H1). rewrite E1. cbn [fst snd]. destruct (Hn w1) as (t2 & w2 & E2 & H2). rewrite E2. cbn [fst snd].
    eexists _, w2. split; [reflexivity|]. split; [lia|].
    destruct (t2 - (dw_read_at dw + (t1 - (dw_read_at dw + propagation_delay (dw_ttl dw) (dw_len dw)))) <? dw_min dw) eqn:E; lia.
  - exists (if 0 <? dw_min dw then dw_min dw else 0), w. split; [reflexivity|]. split; [lia|]. destruct (0 <? dw_min dw) eqn:E; lia.
Qed.

(** Write hands the packet to the embedded writer, unchanged and once, when the pause is over: after a message or an all-link command
    not before the last packet read has had time to propagate, and never before the least pause has gone by; its result is returned. *)
Theorem C60_write_waits : forall W time (ck : clock W) (pw : packet_writer W), clock_works time ck pw -> forall dw w pkt,
  exists w', time w <= time w' /\
    (forall last, dw_last dw = Some last -> time w + dw_min dw <= time w') /\
    (forall last, dw_last dw = Some last -> p_cmd last = 0x62 \/ p_cmd last = 0x64 ->
       dw_read_at dw <= time w -> dw_read_at dw + propagation_delay (dw_ttl dw) (dw_len dw) <= time w') /\
    dw_write ck pw pkt (dw, w) =
      (fst (pw_write pw pkt w'), (mkDW (dw_ttl dw) (dw_len dw) (dw_min dw) (dw_read_at dw) (Some pkt), snd (pw_write pw pkt w'))).
Proof.
  intros W time ck pw Hc dw w pkt. destruct (write_delay_spec W time ck pw Hc dw w) as (d & w1 & E1 & H1 & Hd).
  destruct Hc as (_ & Hs & _). destruct (Hs d w1) as (w2 & E2 & H2 & H3). exists w2. split; [lia|].
  unfold asks_delay in Hd. split; [|split].
  - intros last El. rewrite El in Hd. destruct ((p_cmd last =? 98) || (p_cmd last =? 100)); lia.
  - intros last El Hl Hr. rewrite El in Hd. replace ((p_cmd last =? 98) || (p_cmd last =? 100)) with true in Hd by lia. lia.
  - unfold dw_write, pbind. rewrite E1. unfold psnd, pget, pfst, pput. cbn [fst snd]. rewrite E2. cbn [fst snd].
    destruct (pw_write pw pkt w2) as [r w3]. reflexivity.
Qed.

(** The pause is not shortened by the time that has gone by since the packet was read: it is the whole delay, counted from the write. *)
Theorem C60_pause_always_whole : forall W time (ck : clock W) (pw : packet_writer W), clock_works time ck pw -> forall dw w last,
  dw_last dw = Some last -> p_cmd last = 0x62 \/ p_cmd last = 0x64 ->
  exists d w', dw_write_delay ck (dw, w) = (Ret d, (dw, w')) /\ propagation_delay (dw_ttl dw) (dw_len dw) <= d.
Proof.
  intros W time ck pw Hc dw w last El Hl. destruct (write_delay_spec W time ck pw Hc dw w) as (d & w1 & E1 & H1 & Hd).
  exists d, w1. split; [exact E1|]. unfold asks_delay in Hd. rewrite El in Hd. replace ((p_cmd last =? 98) || (p_cmd last =? 100)) with true in Hd by lia. lia.
Qed.

(** A world that is only a clock with the log of what is sent and when. *)
Definition sim_clock : clock (Z * list (Z * packet)) :=
  mkClock (fun w => (Ret (fst w), w)) (fun d w => (Ret tt, (fst w + Z.max 0 d, snd w))).
Definition sim_writer (pkt : option packet) : packet_writer (Z * list (Z * packet)) :=
  mkPW (fun p w => (Ret (Some p, None), (fst w, snd w ++ [(fst w, p)]))) (fun w => (Ret (pkt, None), w)).
Lemma sim_works : forall p, clock_works (@fst Z (list (Z * packet))) sim_clock (sim_writer p).
Proof.
  intro p. split; [|split].
  - intro w. exists (fst w), w. split; [reflexivity|]. lia.
  - intros d w. eexists. split; [reflexivity|]. cbn [fst]. lia.
  - intro w. cbn. lia.
Qed.
Definition ex_msg : packet := mkPkt 0x50 [1; 2; 3; 4; 5; 6; 0x2b; 0x11; 0xff] 0.
Definition ex_send : packet := mkPkt 0x62 [1; 2; 3; 0x0f; 0x11; 0xff] 0.

(** So it is longer than needed: here a message that was read an hour ago still delays the next packet. *)
Theorem C60_waits_too_long_refuted : exists dw now d w', dw_read_at dw + propagation_delay (dw_ttl dw) (dw_len dw) <= now /\ dw_min dw = 0 /\
  dw_write_delay sim_clock (dw, (now, [])) = (Ret d, (dw, w')) /\ 0 < d.
Proof.
  exists (mkDW 3 9 0 0 (Some ex_send)), (3600 * second). eexists. eexists. split; [vm_compute; discriminate|]. split; [reflexivity|].
  split; [vm_compute; reflexivity|]. reflexivity.
Qed.
(** The least pause is not kept before the first packet. *)
Theorem C60_first_unpaused : forall W time (ck : clock W) (pw : packet_writer W), clock_works time ck pw -> forall dw w, dw_last dw = None ->
  dw_write_delay ck (dw, w) = (Ret 0, (dw, w)).
Proof. intros W time ck pw _ dw w H. unfold dw_write_delay, pbind, pget. cbn [fst snd]. rewrite H. reflexivity. Qed.

(** Used as a packet writer, as everything in the package would use it, it never pauses: writing is that of the embedded writer, and nothing is remembered. *)
Theorem C60_interface_never_pauses : forall W (ck : clock W) (pw : packet_writer W) pkt dw w,
  pw_write (dw_as_packet_writer ck pw) pkt (dw, w) = (fst (pw_write pw pkt w), (dw, snd (pw_write pw pkt w))).
Proof. intros W ck pw pkt dw w. cbn [dw_as_packet_writer pw_write]. unfold psnd. cbn [fst snd]. destruct (pw_write pw pkt w) as [r w1]. reflexivity. Qed.
Theorem C60_interface_pauses_refuted : exists dw now pkt last, dw_last dw = Some last /\ p_cmd last = 0x62 /\ dw_read_at dw <= now /\ 0 < dw_min dw /\
  snd (snd (snd (pw_write (dw_as_packet_writer sim_clock (sim_writer None)) pkt (dw, (now, []))))) = [(now, pkt)] /\
  now < dw_read_at dw + propagation_delay (dw_ttl dw) (dw_len dw).
Proof. exists (mkDW 3 9 (5 * second) 0 (Some ex_send)), 1, ex_send, ex_send. vm_compute. repeat split; try reflexivity; discriminate. Qed.

(** Reading: the result is that of the embedded writer; the length, the repetitions and the time are remembered; it crashes exactly on a nil
    packet without an error and on a message packet of fewer than seven bytes. *)
Theorem C60_read : forall W time (ck : clock W) (pw : packet_writer W), clock_works time ck pw -> forall dw w,
  match pw_read pw w with
  | (Ret (pkt, Some e), w') => dw_read_packet ck pw (dw, w) = (Ret (pkt, Some e), (dw, w'))
  | (Ret (None, None), _) => fst (dw_read_packet ck pw (dw, w)) = Panic
  | (Ret (Some p, None), w') =>
      if ((p_cmd p =? 0x50) || (p_cmd p =? 0x51)) && (zlen (p_payload p) <? 7) then fst (dw_read_packet ck pw (dw, w)) = Panic
      else exists dw' w'', dw_read_packet ck pw (dw, w) = (Ret (Some p, None), (dw', w'')) /\
        time w' <= dw_read_at dw' <= time w'' /\ dw_len dw' = zlen (p_payload p) /\ dw_min dw' = dw_min dw /\ dw_last dw' = dw_last dw /\
        (p_cmd p = 0x50 \/ p_cmd p = 0x51 -> exists a b flags c, p_payload p = a ++ flags :: b /\ length a = 6%nat /\ c = flags mod 4 /\ dw_ttl dw' = c) /\
        (p_cmd p = 0x64 -> dw_ttl dw' = 3) /\
        (p_cmd p <> 0x50 -> p_cmd p <> 0x51 -> p_cmd p <> 0x64 -> dw_ttl dw' = dw_ttl dw)
  | (Panic, _) => fst (dw_read_packet ck pw (dw, w)) = Panic
  | (NoFuel, _) => fst (dw_read_packet ck pw (dw, w)) = NoFuel
  end.
Proof.
  intros W time ck pw (Hn & _ & _) dw w. unfold dw_read_packet, pbind, psnd, pget, pfst, pput, pret, ppanic. cbn [fst snd].
  destruct (pw_read pw w) as [[[pkt [e|]]| |] w1]; try reflexivity; [destruct pkt; reflexivity|].
  destruct (Hn w1) as (t & w2 & E & Ht). cbn [fst snd]. rewrite !E. cbn [fst snd]. destruct pkt as [p|]; [|reflexivity]. cbn [fst snd]. change pc_StdMsgReceived with 0x50. change pc_ExtMsgReceived with 0x51. change pc_StartAllLink with 0x64.
  destruct ((p_cmd p =? 80) || (p_cmd p =? 81)) eqn:Ec; cbn [andb].
  - destruct (nth_error (p_payload p) 6) as [b|] eqn:En.
    + assert (L : (6 < length (p_payload p))%nat) by (apply nth_error_Some; congruence). unfold zlen. replace (Z.of_nat (length (p_payload p)) <? 7) with false by lia.
      eexists. eexists. split; [reflexivity|]. cbn [dw_read_at dw_len dw_min dw_last dw_ttl fst snd]. split; [exact Ht|]. split; [reflexivity|]. split; [reflexivity|]. split; [reflexivity|].
      split; [|split; [intro X; rewrite X in Ec; discriminate Ec|intros X Y; exfalso; apply orb_true_iff in Ec; destruct Ec as [Ec|Ec]; apply Z.eqb_eq in Ec; contradiction]]. intros _. destruct (nth_error_split _ _ En) as (a & l2 & El & La). exists a, l2, b, (b mod 4). split; [exact El|]. split; [exact La|]. split; [reflexivity|].
      change 3 with (Z.ones 2). rewrite Z.land_ones by lia. reflexivity.
    + assert (L : (length (p_payload p) <= 6)%nat) by (apply nth_error_None; exact En). unfold zlen. replace (Z.of_nat (length (p_payload p)) <? 7) with true by lia. reflexivity.
  - destruct (p_cmd p =? 100) eqn:E4; (eexists; eexists; split; [reflexivity|]; cbn [dw_read_at dw_len dw_min dw_last dw_ttl fst snd]; split; [exact Ht|]; split; [reflexivity|]; split; [reflexivity|]; split; [reflexivity|]);
      split; try (intros; lia); split; intros; try lia; try reflexivity.
Qed.
Theorem C60_short_message_crashes_refuted : exists dw now p, fst (dw_read_packet sim_clock (sim_writer (Some p)) (dw, (now, []))) = Panic.
Proof. exists (mkDW 0 0 0 0 None), 5, (mkPkt 0x50 [1; 2; 3] 0). vm_compute. reflexivity. Qed.

(** Reading with a timeout: an error only when time is up before anything came, and then without a message; otherwise what came, in time. *)
Theorem C60_read_with_timeout : forall ready timeout m e, In (m, e) (read_with_timeout ready timeout) ->
  (e = Some EInsteonReadTimeout /\ m = None /\ forall t x, ready = Some (t, x) -> Z.max 0 timeout <= Z.max 0 t) \/
  (e = None /\ exists t, ready = Some (t, m) /\ Z.max 0 t <= Z.max 0 timeout).
Proof.
  intros ready timeout m e H. unfold read_with_timeout in H. destruct ready as [[t x]|].
  - destruct (Z.max 0 t <? Z.max 0 timeout) eqn:E1; [|destruct (Z.max 0 t =? Z.max 0 timeout) eqn:E2].
    + destruct H as [H|[]]. injection H as -> <-. right. split; [reflexivity|]. exists t. split; [reflexivity|lia].
    + destruct H as [H|[H|[]]]; injection H as <- <-; [right|left].
      * split; [reflexivity|]. exists t. split; [reflexivity|lia].
      * split; [reflexivity|]. split; [reflexivity|]. intros t' x' Ht. assert (t' = t) by congruence. lia.
    + destruct H as [H|[]]. injection H as <- <-. left. split; [reflexivity|]. split; [reflexivity|]. intros t' x' Ht. assert (t' = t) by congruence. lia.
  - destruct H as [H|[]]. injection H as <- <-. left. split; [reflexivity|]. split; [reflexivity|]. intros t' x' Ht. discriminate.
Qed.
Theorem C60_read_with_timeout_some_result : forall ready timeout, read_with_timeout ready timeout <> [].
Proof.
  intros [[t x]|] timeout; unfold read_with_timeout; [|discriminate]. destruct (Z.max 0 t <? Z.max 0 timeout); [discriminate|].
  destruct (Z.max 0 t =? Z.max 0 timeout); discriminate.
Qed.
(** Without an error there need not be a message: a closed channel gives none. *)
Theorem C60_closed_channel_refuted : exists ready timeout, In (None, None) (read_with_timeout ready timeout).
Proof. exists (Some (0, None)), second. left. reflexivity. Qed.

Example C60_ex : propagation_delay 0 10 = second * 10 / 60 /\ propagation_delay 2 24 = second * 72 / 60 /\ linking_mode_wait_time = 1433333333 /\
  snd (dw_write sim_clock (sim_writer None) ex_send (snd (dw_read_packet sim_clock (sim_writer (Some ex_msg)) (mkDW 0 0 0 0 (Some ex_send), (7, []))))) =
    (mkDW 3 9 0 7 (Some ex_send), (600000007, [(600000007, ex_send)])).
Proof. vm_compute. auto. Qed.

(** The theorems on this clock, after a message of nine bytes with two repetitions, and before the first packet. *)
Example C60_write_waits_case : exists w' : Z * list (Z * packet), 7 + 5 <= fst w' /\ 3 + propagation_delay 2 9 <= fst w' /\
  dw_write sim_clock (sim_writer None) ex_send (mkDW 2 9 5 3 (Some ex_send), (7, [])) =
    (fst (pw_write (sim_writer None) ex_send w'), (mkDW 2 9 5 3 (Some ex_send), snd (pw_write (sim_writer None) ex_send w'))).
Proof.
  destruct (C60_write_waits _ _ _ _ (sim_works None) (mkDW 2 9 5 3 (Some ex_send)) (7, []) ex_send) as (w' & _ & H1 & H2 & H3).
  exists w'. split; [exact (H1 _ eq_refl)|]. split; [|exact H3]. apply (H2 ex_send eq_refl); [left; reflexivity|cbn; lia].
Qed.
Example C60_pause_always_whole_case : exists d w', dw_write_delay sim_clock (mkDW 2 9 0 3 (Some ex_send), (7, [])) = (Ret d, (mkDW 2 9 0 3 (Some ex_send), w')) /\
  propagation_delay 2 9 <= d.
Proof. apply (C60_pause_always_whole _ _ _ _ (sim_works None) (mkDW 2 9 0 3 (Some ex_send)) (7, []) ex_send eq_refl). left. reflexivity. Qed.
Example C60_first_unpaused_case : dw_write_delay sim_clock (mkDW 2 9 5 3 None, (7, [])) = (Ret 0, (mkDW 2 9 5 3 None, (7, []))).
Proof. apply (C60_first_unpaused _ _ _ _ (sim_works None)). reflexivity. Qed.
Example C60_read_case : exists dw' w'', dw_read_packet sim_clock (sim_writer (Some ex_msg)) (mkDW 0 0 5 3 None, (7, [])) = (Ret (Some ex_msg, None), (dw', w'')) /\
  dw_ttl dw' = 3 /\ dw_len dw' = 9.
Proof.
  pose proof (C60_read _ _ _ _ (sim_works (Some ex_msg)) (mkDW 0 0 5 3 None) (7, [])) as H. cbn in H.
  destruct H as (dw' & w'' & E & _ & H1 & _ & _ & H2 & _). exists dw', w''. split; [exact E|]. split; [|exact H1].
  destruct H2 as (a & b & fl & c & H & La & Hc & Ht); [left; reflexivity|].
  destruct a as [|a0 [|a1 [|a2 [|a3 [|a4 [|a5 [|a6 a]]]]]]]; try discriminate La. injection H as _ _ _ _ _ _ <- _. rewrite Ht, Hc. reflexivity.
Qed.

Print Assumptions C60_propagation_delay.
Print Assumptions C60_delay_monotone.
Print Assumptions C60_delay_255_refuted.
Print Assumptions C60_write_waits.
Print Assumptions C60_pause_always_whole.
Print Assumptions C60_waits_too_long_refuted.
Print Assumptions C60_first_unpaused.
Print Assumptions C60_interface_never_pauses.
Print Assumptions C60_interface_pauses_refuted.
Print Assumptions C60_read.
Print Assumptions C60_short_message_crashes_refuted.
Print Assumptions C60_read_with_timeout.
Print Assumptions C60_read_with_timeout_some_result.
Print Assumptions C60_closed_channel_refuted.
