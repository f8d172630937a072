(** Proofs about a request on a line with other traffic. *)
From Coq Require Import ZArith List Bool Lia ZifyBool ZifyNat.
From Verif Require Import GoBase GoProg Address AddressProofs Message MessageSpec MessageProofs PlmPacket PlmReader PlmReaderSpec Plm PlmSpec PlmProofs LineSpec LineProofs LinkLineProofs
  ByteLine ByteLineSpec ByteLineProofs TrafficSpec.
Import ListNotations.
Open Scope Z_scope.
Ltac Zify.zify_post_hook ::= Z.div_mod_to_equations.

Definition ms (es : list event) : list packet := messages_in (packets_of es).
Definition ks (es : list event) : list packet := others_in (packets_of es).
Lemma ms_app : forall a b, ms (a ++ b) = ms a ++ ms b.
Proof. intros. unfold ms, messages_in. rewrite packets_app. apply filter_app. Qed.
Lemma ks_app : forall a b, ks (a ++ b) = ks a ++ ks b.
Proof. intros. unfold ks, others_in. rewrite packets_app. apply filter_app. Qed.
Lemma ms_cons : forall p es, ms (EvPacket p :: es) = (if network_message p then [p] else []) ++ ms es.
Proof. intros. unfold ms, messages_in, packets_of. cbn [flat_map app filter]. destruct (network_message p); reflexivity. Qed.
Lemma ks_cons : forall p es, ks (EvPacket p :: es) = (if network_message p then [] else [p]) ++ ks es.
Proof. intros. unfold ks, others_in, packets_of. cbn [flat_map app filter]. destruct (network_message p); reflexivity. Qed.

(** The goroutine's turns, as long as no queue is full. *)
Lemma turns_open : forall es a b sent waits time tmo retries addr, ~ In EvEnd es -> (length (a ++ ms es) <= 10)%nat -> (length (b ++ ks es) <= 10)%nat ->
  reader_turns (mkPlm a b false sent waits time tmo retries addr) es = mkPlm (a ++ ms es) (b ++ ks es) false sent waits time tmo retries addr.
Proof.
  induction es as [|e es IH]; intros a b sent waits time tmo retries addr Hn Ha Hb.
  - cbn. rewrite !app_nil_r. reflexivity.
  - destruct e as [p|]; [|exfalso; apply Hn; left; reflexivity].
    rewrite ms_cons in Ha. rewrite ks_cons in Hb. rewrite ms_cons, ks_cons.
    change (reader_turns (mkPlm a b false sent waits time tmo retries addr) (EvPacket p :: es))
      with (reader_turns (reader_turn (mkPlm a b false sent waits time tmo retries addr) (EvPacket p)) es).
    destruct (network_message p) eqn:E.
    + rewrite turn_msg by exact E. unfold offer. rewrite !app_length in Ha. cbn [length] in Ha.
      replace (Nat.ltb (length a) queue_cap) with true by (symmetry; apply Nat.ltb_lt; unfold queue_cap; lia).
      rewrite IH; [rewrite <- !app_assoc; reflexivity|intro H; apply Hn; right; exact H|rewrite !app_length; cbn [length]; lia|exact Hb].
    + rewrite turn_pkt by exact E. unfold offer. rewrite !app_length in Hb. cbn [length] in Hb.
      replace (Nat.ltb (length b) queue_cap) with true by (symmetry; apply Nat.ltb_lt; unfold queue_cap; lia).
      rewrite IH; [rewrite <- !app_assoc; reflexivity|intro H; apply Hn; right; exact H|exact Ha|rewrite !app_length; cbn [length]; lia].
Qed.
Lemma wait_msg : forall es a b sent waits time tmo retries addr p q, ~ In EvEnd es -> a ++ ms es = p :: q -> (length (p :: q) <= 10)%nat -> (length (b ++ ks es) <= 10)%nat ->
  wait_for QMsg (mkPlm a b false sent waits time tmo retries addr) es = (RPacket p, mkPlm q (b ++ ks es) false sent waits time tmo retries addr).
Proof.
  induction es as [|e es IH]; intros a b sent waits time tmo retries addr p q Hn Ha Hl Hb.
  - destruct a as [|x a]; [discriminate Ha|]. cbn in Ha. rewrite app_nil_r in Ha. injection Ha as -> ->. cbn. rewrite app_nil_r. reflexivity.
  - destruct a as [|x a].
    + destruct e as [r|]; [|exfalso; apply Hn; left; reflexivity]. cbn [wait_for queue_of p_msgq p_closed app] in *.
      rewrite ms_cons in Ha. rewrite ks_cons in Hb. rewrite ks_cons.
      destruct (network_message r) eqn:E.
      * rewrite turn_msg by exact E. unfold offer. cbn [Nat.ltb Nat.leb length queue_cap app] in *. apply IH; [intro H; apply Hn; right; exact H|exact Ha|exact Hl|exact Hb].
      * rewrite turn_pkt by exact E. unfold offer. rewrite !app_length in Hb. cbn [length] in Hb.
        replace (Nat.ltb (length b) queue_cap) with true by (symmetry; apply Nat.ltb_lt; unfold queue_cap; lia).
        rewrite (IH [] (b ++ [r]) sent waits time tmo retries addr p q); [rewrite <- !app_assoc; reflexivity|intro H; apply Hn; right; exact H|exact Ha|exact Hl|rewrite !app_length; cbn [length]; lia].
    + cbn [wait_for queue_of p_msgq set_queue]. unfold set_msgq. cbn [p_pktq p_closed p_sent p_waits p_time p_timeout p_retries p_addr].
      rewrite <- app_comm_cons in Ha. injection Ha as -> Ha. rewrite turns_open; [rewrite Ha; reflexivity|exact Hn|rewrite Ha; cbn [length] in Hl; lia|exact Hb].
Qed.
Lemma wait_pkt : forall es a b sent waits time tmo retries addr p q, ~ In EvEnd es -> b ++ ks es = p :: q -> (length (p :: q) <= 10)%nat -> (length (a ++ ms es) <= 10)%nat ->
  wait_for QPkt (mkPlm a b false sent waits time tmo retries addr) es = (RPacket p, mkPlm (a ++ ms es) q false sent waits time tmo retries addr).
Proof.
  induction es as [|e es IH]; intros a b sent waits time tmo retries addr p q Hn Hb Hl Ha.
  - destruct b as [|x b]; [discriminate Hb|]. cbn in Hb. rewrite app_nil_r in Hb. injection Hb as -> ->. cbn. rewrite app_nil_r. reflexivity.
  - destruct b as [|x b].
    + destruct e as [r|]; [|exfalso; apply Hn; left; reflexivity]. cbn [wait_for queue_of p_pktq p_closed app] in *.
      rewrite ms_cons in Ha. rewrite ks_cons in Hb. rewrite ms_cons.
      destruct (network_message r) eqn:E.
      * rewrite turn_msg by exact E. unfold offer. rewrite !app_length in Ha. cbn [length] in Ha.
        replace (Nat.ltb (length a) queue_cap) with true by (symmetry; apply Nat.ltb_lt; unfold queue_cap; lia).
        rewrite (IH (a ++ [r]) [] sent waits time tmo retries addr p q); [rewrite <- !app_assoc; reflexivity|intro H; apply Hn; right; exact H|exact Hb|exact Hl|rewrite !app_length; cbn [length]; lia].
      * rewrite turn_pkt by exact E. unfold offer. cbn [Nat.ltb Nat.leb length queue_cap app] in *. apply IH; [intro H; apply Hn; right; exact H|exact Hb|exact Hl|exact Ha].
    + cbn [wait_for queue_of p_pktq set_queue]. unfold set_pktq. cbn [p_msgq p_closed p_sent p_waits p_time p_timeout p_retries p_addr].
      rewrite <- app_comm_cons in Hb. injection Hb as -> Hb. rewrite turns_open; [rewrite Hb; reflexivity|exact Hn|exact Ha|rewrite Hb; cbn [length] in Hl; lia].
Qed.

(** What happens at one time, in order. *)
Definition at_time (sc : schedule) (u : nat) : list event := s_before (sc u) ++ s_wait (sc u).
Fixpoint window (sc : schedule) (t n : nat) : list event := match n with O => [] | S k => at_time sc t ++ window sc (S t) k end.
Lemma no_end_app : forall a b : list event, ~ In EvEnd (a ++ b) -> ~ In EvEnd a /\ ~ In EvEnd b.
Proof. intros a b H. rewrite in_app_iff in H. tauto. Qed.
Lemma receive_msg : forall sc a b sent waits time tmo retries addr p q, s_late (sc time) = false -> ~ In EvEnd (at_time sc time) ->
  a ++ ms (at_time sc time) = p :: q -> (length (p :: q) <= 10)%nat -> (length (b ++ ks (at_time sc time)) <= 10)%nat ->
  exists waits', receive sc QMsg (mkPlm a b false sent waits time tmo retries addr) = (RPacket p, mkPlm q (b ++ ks (at_time sc time)) false sent waits' (S time) tmo retries addr).
Proof.
  intros sc a b sent waits time tmo retries addr p q Hl Hn Ha Hla Hb. unfold at_time in *. destruct (no_end_app _ _ Hn) as [N1 N2].
  rewrite ms_app in Ha. rewrite ks_app in Hb. rewrite ks_app. unfold receive. cbn [p_time]. rewrite Hl.
  assert (La := f_equal (@length packet) Ha). rewrite !app_length in La. rewrite !app_length in Hb.
  rewrite turns_open by (exact N1 || (rewrite ?app_length; lia)). unfold tick, log_wait. cbn [p_msgq p_pktq p_closed p_sent p_waits p_time p_timeout p_retries p_addr].
  eexists. rewrite (wait_msg _ _ _ _ _ _ _ _ _ p q); [rewrite <- app_assoc; reflexivity|exact N2|rewrite <- app_assoc; exact Ha|exact Hla|rewrite !app_length; lia].
Qed.
Lemma receive_pkt : forall sc a b sent waits time tmo retries addr p q, s_late (sc time) = false -> ~ In EvEnd (at_time sc time) ->
  b ++ ks (at_time sc time) = p :: q -> (length (p :: q) <= 10)%nat -> (length (a ++ ms (at_time sc time)) <= 10)%nat ->
  exists waits', receive sc QPkt (mkPlm a b false sent waits time tmo retries addr) = (RPacket p, mkPlm (a ++ ms (at_time sc time)) q false sent waits' (S time) tmo retries addr).
Proof.
  intros sc a b sent waits time tmo retries addr p q Hl Hn Hb Hlb Ha. unfold at_time in *. destruct (no_end_app _ _ Hn) as [N1 N2].
  rewrite ks_app in Hb. rewrite ms_app in Ha. rewrite ms_app. unfold receive. cbn [p_time]. rewrite Hl.
  assert (Lb := f_equal (@length packet) Hb). rewrite !app_length in Lb. rewrite !app_length in Ha.
  rewrite turns_open by (exact N1 || (rewrite ?app_length; lia)). unfold tick, log_wait. cbn [p_msgq p_pktq p_closed p_sent p_waits p_time p_timeout p_retries p_addr].
  eexists. rewrite (wait_pkt _ _ _ _ _ _ _ _ _ p q); [rewrite <- app_assoc; reflexivity|exact N2|rewrite <- app_assoc; exact Hb|exact Hlb|rewrite !app_length; lia].
Qed.

(** A message that is no answer is passed over. *)
Lemma unrelated_passed : forall a p, unrelated a p -> network_message p = true /\
  exists x, msg_unmarshal msg_zero (p_payload p) = (x, None) /\ (m_src x =? a) && (fl_ack (m_flags x) || fl_nak (m_flags x)) = false.
Proof.
  intros a p (Hcmd & b & s2 & s1 & s0 & d2 & d1 & d0 & fl & k1 & k2 & rest & k & ext & l & h & Hp & Ha3 & Hfl & Hext & Hno).
  split; [unfold network_message; lia|]. pose proof (accessors_layout _ _ _ _ _ Hfl) as (_ & _ & _ & He & _ & _ & Hack & Hnak & _).
  rewrite Hp. cbn [app]. unfold msg_unmarshal. cbv zeta. rewrite He. destruct Ha3 as (_ & _ & _ & Ha3).
  assert (F : forall y, m_src y = b -> m_flags y = fl -> (m_src y =? a) && (fl_ack (m_flags y) || fl_nak (m_flags y)) = false).
  { intros y -> ->. rewrite Hack, Hnak. destruct Hno as [Hb|[-> ->]]; [replace (b =? a) with false by lia; reflexivity|apply andb_false_r]. }
  destruct ext.
  - replace (zlen (s2 :: s1 :: s0 :: d2 :: d1 :: d0 :: fl :: k1 :: k2 :: rest) <? 23) with false by (specialize (Hext eq_refl); unfold zlen; cbn [List.length]; lia).
    eexists. split; [reflexivity|]. apply F; [cbn [m_src]; rewrite addr_put3; symmetry; exact Ha3|reflexivity].
  - eexists. split; [reflexivity|]. apply F; [cbn [m_src]; rewrite addr_put3; symmetry; exact Ha3|reflexivity].
Qed.
Lemma await_passes : forall before fuel sc dst a b sent waits time tmo retries addr answer after x good,
  (length before < fuel)%nat ->
  (forall u, (time <= u <= time + length before)%nat -> s_late (sc u) = false) -> ~ In EvEnd (window sc time (S (length before))) ->
  a ++ ms (window sc time (S (length before))) = before ++ answer :: after -> (length (before ++ answer :: after) <= 10)%nat ->
  (length (b ++ ks (window sc time (S (length before)))) <= 10)%nat ->
  (forall j, (j <= length before)%nat -> (j < length (a ++ ms (window sc time (S j))))%nat) ->
  Forall (unrelated dst) before ->
  msg_unmarshal msg_zero (p_payload answer) = (x, None) -> m_src x = dst -> fl_ack (m_flags x) = good -> fl_nak (m_flags x) = negb good ->
  exists waits', await_ack fuel sc dst (mkPlm a b false sent waits time tmo retries addr) =
    (Ret (Some x, if good then None else Some EDevNak),
     mkPlm after (b ++ ks (window sc time (S (length before)))) false sent waits' (time + S (length before)) tmo retries addr).
Proof.
  induction before as [|p before IH]; intros fuel sc dst a b sent waits time tmo retries addr answer after x good Hfu Hlate Hn Hq Hcap Hk Hin Hun Hx Hsrc Hack Hnak.
  - destruct fuel as [|fuel]; [cbn in Hfu; lia|]. cbn [length window app] in *. rewrite app_nil_r in *.
    cbn [await_ack]. unfold plm_read.
    destruct (receive_msg sc a b sent waits time tmo retries addr answer after) as [w' E]; try assumption; [apply Hlate; lia|].
    rewrite E, Hx, Hsrc, Z.eqb_refl, Hack, Hnak. exists w'. replace (time + 1)%nat with (S time) by lia. destruct good; reflexivity.
  - destruct fuel as [|fuel]; [cbn in Hfu; lia|]. inversion Hun as [|p' b' Hp Hun']; subst p' b'.
    change (window sc time (S (length (p :: before)))) with (at_time sc time ++ window sc (S time) (S (length before))) in *.
    destruct (no_end_app _ _ Hn) as [N1 N2]. rewrite ms_app in Hq. rewrite ks_app in Hk. rewrite ks_app.
    assert (H0 := Hin 0%nat ltac:(lia)). cbn [window] in H0. rewrite app_nil_r in H0.
    assert (Hh : exists q, a ++ ms (at_time sc time) = p :: q /\ q ++ ms (window sc (S time) (S (length before))) = before ++ answer :: after).
    { rewrite app_assoc in Hq. destruct (a ++ ms (at_time sc time)) as [|y q]; [cbn in H0; lia|]. rewrite <- !app_comm_cons in Hq. injection Hq as -> Hq. exists q. auto. }
    destruct Hh as (q & Eq & Er). cbn [app length] in Hcap, Hlate.
    assert (Lq := f_equal (@length packet) Er). rewrite !app_length in Lq. cbn [length] in Lq. rewrite !app_length in Hk. rewrite !app_length in Hcap. cbn [length] in Hcap.
    cbn [await_ack]. unfold plm_read.
    destruct (receive_msg sc a b sent waits time tmo retries addr p q) as [w' E]; [apply Hlate; lia|exact N1|exact Eq|cbn [length]; lia|rewrite !app_length; lia|].
    rewrite E. destruct (unrelated_passed _ _ Hp) as (_ & y & Hy & Hno). rewrite Hy, Hno.
    destruct (IH fuel sc dst q (b ++ ks (at_time sc time)) sent w' (S time) tmo retries addr answer after x good) as [w2 E2]; try assumption.
    + cbn [length] in Hfu. lia.
    + intros u Hu. apply Hlate. lia.
    + rewrite !app_length. cbn [length]. lia.
    + rewrite !app_length. lia.
    + intros j Hj. specialize (Hin (S j) ltac:(cbn [length]; lia)). change (window sc time (S (S j))) with (at_time sc time ++ window sc (S time) (S j)) in Hin.
      rewrite ms_app, app_assoc, Eq in Hin. cbn [length app] in Hin. lia.
    + rewrite E2. exists w2. rewrite <- app_assoc. cbn [length]. replace (time + S (S (length before)))%nat with (S time + S (length before))%nat by lia. reflexivity.
Qed.

(** A message is written while packets come in. *)
Lemma write_passes : forall fuel sc m st echo before answer after x good, 0 <= p_retries st -> idle st -> (length before < fuel)%nat ->
  let t := p_time st in let n := length before in
  s_wait (sc t) = [] -> s_werr (sc t) = None -> (forall u, (t < u <= t + 2 + n)%nat -> s_late (sc u) = false) -> ~ In EvEnd (window sc t (3 + n)) ->
  ms (window sc t (3 + n)) = before ++ answer :: after -> ks (window sc t (3 + n)) = [echo] -> (length (before ++ answer :: after) <= 10)%nat ->
  ks (window sc t 2) = [echo] -> (forall j, (j <= n)%nat -> (j < length (ms (window sc t (3 + j))))%nat) ->
  good_ack (mkPkt 0x62 (skipn 3 (msg_marshal m)) 0) echo -> Forall (unrelated (m_dst m)) before ->
  msg_unmarshal msg_zero (p_payload answer) = (x, None) -> m_src x = m_dst m -> fl_ack (m_flags x) = good -> fl_nak (m_flags x) = negb good ->
  exists st', plm_write fuel sc m st = (Ret (Some x, if good then None else Some EDevNak), st') /\ p_sent st' = p_sent st ++ [frame_of m] /\
    p_msgq st' = after /\ p_pktq st' = [] /\ p_closed st' = false /\ p_time st' = (t + 3 + n)%nat.
Proof.
  intros fuel sc m st echo before answer after x good Hr (Hq1 & Hq2 & Hc) Hfu t n W0 E0 Hlate Hn Hm Hk Hcap Hk2 Hin Hecho Hun Hx Hsrc Hack Hnak.
  destruct st as [q1 q2 cl sent waits time tmo retries addr]. cbn [p_msgq p_pktq p_closed p_time p_retries p_sent] in *. subst q1 q2 cl t.
  change (window sc time (3 + n)) with (at_time sc time ++ at_time sc (S time) ++ window sc (S (S time)) (S n)) in *.
  change (window sc time 2) with (at_time sc time ++ at_time sc (S time) ++ []) in Hk2.
  destruct (no_end_app _ _ Hn) as [N0 N12]. destruct (no_end_app _ _ N12) as [N1 N2].
  rewrite !ms_app in Hm. rewrite !ks_app in Hk. rewrite !ks_app in Hk2. change (ks []) with (@nil packet) in Hk2. rewrite app_nil_r in Hk2.
  assert (Hk3 : ks (window sc (S (S time)) (S n)) = []).
  { rewrite app_assoc, Hk2 in Hk. destruct (ks (window sc (S (S time)) (S n))) as [|y l]; [reflexivity|discriminate Hk]. }
  assert (Lm := f_equal (@length packet) Hm). rewrite !app_length in Lm. rewrite app_length in Hcap.
  assert (Lk := f_equal (@length packet) Hk2). rewrite !app_length in Lk. cbn [length] in Lk.
  assert (Hat : at_time sc time = s_before (sc time)) by (unfold at_time; rewrite W0; apply app_nil_r).
  assert (Hcmd : network_message echo = false).
  { destruct Hecho as (_ & _ & (H2 & _)). cbn [p_cmd] in H2. unfold network_message. rewrite H2. reflexivity. }
  assert (Hj : judge_ack (mkPkt pc_SendInsteonMsg (skipn 3 (msg_marshal m)) 0) (Some echo) = Ret (Some echo, None)) by (apply judge_success; exact Hecho).
  unfold plm_write, retry. cbn [p_retries pw_write]. replace (Z.to_nat (retries + 1)) with (S (Z.to_nat retries)) by lia. cbn [retry_loop].
  cbn [plm_pw pw_write]. unfold plm_write_packet, port_write. cbn [p_time]. rewrite E0, <- Hat.
  rewrite turns_open by (exact N0 || (cbn [app]; lia)). cbn [app]. unfold tick, log_sent. cbn [p_msgq p_pktq p_closed p_sent p_waits p_time p_timeout p_retries p_addr].
  unfold plm_read_packet.
  destruct (receive_pkt sc (ms (at_time sc time)) (ks (at_time sc time)) (sent ++ [pkt_marshal (mkPkt pc_SendInsteonMsg (skipn 3 (msg_marshal m)) 0)]) waits (S time) tmo retries addr echo [])
    as [w1 R1]; [apply Hlate; lia|exact N1|exact Hk2|cbn [length]; lia|rewrite app_length; lia|].
  rewrite R1, Hj. cbn [err_is andb orb].
  destruct (await_passes before fuel sc (m_dst m) (ms (at_time sc time) ++ ms (at_time sc (S time))) [] (sent ++ [pkt_marshal (mkPkt pc_SendInsteonMsg (skipn 3 (msg_marshal m)) 0)]) w1 (S (S time))
    tmo retries addr answer after x good) as [w2 R2]; try assumption.
  - intros u Hu. apply Hlate. lia.
  - rewrite <- app_assoc. exact Hm.
  - rewrite app_length. exact Hcap.
  - fold n. rewrite Hk3. cbn. lia.
  - intros j Hj'. specialize (Hin j Hj'). change (window sc time (3 + j)) with (at_time sc time ++ at_time sc (S time) ++ window sc (S (S time)) (S j)) in Hin.
    rewrite !ms_app in Hin. rewrite <- app_assoc. exact Hin.
  - fold n in R2. rewrite R2, Hk3. eexists. split; [reflexivity|]. cbn [p_sent p_msgq p_pktq p_closed p_time]. repeat split; try reflexivity. lia.
Qed.

(** ** From bytes to packets *)
Lemma offered_window : forall sc n t, offered sc (t + n) = offered sc t ++ packets_of (window sc t n).
Proof.
  intros sc n. induction n as [|n IH]; intros t; [rewrite Nat.add_0_r; cbn; rewrite app_nil_r; reflexivity|].
  replace (t + S n)%nat with (S t + n)%nat by lia. rewrite IH. cbn [offered window]. unfold at_time. rewrite !packets_app, <- !app_assoc. reflexivity.
Qed.
Lemma heard_window : forall bs t n ps, bytes_only bs -> line_at bs t = Some [] -> heard bs t (t + n) ps -> packets_of (window (byte_schedule bs) t n) = ps.
Proof.
  intros bs t n ps Hb Hl (l & rest & E & R). destruct (line_reads bs Hb t) as (Hok & r & Hr & Hla). rewrite Hl in Hla.
  destruct (failed_before bs t); [discriminate Hla|]. injection Hla as <-.
  destruct (reads_between bs t [] Hb Hr n) as (more & qs & r2 & E1 & E2 & E3). rewrite E1 in E. apply app_inv_head in E. subst more. cbn [app] in E3.
  destruct (line_reads bs Hb (t + n)) as (Hok2 & _). rewrite E1 in Hok2. apply bytes_ok_app in Hok2. destruct Hok2 as [_ Kl].
  destruct (reads_unique _ _ _ _ _ Kl E3 R) as [-> _]. rewrite offered_window in E2. apply app_inv_head in E2. exact E2.
Qed.
Lemma schedule_fields : forall bs t, s_late (byte_schedule bs t) = bs_late (bs t) /\ s_werr (byte_schedule bs t) = bs_werr (bs t).
Proof. intros. unfold byte_schedule, line_step. destruct (arrive _ _) as [e1 l1]. destruct (arrive _ _) as [e2 l2]. destruct (hang_up _ _) as [e3 l3]. split; reflexivity. Qed.
Lemma arrive_no_end : forall l b, ~ In EvEnd (fst (arrive l b)).
Proof.
  intros l b. unfold arrive. destruct l as [p|]; [|intros []]. destruct (drain (p ++ b)) as [ps r]. cbn [fst]. rewrite in_map_iff. intros (x & Hx & _). discriminate Hx.
Qed.
Lemma schedule_no_end : forall bs t, bs_end (bs t) = false -> ~ In EvEnd (at_time (byte_schedule bs) t).
Proof.
  intros bs t H. unfold at_time, byte_schedule, line_step. pose proof (arrive_no_end (line_at bs t) (bs_before (bs t))) as N1.
  destruct (arrive (line_at bs t) (bs_before (bs t))) as [e1 l1]. pose proof (arrive_no_end l1 (bs_wait (bs t))) as N2.
  destruct (arrive l1 (bs_wait (bs t))) as [e2 l2]. unfold hang_up. rewrite H. cbn [fst s_before s_wait] in *. rewrite app_nil_r, in_app_iff. tauto.
Qed.
Lemma window_no_end : forall bs n t, (forall u, (t <= u < t + n)%nat -> bs_end (bs u) = false) -> ~ In EvEnd (window (byte_schedule bs) t n).
Proof.
  intros bs n. induction n as [|n IH]; intros t H; [intros []|]. cbn [window]. rewrite in_app_iff. intros [X|X].
  - revert X. apply schedule_no_end. apply H. lia.
  - revert X. apply IH. intros u Hu. apply H. lia.
Qed.
Lemma schedule_quiet : forall bs t, bytes_only bs -> line_at bs t = Some [] -> bs_wait (bs t) = [] -> bs_end (bs t) = false -> s_wait (byte_schedule bs t) = [].
Proof.
  intros bs t Hb Hl Hw He. destruct (Hb t) as [B0 _]. unfold byte_schedule. rewrite Hl. unfold line_step, arrive, hang_up. cbn [app].
  destruct (drain (bs_before (bs t))) as [p0 r0] eqn:D0. pose proof (drain_reads _ _ _ B0 D0) as R0. destruct (reads_bytes _ _ _ B0 R0) as [K0 _].
  assert (Dn : drain (r0 ++ []) = ([], r0)) by (apply reads_drain; rewrite app_nil_r; [exact K0|exact (reads_rest _ _ _ R0)]).
  rewrite Hw, Dn, He. reflexivity.
Qed.
(** A message is written while bytes come in. *)
Lemma busy_write : forall fuel bs m st echo before answer after x good, bytes_only bs -> 0 <= p_retries st -> idle st -> (length before < fuel)%nat ->
  busy_line bs (p_time st) echo before answer after ->
  good_ack (mkPkt 0x62 (skipn 3 (msg_marshal m)) 0) echo -> Forall (unrelated (m_dst m)) before ->
  msg_unmarshal msg_zero (p_payload answer) = (x, None) -> m_src x = m_dst m -> fl_ack (m_flags x) = good -> fl_nak (m_flags x) = negb good ->
  exists st', plm_write fuel (byte_schedule bs) m st = (Ret (Some x, if good then None else Some EDevNak), st') /\ p_sent st' = p_sent st ++ [frame_of m] /\
    p_msgq st' = after /\ p_pktq st' = [] /\ p_closed st' = false /\ p_time st' = (p_time st + 3 + length before)%nat.
Proof.
  intros fuel bs m st echo before answer after x good Hb Hr Hi Hfu (L0 & W0 & E0 & Ne & Nl & (ps & H1 & H2 & H3) & Hcap & (qs & G1 & G2) & Hin) Hecho Hun Hx Hsrc Hack Hnak.
  apply (write_passes fuel (byte_schedule bs) m st echo before answer after x good); try assumption.
  - apply schedule_quiet; try assumption. apply Ne. lia.
  - rewrite (proj2 (schedule_fields bs (p_time st))). exact E0.
  - intros u Hu. rewrite (proj1 (schedule_fields bs u)). apply Nl. exact Hu.
  - apply window_no_end. intros u Hu. apply Ne. lia.
  - unfold ms. rewrite (heard_window bs (p_time st) _ ps Hb L0) by (rewrite Nat.add_assoc; exact H1). exact H2.
  - unfold ks. rewrite (heard_window bs (p_time st) _ ps Hb L0) by (rewrite Nat.add_assoc; exact H1). exact H3.
  - unfold ks. rewrite (heard_window bs (p_time st) 2 qs Hb L0 G1). exact G2.
  - intros j Hj. destruct (Hin j Hj) as (rs & J1 & J2). unfold ms. rewrite (heard_window bs (p_time st) _ rs Hb L0) by (rewrite Nat.add_assoc; exact J1). exact J2.
Qed.
