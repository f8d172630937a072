(** * C69.  The incoming direction of the serial line: bytes, however they arrive, and the acting subcommands of the tool. *)
From Coq Require Import ZArith List Bool Lia ZifyBool ZifyNat.
From Verif Require Import GoBase GoProg Address AddressProofs Command Message MessageSpec MessageProofs MsgWriter BasicDevice DeviceSpec DeviceProofs DevReqSpec
  PlmPacket PlmReader PlmReaderSpec PlmReaderProofs Plm PlmSpec PlmProofs Query Database DatabaseProofs Link LineSpec MovesProofs LineProofs LinkLineProofs
  IcDev IcDevSpec IcLine ByteLine ByteLineSpec ByteLineProofs Props_IcDev Props_Line.
Import ListNotations.
Open Scope Z_scope.
Ltac Zify.zify_post_hook ::= Z.div_mod_to_equations.

(** Whatever arrives and whenever: the packets offered to the clients by a time are the ones the bytes received by then read as, and there
    is only one way to read them. *)
Theorem C69_packets_are_the_bytes : forall bs t, bytes_only bs ->
  (exists rest, reads_as (received bs t) (offered (byte_schedule bs) t) rest) /\
  (forall ps rest, reads_as (received bs t) ps rest -> offered (byte_schedule bs) t = ps).
Proof.
  intros bs t Hb. destruct (line_reads bs Hb t) as (Hok & r & Hr & _). split; [exists r; exact Hr|].
  intros ps rest H. apply (reads_unique _ _ _ _ _ Hok Hr H).
Qed.
(** So it does not matter in which pieces they arrive, nor when. *)
Theorem C69_pieces_do_not_matter : forall bs bs' t t', bytes_only bs -> bytes_only bs' -> received bs t = received bs' t' ->
  offered (byte_schedule bs) t = offered (byte_schedule bs') t'.
Proof.
  intros bs bs' t t' Hb Hb' E. destruct (line_reads bs' Hb' t') as (_ & r & Hr & _). rewrite <- E in Hr.
  apply (proj2 (C69_packets_are_the_bytes bs t Hb) _ _ Hr).
Qed.

(** When reading fails for good, the goroutine shuts the queues, unless what it holds is noise that ends in a start byte (C10): then it never
    does.  No packet comes afterwards. *)
Theorem C69_lost_port : forall bs t, bytes_only bs -> failed_before bs t = false -> bs_end (bs t) = true ->
  (exists ps rest, reads_as (received bs (S t)) ps rest /\ (In EvEnd (s_wait (byte_schedule bs t)) <-> ~ (gap rest /\ last rest 0 = 0x02))) /\
  forall u, (t < u)%nat -> s_before (byte_schedule bs u) = [] /\ s_wait (byte_schedule bs u) = [].
Proof.
  intros bs t Hb Hf He. split.
  - destruct (line_reads bs Hb t) as (Hok & r & Hr & Hl). rewrite Hf in Hl. destruct (line_reads bs Hb (S t)) as (Hok' & r' & Hr' & _).
    exists (offered (byte_schedule bs) (S t)), r'. split; [exact Hr'|]. destruct (Hb t) as [B1 B2]. destruct (reads_bytes _ _ _ Hok Hr) as [Hrb _].
    unfold byte_schedule. rewrite Hl. unfold line_step, arrive, hang_up. rewrite He.
    destruct (drain (r ++ bs_before (bs t))) as [p1 r1] eqn:E1. pose proof (drain_reads _ _ _ (proj2 (bytes_ok_app _ _) (conj Hrb B1)) E1) as R1.
    destruct (reads_bytes _ _ _ (proj2 (bytes_ok_app _ _) (conj Hrb B1)) R1) as [Hr1 _].
    destruct (drain (r1 ++ bs_wait (bs t))) as [p2 r2] eqn:E2. pose proof (drain_reads _ _ _ (proj2 (bytes_ok_app _ _) (conj Hr1 B2)) E2) as R2.
    destruct (reads_bytes _ _ _ (proj2 (bytes_ok_app _ _) (conj Hr1 B2)) R2) as [Hr2 _].
    assert (Er : r' = r2).
    { pose proof (reads_app _ _ _ _ _ _ (reads_app _ _ _ _ _ _ Hr R1) R2) as X2. rewrite <- !app_assoc in X2.
      cbn [received] in Hr', Hok'. rewrite Hf in Hr', Hok'. apply (reads_unique _ _ _ _ _ Hok' Hr' X2). }
    subst r'. cbn [fst s_wait]. assert (Hmap : ~ In EvEnd (map EvPacket p2)) by (rewrite in_map_iff; intros (x & Hx & _); discriminate Hx).
    rewrite in_app_iff. unfold end_events. set (b := mkBuf [] None [r2] EEOF).
    assert (Hs : stream b = r2) by (unfold stream, b; cbn; rewrite app_nil_r; reflexivity).
    assert (Hok2 : bytes_ok (stream b)) by (rewrite Hs; exact Hr2). assert (Hlen : (length (stream b) < S (length r2))%nat) by (rewrite Hs; lia).
    destruct (read_packet_cases (S (length r2)) false b Hok2 Hlen) as [(pre & c & body & rest & p & b' & X & G & F & D & R & _)|[(e & b' & N & _ & R & _)|(G & L & b' & R)]].
    + exfalso. destruct R2 as (_ & _ & _ & NF). apply NF. rewrite Hs in X. exists pre, c, body, rest. auto.
    + rewrite R. split; [|intros _; right; left; reflexivity]. intros _ [G L].
      rewrite <- Hs in G, L. pose proof (proj2 (hangs_exactly false b Hok2) (conj G L) (S (length r2))) as Hh. rewrite R in Hh. discriminate Hh.
    + rewrite R. rewrite Hs in G, L. split; [intros [X|[]]; contradiction|]. intro X. destruct (X (conj G L)).
  - intros u Hu. assert (Hfu : failed_before bs u = true).
    { apply (failed_mono bs (S t)); [lia|]. cbn [failed_before]. rewrite He. apply orb_true_r. }
    destruct (line_reads bs Hb u) as (_ & r & _ & Hl). rewrite Hfu in Hl. unfold byte_schedule. rewrite Hl. unfold line_step, arrive, hang_up.
    destruct (bs_end (bs u)); split; reflexivity.
Qed.

(** [r] is the outcome of an acting subcommand that stands for request [c1], [c2], [data]. *)
Definition acting (n : nat) (open : dev_opener ((fstate * memdb) * plm)) links (a : Z) (i : dinfo) (w : (fstate * memdb) * plm) (c1 c2 : Z) (data : list Z)
    (r : outcome cmdres * ((fstate * memdb) * plm)) : Prop :=
  (exists c, a_dimmer i /\ dimmer_request (di_fw i) c = Some (c1, c2, data) /\ r = ic_dimmer n open a c w) \/
  (exists c, device_request (di_engine i) c = Some (c1, c2, data) /\ r = ic_device open links a c w) \/
  (a_thermostat i /\ (c1, c2, data) = (0x2e, 0, [0; 8; 0]) /\ r = ic_thermostat n open a (TSetStatus true) w) \/
  (a_thermostat i /\ (c1, c2, data) = (0x6b, 0x17, []) /\ r = ic_thermostat n open a (TSetStatus false) w).
Lemma acting_request : forall n open links a d w w1 c1 c2 data r, opens open a w d w1 -> acting n open links a (bd_info d) w c1 c2 data r -> only_request d w1 c1 c2 data r.
Proof.
  intros n open links a d w w1 c1 c2 data r Ho [(c & H1 & H2 & ->)|[(c & H1 & ->)|[(H1 & H2 & ->)|(H1 & H2 & ->)]]].
  - apply (C63_dimmer_acts _ open n a _ d _ c); assumption.
  - apply (C63_device_acts _ open links a _ d _ c); assumption.
  - injection H2 as -> -> ->. apply (C63_thermostat_acts _ open n a _ d _ Ho H1).
  - injection H2 as -> -> ->. apply (C63_thermostat_acts _ open n a _ d _ Ho H1).
Qed.

(** An acting subcommand succeeds only if, between the moment the device is opened and its end, the line brought the frame back with the
    modem's acknowledgement and, in whatever order, an acknowledgement from the device. *)
Theorem C69_success_was_received : forall fuel n os bs filters link ask yes links a f db st d fd st1 c1 c2 data r t,
  let open := ic_open_dev (db_opener fuel os (plm_mw fuel (byte_schedule bs)) filters) link ask yes in
  0 <= a < 16777216 -> own_addresses db -> ask = false \/ yes = pret false -> 0 <= p_retries st1 -> bytes_only bs ->
  opens open a ((f, db), st) d (fd, st1) -> p_msgq st1 = [] -> p_pktq st1 = [] ->
  acting n open links a (bd_info d) ((f, db), st) c1 c2 data r -> fst r = Ret (t, None) ->
  exists frame l, request_frame (bd_info d) c1 c2 data frame /\ came_in bs (p_time st1) (p_time (snd (snd r))) (frame ++ [0x06]) /\
    ack_bytes a l /\ came_in bs (p_time st1) (p_time (snd (snd r))) l.
Proof.
  intros fuel n os bs filters link ask yes links a f db st d fd st1 c1 c2 data r t open Ha Hown Hask Hr Hb Ho Q1 Q2 Hact Hok.
  destruct (ic_opener_line _ _ _ _ _ _ _ _ _ _ _ _ _ Ha Hown Hask Ho) as [_ H2]. destruct (H2 _ _ eq_refl) as [Hi Hw].
  destruct (acting_request _ _ _ _ _ _ _ _ _ _ _ Ho Hact) as (m & Hm & ->). clear Hact Ho. destruct d as [i mw]. cbn [bd_info bd_writer] in *. subst mw.
  cbn [lift_mw mw_write] in *. unfold psnd in *. cbn [fst snd plm_mw mw_write] in *. set (sc := byte_schedule bs) in *.
  destruct (plm_write fuel sc m st1) as [o st'] eqn:E. destruct o as [[[x|] [e|]]| |]; cbn [settled quietly fst snd] in *; try discriminate Hok.
  assert (Hs : fresh_since sc (p_time st1) st1).
  { split; [split; [rewrite Q1|rewrite Q2]; constructor|]. split; [unfold msgs_net; rewrite Q1; constructor|lia]. }
  destruct (since_write _ _ _ _ _ _ _ Hs Hr E) as [(p & P1 & P2) (q & S1 & S2 & S3 & S4 & S5)].
  destruct (came_as_frame _ _ _ _ Hb S1) as (Hbq & _). destruct Hm as (Hd & Hm'). rewrite Hd in S4.
  assert (Hcmd : p_cmd q = 0x50 \/ p_cmd q = 0x51) by (unfold network_message in S2; lia).
  rewrite Hi in S4. destruct (acked_on_line _ _ _ _ _ Hb S1 (ack_packet _ _ _ Hbq S3 S4 S5) Hcmd) as (l & L1 & L2).
  exists (frame_of m), l. split; [apply request_frame_of; [rewrite Hi; exact Ha|split; assumption]|]. split; [|auto].
  exact (echoed_on_line _ _ _ _ _ Hb P1 P2).
Qed.

(** The other way round: if the port takes the frame, then, after noise, the frame comes back with the modem's acknowledgement, and then, after
    noise, the device's answer, all of it in pieces of any size, then the frame is written exactly once and the outcome is what the device said. *)
Lemma bytes_packets : forall fuel bs m st first second echo reply x good, (1 <= fuel)%nat -> 0 <= p_retries st -> idle st -> bytes_only bs ->
  bytes_come bs (p_time st) first second -> has_frame first -> reads_as (first ++ second) [echo; reply] [] ->
  good_ack (mkPkt 0x62 (skipn 3 (msg_marshal m)) 0) echo -> network_message reply = true ->
  msg_unmarshal msg_zero (p_payload reply) = (x, None) -> m_src x = m_dst m -> fl_ack (m_flags x) = good -> fl_nak (m_flags x) = negb good ->
  exists st', plm_write fuel (byte_schedule bs) m st = (Ret (Some x, if good then None else Some EDevNak), st') /\ p_sent st' = p_sent st ++ [frame_of m].
Proof.
  intros fuel bs m st first second echo reply x good Hfu Hr Hidle Hb (L0 & W0 & E0 & N0 & L1 & N1 & L2 & N2 & early & F1 & F2) Hfr Hreads Hecho Hnet Hu Hsrc Hack Hnak.
  set (t := p_time st) in *. destruct (Hb t) as [B0 _], (Hb (S t)) as [B1 B1'], (Hb (S (S t))) as [B2 B2'].
  destruct (drain (bs_before (bs t))) as [p0 r0] eqn:D0. pose proof (drain_reads _ _ _ B0 D0) as R0. destruct (reads_bytes _ _ _ B0 R0) as [K0 _].
  assert (Dn : drain (r0 ++ []) = ([], r0)) by (apply reads_drain; rewrite app_nil_r; [exact K0|exact (reads_rest _ _ _ R0)]).
  assert (S0 : line_step (Some []) (bs t) = (mkStep (map EvPacket p0) [] (bs_late (bs t)) (bs_werr (bs t)), Some r0)).
  { unfold line_step, arrive, hang_up. cbn [app]. rewrite D0, W0, Dn, N0. reflexivity. }
  assert (A1 : line_at bs (S t) = Some r0) by (cbn [line_at]; rewrite L0, S0; reflexivity).
  assert (K1 : bytes_ok (r0 ++ bs_before (bs (S t)))) by (apply bytes_ok_app; auto).
  destruct (drain (r0 ++ bs_before (bs (S t)))) as [p1 r1] eqn:D1. pose proof (drain_reads _ _ _ K1 D1) as R1. destruct (reads_bytes _ _ _ K1 R1) as [K1a _].
  assert (K1' : bytes_ok (r1 ++ bs_wait (bs (S t)))) by (apply bytes_ok_app; auto).
  destruct (drain (r1 ++ bs_wait (bs (S t)))) as [q1 r1'] eqn:D1'. pose proof (drain_reads _ _ _ K1' D1') as R1'. destruct (reads_bytes _ _ _ K1' R1') as [K1b _].
  assert (S1 : line_step (Some r0) (bs (S t)) = (mkStep (map EvPacket p1) (map EvPacket q1) false (bs_werr (bs (S t))), Some r1')).
  { unfold line_step, arrive, hang_up. rewrite D1, D1', N1, L1, app_nil_r. reflexivity. }
  assert (A2 : line_at bs (S (S t)) = Some r1') by (change (line_at bs (S (S t))) with (snd (line_step (line_at bs (S t)) (bs (S t)))); rewrite A1, S1; reflexivity).
  assert (K2 : bytes_ok (r1' ++ bs_before (bs (S (S t))))) by (apply bytes_ok_app; auto).
  destruct (drain (r1' ++ bs_before (bs (S (S t))))) as [p2 r2] eqn:D2. pose proof (drain_reads _ _ _ K2 D2) as R2. destruct (reads_bytes _ _ _ K2 R2) as [K2a _].
  assert (K2' : bytes_ok (r2 ++ bs_wait (bs (S (S t))))) by (apply bytes_ok_app; auto).
  destruct (drain (r2 ++ bs_wait (bs (S (S t))))) as [q2 r2'] eqn:D2'. pose proof (drain_reads _ _ _ K2' D2') as R2'.
  assert (S2 : line_step (Some r1') (bs (S (S t))) = (mkStep (map EvPacket p2) (map EvPacket q2) false (bs_werr (bs (S (S t)))), Some r2')).
  { unfold line_step, arrive, hang_up. rewrite D2, D2', N2, L2, app_nil_r. reflexivity. }
  pose proof (reads_app _ _ _ _ _ _ (reads_app _ _ _ _ _ _ R0 R1) R1') as X1.
  pose proof (reads_app _ _ _ _ _ _ (reads_app _ _ _ _ _ _ X1 R2) R2') as X2.
  assert (Eb : first ++ second = ((((bs_before (bs t) ++ bs_before (bs (S t))) ++ bs_wait (bs (S t))) ++ bs_before (bs (S (S t)))) ++ bs_wait (bs (S (S t))))).
  { rewrite F2, app_assoc, F1, <- !app_assoc. reflexivity. }
  rewrite <- Eb in X2. assert (Kall : bytes_ok (first ++ second)).
  { rewrite Eb. repeat (apply bytes_ok_app; split); auto. }
  destruct (reads_unique _ _ _ _ _ Kall X2 Hreads) as [Eps _].
  assert (Hne : (p0 ++ p1) ++ q1 <> []).
  { intro Hnil. rewrite Hnil in X1. destruct X1 as (items & Y1 & Y2 & Y3). inversion Y2; subst items. cbn [flat_map app] in Y1. apply Y3. rewrite <- Y1.
    destruct Hfr as (nz & c & b & rs & Z1 & Z2). exists nz, c, b, (rs ++ early). split; [|exact Z2]. rewrite <- app_assoc, <- F1, Z1, <- !app_assoc. reflexivity. }
  destruct (write_any fuel (byte_schedule bs) m st echo reply x good (map EvPacket p0) (map EvPacket p1) (map EvPacket q1) (map EvPacket p2) (map EvPacket q2)) as (st' & T1 & T2 & _);
    try assumption; fold t; unfold byte_schedule.
  - rewrite L0, S0. reflexivity.
  - rewrite L0, S0. exact E0.
  - rewrite A1, S1. reflexivity.
  - rewrite A1, S1. reflexivity.
  - rewrite A1, S1. reflexivity.
  - rewrite A2, S2. reflexivity.
  - rewrite A2, S2. reflexivity.
  - rewrite A2, S2. reflexivity.
  - rewrite <- !map_app. change [EvPacket echo; EvPacket reply] with (map EvPacket [echo; reply]). f_equal. rewrite <- Eps, <- !app_assoc. reflexivity.
  - intro Hx. apply Hne. apply app_eq_nil in Hx. destruct Hx as [Hx Hy]. apply app_eq_nil in Hy. destruct Hy as [Hy Hz].
    apply map_eq_nil in Hx, Hy, Hz. subst. reflexivity.
  - exists st'. split; assumption.
Qed.
Theorem C69_answered : forall fuel n os bs filters link ask yes links a f db st d fd st1 c1 c2 data r,
  let open := ic_open_dev (db_opener fuel os (plm_mw fuel (byte_schedule bs)) filters) link ask yes in
  0 <= a < 16777216 -> own_addresses db -> ask = false \/ yes = pret false -> 0 <= p_retries st1 -> (1 <= fuel)%nat -> bytes_only bs ->
  opens open a ((f, db), st) d (fd, st1) -> idle st1 -> acting n open links a (bd_info d) ((f, db), st) c1 c2 data r ->
  exists frame, request_frame (bd_info d) c1 c2 data frame /\
    forall noise1 noise2 answer good, gap noise1 -> gap noise2 -> answer_bytes a good answer ->
      bytes_come bs (p_time st1) (noise1 ++ frame ++ [0x06]) (noise2 ++ answer) ->
      exists st', r = (Ret (nothing_shown, if good then None else Some EDevNak), (fd, st')) /\ p_sent st' = p_sent st1 ++ [frame].
Proof.
  intros fuel n os bs filters link ask yes links a f db st d fd st1 c1 c2 data r open Ha Hown Hask Hr Hfu Hb Ho Hidle Hact.
  destruct (ic_opener_line _ _ _ _ _ _ _ _ _ _ _ _ _ Ha Hown Hask Ho) as [_ H2]. destruct (H2 _ _ eq_refl) as [Hi Hw].
  destruct (acting_request _ _ _ _ _ _ _ _ _ _ _ Ho Hact) as (m & Hm & ->). clear Hact Ho. destruct d as [i mw]. cbn [bd_info bd_writer] in *. subst mw.
  assert (Hfo : request_frame i c1 c2 data (frame_of m)) by (apply request_frame_of; [rewrite Hi; exact Ha|exact Hm]).
  exists (frame_of m). split; [exact Hfo|]. intros noise1 noise2 answer good G1 G2 Hans Hcome.
  (* the echo *)
  assert (Hmf : exists x1 x2 x3 fl y1 y2 body, skipn 3 (msg_marshal m) = [x1; x2; x3; fl; y1; y2] ++ body /\ is_byte fl /\ length body = (if ((fl / 16) mod 2 =? 1)%Z then 14 else 0)%nat).
  { destruct Hfo as (a2 & a1 & a0 & body & _ & Hf & Hb0 & Hb1). apply (f_equal (skipn 2)) in Hf.
    eexists _, _, _, _, _, _, body. split; [exact Hf|]. destruct data as [|z data].
    - split; [unfold is_byte; lia|]. rewrite (Hb0 eq_refl). reflexivity.
    - split; [unfold is_byte; lia|]. destruct (Hb1 ltac:(discriminate)) as [Hlen _]. rewrite Hlen. reflexivity. }
  destruct Hmf as (x1 & x2 & x3 & fl & y1 & y2 & body & Hsk & Hfl & Hbl).
  set (pl := skipn 3 (msg_marshal m)) in *.
  assert (Mf : modem_frame 0x62 (pl ++ [0x06])).
  { rewrite Hsk, <- app_assoc. apply rx_message; [exact Hbl|exact Hfl|reflexivity]. }
  assert (Df : decodes false 0x62 (pl ++ [0x06]) (mkPkt 0x62 ([0; 0; 0] ++ pl) 0x06)) by (apply dec_echo; reflexivity).
  assert (Eframe : frame_of m ++ [0x06] = frame_bytes 0x62 (pl ++ [0x06])) by reflexivity.
  (* the answer *)
  destruct Hans as (s2 & s1 & s0 & d2 & d1 & d0 & fl' & k1 & k2 & rest & k & ext & h & mh & -> & H3 & Hlay & Hk & Hrl).
  set (cmd := if ext then 0x51 else 0x50). set (pb := [s2; s1; s0; d2; d1; d0; fl'; k1; k2] ++ rest).
  assert (Ma : modem_frame cmd pb).
  { apply (rx_plain false cmd pb (if ext then 25 else 11)%nat); unfold cmd, pb; destruct ext; try reflexivity; try lia; cbn [andb]; rewrite app_length, Hrl; reflexivity. }
  assert (Da : decodes false cmd pb (mkPkt cmd pb 0)) by (apply dec_unsolicited; unfold cmd; destruct ext; lia).
  assert (Eans : [2; cmd; s2; s1; s0; d2; d1; d0; fl'; k1; k2] ++ rest = frame_bytes cmd pb) by reflexivity.
  fold cmd in Hcome. rewrite Eans, Eframe in Hcome.
  assert (Hansp : answer_from (di_addr i) good (mkPkt cmd pb 0)).
  { split; [cbn [p_cmd]; unfold cmd; destruct ext; auto|]. exists s2, s1, s0, d2, d1, d0, fl', k1, k2, rest, k, ext, h, mh. rewrite Hi. repeat split; try apply H3; try apply Hlay; auto.
    intros ->. rewrite Hrl. lia. }
  destruct (answer_unmarshals i good _ Hansp) as (Hnet & x & Hu & Hsx & Hackx & Hnakx).
  destruct (bytes_packets fuel bs m st1 (noise1 ++ frame_bytes 0x62 (pl ++ [0x06])) (noise2 ++ frame_bytes cmd pb) (mkPkt 0x62 ([0; 0; 0] ++ pl) 0x06) (mkPkt cmd pb 0) x good Hfu Hr Hidle Hb Hcome)
    as (st' & T1 & T2); try assumption.
  - exists noise1, 0x62, (pl ++ [0x06]), []. rewrite app_nil_r. auto.
  - exists [(noise1, 0x62, pl ++ [0x06]); (noise2, cmd, pb)]. cbn [flat_map]. split; [rewrite !app_nil_r; reflexivity|]. split; [apply Forall2_cons; [auto|apply Forall2_cons; [auto|apply Forall2_nil]]|].
    intros (nz & c & b & r & H & _). destruct nz; discriminate H.
  - split; [cbn; lia|]. split; [reflexivity|]. split; [reflexivity|]. right. right. left. split; [reflexivity|]. exists 0, 0, 0. reflexivity.
  - rewrite Hsx. symmetry. apply Hm.
  - exists st'. split; [|exact T2]. cbn [lift_mw mw_write]. unfold psnd. cbn [fst snd plm_mw mw_write]. rewrite T1. destruct good; reflexivity.
Qed.

(** Receiving the two acknowledgements is not enough: noise that looks like the beginning of a frame swallows the bytes after it. *)
Definition ex_bytes69 (first second : list Z) : nat -> bstep := fun t =>
  match t with
  | 1%nat => mkB [] first false None false
  | 2%nat => mkB [] second false None false
  | _ => mkB [] [] true None false
  end.
Definition ex_frame69 : list Z := [2; 0x62; 0x11; 0x22; 0x33; 15; 0x13; 0].
Definition ex_answer69 : list Z := [2; 0x50; 0x11; 0x22; 0x33; 0x0a; 0x0b; 0x0c; 0x2f; 0x13; 0].
Definition ex_off69 (bs : nat -> bstep) := ic_dimmer 5 (ex_open65 (byte_schedule bs)) 0x112233 MOff ((None, ex_db65), mkPlm [] [] false [] [] 0 3 0 0).
Lemma ex_ack69 : ack_bytes 0x112233 ex_answer69.
Proof.
  eexists 0x50, 0x11, 0x22, 0x33, _, _, _, 0x2f, _, _, [], KDirectAck, false, 3, 3. split; [reflexivity|]. split; [unfold addr3, is_byte; lia|].
  split; [unfold flags_layout; cbn; lia|]. split; [reflexivity|]. left. split; reflexivity.
Qed.
Theorem C69_noise_refuted : exists bs e w', bytes_only bs /\ ex_off69 bs = (Ret (nothing_shown, Some e), w') /\
  came_in bs 0 (p_time (snd w')) (ex_frame69 ++ [0x06]) /\ came_in bs 0 (p_time (snd w')) ex_answer69 /\ ack_bytes 0x112233 ex_answer69.
Proof.
  exists (ex_bytes69 ([2; 0x50] ++ ex_frame69 ++ [0x06] ++ ex_answer69) []). eexists _, _.
  split; [intros [|[|[|t]]]; split; unfold bytes_ok; cbn; repeat constructor; unfold is_byte; lia|]. split; [vm_compute; reflexivity|].
  cbn [snd p_time]. split; [exists [2; 0x50], ex_answer69; split; [vm_compute; reflexivity|vm_compute; lia]|].
  split; [exists ([2; 0x50] ++ ex_frame69 ++ [0x06]), []; split; [vm_compute; reflexivity|vm_compute; lia]|exact ex_ack69].
Qed.

(** A dimmer in the database is switched off; the echo comes in two pieces, the second of them together with the beginning of the answer;
    noise that ends in a start byte comes first. *)
Definition ex_pieces69 : nat -> bstep := fun t =>
  match t with
  | 0%nat => mkB [7; 2; 2; 0x62; 0x11; 0x22] [] false None false
  | 1%nat => mkB [0x33; 15] ([0x13; 0; 0x06] ++ [2; 0x50; 0x11; 0x22]) false None false
  | 2%nat => mkB [] [0x33; 0x0a; 0x0b; 0x0c; 0x2f; 0x13; 0] false None false
  | _ => mkB [] [] true None false
  end.
Example C69_ex : bytes_come ex_pieces69 0 ([7; 2] ++ ex_frame69 ++ [0x06]) ([] ++ ex_answer69) /\ gap [7; 2] /\
  exists st', ex_off69 ex_pieces69 = (Ret (nothing_shown, None), ((None, ex_db65), st')) /\ p_sent st' = [ex_frame69].
Proof.
  split.
  - repeat (split; [reflexivity|]). exists [2; 0x50; 0x11; 0x22]. split; reflexivity.
  - split.
    + intros k (c & t & H & Hc). destruct k as [|[|[|k]]]; cbn in H; try discriminate H; destruct k; discriminate H.
    + eexists. split; vm_compute; reflexivity.
Qed.
(** The port is lost while half a frame is held: the goroutine ends.  It is lost after a lone start byte: it does not. *)
Example C69_ex_lost : forall b, let bs := fun t => if Nat.eqb t 1 then mkB [] b false None true else mkB [] [] true None false in
  (b = [2; 0x50; 1] -> s_wait (byte_schedule bs 1%nat) = [EvEnd]) /\ (b = [9; 2] -> s_wait (byte_schedule bs 1%nat) = []).
Proof. cbn zeta. intro b. split; intros ->; vm_compute; reflexivity. Qed.
(** The theorems at work on these bytes. *)
Lemma ex_pieces69_bytes : bytes_only ex_pieces69.
Proof. intros [|[|[|t]]]; cbn; split; repeat (constructor; [unfold is_byte; lia|]); constructor. Qed.
Definition ex_plm69 : plm := mkPlm [] [] false [] [] 0 3 0 0.
Lemma ex_opens69 : forall sc, exists d, opens (ex_open65 sc) 0x112233 ((None, ex_db65), ex_plm69) d ((None, ex_db65), ex_plm69) /\ bd_info d = mkDI 0x112233 1 32 65 2.
Proof.
  intro sc. destruct (C65_opening_known 5 (mkOS None (0%nat, None)) sc [] (fun _ => pret None) false (pret false) 0x112233 None ex_db65 ex_plm69 _ eq_refl eq_refl) as (d & Hd & Hi).
  exists d. auto.
Qed.
Lemma ex_acting69 : forall sc, acting 5 (ex_open65 sc) (device_links 5 100000) 0x112233 (mkDI 0x112233 1 32 65 2) ((None, ex_db65), ex_plm69) 0x13 0 []
  (ic_dimmer 5 (ex_open65 sc) 0x112233 MOff ((None, ex_db65), ex_plm69)).
Proof. intro sc. left. exists MOff. repeat split; reflexivity. Qed.
Lemma ex_frame69_ok : request_frame (mkDI 0x112233 1 32 65 2) 0x13 0 [] ex_frame69.
Proof. exists 0x11, 0x22, 0x33, []. split; [unfold addr3, is_byte; cbn; lia|]. split; [reflexivity|]. split; [reflexivity|congruence]. Qed.
Example C69_answered_case : exists st', ex_off69 ex_pieces69 = (Ret (nothing_shown, None), ((None, ex_db65), st')) /\ p_sent st' = [ex_frame69].
Proof.
  destruct (ex_opens69 (byte_schedule ex_pieces69)) as (d & Hd & Hi).
  destruct (C69_answered 5 5 (mkOS None (0%nat, None)) ex_pieces69 [] (fun _ => pret None) false (pret false) (device_links 5 100000) 0x112233 None ex_db65 ex_plm69 d
    (None, ex_db65) ex_plm69 0x13 0 [] (ex_off69 ex_pieces69)) as (frame & Hf & H);
    [lia|exact C65_ex_own|left; reflexivity|cbn; lia|lia|exact ex_pieces69_bytes|exact Hd|repeat split|rewrite Hi; apply ex_acting69|].
  rewrite Hi in Hf. rewrite (C65_one_frame _ _ _ _ _ _ Hf ex_frame69_ok) in H.
  destruct C69_ex as (C & G & _). refine (H [7; 2] [] ex_answer69 true G _ _ C).
  - intros k (c & t & E & _). destruct k; discriminate E.
  - eexists 0x11, 0x22, 0x33, _, _, _, 0x2f, _, _, [], KDirectAck, false, 3, 3. split; [reflexivity|]. split; [unfold addr3, is_byte; lia|].
    split; [unfold flags_layout; cbn; lia|]. split; reflexivity.
Qed.
Example C69_success_was_received_case : came_in ex_pieces69 0 (p_time (snd (snd (ex_off69 ex_pieces69)))) (ex_frame69 ++ [0x06]) /\
  exists l, ack_bytes 0x112233 l /\ came_in ex_pieces69 0 (p_time (snd (snd (ex_off69 ex_pieces69)))) l.
Proof.
  destruct (ex_opens69 (byte_schedule ex_pieces69)) as (d & Hd & Hi). destruct C69_answered_case as (st' & E & _).
  destruct (C69_success_was_received 5 5 (mkOS None (0%nat, None)) ex_pieces69 [] (fun _ => pret None) false (pret false) (device_links 5 100000) 0x112233 None ex_db65 ex_plm69 d
    (None, ex_db65) ex_plm69 0x13 0 [] (ex_off69 ex_pieces69) nothing_shown) as (frame & l & Hf & A & B & C);
    [lia|exact C65_ex_own|left; reflexivity|cbn; lia|exact ex_pieces69_bytes|exact Hd|reflexivity|reflexivity|rewrite Hi; apply ex_acting69|rewrite E; reflexivity|].
  rewrite Hi in Hf. rewrite (C65_one_frame _ _ _ _ _ _ Hf ex_frame69_ok) in A. split; [exact A|]. exists l. split; assumption.
Qed.
(** The same bytes in two other pieces: the same two packets. *)
Example C69_pieces_do_not_matter_case : let bs := ex_bytes69 ([7; 2] ++ ex_frame69 ++ [0x06]) ex_answer69 in
  bytes_only bs /\ received bs 4 = received ex_pieces69 3 /\ offered (byte_schedule bs) 4 = offered (byte_schedule ex_pieces69) 3 /\
  List.length (offered (byte_schedule bs) 4) = 2%nat.
Proof.
  cbv zeta. assert (B : bytes_only (ex_bytes69 ([7; 2] ++ ex_frame69 ++ [0x06]) ex_answer69)).
  { intros [|[|[|t]]]; cbn; split; repeat (constructor; [unfold is_byte; lia|]); constructor. }
  split; [exact B|]. split; [reflexivity|]. split; [|vm_compute; reflexivity].
  apply C69_pieces_do_not_matter; [exact B|exact ex_pieces69_bytes|reflexivity].
Qed.
Example C69_packets_are_the_bytes_case : exists rest, reads_as (received ex_pieces69 3) (offered (byte_schedule ex_pieces69) 3) rest.
Proof. apply (C69_packets_are_the_bytes ex_pieces69 3 ex_pieces69_bytes). Qed.
Example C69_lost_port_case : let bs := fun t => if Nat.eqb t 1 then mkB [] [2; 0x50; 1] false None true else mkB [] [] true None false in
  bytes_only bs /\ failed_before bs 1 = false /\ bs_end (bs 1%nat) = true /\ forall u, (1 < u)%nat -> s_before (byte_schedule bs u) = [] /\ s_wait (byte_schedule bs u) = [].
Proof.
  cbv zeta. assert (B : bytes_only (fun t => if Nat.eqb t 1 then mkB [] [2; 0x50; 1] false None true else mkB [] [] true None false)).
  { intros [|[|t]]; cbn; split; repeat (constructor; [unfold is_byte; lia|]); constructor. }
  split; [exact B|]. split; [reflexivity|]. split; [reflexivity|]. apply (C69_lost_port _ 1%nat B eq_refl eq_refl).
Qed.

Print Assumptions C69_packets_are_the_bytes.
Print Assumptions C69_pieces_do_not_matter.
Print Assumptions C69_lost_port.
Print Assumptions C69_success_was_received.
Print Assumptions C69_answered.
Print Assumptions C69_noise_refuted.
