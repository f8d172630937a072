(** * C68.  Linking with the tool over the modem: the bytes on the serial line. *)
From Coq Require Import ZArith List Bool Lia ZifyBool ZifyNat.
From Verif Require Import GoBase GoProg Address AddressProofs Command Message MessageSpec MsgWriter BasicDevice DeviceSpec DevReqSpec DevReqProofs PlmPacket Plm PlmSpec PlmProofs
  PlmLinkdb Query Database DatabaseProofs Link UtilLink LineSpec MovesProofs LineProofs IcCmd IcDev IcDevSpec IcDevProofs IcLine IcWalk WalkSpec WalkProofs Props_Line Props_Walk
  IcLink LinkLineSpec LinkLineProofs.
Import ListNotations.
Open Scope Z_scope.
Ltac Zify.zify_post_hook ::= Z.div_mod_to_equations.

(** The link command ([ic plm link], [ic plm crosslink] and so on) when it returns.  The addresses before some point were given up, each
    after frames to it alone.  If that is all of them, nothing was linked and no error is returned.  Otherwise the next address is opened
    and linked: the starts and stops of [link_frames] in their order and nothing else; the addresses after it are never spoken to.  If
    success is returned, the modem took its start and the device acknowledged. *)
Theorem C68_link : forall fuel n os sc now filters controller responder g addrs f db st e w',
  is_byte g -> Forall (fun a => 0 <= a < 16777216) addrs -> own_addresses db -> 0 <= p_retries st -> all_bytes sc st ->
  net_link fuel n os sc now filters controller responder g addrs ((f, db), st) = (Ret e, w') ->
  exists skipped rest blocks fs, addrs = skipped ++ rest /\ p_sent (snd w') = p_sent st ++ concat blocks ++ fs /\
    Forall2 (fun a b => Forall (frame_to a) b) skipped blocks /\
    match rest with
    | [] => e = None /\ fs = []
    | a :: _ => exists i opening linking, di_addr i = a /\ fs = opening ++ linking /\ Forall (frame_to a) opening /\
        link_frames (p_retries st) i controller responder g e linking /\
        (controller = true \/ responder = true -> e = None -> (exists p, comes_in sc st p /\ start_taken g p) /\ exists q, comes_in sc st q /\ ack_from a q) /\
        lost_start (comes_in sc st) (p_retries st) i controller responder g e linking
    end.
Proof.
  intros fuel n os sc now filters controller responder g addrs f db st e w' Hg Ha Ho Hr Hb H.
  destruct (came sc st) as [Hs Hq].
  exact (net_link_line (comes_in sc st) fuel n os sc now filters controller responder g addrs (p_retries st) Hs Hr Hg Hb Ha f db st e w' Ho eq_refl Hq H).
Qed.

(** Whatever happens, a crash included: every frame is a message to one of the given addresses, or tells the modem to start linking this
    group, or tells it to stop. *)
Theorem C68_any_outcome : forall fuel n os sc now filters controller responder g addrs f db st r w',
  Forall (fun a => 0 <= a < 16777216) addrs -> own_addresses db ->
  net_link fuel n os sc now filters controller responder g addrs ((f, db), st) = (r, w') ->
  exists fs, p_sent (snd w') = p_sent st ++ fs /\ Forall (linking_frame addrs g) fs.
Proof.
  intros fuel n os sc now filters controller responder g addrs f db st r w' Ha Ho H.
  refine (proj1 (net_link_moves (linking_frame addrs g) fuel n os sc now filters controller responder g _ _ addrs _ f db st r w' Ho H)).
  - right. left. reflexivity.
  - right. right. reflexivity.
  - rewrite Forall_forall in *. intros a Hin. split; [exact (Ha _ Hin)|]. intros fr Hf. left. exists a. auto.
Qed.

(** A device command for [a] when the user may be asked whether to link an unlinked device, and may agree: still only frames to [a], and
    the start and stop of the modem for group 1.  Asking leaves the modem and the database alone. *)
Theorem C68_agreed : forall fuel n now os sc filters ask yes a f db st r f' db' st',
  0 <= a < 16777216 -> own_addresses db -> (forall w, snd (yes w) = w) ->
  let open := ic_open_net fuel n os sc now filters ask yes in
  (exists c, ic_device open (device_links n now) a c ((f, db), st) = (r, ((f', db'), st'))) \/
  (exists c, ic_dimmer n open a c ((f, db), st) = (r, ((f', db'), st'))) \/
  (exists c, ic_switch n open (device_links n now) a c ((f, db), st) = (r, ((f', db'), st'))) \/
  (exists c, ic_thermostat n open a c ((f, db), st) = (r, ((f', db'), st'))) ->
  exists fs, p_sent st' = p_sent st ++ fs /\ Forall (linking_frame [a] 1) fs.
Proof.
  intros fuel n now os sc filters ask yes a f db st r f' db' st' Ha Hown Hyes open H.
  set (Q := linking_frame [a] 1).
  assert (HQ : forall fr, frame_to a fr -> Q fr) by (intros fr Hf; left; exists a; split; [left; reflexivity|exact Hf]).
  pose proof (@line_of2_pre (fstate * memdb) Q) as HP.
  pose proof (lift_moves2 (fstate * memdb) _ _ _ (line_of_moves Q fuel sc a Ha HQ)) as HL.
  change (line_of2 Q ((f, db), st) ((f', db'), st')).
  assert (Hopen : forall o w1, open a ((f, db), st) = (o, w1) -> line_of2 Q ((f, db), st) w1 /\
    forall d e, o = Ret (Some d, e) -> di_addr (bd_info d) = a /\ bd_writer d = lift_mw (plm_mw fuel sc)).
  { intros o w1 E. unfold open, ic_open_net, ic_open_dev, pbind in E.
    destruct (db_opener fuel os (plm_mw fuel sc) filters a ((f, db), st)) as [oo w2] eqn:E2. destruct (opener_line _ _ _ _ _ _ _ _ _ _ Ha Hown E2) as [[fs [T1 L1]] D1].
    destruct w2 as [[f2 db2] st2]. pose proof (opener_own _ _ _ _ _ _ _ _ _ _ _ _ Hown E2) as Ho2.
    assert (X1 : line_of2 Q ((f, db), st) ((f2, db2), st2)) by (exists fs; split; [exact T1|eapply Forall_impl; [exact HQ|exact L1]]).
    assert (Hx : forall dv er, oo = Ret (dv, er) -> forall er', o = Ret (dv, er') -> line_of2 Q ((f2, db2), st2) w1 ->
      line_of2 Q ((f, db), st) w1 /\ forall d e, o = Ret (Some d, e) -> di_addr (bd_info d) = a /\ bd_writer d = lift_mw (plm_mw fuel sc)).
    { intros dv er -> er' -> X2. split; [eapply (proj2 HP); [exact X1|exact X2]|]. intros d e Hd. injection Hd as -> _. exact (D1 _ _ eq_refl). }
    destruct oo as [[dv er]| |]; try (injection E as <- <-; split; [exact X1|discriminate]).
    assert (Hsame : forall er', (Ret (dv, er'), ((f2, db2), st2)) = (o, w1) -> line_of2 Q ((f, db), st) w1 /\
      forall d e, o = Ret (Some d, e) -> di_addr (bd_info d) = a /\ bd_writer d = lift_mw (plm_mw fuel sc)).
    { intros er' Heq. apply pair_equal_spec in Heq. destruct Heq as [<- <-]. eapply Hx; [reflexivity|reflexivity|apply HP]. }
    unfold pret in E. destruct er as [er|]; [|exact (Hsame _ E)]. destruct er; try exact (Hsame _ E).
    destruct ask; [|exact (Hsame _ E)].
    pose proof (Hyes ((f2, db2), st2)) as Hy. destruct (yes ((f2, db2), st2)) as [y w3]. cbn [snd] in Hy. subst w3.
    destruct y as [[|]| |]; try exact (Hsame _ E); try (injection E as <- <-; split; [exact X1|discriminate]).
    destruct (net_link fuel n os sc now filters true false 1 [a] ((f2, db2), st2)) as [ol w4] eqn:E4.
    assert (X2 : line_of2 Q ((f2, db2), st2) w4).
    { refine (proj1 (net_link_moves Q fuel n os sc now filters true false 1 _ _ [a] _ f2 db2 st2 ol w4 Ho2 E4)).
      - right. left. reflexivity.
      - right. right. reflexivity.
      - constructor; [split; [exact Ha|exact HQ]|constructor]. }
    destruct ol as [el| |]; injection E as <- <-; [eapply Hx; [reflexivity|reflexivity|exact X2]| |];
      (split; [eapply (proj2 HP); [exact X1|exact X2]|discriminate]). }
  assert (Hop : forall sub : bdev ((fstate * memdb) * plm) -> prog ((fstate * memdb) * plm) cmdres,
    (forall d, mw_moves (line_of2 Q) (di_addr (bd_info d)) (bd_writer d) -> moves (line_of2 Q) (sub d)) ->
    forall o w1, open a ((f, db), st) = (o, w1) -> line_of2 Q ((f, db), st) w1 /\ forall d e, o = Ret (Some d, e) -> moves (line_of2 Q) (sub d)).
  { intros sub Hsub o w1 Ho. destruct (Hopen _ _ Ho) as [H1 H2]. split; [exact H1|].
    intros d e Hd. apply Hsub. destruct (H2 _ _ Hd) as [-> ->]. exact HL. }
  destruct H as [[c H]|[[c H]|[[c H]|[c H]]]]; (eapply then_line; [exact HP| |exact H]); apply Hop; intros d Hd.
  - apply mv_device_sub; auto. apply mv_device_links; auto.
  - apply mv_dimmer_sub; auto.
  - apply mv_switch_sub; auto. apply mv_device_links; auto.
  - apply mv_therm_sub; auto.
Qed.

(** The other way round.  A known device, an idle modem; the modem takes every frame, the device answers both of its own: exactly four
    frames, each once, and the result is that of the device's start.  The database is left alone. *)
Theorem C68_answered : forall fuel n os sc now filters g a f db st i,
  (1 <= fuel)%nat -> is_byte g -> 0 <= a < 16777216 -> own_addresses db -> 0 <= p_retries st -> idle st -> db_get db a = (i, true) -> db_dirty db = false ->
  exists start stop, request_frame i 0x09 g (if di_engine i =? 2 then repeat 0 14 else []) start /\ request_frame i 0x08 0 [] stop /\
    forall p1 e1 r1 good1 p2 e2 r2 good2,
      start_taken g p1 -> echo_of start e1 -> answer_from a good1 r1 -> stop_taken p2 -> echo_of stop e2 -> answer_from a good2 r2 ->
      in_turn sc (p_time st) [None; Some p1; None; Some e1; Some r1; None; Some p2; None; Some e2; Some r2] ->
      exists st', net_link fuel n os sc now filters true false g [a] ((f, db), st) = (Ret (if good1 then None else Some EDevNak), ((f, db), st')) /\
        p_sent st' = p_sent st ++ [modem_start g; start; modem_stop; stop].
Proof.
  intros fuel n os sc now filters g a f db st i Hfu Hg Ha Ho Hr Hi Hget Hd. pose proof (Ho _ _ Hget) as Hai.
  assert (Ha' : 0 <= di_addr i < 16777216) by lia.
  assert (S1 : sends (lift_mw (S := fstate * memdb) (plm_mw fuel sc)) i 0x09 g (if di_engine i =? 2 then repeat 0 14 else []) (bd_enter_linking i (lift_mw (plm_mw fuel sc)) g)).
  { unfold is_byte in Hg. unfold bd_enter_linking, ver_I2Cs.
    destruct (di_engine i =? 2); (apply send_command_sends; [(left; cbn; lia) || (right; split; reflexivity)|rewrite sub_command1; reflexivity|rewrite sub_command2; try reflexivity; lia]). }
  assert (S2 : sends (lift_mw (S := fstate * memdb) (plm_mw fuel sc)) i 0x08 0 [] (bd_exit_linking i (lift_mw (plm_mw fuel sc)))) by (apply send_command_sends; [left; cbn; lia|reflexivity|reflexivity]).
  destruct (sends_taken _ fuel sc i _ _ _ _ Ha' Hfu S1) as (start & F1 & G1). destruct (sends_taken _ fuel sc i _ _ _ _ Ha' Hfu S2) as (stop & F2 & G2).
  exists start, stop. split; [exact F1|]. split; [exact F2|]. intros p1 e1 r1 good1 p2 e2 r2 good2 T1 E1 R1 T2 E2 R2 Hin. rewrite <- Hai in R1, R2.
  cbn [in_turn] in Hin. destruct Hin as (I0 & I1 & I2 & I3 & I4 & I5 & I6 & I7 & I8 & I9 & _).
  destruct T1 as (A1 & A2 & A3). destruct T2 as (B1 & B2 & B3).
  destruct (packet_taken sc (mkPkt 0x64 [3; g] 0) p1 st Hi) as (s1 & W1 & D1 & K1 & N1 & L1);
    [cbn [in_turn]; auto|unfold goes_to, network_message; rewrite A1; reflexivity|split; [lia|]; split; [exact A2|]; split; [exact A1|]; right; right; right; split; [cbn; lia|exact A3]|].
  rewrite <- K1 in *. rewrite <- N1 in Hr.
  destruct (G1 (f, db) s1 e1 r1 good1 Hr D1) as (s2 & W2 & D2 & K2 & N2 & L2); [cbn [in_turn]; auto|exact E1|exact R1|].
  rewrite <- K2 in *. rewrite <- N2 in Hr.
  destruct (packet_taken sc (mkPkt 0x65 [] 0) p2 s2 D2) as (s3 & W3 & D3 & K3 & N3 & L3);
    [cbn [in_turn]; auto|unfold goes_to, network_message; rewrite B1; reflexivity|split; [lia|]; split; [exact B2|]; split; [exact B1|]; right; right; right; split; [cbn; lia|exact B3]|].
  rewrite <- K3 in *. rewrite <- N3 in Hr.
  destruct (G2 (f, db) s3 e2 r2 good2 Hr D3) as (s4 & W4 & D4 & K4 & N4 & L4); [cbn [in_turn]; auto|exact E2|exact R2|].
  exists s4. split.
  - unfold net_link. cbn [ic_link]. unfold pbind at 1. unfold open_lk, pbind at 1.
    pose proof (known_opens fuel os sc filters (fun _ => pret None) false (pret false) a f db st i Hget Hd) as Hop. unfold opens, ic_open_dev, pbind in Hop.
    destruct (db_opener fuel os (plm_mw fuel sc) filters a (f, db, st)) as [[[dv er]| |] w1] eqn:E; try discriminate Hop.
    assert (Hx : dv = Some (mkBD i (lift_mw (plm_mw fuel sc))) /\ er = None /\ w1 = (f, db, st)).
    { destruct er as [er|]; [destruct er; discriminate Hop|]. unfold pret in Hop. injection Hop as -> ->. auto. }
    destruct Hx as (-> & -> & ->). unfold pret at 1. cbn [option_map lk_or_nil]. unfold ic_link_one, force_link, pbind, pret.
    assert (M1 : lk_enter (modem_lk n sc now) g (f, db, st) = (Ret None, (f, db, s1))).
    { cbn [modem_lk lk_enter]. unfold pdb_enter_linking, psnd, pbind. cbn [fst snd plm_pw pw_write]. match goal with |- context [plm_write_packet sc ?x st] => change x with (mkPkt 0x64 [3; g] 0) end. rewrite W1. reflexivity. }
    assert (M2 : lk_exit (modem_lk n sc now) (f, db, s2) = (Ret None, (f, db, s3))).
    { cbn [modem_lk lk_exit]. unfold pdb_exit_linking, psnd, pbind. cbn [fst snd plm_pw pw_write]. match goal with |- context [plm_write_packet sc ?x s2] => change x with (mkPkt 0x65 [] 0) end. rewrite W3. reflexivity. }
    rewrite M1. cbn [bdev_lk lk_enter lk_exit bd_info bd_writer]. rewrite W2, M2, W4. destruct good1; reflexivity.
  - rewrite L4, L3, L2, L1, <- !app_assoc. reflexivity.
Qed.

(** The modem that started linking is not always told to stop: if its acknowledgement is lost, the command gives up and the modem stays
    in linking mode. *)
Definition ex_db68 : memdb := mkDB (Some [(0x112233, mkDI 0x112233 1 32 65 1)]) false.
Theorem C68_told_to_stop_refuted : exists sc e w', net_link 5 5 (mkOS None (0%nat, None)) sc 100000 [] true false 1 [0x112233] ((None, ex_db68), ex_plm65) =
    (Ret (Some e), w') /\ p_sent (snd w') = [modem_start 1].
Proof. exists (fun _ => mkStep [] [] false None). eexists _, _. split; vm_compute; reflexivity. Qed.
(** The same for the device in a link from the device to the modem: told to start, its acknowledgement lost, it is never told to stop. *)
Theorem C68_device_told_to_stop_refuted : exists sc e w', net_link 5 5 (mkOS None (0%nat, None)) sc 100000 [] false true 1 [0x112233] ((None, ex_db68), ex_plm65) =
    (Ret (Some e), w') /\ p_sent (snd w') = [[2; 0x62; 0x11; 0x22; 0x33; 15; 9; 1]].
Proof.
  exists (fun t => match t with 1%nat => mkStep [] [EvPacket (mkPkt 0x62 [0x0a; 0x0b; 0x0c; 0x11; 0x22; 0x33; 15; 9; 1] 6)] false None | _ => mkStep [] [] false None end).
  eexists _, _. split; vm_compute; reflexivity.
Qed.

(** A link from the modem to a known device, everything answered. *)
Definition ex_sc68 : schedule := fun t =>
  match t with
  | 1%nat => mkStep [] [EvPacket (mkPkt 0x64 [3; 7] 6)] false None
  | 3%nat => mkStep [] [EvPacket (mkPkt 0x62 [0x0a; 0x0b; 0x0c; 0x11; 0x22; 0x33; 15; 9; 7] 6)] false None
  | 4%nat => mkStep [] [EvPacket (mkPkt 0x50 [0x11; 0x22; 0x33; 0x0a; 0x0b; 0x0c; 0x2b; 9; 7] 0)] false None
  | 6%nat => mkStep [] [EvPacket (mkPkt 0x65 [] 6)] false None
  | 8%nat => mkStep [] [EvPacket (mkPkt 0x62 [0x0a; 0x0b; 0x0c; 0x11; 0x22; 0x33; 15; 8; 0] 6)] false None
  | 9%nat => mkStep [] [EvPacket (mkPkt 0x50 [0x11; 0x22; 0x33; 0x0a; 0x0b; 0x0c; 0x2b; 8; 0] 0)] false None
  | _ => mkStep [] [] false None
  end.
Example C68_ex : exists w', net_link 5 5 (mkOS None (0%nat, None)) ex_sc68 100000 [] true false 7 [0x112233; 0x445566] ((None, ex_db68), ex_plm65) = (Ret None, w') /\
  p_sent (snd w') = [[2; 0x64; 3; 7]; [2; 0x62; 0x11; 0x22; 0x33; 15; 9; 7]; [2; 0x65]; [2; 0x62; 0x11; 0x22; 0x33; 15; 8; 0]].
Proof. eexists. split; vm_compute; reflexivity. Qed.
(** An address that cannot be opened is passed over and the next one linked. *)
Example C68_ex_skipped : exists w', net_link 5 5 (mkOS None (0%nat, None)) (fun t => match t with S (S k) => ex_sc68 k | _ => mkStep [] [] false None end) 100000 []
    true false 7 [0x445566; 0x112233] ((None, ex_db68), ex_plm65) = (Ret None, w') /\
  p_sent (snd w') = [[2; 0x62; 0x44; 0x55; 0x66; 0x0a; 0x0d; 0]; [2; 0x64; 3; 7]; [2; 0x62; 0x11; 0x22; 0x33; 15; 9; 7]; [2; 0x65]; [2; 0x62; 0x11; 0x22; 0x33; 15; 8; 0]].
Proof. eexists. split; vm_compute; reflexivity. Qed.
Lemma ex_own68 : own_addresses ex_db68.
Proof.
  intros a i H. unfold db_get, ex_db68, db_map, mget in H. cbn [db_values find fst snd] in H.
  destruct (Z.eqb_spec 0x112233 a) as [E|E]; [injection H as <-; exact E|discriminate H].
Qed.
Example C68_answered_case : exists st', net_link 5 5 (mkOS None (0%nat, None)) ex_sc68 100000 [] true false 7 [0x112233] ((None, ex_db68), ex_plm65) = (Ret None, ((None, ex_db68), st')) /\
  p_sent st' = [[2; 0x64; 3; 7]; [2; 0x62; 0x11; 0x22; 0x33; 15; 9; 7]; [2; 0x65]; [2; 0x62; 0x11; 0x22; 0x33; 15; 8; 0]].
Proof.
  destruct (C68_answered 5 5 (mkOS None (0%nat, None)) ex_sc68 100000 [] 7 0x112233 None ex_db68 ex_plm65 (mkDI 0x112233 1 32 65 1)) as (start & stop & F1 & F2 & H);
    [lia|unfold is_byte; lia|lia|exact ex_own68|cbn; lia|repeat split|reflexivity|reflexivity|].
  assert (G : forall c1 c2, request_frame (mkDI 0x112233 1 32 65 1) c1 c2 [] [2; 0x62; 0x11; 0x22; 0x33; 15; c1; c2]).
  { intros c1 c2. exists 0x11, 0x22, 0x33, []. split; [unfold addr3, is_byte; cbn; lia|]. split; [reflexivity|]. split; [reflexivity|congruence]. }
  cbn [di_engine Z.eqb Pos.eqb] in F1. rewrite (C65_one_frame _ _ _ _ _ _ F1 (G _ _)), (C65_one_frame _ _ _ _ _ _ F2 (G _ _)) in H.
  assert (A : forall c1 c2, answer_from 0x112233 true (mkPkt 0x50 [0x11; 0x22; 0x33; 0x0a; 0x0b; 0x0c; 0x2b; c1; c2] 0)).
  { intros c1 c2. split; [left; reflexivity|]. exists 0x11, 0x22, 0x33, 0x0a, 0x0b, 0x0c, 0x2b, c1, c2, [], KDirectAck, false, 2, 3.
    split; [reflexivity|]. split; [unfold addr3, is_byte; cbn; lia|]. split; [split; [lia|split; [lia|reflexivity]]|]. split; [reflexivity|discriminate]. }
  assert (E : forall c1 c2, echo_of [2; 0x62; 0x11; 0x22; 0x33; 15; c1; c2] (mkPkt 0x62 [0x0a; 0x0b; 0x0c; 0x11; 0x22; 0x33; 15; c1; c2] 6)).
  { intros c1 c2. split; [reflexivity|]. split; [reflexivity|]. exists 0x0a, 0x0b, 0x0c. reflexivity. }
  refine (H (mkPkt 0x64 [3; 7] 6) _ _ true (mkPkt 0x65 [] 6) _ _ true _ (E _ _) (A _ _) _ (E _ _) (A _ _) _); [repeat split|repeat split|].
  unfold in_turn. repeat (split; [reflexivity|]). exact I.
Qed.

(** The theorems at work: linking as above, and a device that is not linked, so that the tool asks and then links it (the modem stays silent). *)
Lemma ex_bytes68 : all_bytes ex_sc68 ex_plm65.
Proof.
  intros p [[]|[[]|(t & Ht)]]. do 10 (destruct t as [|t]; [cbn in Ht; destruct Ht as [Ht|Ht]; repeat (destruct Ht as [Ht|Ht]; [injection Ht as <-; unfold bytes_ok, is_byte; cbn; repeat constructor; lia|]); destruct Ht|]).
  cbn in Ht. destruct Ht as [[]|[]].
Qed.
Example C68_link_case : exists w' i linking, net_link 5 5 (mkOS None (0%nat, None)) ex_sc68 100000 [] true false 7 [0x112233] ((None, ex_db68), ex_plm65) = (Ret None, w') /\
  di_addr i = 0x112233 /\ link_frames (p_retries ex_plm65) i true false 7 None linking /\ (exists p, comes_in ex_sc68 ex_plm65 p /\ start_taken 7 p) /\ exists q, comes_in ex_sc68 ex_plm65 q /\ ack_from 0x112233 q.
Proof.
  destruct C68_answered_case as (st' & E & _).
  destruct (C68_link 5 5 (mkOS None (0%nat, None)) ex_sc68 100000 [] true false 7 [0x112233] None ex_db68 ex_plm65 None ((None, ex_db68), st')) as (sk & rest & bl & fs & Ha & Hs & Hb & H);
    [unfold is_byte; lia|constructor; [lia|constructor]|exact ex_own68|cbn; lia|exact ex_bytes68|exact E|].
  destruct rest as [|a rest].
  - rewrite app_nil_r in Ha. subst sk. destruct H as [_ ->].
    inversion Hb as [|x y l l' Hx Hy]; subst. inversion Hy; subst. cbn [snd concat] in Hs. rewrite !app_nil_r in Hs.
    assert (Hin : In [2; 0x64; 3; 7] (p_sent st')).
    { destruct C68_answered_case as (st2 & E2 & Q). rewrite E in E2. injection E2 as <-. rewrite Q. left. reflexivity. }
    rewrite Hs in Hin. cbn [ex_plm65 p_sent app] in Hin. rewrite Forall_forall in Hx. destruct (Hx _ Hin) as (? & ? & ? & ? & ? & ? & ? & ? & _ & _ & _ & F). discriminate F.
  - destruct H as (i & op & li & Hi & -> & _ & Hl & Hk & _). destruct sk as [|s0 sk]; [|destruct sk; discriminate Ha]. injection Ha as <- <-.
    exists ((None, ex_db68), st'), i, li. split; [exact E|]. split; [exact Hi|]. split; [exact Hl|]. apply (Hk (or_introl eq_refl) eq_refl).
Qed.
Definition ex_ask68 : schedule := fun t =>
  match t with
  | 1%nat => mkStep [] [EvPacket (mkPkt 0x62 [0x0a; 0x0b; 0x0c; 0x44; 0x55; 0x66; 10; 0x0d; 0] 6)] false None
  | 2%nat => mkStep [] [EvPacket (mkPkt 0x50 [0x44; 0x55; 0x66; 0x0a; 0x0b; 0x0c; 0xaf; 0x0d; 0xff] 0)] false None
  | _ => mkStep [] [] false None
  end.
Example C68_agreed_case : exists r f' db' st' fs,
  ic_dimmer 5 (ic_open_net 5 5 (mkOS None (0%nat, None)) ex_ask68 100000 [] true (pret true)) 0x445566 MOff ((None, ex_db68), ex_plm65) = (r, ((f', db'), st')) /\
  p_sent st' = fs /\ Forall (linking_frame [0x445566] 1) fs /\ (1 < List.length fs)%nat.
Proof.
  destruct (ic_dimmer 5 (ic_open_net 5 5 (mkOS None (0%nat, None)) ex_ask68 100000 [] true (pret true)) 0x445566 MOff ((None, ex_db68), ex_plm65)) as [r [[f' db'] st']] eqn:E.
  destruct (C68_agreed 5 5 100000 (mkOS None (0%nat, None)) ex_ask68 [] true (pret true) 0x445566 None ex_db68 ex_plm65 r f' db' st') as (fs & Hs & Hf);
    [lia|exact ex_own68|reflexivity|right; left; exists MOff; exact E|].
  exists r, f', db', st', fs. split; [reflexivity|]. split; [exact Hs|]. split; [exact Hf|].
  replace fs with (p_sent st') by (rewrite Hs; reflexivity). replace st' with (snd (snd (ic_dimmer 5 (ic_open_net 5 5 (mkOS None (0%nat, None)) ex_ask68 100000 [] true (pret true)) 0x445566 MOff ((None, ex_db68), ex_plm65)))) by (rewrite E; reflexivity).
  vm_compute. lia.
Qed.

Print Assumptions C68_link.
Print Assumptions C68_any_outcome.
Print Assumptions C68_agreed.
Print Assumptions C68_answered.
Print Assumptions C68_told_to_stop_refuted.
Print Assumptions C68_device_told_to_stop_refuted.
