(** * C87.  What a command sends, and how often it waits. *)
From Coq Require Import ZArith List Bool Lia ZifyBool ZifyNat.
From Verif Require Import GoBase GoProg Command Message Link MsgWriter BasicDevice Lights Query PlmPacket Plm PlmProofs PlmLinkdb Database DevLinkdb UtilLink IcCmd IcDev IcDevSpec IcLine IcWalk IcLink
  LineProofs Props_Line EndsSpec EndsProofs EndsNetProofs Props_Ends CostSpec CostProofs.
Import ListNotations.
Open Scope Z_scope.
Ltac Zify.zify_post_hook ::= Z.div_mod_to_equations.

(** One message: its frame once and once more for each retry, a wait for each of these and for the acknowledgement, and one for each packet that comes in. *)
Theorem C87_message : forall P sc m S (s : S) st, at_most P sc st -> costs (tries st) (P + tries st + 1) (fun fuel _ => psnd (plm_write fuel sc m)) (s, st).
Proof.
  intros P sc m S s st Hm. pose proof (costs_light S sc P 1 _ (fun fuel _ => psnd (plm_write fuel sc m)) (s, st) Hm) as H. cbn [snd] in H.
  replace (1 * tries st)%nat with (tries st) in H by lia. replace (P + 1 * (tries st + 1))%nat with (P + tries st + 1)%nat in H by lia. apply H.
  intros fuel _. apply psnd_cost. apply (plm_cost false sc fuel).
Qed.
(** Every subcommand for a device, a dimmer, a switch or a thermostat, with opening the device (3 messages, 10 when the user may be asked
    about linking it): the number of frames does not depend on what comes in, and each packet that comes in costs at most one more wait. *)
Theorem C87_commands : forall P sc os now filters (ask : bool) yes a f db st, at_most P sc st -> (forall w, exists b, yes w = (Ret b, w)) ->
  let open fuel n := ic_open_net fuel n os sc now filters ask yes in
  let o := if ask then 10%nat else 3%nat in
  let within A k (p : nat -> nat -> prog _ A) := costs (k * tries st) (P + k * (tries st + 1)) p ((f, db), st) in
  (forall c, within _ (o + 2)%nat (fun fuel n => ic_device (open fuel n) (device_links n now) a c)) /\
  (forall c, within _ (o + 7)%nat (fun fuel n => ic_dimmer n (open fuel n) a c)) /\
  (forall c, within _ (o + 7)%nat (fun fuel n => ic_switch n (open fuel n) (device_links n now) a c)) /\
  (forall c, within _ (o + 11)%nat (fun fuel n => ic_thermostat n (open fuel n) a c)).
Proof.
  intros P sc os now filters ask yes a f db st Hm Hy open o within. pose proof (spent2_adds (fstate * memdb) false sc) as HX.
  split; [|split; [|split]]; intro c; unfold within; (apply (costs_light _ sc P _ _ _ ((f, db), st)); [exact Hm|]); intros fuel n; cbv beta;
    (apply then_cost; [exact HX|apply open_net_cost; exact Hy|]); intros d Hd.
  - apply k_device_sub; assumption.
  - apply k_dimmer_sub; assumption.
  - apply k_switch_sub; assumption.
  - apply k_therm_sub; assumption.
Qed.

(** Linking: three messages for each device that has to be opened, four for each direction of the one link that is made. *)
Theorem C87_link : forall P sc os now filters (controller responder : bool) g addrs f db st, at_most P sc st ->
  let k := (3 * length addrs + (if controller then 4 else 0) + (if responder then 4 else 0))%nat in
  costs (k * tries st) (P + k * (tries st + 1)) (fun fuel n => net_link fuel n os sc now filters controller responder g addrs) ((f, db), st).
Proof.
  intros P sc os now filters c r g addrs f db st Hm k. apply (costs_light _ sc P k _ _ ((f, db), st)); [exact Hm|]. intros fuel n. subst k. rewrite <- Nat.add_assoc. apply net_link_cost.
Qed.

(** Listing the links of the modem: each packet that comes in may ask for one more record.  With the information of the modem and its flags. *)
Theorem C87_modem : forall P sc now db st, at_most P sc st ->
  (pd_retries db = p_retries st -> costs ((P + 2) * tries st) ((P + 2) * (tries st + 1)) (fun _ n => pdb_links n (plm_pw sc) now) (db, st)) /\
  (pd_retries db = p_retries st -> costs ((P + 4) * tries st) ((P + 4) * (tries st + 1))
     (fun _ n => plm_info_cmd (psnd (plm_info sc)) (psnd (plm_config sc)) (pdb_links n (plm_pw sc) now)) (db, st)) /\
  (forall set flag, costs (2 * tries st) (P + 2 * (tries st + 1)) (fun _ _ => psnd (ic_flag sc set flag)) (db, st)).
Proof.
  intros P sc now db st Hm. split; [|split].
  - intros Hr fuel n r w' H. apply pdb_links_cost in H; [|exact Hr]. pose proof (spent_costs true sc P 2 _ _ Hm H) as (fs & ws & G1 & G2 & G3 & G4 & G5). cbn [snd].
    exists fs, ws. split; [exact G1|]. split; [exact G2|]. split; [nia|]. split; [nia|exact G5].
  - intros Hr fuel n r w' H. apply info_cmd_cost in H; [|exact Hr]. pose proof (spent_costs true sc P 4 _ _ Hm H) as (fs & ws & G1 & G2 & G3 & G4 & G5). cbn [snd].
    exists fs, ws. split; [exact G1|]. split; [exact G2|]. split; [nia|]. split; [nia|exact G5].
  - intros set flag. apply (costs_light _ sc P 2 _ _ (db, st)); [exact Hm|]. intros _ _. apply psnd_cost, flag_cost.
Qed.

(** Without counting the packets there is no bound: while unrelated messages come in, waiting for a silent dimmer begins one more wait with each of them; and a
    modem that always has one more record is asked for one more. *)
Lemma await_waits : forall fuel st, p_msgq st = [] -> p_closed st = false -> (2 <= p_time st)%nat ->
  exists st', await_ack fuel ex_busy85 0x112233 st = (NoFuel, st') /\ length (p_waits st') = (length (p_waits st) + fuel)%nat.
Proof.
  induction fuel as [|k IH]; intros st Hq Hc Ht; [exists st; split; [reflexivity|lia]|]. destruct st as [mq pq cl se wa t to re ad]. cbn [p_msgq p_closed p_time] in *. subst mq cl.
  destruct t as [|[|t]]; [lia|lia|]. cbn.
  match goal with |- context [await_ack k ex_busy85 _ ?s] => destruct (IH s) as (st' & H1 & H2); [reflexivity|reflexivity|cbn; lia|] end.
  exists st'. split; [exact H1|]. rewrite H2. cbn -[app]. rewrite app_length. cbn [length]. lia.
Qed.
Lemma list_sends : forall fuel k st links, p_pktq st = [] -> p_closed st = false -> p_time st = (3 * k + 2)%nat ->
  exists st', refresh_loop fuel (plm_pw ex_records85) 3 links None st = (NoFuel, st') /\ length (p_sent st') = (length (p_sent st) + fuel)%nat.
Proof.
  induction fuel as [|m IH]; intros k st links Hq Hc Ht; [exists st; split; [reflexivity|lia]|].
  destruct (ex_steps85 k) as (S1 & S2 & S3). cbv zeta in S1, S2, S3. rewrite <- Ht in S1, S2, S3.
  destruct (receive_one _ _ _ Hq Hc S1 eq_refl) as (st1 & R1 & Q1 & C1 & T1). pose proof (proj1 (receive_fields _ _ _ _ _ R1)) as F1.
  cbn [refresh_loop]. unfold pbind at 1. cbn [plm_pw pw_read]. unfold plm_read_packet at 1. rewrite R1. cbv beta iota. change (p_cmd ex_record85 =? pc_AllLinkRecordResp) with true. cbv beta iota.
  match goal with |- context [link_unmarshal ?a ?b] => set (x := link_unmarshal a b); vm_compute in x; subst x end. cbv beta iota.
  assert (Hw : exists st2, port_write ex_records85 st1 (pkt_marshal (mkPkt 0x6a [] 0)) = (None, st2) /\ p_pktq st2 = [] /\ p_closed st2 = false /\ p_time st2 = S (p_time st1)).
  { unfold port_write. rewrite T1, S2. eexists. split; [reflexivity|]. cbn. auto. }
  destruct Hw as (st2 & W2 & Q2 & C2 & T2). pose proof (proj1 (port_write_fields _ _ _ _ _ W2)) as F2.
  rewrite T1 in T2. rewrite <- T2 in S3. destruct (receive_one _ _ _ Q2 C2 S3 eq_refl) as (st3 & R3 & Q3 & C3 & T3). pose proof (proj1 (receive_fields _ _ _ _ _ R3)) as F3.
  unfold pbind. unfold retry. cbn [pw_write]. change (Z.to_nat (3 + 1)) with 4%nat. cbn [retry_loop plm_pw pw_write].
  unfold plm_write_packet. change (mkPkt pc_GetNextAllLink [] 0) with (mkPkt 0x6a [] 0). rewrite W2. unfold plm_read_packet. rewrite R3.
  match goal with |- context [judge_ack ?a ?b] => set (y := judge_ack a b); vm_compute in y; subst y end. cbv beta iota.
  match goal with |- context [if ?b then _ else _] => change b with false end. cbv beta iota.
  match goal with |- context [refresh_loop m _ 3 ?l _ st3] => destruct (IH (S k) st3 l Q3 C3 ltac:(lia)) as (st' & H1 & H2) end.
  exists st'. split; [exact H1|]. rewrite H2, F3, F2, F1, app_length. cbn [length]. lia.
Qed.
Theorem C87_bounded_waits_refuted : exists sc os now filters ask yes a f db st, (forall w, exists b, yes w = (Ret b, w)) /\
  forall B, exists fuel, forall n, (B < length (p_waits (snd (snd (ic_dimmer n (ic_open_net fuel n os sc now filters ask yes) a MOff ((f, db), st))))))%nat.
Proof.
  exists ex_busy85, (mkOS None (0%nat, None)), 100000, [], false, (pret false), 0x112233, None, ex_db65, ex_plm65. split; [intro w; exists false; reflexivity|].
  intro B. exists (S B). intro n. unfold ic_dimmer, ic_then, ic_init, ic_open_net, pbind. rewrite known_opens with (i := mkDI 0x112233 1 32 65 2); [|reflexivity|reflexivity].
  cbv beta iota. cbn [bd_info]. change (is_dimmer (dev_lookup (mkDI 0x112233 1 32 65 2))) with true. cbv beta iota. unfold pret at 1. cbv beta iota.
  cbn [dimmer_sub bd_info bd_writer]. unfold silent, switch_turn_off, bd_send_command, bd_send, bd_write, pbind. cbn [lift_mw mw_write plm_mw]. unfold psnd. cbn [fst snd].
  match goal with |- context [plm_write (S B) ex_busy85 ?m ex_plm65] =>
    assert (H : exists st', plm_write (S B) ex_busy85 m ex_plm65 = (NoFuel, st') /\ (B < length (p_waits st'))%nat) end.
  { unfold plm_write. match goal with |- context [pw_write ?a ?b ?c] => set (x := pw_write a b c) end. vm_compute in x. subst x. cbv beta iota.
    change (m_dst _) with 0x112233. match goal with |- context [await_ack (S B) ex_busy85 _ ?s] => destruct (await_waits (S B) s) as (st' & H1 & H2); [reflexivity|reflexivity|cbn; lia|] end.
    exists st'. split; [exact H1|]. rewrite H2. cbn. lia. }
  destruct H as (st' & H1 & H2).
  match goal with |- context [plm_write (S B) ex_busy85 ?m ex_plm65] => rewrite H1 end. exact H2.
Qed.
Theorem C87_bounded_frames_refuted : exists sc now db st, forall B, exists n, (B < length (p_sent (snd (snd (pdb_links n (plm_pw sc) now (db, st))))))%nat.
Proof.
  exists ex_records85, 100000, (modem_db ex_plm65), ex_plm65. intro B. exists B.
  unfold pdb_links, pdb_refresh, pbind. unfold pfst at 1, pget at 1. cbn [fst snd]. change (negb (pdb_old 100000 (modem_db ex_plm65))) with false. cbv beta iota.
  unfold psnd at 1. cbn [fst snd]. match goal with |- context [pw_write ?a ?b ?c] => set (x := pw_write a b c); vm_compute in x; subst x end. cbv beta iota.
  unfold psnd at 1. cbn [fst snd].
  match goal with |- context [refresh_loop B ?a ?r ?l ?e ?s] => destruct (list_sends B O s l eq_refl eq_refl eq_refl) as (st' & H1 & H2); change r with 3; rewrite H1 end.
  cbn [snd]. rewrite H2. cbn. lia.
Qed.

(** A silent modem, and one that refuses every frame. *)
Definition ex_silent87 : schedule := fun _ => mkStep [] [] false None.
Lemma ex_silent_at_most87 : at_most 0 ex_silent87 ex_plm65.
Proof. assert (H : forall d t, arrivals ex_silent87 t d = O) by (induction d as [|d IH]; intro t; cbn [arrivals]; [reflexivity|exact (IH (S t))]). intro d. rewrite H. reflexivity. Qed.
Definition ex_nak87 : schedule := fun t =>
  match t with
  | 1%nat | 3%nat | 5%nat | 7%nat => mkStep [] [EvPacket (mkPkt 0x62 [0; 0; 0; 0x11; 0x22; 0x33; 15; 0x13; 0] 0x15)] false None
  | _ => mkStep [] [] false None
  end.
Lemma ex_nak_at_most87 : at_most 4 ex_nak87 ex_plm65.
Proof.
  intro d. assert (H0 : forall d t, (8 <= t)%nat -> arrivals ex_nak87 t d = O).
  { induction d0 as [|k IH]; intros t Ht; cbn [arrivals]; [reflexivity|]. do 8 (destruct t as [|t]; [lia|]). rewrite IH; [reflexivity|lia]. }
  do 8 (destruct d as [|d]; [cbn; lia|]). cbn [p_time ex_plm65 arrivals]. rewrite H0 by lia. cbn. lia.
Qed.
(** The frame for [ic dimmer off] is tried four times, with four waits, and no more. *)
Example C87_commands_case :
  costs 40 54 (fun fuel n => ic_dimmer n (ic_open_net fuel n (mkOS None (0%nat, None)) ex_nak87 100000 [] false (pret false)) 0x112233 MOff) ((None, ex_db65), ex_plm65) /\
  exists r w', ic_dimmer 3 (ic_open_net 3 3 (mkOS None (0%nat, None)) ex_nak87 100000 [] false (pret false)) 0x112233 MOff ((None, ex_db65), ex_plm65) = (r, w') /\
    length (p_sent (snd w')) = 4%nat /\ p_waits (snd w') = [3; 3; 3; 3].
Proof.
  destruct (C87_commands 4 ex_nak87 (mkOS None (0%nat, None)) 100000 [] false (pret false) 0x112233 None ex_db65 ex_plm65 ex_nak_at_most87) as (_ & H & _); [intro w; exists false; reflexivity|].
  split; [exact (H MOff)|]. eexists. eexists. split; [vm_compute; reflexivity|]. split; reflexivity.
Qed.
(** Four frames and five waits are allowed but for the packets; a modem that refuses four times takes all the frames. *)
Example C87_message_case : costs 4 9 (fun fuel _ => psnd (plm_write fuel ex_nak87 (mkMsg 0 0x112233 15 0x1300 []))) (tt, ex_plm65) /\
  length (p_sent (snd (plm_write 1 ex_nak87 (mkMsg 0 0x112233 15 0x1300 []) ex_plm65))) = 4%nat.
Proof. split; [exact (C87_message 4 ex_nak87 _ unit tt ex_plm65 ex_nak_at_most87)|vm_compute; reflexivity]. Qed.
Example C87_link_case :
  costs 56 70 (fun fuel n => net_link fuel n (mkOS None (0%nat, None)) ex_silent87 100000 [] true true 1 [0x112233; 0x445566]) ((None, ex_db65), ex_plm65) /\
  exists r w', net_link 3 3 (mkOS None (0%nat, None)) ex_silent87 100000 [] true true 1 [0x112233; 0x445566] ((None, ex_db65), ex_plm65) = (r, w') /\ p_sent (snd w') <> [].
Proof.
  split; [exact (C87_link 0 ex_silent87 (mkOS None (0%nat, None)) 100000 [] true true 1 [0x112233; 0x445566] None ex_db65 ex_plm65 ex_silent_at_most87)|].
  eexists. eexists. split; [vm_compute; reflexivity|]. cbn. discriminate.
Qed.
(** One record and the end of the list: two frames, four waits, of at most 20 and 25. *)
Example C87_modem_case : costs 20 25 (fun _ n => pdb_links n (plm_pw ex_listed85) 100000) (modem_db ex_plm65, ex_plm65) /\
  exists r w', pdb_links 5 (plm_pw ex_listed85) 100000 (modem_db ex_plm65, ex_plm65) = (r, w') /\ p_sent (snd w') <> [].
Proof.
  destruct (C87_modem 3 ex_listed85 100000 (modem_db ex_plm65) ex_plm65 ex_listed_at_most85) as [H _]. split; [exact (H eq_refl)|].
  eexists. eexists. split; [vm_compute; reflexivity|]. cbn. discriminate.
Qed.

Print Assumptions C87_message.
Print Assumptions C87_commands.
Print Assumptions C87_link.
Print Assumptions C87_modem.
Print Assumptions C87_bounded_waits_refuted.
Print Assumptions C87_bounded_frames_refuted.
