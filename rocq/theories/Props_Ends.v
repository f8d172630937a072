(** * C85.  The commands of the tool come to an end once packets stop coming in. *)
From Coq Require Import ZArith List Bool Lia ZifyBool ZifyNat.
From Verif Require Import GoBase GoProg Command Message Link MsgWriter BasicDevice Lights Query PlmPacket Plm PlmLinkdb Database DevLinkdb UtilLink IcCmd IcDev IcDevSpec IcLine IcWalk IcLink
  LineProofs Props_Line EndsSpec EndsProofs EndsNetProofs.
Import ListNotations.
Open Scope Z_scope.
Ltac Zify.zify_post_hook ::= Z.div_mod_to_equations.

Lemma ends_of_fits : forall S sc P A (p : nat -> nat -> prog (S * plm) A) s st, at_most P sc st ->
  (forall k k' n n', (P + 1 < k)%nat -> (k <= k')%nat -> (P + 1 < n)%nat -> (n <= n')%nat -> fits (used2 sc) (P + 1) (p k n) (p k' n')) -> ends P p (s, st).
Proof.
  intros S sc P A p s st Hm Hp. destruct (p (P + 2)%nat (P + 2)%nat (s, st)) as [r w'] eqn:E. exists r, w'. split.
  - destruct (fits_ends S sc P A _ _ s st Hm (Hp (P + 2) (P + 2) (P + 2) (P + 2) ltac:(lia) ltac:(lia) ltac:(lia) ltac:(lia))%nat) as [H _]. rewrite E in H. exact H.
  - intros fuel n Hf Hn. destruct (fits_ends S sc P A _ _ s st Hm (Hp (P + 2) fuel (P + 2) n ltac:(lia) ltac:(lia) ltac:(lia) ltac:(lia))%nat) as [_ H]. rewrite H. exact E.
Qed.

(** A line that falls silent lets in only so many packets. *)
Theorem C85_quiet : forall T sc st, quiet_from T sc -> exists P, at_most P sc st.
Proof.
  intros T sc st Hq. exists (List.length (p_msgq st) + List.length (p_pktq st) + arrivals sc (p_time st) T)%nat. intro d.
  assert (H0 : forall d t, (T <= t)%nat -> arrivals sc t d = O).
  { induction d0 as [|k IH]; intros t Ht; cbn [arrivals]; [reflexivity|]. destruct (Hq t Ht) as [-> ->]. rewrite IH; lia. }
  assert (Hle : (arrivals sc (p_time st) d <= arrivals sc (p_time st) T)%nat).
  { destruct (Nat.le_ge_cases d T) as [H|H].
    - replace T with (d + (T - d))%nat by lia. rewrite arrivals_app. lia.
    - replace d with (T + (d - T))%nat by lia. rewrite arrivals_app. rewrite (H0 (d - T)%nat (p_time st + T)%nat); lia. }
  lia.
Qed.

(** Every subcommand for a device, a dimmer, a switch or a thermostat: opening the device, asking the user about linking it, linking
    and the exchange itself.  Whatever the packets are, whenever they come, and whatever the disk does. *)
Theorem C85_commands : forall P sc os now filters ask yes a f db st, at_most P sc st -> (forall w, exists b, yes w = (Ret b, w)) ->
  let open fuel n := ic_open_net fuel n os sc now filters ask yes in
  (forall c, ends P (fun fuel n => ic_device (open fuel n) (device_links n now) a c) ((f, db), st)) /\
  (forall c, ends P (fun fuel n => ic_dimmer n (open fuel n) a c) ((f, db), st)) /\
  (forall c, ends P (fun fuel n => ic_switch n (open fuel n) (device_links n now) a c) ((f, db), st)) /\
  (forall c, ends P (fun fuel n => ic_thermostat n (open fuel n) a c) ((f, db), st)).
Proof.
  intros P sc os now filters ask yes a f db st Hm Hy open. pose proof (used2_counts (fstate * memdb) sc) as HU.
  repeat split; intro c; (apply (ends_of_fits _ sc); [exact Hm|]); intros k k' n n' Hk Hkk Hn Hnn; cbv beta; (apply then_fits; [exact HU|apply open_net_fits; assumption|]); intros d d' Hd.
  - apply ft_device_sub; assumption.
  - apply ft_dimmer_sub; assumption.
  - apply ft_switch_sub; assumption.
  - apply ft_therm_sub; assumption.
Qed.

(** Linking any devices with the modem. *)
Theorem C85_link : forall P sc os now filters controller responder g addrs f db st, at_most P sc st ->
  ends P (fun fuel n => net_link fuel n os sc now filters controller responder g addrs) ((f, db), st).
Proof.
  intros P sc os now filters controller responder g addrs f db st Hm. apply (ends_of_fits _ sc); [exact Hm|]. intros k k' n n' Hk Hkk Hn Hnn. apply net_link_fits; assumption.
Qed.

(** Walking over the network, and listing the links of the modem alone. *)
Theorem C85_walk : forall P sc os now filters f db st, at_most P sc st -> ends P (fun fuel n => walk_network fuel n os sc now filters) ((f, db), st).
Proof.
  intros P sc os now filters f db st Hm. apply (ends_of_fits _ sc); [exact Hm|]. intros k k' n n' Hk Hkk Hn Hnn. apply walk_fits; assumption.
Qed.
Theorem C85_modem_links : forall P sc now db st, at_most P sc st -> ends P (fun _ n => pdb_links n (plm_pw sc) now) (db, st).
Proof.
  intros P sc now db st Hm. apply (ends_of_fits _ sc); [exact Hm|]. intros k k' n n' Hk Hkk Hn Hnn. apply pdb_links_fits; assumption.
Qed.

(** Without a bound on the packets this is false.  The modem takes the frame, but then messages of other devices come in one after the
    other and the device is silent: [ic dimmer off] waits for ever, although every single wait is limited. *)
Definition ex_busy85 : schedule := fun t =>
  match t with
  | O => mkStep [] [] false None
  | 1%nat => mkStep [] [EvPacket (mkPkt 0x62 [0; 0; 0; 0x11; 0x22; 0x33; 15; 0x13; 0] 0x06)] false None
  | _ => mkStep [] [EvPacket (mkPkt 0x50 [0x44; 0x55; 0x66; 0; 0; 1; 0xcb; 0x11; 0] 0)] false None
  end.
Lemma await_for_ever : forall fuel st, p_msgq st = [] -> p_closed st = false -> (2 <= p_time st)%nat -> fst (await_ack fuel ex_busy85 0x112233 st) = NoFuel.
Proof.
  induction fuel as [|k IH]; intros st Hq Hc Ht; [reflexivity|]. destruct st as [mq pq cl se wa t to re ad]. cbn [p_msgq p_closed p_time] in *. subst mq cl.
  destruct t as [|[|t]]; [lia|lia|]. cbn. apply IH; [reflexivity|reflexivity|cbn; lia].
Qed.
Theorem C85_commands_always_end_refuted : exists sc os now filters ask yes a f db st, (forall w, exists b, yes w = (Ret b, w)) /\
  never_ends (fun fuel n => ic_dimmer n (ic_open_net fuel n os sc now filters ask yes) a MOff) ((f, db), st).
Proof.
  exists ex_busy85, (mkOS None (0%nat, None)), 100000, [], false, (pret false), 0x112233, None, ex_db65, ex_plm65. split; [intro w; exists false; reflexivity|].
  intros fuel n. unfold ic_dimmer, ic_then, ic_init, ic_open_net, pbind. rewrite known_opens with (i := mkDI 0x112233 1 32 65 2); [|reflexivity|reflexivity].
  cbv beta iota. cbn [bd_info]. change (is_dimmer (dev_lookup (mkDI 0x112233 1 32 65 2))) with true. cbv beta iota. unfold pret at 1. cbv beta iota.
  cbn [dimmer_sub bd_info bd_writer]. unfold silent, switch_turn_off, bd_send_command, bd_send, bd_write, pbind. cbn [lift_mw mw_write plm_mw]. unfold psnd. cbn [fst snd].
  match goal with |- context [plm_write fuel ex_busy85 ?m ex_plm65] => assert (H : fst (plm_write fuel ex_busy85 m ex_plm65) = NoFuel) end.
  { unfold plm_write. match goal with |- context [pw_write ?a ?b ?c] => set (x := pw_write a b c) end. vm_compute in x. subst x. cbv beta iota.
    change (m_dst _) with 0x112233. apply await_for_ever; [reflexivity|reflexivity|cbn; lia]. }
  match goal with |- context [plm_write fuel ex_busy85 ?m ex_plm65] => destruct (plm_write fuel ex_busy85 m ex_plm65) as [o st1] end.
  cbn [fst] in H. subst o. reflexivity.
Qed.

(** A modem that always has one more record: listing its links goes on for ever, and so does the walk. *)
Definition ex_record85 : packet := mkPkt 0x57 [0xe2; 1; 0x11; 0x22; 0x33; 1; 32; 65] 0.
Definition ex_records85 : schedule := fun t =>
  match t with
  | 1%nat => mkStep [] [EvPacket (mkPkt 0x69 [] 0x06)] false None
  | _ => match Nat.modulo t 3 with
         | 1%nat => mkStep [] [EvPacket (mkPkt 0x6a [] 0x06)] false None
         | 2%nat => mkStep [] [EvPacket ex_record85] false None
         | _ => mkStep [] [] false None
         end
  end.
Lemma ex_steps85 : forall k, let t := (3 * k + 2)%nat in
  ex_records85 t = mkStep [] [EvPacket ex_record85] false None /\ ex_records85 (S t) = mkStep [] [] false None /\
  ex_records85 (S (S t)) = mkStep [] [EvPacket (mkPkt 0x6a [] 0x06)] false None.
Proof.
  intros k t. assert (H1 : (t mod 3 = 2)%nat) by (subst t; lia). assert (H2 : (S t mod 3 = 0)%nat) by (subst t; lia).
  assert (H3 : (S (S t) mod 3 = 1)%nat) by (subst t; lia). assert (Ht : (2 <= t)%nat) by (subst t; lia). clearbody t. unfold ex_records85.
  destruct t as [|[|t]]; [lia|lia|]. rewrite H1, H2, H3. repeat split.
Qed.
Lemma receive_one : forall sc st p, p_pktq st = [] -> p_closed st = false -> sc (p_time st) = mkStep [] [EvPacket p] false None -> is_msg_packet p = false ->
  exists st', receive sc QPkt st = (RPacket p, st') /\ p_pktq st' = [] /\ p_closed st' = false /\ p_time st' = S (p_time st).
Proof.
  intros sc [mq pq cl se wa t to re ad] p Hq Hc Hs Hp. cbn [p_pktq p_closed p_time] in *. subst pq cl. unfold receive. cbn [p_time]. rewrite Hs. eexists.
  cbn [s_before s_wait s_late reader_turns fold_left wait_for queue_of p_pktq p_closed tick log_wait p_msgq reader_turn]. rewrite Hp. split; [reflexivity|]. repeat split.
Qed.
Lemma list_for_ever : forall fuel k st links, p_pktq st = [] -> p_closed st = false -> p_time st = (3 * k + 2)%nat ->
  fst (refresh_loop fuel (plm_pw ex_records85) 3 links None st) = NoFuel.
Proof.
  induction fuel as [|m IH]; intros k st links Hq Hc Ht; [reflexivity|].
  destruct (ex_steps85 k) as (S1 & S2 & S3). cbv zeta in S1, S2, S3. rewrite <- Ht in S1, S2, S3.
  destruct (receive_one _ _ _ Hq Hc S1 eq_refl) as (st1 & R1 & Q1 & C1 & T1).
  cbn [refresh_loop]. unfold pbind at 1. cbn [plm_pw pw_read]. unfold plm_read_packet at 1. rewrite R1. cbv beta iota. change (p_cmd ex_record85 =? pc_AllLinkRecordResp) with true. cbv beta iota.
  match goal with |- context [link_unmarshal ?a ?b] => set (x := link_unmarshal a b); vm_compute in x; subst x end. cbv beta iota.
  assert (Hw : exists st2, port_write ex_records85 st1 (pkt_marshal (mkPkt 0x6a [] 0)) = (None, st2) /\ p_pktq st2 = [] /\ p_closed st2 = false /\ p_time st2 = S (p_time st1)).
  { unfold port_write. rewrite T1, S2. eexists. split; [reflexivity|]. cbn. auto. }
  destruct Hw as (st2 & W2 & Q2 & C2 & T2). rewrite T1 in T2. rewrite <- T2 in S3. destruct (receive_one _ _ _ Q2 C2 S3 eq_refl) as (st3 & R3 & Q3 & C3 & T3).
  unfold pbind. unfold retry. cbn [pw_write]. change (Z.to_nat (3 + 1)) with 4%nat. cbn [retry_loop plm_pw pw_write].
  unfold plm_write_packet. change (mkPkt pc_GetNextAllLink [] 0) with (mkPkt 0x6a [] 0). rewrite W2. unfold plm_read_packet. rewrite R3.
  match goal with |- context [judge_ack ?a ?b] => set (y := judge_ack a b); vm_compute in y; subst y end. cbv beta iota.
  match goal with |- context [if ?b then _ else _] => change b with false end. cbv beta iota.
  apply (IH (S k)); [exact Q3|exact C3|lia].
Qed.
Lemma ex_listing85 : never_ends (fun _ n => pdb_links n (plm_pw ex_records85) 100000) (modem_db ex_plm65, ex_plm65).
Proof.
  intros fuel n. unfold pdb_links, pdb_refresh, pbind. unfold pfst at 1, pget at 1. cbn [fst snd]. change (negb (pdb_old 100000 (modem_db ex_plm65))) with false. cbv beta iota.
  unfold psnd at 1. cbn [fst snd]. match goal with |- context [pw_write ?a ?b ?c] => set (x := pw_write a b c); vm_compute in x; subst x end. cbv beta iota.
  unfold psnd at 1. cbn [fst snd].
  match goal with |- context [refresh_loop n ?a ?r ?l ?e ?s] => pose proof (list_for_ever n O s l eq_refl eq_refl eq_refl) as H; change r with 3; destruct (refresh_loop n a 3 l e s) as [o s1] end.
  cbn [fst] in H. subst o. reflexivity.
Qed.
Theorem C85_listing_always_ends_refuted : exists sc now db st, never_ends (fun _ n => pdb_links n (plm_pw sc) now) (db, st) /\
  exists os filters f m, never_ends (fun fuel n => walk_network fuel n os sc now filters) ((f, m), st).
Proof.
  exists ex_records85, 100000, (modem_db ex_plm65), ex_plm65.
  pose proof ex_listing85 as H.
  split; [exact H|]. exists (mkOS None (0%nat, None)), [], None, (mkDB None false). intros fuel n. specialize (H fuel n). cbv beta in H.
  unfold walk_network, iwalk, modem_devices, pdb_iterate, pbind. unfold psnd at 1. cbn [fst snd].
  destruct (pdb_links n (plm_pw ex_records85) 100000 (modem_db ex_plm65, ex_plm65)) as [o [d s]]. cbn [fst] in H. subst o. reflexivity.
Qed.

(** ** Cases *)
(** A modem that takes the frame, a device that answers: two packets, so four turns are enough for any command and any number more give the same. *)
Definition ex_two85 : schedule := fun t =>
  match t with
  | 1%nat => mkStep [] [EvPacket (mkPkt 0x62 [0; 0; 0; 0x11; 0x22; 0x33; 15; 0x13; 0] 0x06)] false None
  | 2%nat => mkStep [] [EvPacket (mkPkt 0x50 [0x11; 0x22; 0x33; 0; 0; 1; 0x2b; 0x13; 0] 0)] false None
  | _ => mkStep [] [] false None
  end.
Example C85_quiet_case : quiet_from 3 ex_two85 /\ exists P, at_most P ex_two85 ex_plm65.
Proof.
  assert (H : quiet_from 3 ex_two85) by (intros t Ht; destruct t as [|[|[|t]]]; [lia..|split; reflexivity]). split; [exact H|]. exact (C85_quiet 3 ex_two85 ex_plm65 H).
Qed.
Lemma ex_at_most85 : at_most 2 ex_two85 ex_plm65.
Proof.
  intro d. assert (H0 : forall d t, (3 <= t)%nat -> arrivals ex_two85 t d = O).
  { induction d0 as [|k IH]; intros t Ht; cbn [arrivals]; [reflexivity|]. destruct t as [|[|[|t]]]; [lia..|]. cbn [ex_two85 s_before s_wait]. rewrite IH; [reflexivity|lia]. }
  destruct d as [|[|[|d]]]; try (cbn; lia). cbn [p_time ex_plm65 arrivals]. rewrite H0 by lia. cbn. lia.
Qed.
Example C85_commands_case : forall fuel n, (4 <= fuel)%nat -> (4 <= n)%nat ->
  exists w', ic_dimmer n (ic_open_net fuel n (mkOS None (0%nat, None)) ex_two85 100000 [] false (pret false)) 0x112233 MOff ((None, ex_db65), ex_plm65) = (Ret (nothing_shown, None), w').
Proof.
  destruct (C85_commands 2 ex_two85 (mkOS None (0%nat, None)) 100000 [] false (pret false) 0x112233 None ex_db65 ex_plm65 ex_at_most85) as (_ & H & _); [intro w; exists false; reflexivity|].
  destruct (H MOff) as (r & w' & _ & H1). intros fuel n Hf Hn. exists w'. refine (eq_trans (H1 fuel n Hf Hn) _). f_equal.
  specialize (H1 4%nat 4%nat (Nat.le_refl _) (Nat.le_refl _)). apply (f_equal fst) in H1. cbn [fst] in H1. rewrite <- H1. vm_compute. reflexivity.
Qed.
Example C85_link_case : forall fuel n, (4 <= fuel)%nat -> (4 <= n)%nat ->
  exists r w', net_link fuel n (mkOS None (0%nat, None)) ex_two85 100000 [] true false 1 [0x112233; 0x445566] ((None, ex_db65), ex_plm65) = (r, w') /\ r <> NoFuel.
Proof.
  destruct (C85_link 2 ex_two85 (mkOS None (0%nat, None)) 100000 [] true false 1 [0x112233; 0x445566] None ex_db65 ex_plm65 ex_at_most85) as (r & w' & H & H1).
  intros fuel n Hf Hn. exists r, w'. split; [exact (H1 fuel n Hf Hn)|exact H].
Qed.
(** One record, then the modem refuses to go on: the record is listed; the device of the record does not answer the walk. *)
Definition ex_listed85 : schedule := fun t =>
  match t with
  | 1%nat => mkStep [] [EvPacket (mkPkt 0x69 [] 0x06)] false None
  | 2%nat => mkStep [] [EvPacket ex_record85] false None
  | 4%nat => mkStep [] [EvPacket (mkPkt 0x6a [] 0x15)] false None
  | _ => mkStep [] [] false None
  end.
Lemma ex_listed_at_most85 : at_most 3 ex_listed85 ex_plm65.
Proof.
  intro d. assert (H0 : forall d t, (5 <= t)%nat -> arrivals ex_listed85 t d = O).
  { induction d0 as [|k IH]; intros t Ht; cbn [arrivals]; [reflexivity|]. destruct t as [|[|[|[|[|t]]]]]; [lia..|]. cbn [ex_listed85 s_before s_wait]. rewrite IH; [reflexivity|lia]. }
  destruct d as [|[|[|[|[|d]]]]]; try (cbn; lia). cbn [p_time ex_plm65 arrivals]. rewrite H0 by lia. cbn. lia.
Qed.
Example C85_modem_links_case : forall n, (5 <= n)%nat ->
  fst (pdb_links n (plm_pw ex_listed85) 100000 (modem_db ex_plm65, ex_plm65)) = Ret ([mkLink 0xe2 1 0x112233 1 32 65], None).
Proof.
  destruct (C85_modem_links 3 ex_listed85 100000 (modem_db ex_plm65) ex_plm65 ex_listed_at_most85) as (r & w' & H & H1). intros n Hn. rewrite (H1 5%nat n ltac:(lia) Hn). cbn [fst].
  specialize (H1 5%nat 5%nat (Nat.le_refl _) (Nat.le_refl _)). apply (f_equal fst) in H1. cbn [fst] in H1. rewrite <- H1. vm_compute. reflexivity.
Qed.
Example C85_walk_case : forall fuel n, (5 <= fuel)%nat -> (5 <= n)%nat ->
  exists r, fst (walk_network fuel n (mkOS None (0%nat, None)) ex_listed85 100000 [] ((None, ex_db65), ex_plm65)) = Ret r /\ snd r = None.
Proof.
  destruct (C85_walk 3 ex_listed85 (mkOS None (0%nat, None)) 100000 [] None ex_db65 ex_plm65 ex_listed_at_most85) as (r & w' & _ & H1). intros fuel n Hf Hn.
  assert (Hr : exists x, r = Ret x /\ snd x = None).
  { specialize (H1 5%nat 5%nat (Nat.le_refl _) (Nat.le_refl _)). apply (f_equal fst) in H1. cbn [fst] in H1. rewrite <- H1. vm_compute. eexists. split; reflexivity. }
  destruct Hr as (x & -> & Hx). exists x. split; [exact (f_equal fst (H1 fuel n Hf Hn))|exact Hx].
Qed.

Print Assumptions C85_quiet.
Print Assumptions C85_commands.
Print Assumptions C85_link.
Print Assumptions C85_walk.
Print Assumptions C85_modem_links.
Print Assumptions C85_commands_always_end_refuted.
Print Assumptions C85_listing_always_ends_refuted.
