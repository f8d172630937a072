(** * C65.  The device subcommands of the tool over the modem: the bytes on the serial line. *)
From Coq Require Import ZArith List Bool Lia ZifyBool ZifyNat.
From Verif Require Import GoBase GoProg Address AddressProofs Command Message MessageSpec MessageProofs MsgWriter BasicDevice DeviceSpec DeviceProofs DevReqSpec
  PlmPacket Plm PlmSpec PlmProofs Query Database DatabaseProofs Link LineSpec MovesProofs LineProofs IcDev IcDevSpec IcLine Props_IcDev.
Import ListNotations.
Open Scope Z_scope.
Ltac Zify.zify_post_hook ::= Z.div_mod_to_equations.

(** Whatever subcommand is given for device [a], whether or not [a] is in the database, whatever the modem, the devices and the
    disk do: every byte the program writes to the serial line belongs to a frame that sends a direct message to [a]. *)
Theorem C65_only_the_named_device : forall fuel n now os sc filters link ask yes a f db st r f' db' st',
  0 <= a < 16777216 -> own_addresses db -> ask = false \/ yes = pret false ->
  let open := ic_open_dev (db_opener fuel os (plm_mw fuel sc) filters) link ask yes in
  (exists c, ic_device open (device_links n now) a c ((f, db), st) = (r, ((f', db'), st'))) \/
  (exists c, ic_dimmer n open a c ((f, db), st) = (r, ((f', db'), st'))) \/
  (exists c, ic_switch n open (device_links n now) a c ((f, db), st) = (r, ((f', db'), st'))) \/
  (exists c, ic_thermostat n open a c ((f, db), st) = (r, ((f', db'), st'))) ->
  exists fs, p_sent st' = p_sent st ++ fs /\ Forall (frame_to a) fs.
Proof.
  intros fuel n now os sc filters link ask yes a f db st r f' db' st' Ha Hown Hask open H.
  pose proof (@line2_preorder (fstate * memdb) a) as HP.
  pose proof (lift_moves (fstate * memdb) a _ (plm_moves fuel sc a Ha)) as HL.
  change (line_only2 a ((f, db), st) ((f', db'), st')).
  assert (Hop : forall sub : bdev ((fstate * memdb) * plm) -> prog ((fstate * memdb) * plm) cmdres,
    (forall d, mw_moves (line_only2 a) (di_addr (bd_info d)) (bd_writer d) -> moves (line_only2 a) (sub d)) ->
    forall o w1, open a ((f, db), st) = (o, w1) -> line_only2 a ((f, db), st) w1 /\ forall d e, o = Ret (Some d, e) -> moves (line_only2 a) (sub d)).
  { intros sub Hsub o w1 Ho. destruct (ic_opener_line _ _ _ _ _ _ _ _ _ _ _ _ _ Ha Hown Hask Ho) as [H1 H2]. split; [exact H1|].
    intros d e Hd. apply Hsub. destruct (H2 _ _ Hd) as [-> ->]. exact HL. }
  destruct H as [[c H]|[[c H]|[[c H]|[c H]]]]; (eapply then_line; [exact HP| |exact H]); apply Hop; intros d Hd.
  - apply mv_device_sub; auto. apply mv_device_links; auto.
  - apply mv_dimmer_sub; auto.
  - apply mv_switch_sub; auto. apply mv_device_links; auto.
  - apply mv_therm_sub; auto.
Qed.


(** Opening the device: nothing is written if it is in the database and the database is saved.  A device that is opened, however it came
    to be, is used through the modem directly. *)
Theorem C65_opening_known : forall fuel os sc filters link ask yes a f db st i, db_get db a = (i, true) -> db_dirty db = false ->
  exists d, ic_open_dev (db_opener fuel os (plm_mw fuel sc) filters) link ask yes a ((f, db), st) = (Ret (Some d, None), ((f, db), st)) /\ bd_info d = i.
Proof.
  intros fuel os sc filters link ask yes a f db st i Hg Hd. eexists. split; [exact (known_opens fuel os sc filters link ask yes a f db st i Hg Hd)|reflexivity].
Qed.

(** A subcommand of an opened device that stands for request [c1], [c2], [data] writes the frame of that request, unchanged, one to
    retries+1 times, and nothing else; the database and its file are left alone; and it succeeds only if an acknowledgement from the
    named device came in. *)
Definition one_request_on_the_line (sc : schedule) (i : dinfo) (c1 c2 : Z) (data : list Z) (fd : fstate * memdb) (st : plm)
    (r : outcome cmdres * ((fstate * memdb) * plm)) : Prop :=
  fst (snd r) = fd /\
  (exists frame k, request_frame i c1 c2 data frame /\ 1 <= Z.of_nat k <= p_retries st + 1 /\ p_sent (snd (snd r)) = p_sent st ++ repeat frame k) /\
  (forall t, fst r = Ret (t, None) -> all_bytes sc st -> exists p, comes_in sc st p /\ ack_from (di_addr i) p).

Lemma opened_request : forall fuel os sc filters link ask yes a f db st d fd st1 c1 c2 data r, 0 <= a < 16777216 -> own_addresses db ->
  ask = false \/ yes = pret false -> 0 <= p_retries st1 ->
  opens (ic_open_dev (db_opener fuel os (plm_mw fuel sc) filters) link ask yes) a ((f, db), st) d (fd, st1) ->
  only_request d (fd, st1) c1 c2 data r -> di_addr (bd_info d) = a /\ one_request_on_the_line sc (bd_info d) c1 c2 data fd st1 r.
Proof.
  intros fuel os sc filters link ask yes a f db st d fd st1 c1 c2 data r Ha Hown Hask Hr Ho Hreq.
  destruct (ic_opener_line _ _ _ _ _ _ _ _ _ _ _ _ _ Ha Hown Hask Ho) as [_ H2]. destruct (H2 _ _ eq_refl) as [Hi Hw].
  split; [exact Hi|]. destruct d as [i mw]. cbn [bd_info bd_writer] in *. subst mw.
  exact (request_line _ fuel sc i fd st1 c1 c2 data r _ ltac:(rewrite Hi; exact Ha) Hr Hreq eq_refl).
Qed.
Theorem C65_dimmer_bytes : forall fuel n os sc filters link ask yes a f db st d fd st1 c c1 c2 data,
  let open := ic_open_dev (db_opener fuel os (plm_mw fuel sc) filters) link ask yes in
  0 <= a < 16777216 -> own_addresses db -> ask = false \/ yes = pret false -> 0 <= p_retries st1 ->
  opens open a ((f, db), st) d (fd, st1) -> a_dimmer (bd_info d) -> dimmer_request (di_fw (bd_info d)) c = Some (c1, c2, data) ->
  di_addr (bd_info d) = a /\ one_request_on_the_line sc (bd_info d) c1 c2 data fd st1 (ic_dimmer n open a c ((f, db), st)).
Proof.
  intros fuel n os sc filters link ask yes a f db st d fd st1 c c1 c2 data open Ha Hown Hask Hr Ho Hd Hc.
  eapply opened_request; try eassumption. apply (C63_dimmer_acts _ open n a _ d _ c); assumption.
Qed.
Theorem C65_device_bytes : forall fuel os sc filters link ask yes links a f db st d fd st1 c c1 c2 data,
  let open := ic_open_dev (db_opener fuel os (plm_mw fuel sc) filters) link ask yes in
  0 <= a < 16777216 -> own_addresses db -> ask = false \/ yes = pret false -> 0 <= p_retries st1 ->
  opens open a ((f, db), st) d (fd, st1) -> device_request (di_engine (bd_info d)) c = Some (c1, c2, data) ->
  di_addr (bd_info d) = a /\ one_request_on_the_line sc (bd_info d) c1 c2 data fd st1 (ic_device open links a c ((f, db), st)).
Proof.
  intros fuel os sc filters link ask yes links a f db st d fd st1 c c1 c2 data open Ha Hown Hask Hr Ho Hc.
  eapply opened_request; try eassumption. apply (C63_device_acts _ open links a _ d _ c); assumption.
Qed.
Theorem C65_thermostat_bytes : forall fuel n os sc filters link ask yes a f db st d fd st1,
  let open := ic_open_dev (db_opener fuel os (plm_mw fuel sc) filters) link ask yes in
  0 <= a < 16777216 -> own_addresses db -> ask = false \/ yes = pret false -> 0 <= p_retries st1 ->
  opens open a ((f, db), st) d (fd, st1) -> a_thermostat (bd_info d) ->
  one_request_on_the_line sc (bd_info d) 0x2e 0 [0; 8; 0] fd st1 (ic_thermostat n open a (TSetStatus true) ((f, db), st)) /\
  one_request_on_the_line sc (bd_info d) 0x6b 0x17 [] fd st1 (ic_thermostat n open a (TSetStatus false) ((f, db), st)).
Proof.
  intros fuel n os sc filters link ask yes a f db st d fd st1 open Ha Hown Hask Hr Ho Hd.
  destruct (C63_thermostat_acts _ open n a _ d _ Ho Hd) as [H1 H2].
  split; eapply opened_request; eassumption.
Qed.

(** The other way round: if the port takes the frame, the modem echoes it and the device acknowledges, then the frame is written exactly
    once and the subcommand succeeds. *)
Definition answered_request (fuel : nat) (sc : schedule) (i : dinfo) (c1 c2 : Z) (data : list Z) (fd : fstate * memdb) (st : plm)
    (r : outcome cmdres * ((fstate * memdb) * plm)) : Prop :=
  exists frame, request_frame i c1 c2 data frame /\
    forall echo reply good, idle st -> then_comes sc st echo reply -> echo_of frame echo -> answer_from (di_addr i) good reply ->
    exists st', r = (Ret (nothing_shown, if good then None else Some EDevNak), (fd, st')) /\ p_sent st' = p_sent st ++ [frame].
Lemma opened_answered : forall fuel os sc filters link ask yes a f db st d fd st1 c1 c2 data r, 0 <= a < 16777216 -> own_addresses db ->
  ask = false \/ yes = pret false -> 0 <= p_retries st1 -> (1 <= fuel)%nat ->
  opens (ic_open_dev (db_opener fuel os (plm_mw fuel sc) filters) link ask yes) a ((f, db), st) d (fd, st1) ->
  only_request d (fd, st1) c1 c2 data r -> answered_request fuel sc (bd_info d) c1 c2 data fd st1 r.
Proof.
  intros fuel os sc filters link ask yes a f db st d fd st1 c1 c2 data r Ha Hown Hask Hr Hfu Ho (m & Hm & ->).
  destruct (ic_opener_line _ _ _ _ _ _ _ _ _ _ _ _ _ Ha Hown Hask Ho) as [_ H2]. destruct (H2 _ _ eq_refl) as [Hi Hw].
  destruct d as [i mw]. cbn [bd_info bd_writer] in *. subst mw. exists (frame_of m). split; [apply request_frame_of; [rewrite Hi; exact Ha|exact Hm]|].
  intros echo reply good (I1 & I2 & I3) (S0 & S1 & S2) (E1 & E2 & x & y & z & E3) (Hcmd & s2 & s1 & s0 & d2 & d1 & d0 & fl & k1 & k2 & rest & k & ext & l & h & Hp & Ha3 & Hfl & Hk & Hext).
  pose proof (accessors_layout _ _ _ _ _ Hfl) as (_ & _ & _ & He & _ & _ & Hack & Hnak & _).
  assert (Hu : exists msg, msg_unmarshal msg_zero (p_payload reply) = (msg, None) /\ m_src msg = di_addr i /\ m_flags msg = fl).
  { rewrite Hp. cbn [app]. unfold msg_unmarshal. cbv zeta. rewrite He. destruct Ha3 as (_ & _ & _ & Ha3). destruct ext.
    - replace (zlen (s2 :: s1 :: s0 :: d2 :: d1 :: d0 :: fl :: k1 :: k2 :: rest) <? 23) with false by (specialize (Hext eq_refl); unfold zlen; cbn [List.length]; lia).
      eexists. split; [reflexivity|]. cbn [m_src m_flags]. rewrite addr_put3. split; [symmetry; exact Ha3|reflexivity].
    - eexists. split; [reflexivity|]. cbn [m_src m_flags]. rewrite addr_put3. split; [symmetry; exact Ha3|reflexivity]. }
  destruct Hu as (msg & Hu & Hs & Hf).
  destruct (write_answered fuel sc m st1 echo reply msg good Hfu Hr I1 I2 I3 S0 S1 S2) as (st' & Hst & Hsent); try assumption.
  - split; [rewrite E1; lia|]. split; [exact E2|]. split; [exact E1|]. right. right. left. split; [reflexivity|]. exists x, y, z. exact E3.
  - unfold network_message. lia.
  - rewrite Hs. symmetry. apply Hm.
  - rewrite Hf, Hack. destruct good; destruct k; cbn in *; congruence.
  - rewrite Hf, Hnak. destruct good; destruct k; cbn in *; congruence.
  - exists st'. split; [|exact Hsent]. cbn [lift_mw mw_write]. unfold psnd. cbn [fst snd plm_mw mw_write]. rewrite Hst. destruct good; reflexivity.
Qed.
Theorem C65_dimmer_answered : forall fuel n os sc filters link ask yes a f db st d fd st1 c c1 c2 data,
  let open := ic_open_dev (db_opener fuel os (plm_mw fuel sc) filters) link ask yes in
  0 <= a < 16777216 -> own_addresses db -> ask = false \/ yes = pret false -> 0 <= p_retries st1 -> (1 <= fuel)%nat ->
  opens open a ((f, db), st) d (fd, st1) -> a_dimmer (bd_info d) -> dimmer_request (di_fw (bd_info d)) c = Some (c1, c2, data) ->
  answered_request fuel sc (bd_info d) c1 c2 data fd st1 (ic_dimmer n open a c ((f, db), st)).
Proof.
  intros fuel n os sc filters link ask yes a f db st d fd st1 c c1 c2 data open Ha Hown Hask Hr Hfu Ho Hd Hc.
  eapply opened_answered; try eassumption. apply (C63_dimmer_acts _ open n a _ d _ c); assumption.
Qed.
Theorem C65_device_answered : forall fuel os sc filters link ask yes links a f db st d fd st1 c c1 c2 data,
  let open := ic_open_dev (db_opener fuel os (plm_mw fuel sc) filters) link ask yes in
  0 <= a < 16777216 -> own_addresses db -> ask = false \/ yes = pret false -> 0 <= p_retries st1 -> (1 <= fuel)%nat ->
  opens open a ((f, db), st) d (fd, st1) -> device_request (di_engine (bd_info d)) c = Some (c1, c2, data) ->
  answered_request fuel sc (bd_info d) c1 c2 data fd st1 (ic_device open links a c ((f, db), st)).
Proof.
  intros fuel os sc filters link ask yes links a f db st d fd st1 c c1 c2 data open Ha Hown Hask Hr Hfu Ho Hc.
  eapply opened_answered; try eassumption. apply (C63_device_acts _ open links a _ d _ c); assumption.
Qed.

(** These theorems speak of the frame of a request: there is only one. *)
Lemma last_of_fourteen : forall l, List.length l = 14%nat -> exists x, l = firstn 13 l ++ [x] /\ nth 13 l 0 = x /\ sum l = sum (firstn 13 l) + x.
Proof.
  intros l H. do 14 (destruct l as [|? l]; [discriminate H|]). destruct l; [|discriminate H]. eexists. split; [reflexivity|].
  split; [reflexivity|]. cbn [firstn sum]. lia.
Qed.
Theorem C65_one_frame : forall i c1 c2 data f f', request_frame i c1 c2 data f -> request_frame i c1 c2 data f' -> f = f'.
Proof.
  intros i c1 c2 data f f' (a2 & a1 & a0 & body & (A2 & A1 & A0 & E) & -> & H0 & H1) (b2 & b1 & b0 & body' & (B2 & B1 & B0 & E') & -> & H0' & H1').
  unfold is_byte in *. assert (a2 = b2 /\ a1 = b1 /\ a0 = b0) as (-> & -> & ->) by lia. f_equal.
  destruct data as [|z data]; [rewrite (H0 eq_refl), (H0' eq_refl); reflexivity|]. clear H0 H0'.
  destruct (H1 ltac:(discriminate)) as (L & F & C & N). destruct (H1' ltac:(discriminate)) as (L' & F' & C' & N').
  destruct (Z.eq_dec (di_engine i) 2) as [He|He]; [|rewrite (N He), (N' He); reflexivity].
  destruct (C He) as [S B], (C' He) as [S' B']. destruct (last_of_fourteen _ L) as (x & X1 & X2 & X3). destruct (last_of_fourteen _ L') as (x' & X1' & X2' & X3').
  rewrite X1, X1', F, F'. rewrite X2 in B. rewrite X2' in B'. rewrite X3, F in S. rewrite X3', F' in S'. do 2 f_equal. lia.
Qed.

(** Devices are stored under their own addresses: a new database holds none, and storing keeps it so. *)
Theorem C65_own_addresses_kept : own_addresses new_memdb /\ forall db i db1, own_addresses db -> db_put db i = Ret db1 -> own_addresses db1.
Proof. split; [intros a i H; discriminate H|exact put_own]. Qed.
(** Without it the claim is false: a file that stores one device under the address of another is loaded without complaint, and then the
    command for the one switches off the other. *)
Definition ex_plm65 : plm := mkPlm [] [] false [] [] 0 3 3 0.
Definition ex_file65 : fstate := Some (db_marshal (mkDB (Some [(0x112233, mkDI 0x445566 1 32 65 2)]) false)).
Theorem C65_wrong_file_refuted : exists db r f' db' st' frame, new_filedb ex_file65 = (db, None) /\
  ic_dimmer 5 (ic_open_dev (db_opener 5 (mkOS None (0%nat, None)) (plm_mw 5 (fun _ => mkStep [] [] false None)) []) (fun _ => pret None) false (pret false))
    0x112233 MOff ((ex_file65, db), ex_plm65) = (r, ((f', db'), st')) /\
  p_sent st' = [frame] /\ ~ frame_to 0x112233 frame /\ frame_to 0x445566 frame.
Proof.
  eexists _, _, _, _, _, _. split; [vm_compute; reflexivity|]. split; [vm_compute; reflexivity|]. split; [vm_compute; reflexivity|]. split.
  - intros (a2 & a1 & a0 & ext & h & c1 & c2 & data & (_ & _ & _ & H3) & _ & _ & Hf). injection Hf as <- <- <- _ _ _ _. discriminate H3.
  - exists 0x44, 0x55, 0x66, false, 3, 0x13, 0, []. split; [unfold addr3, is_byte; lia|]. split; [lia|]. split; reflexivity.
Qed.

(** A dimmer in the database is set to level 128: the modem refuses the frame once, takes it the second time, and the dimmer acknowledges. *)
Definition ex_db65 : memdb := mkDB (Some [(0x112233, mkDI 0x112233 1 32 65 2); (0x445566, mkDI 0x445566 5 3 65 2)]) false.
Definition ex_sc65 : schedule := fun t =>
  match t with
  | 1%nat => mkStep [] [EvPacket (mkPkt 0x62 [0x0a; 0x0b; 0x0c; 0x11; 0x22; 0x33; 15; 0x11; 128] 0x15)] false None
  | 3%nat => mkStep [] [EvPacket (mkPkt 0x62 [0x0a; 0x0b; 0x0c; 0x11; 0x22; 0x33; 15; 0x11; 128] 0x06)] false None
  | 4%nat => mkStep [] [EvPacket (mkPkt 0x50 [0x11; 0x22; 0x33; 0x0a; 0x0b; 0x0c; 0x2f; 0x11; 128] 0)] false None
  | _ => mkStep [] [] false None
  end.
Definition ex_open65 (sc : schedule) : dev_opener ((fstate * memdb) * plm) :=
  ic_open_dev (db_opener 5 (mkOS None (0%nat, None)) (plm_mw 5 sc) []) (fun _ => pret None) false (pret false).
Example C65_ex : exists st', ic_dimmer 5 (ex_open65 ex_sc65) 0x112233 (MOn 128) ((None, ex_db65), ex_plm65) =
    (Ret (nothing_shown, None), ((None, ex_db65), st')) /\
  p_sent st' = [[2; 0x62; 0x11; 0x22; 0x33; 15; 0x11; 128]; [2; 0x62; 0x11; 0x22; 0x33; 15; 0x11; 128]].
Proof. eexists. split; vm_compute; reflexivity. Qed.
(** Linking mode on a device that checks checksums: fourteen data bytes, the last making the sum zero. *)
Example C65_ex_extended : exists r st', ic_device (ex_open65 (fun _ => mkStep [] [] false None)) (device_links 5 100000) 0x112233 (DLink 1) ((None, ex_db65), ex_plm65) = (r, st') /\
  p_sent (snd st') = [[2; 0x62; 0x11; 0x22; 0x33; 0x1a; 9; 1; 0; 0; 0; 0; 0; 0; 0; 0; 0; 0; 0; 0; 0; 246]] /\ (9 + 1 + 246) mod 256 = 0.
Proof. eexists _, _. split; [vm_compute; reflexivity|]. split; vm_compute; reflexivity. Qed.
(** An unknown device is asked for its engine version first. *)
Example C65_ex_unknown : exists r st', ic_dimmer 5 (ex_open65 (fun _ => mkStep [] [] false None)) 0x778899 MOff ((None, ex_db65), ex_plm65) = (r, st') /\
  p_sent (snd st') = [[2; 0x62; 0x77; 0x88; 0x99; 10; 0x0d; 0]].
Proof. eexists _, _. split; vm_compute; reflexivity. Qed.
Example C65_ex_own : own_addresses ex_db65.
Proof.
  intros a i H. unfold db_get, ex_db65, db_map, mget in H. cbn [db_values find fst snd] in H.
  destruct (Z.eqb_spec 0x112233 a) as [E|E]; [injection H as <-; exact E|]. destruct (Z.eqb_spec 0x445566 a) as [E'|E']; [injection H as <-; exact E'|discriminate H].
Qed.
(** The theorems at work on these devices. *)
Definition ex_quiet65 : schedule := fun _ => mkStep [] [] false None.
Lemma ex_known65 : forall sc a i, db_get ex_db65 a = (i, true) -> exists d, opens (ex_open65 sc) a ((None, ex_db65), ex_plm65) d ((None, ex_db65), ex_plm65) /\ bd_info d = i.
Proof. intros sc a i H. destruct (C65_opening_known 5 (mkOS None (0%nat, None)) sc [] (fun _ => pret None) false (pret false) a None ex_db65 ex_plm65 i H eq_refl) as (d & Hd & Hi). exists d. auto. Qed.
Example C65_only_the_named_device_case : exists r f' db' st', ic_dimmer 5 (ex_open65 ex_sc65) 0x112233 MConfig ((None, ex_db65), ex_plm65) = (r, ((f', db'), st')) /\
  exists fs, p_sent st' = fs /\ Forall (frame_to 0x112233) fs.
Proof.
  destruct (ic_dimmer 5 (ex_open65 ex_sc65) 0x112233 MConfig ((None, ex_db65), ex_plm65)) as [r [[f' db'] st']] eqn:E. exists r, f', db', st'. split; [reflexivity|].
  destruct (C65_only_the_named_device 5 5 0 (mkOS None (0%nat, None)) ex_sc65 [] (fun _ => pret None) false (pret false) 0x112233 None ex_db65 ex_plm65 r f' db' st') as (fs & H1 & H2).
  - lia.
  - exact C65_ex_own.
  - left. reflexivity.
  - right. left. exists MConfig. exact E.
  - exists fs. split; [exact H1|exact H2].
Qed.
Example C65_dimmer_bytes_case : one_request_on_the_line ex_sc65 (mkDI 0x112233 1 32 65 2) 0x11 128 [] (None, ex_db65) ex_plm65
  (ic_dimmer 5 (ex_open65 ex_sc65) 0x112233 (MOn 128) ((None, ex_db65), ex_plm65)).
Proof.
  destruct (ex_known65 ex_sc65 0x112233 (mkDI 0x112233 1 32 65 2) eq_refl) as (d & Hd & Hi). rewrite <- Hi.
  apply (C65_dimmer_bytes 5 5 (mkOS None (0%nat, None)) ex_sc65 [] (fun _ => pret None) false (pret false) 0x112233 None ex_db65 ex_plm65 d (None, ex_db65) ex_plm65 (MOn 128));
    [lia|exact C65_ex_own|left; reflexivity|cbn; lia|exact Hd|rewrite Hi; reflexivity|rewrite Hi; reflexivity].
Qed.
Example C65_device_bytes_case : one_request_on_the_line ex_quiet65 (mkDI 0x112233 1 32 65 2) 9 1 (repeat 0 14) (None, ex_db65) ex_plm65
  (ic_device (ex_open65 ex_quiet65) (device_links 5 100000) 0x112233 (DLink 1) ((None, ex_db65), ex_plm65)).
Proof.
  destruct (ex_known65 ex_quiet65 0x112233 (mkDI 0x112233 1 32 65 2) eq_refl) as (d & Hd & Hi). rewrite <- Hi.
  apply (C65_device_bytes 5 (mkOS None (0%nat, None)) ex_quiet65 [] (fun _ => pret None) false (pret false) (device_links 5 100000) 0x112233 None ex_db65 ex_plm65 d (None, ex_db65) ex_plm65 (DLink 1));
    [lia|exact C65_ex_own|left; reflexivity|cbn; lia|exact Hd|rewrite Hi; reflexivity].
Qed.
Example C65_thermostat_bytes_case : one_request_on_the_line ex_quiet65 (mkDI 0x445566 5 3 65 2) 0x6b 0x17 [] (None, ex_db65) ex_plm65
  (ic_thermostat 5 (ex_open65 ex_quiet65) 0x445566 (TSetStatus false) ((None, ex_db65), ex_plm65)).
Proof.
  destruct (ex_known65 ex_quiet65 0x445566 (mkDI 0x445566 5 3 65 2) eq_refl) as (d & Hd & Hi). rewrite <- Hi.
  apply (C65_thermostat_bytes 5 5 (mkOS None (0%nat, None)) ex_quiet65 [] (fun _ => pret None) false (pret false) 0x445566 None ex_db65 ex_plm65 d (None, ex_db65) ex_plm65);
    [lia|exact C65_ex_own|left; reflexivity|cbn; lia|exact Hd|rewrite Hi; reflexivity].
Qed.
(** The frame of this request, and a modem and a dimmer that answer it: here the dimmer refuses. *)
Definition ex_answer65 : schedule := fun t =>
  match t with
  | 1%nat => mkStep [] [EvPacket (mkPkt 0x62 [0x0a; 0x0b; 0x0c; 0x11; 0x22; 0x33; 15; 0x11; 128] 0x06)] false None
  | 2%nat => mkStep [] [EvPacket (mkPkt 0x50 [0x11; 0x22; 0x33; 0x0a; 0x0b; 0x0c; 0xaf; 0x11; 128] 0)] false None
  | _ => mkStep [] [] false None
  end.
Example C65_one_frame_case : request_frame (mkDI 0x112233 1 32 65 2) 0x11 128 [] [2; 0x62; 0x11; 0x22; 0x33; 15; 0x11; 128].
Proof. exists 0x11, 0x22, 0x33, []. split; [unfold addr3, is_byte; cbn; lia|]. split; [reflexivity|]. split; [reflexivity|congruence]. Qed.
Example C65_one_frame_data_case : request_frame (mkDI 0x112233 1 32 65 2) 9 1 (repeat 0 14) ([2; 0x62; 0x11; 0x22; 0x33; 0x1a; 9; 1] ++ repeat 0 13 ++ [246]).
Proof.
  exists 0x11, 0x22, 0x33, (repeat 0 13 ++ [246]). split; [unfold addr3, is_byte; cbn; lia|]. split; [reflexivity|]. split; [discriminate|]. intros _.
  split; [reflexivity|]. split; [reflexivity|]. split; [intros _; split; [reflexivity|unfold is_byte; cbn; lia]|]. cbn. congruence.
Qed.
Example C65_dimmer_answered_case : exists st', ic_dimmer 5 (ex_open65 ex_answer65) 0x112233 (MOn 128) ((None, ex_db65), ex_plm65) = (Ret (nothing_shown, Some EDevNak), ((None, ex_db65), st')) /\
  p_sent st' = [[2; 0x62; 0x11; 0x22; 0x33; 15; 0x11; 128]].
Proof.
  destruct (ex_known65 ex_answer65 0x112233 (mkDI 0x112233 1 32 65 2) eq_refl) as (d & Hd & Hi).
  destruct (C65_dimmer_answered 5 5 (mkOS None (0%nat, None)) ex_answer65 [] (fun _ => pret None) false (pret false) 0x112233 None ex_db65 ex_plm65 d (None, ex_db65) ex_plm65 (MOn 128) 0x11 128 [])
    as (frame & Hf & H); [lia|exact C65_ex_own|left; reflexivity|cbn; lia|lia|exact Hd|rewrite Hi; reflexivity|rewrite Hi; reflexivity|].
  rewrite Hi in Hf, H. rewrite (C65_one_frame _ _ _ _ _ _ Hf C65_one_frame_case) in H.
  refine (H (mkPkt 0x62 [0x0a; 0x0b; 0x0c; 0x11; 0x22; 0x33; 15; 0x11; 128] 0x06) (mkPkt 0x50 [0x11; 0x22; 0x33; 0x0a; 0x0b; 0x0c; 0xaf; 0x11; 128] 0) false _ _ _ _).
  - repeat split.
  - repeat split.
  - split; [reflexivity|]. split; [reflexivity|]. exists 0x0a, 0x0b, 0x0c. reflexivity.
  - split; [left; reflexivity|]. exists 0x11, 0x22, 0x33, 0x0a, 0x0b, 0x0c, 0xaf, 0x11, 128, [], KDirectNak, false, 3, 3.
    split; [reflexivity|]. split; [unfold addr3, is_byte; cbn; lia|]. split; [split; [lia|split; [lia|reflexivity]]|]. split; [reflexivity|discriminate].
Qed.

Print Assumptions C65_only_the_named_device.
Print Assumptions C65_opening_known.
Print Assumptions C65_dimmer_bytes.
Print Assumptions C65_device_bytes.
Print Assumptions C65_thermostat_bytes.
Print Assumptions C65_dimmer_answered.
Print Assumptions C65_device_answered.
Print Assumptions C65_one_frame.
Print Assumptions C65_own_addresses_kept.
Print Assumptions C65_wrong_file_refuted.
