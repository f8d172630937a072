(** Proofs about requests to lights and thermostats (devices/switch.go, dimmer.go, thermostat.go). *)
From Coq Require Import ZArith List Bool Lia ZifyBool ZifyNat.
From Verif Require Import GoBase GoLemmas GoProg Command Message MessageSpec MessageProofs MsgWriter FiltersSpec FiltersProofs BasicDevice DeviceSpec DeviceProofs Lights Thermostat DevReqSpec.
Import ListNotations.
Open Scope Z_scope.
Ltac Zify.zify_post_hook ::= Z.div_mod_to_equations.

Lemma padded_nth_short : forall l, (length l < 14)%nat \/ (length l = 14%nat /\ nth 13 l 0 = 0) -> nth 13 (padded 14 l) 0 = 0.
Proof.
  intros l [Hl|[Hl Hz]]; [|rewrite padded_full by exact Hl; exact Hz].
  rewrite (padded_snoc 13) by lia. rewrite app_nth2 by (rewrite padded_length by lia; lia). rewrite padded_length by lia. reflexivity.
Qed.

Lemma outgoing_is_request : forall info cmd data,
  (length data < 14)%nat \/ (length data = 14%nat /\ nth 13 data 0 = 0) ->
  is_request info (command1 cmd) (command2 cmd) data (outgoing info (mkMsg 0 0 0 cmd data)).
Proof.
  intros info cmd data Hd. unfold is_request.
  assert (Hc1 : (cmd / 256) mod 256 = command1 cmd) by (symmetry; apply command1_div).
  assert (Hc2 : cmd mod 256 = command2 cmd) by (symmetry; apply command2_mod).
  destruct data as [|b p].
  - unfold outgoing. cbn [m_payload m_src m_cmd]. change (0 <? zlen []) with false. cbn iota.
    unfold with_checksum. cbn [m_payload]. change (0 <? zlen []) with false. cbn iota.
    destruct (di_engine info =? ver_I2Cs); cbn [m_dst m_cmd m_flags m_payload]; (split; [reflexivity|]; split; [exact Hc1|]; split; [exact Hc2|];
      split; [repeat split; vm_compute; congruence|]; split; [reflexivity|]; split; [reflexivity|]; split; [congruence|reflexivity]).
  - set (data := b :: p) in *.
    assert (Hz : 0 <? zlen data = true) by (unfold data; rewrite zlen_cons; pose proof (zlen_nonneg _ p); lia).
    assert (Hl : (0 < length data <= 14)%nat) by (unfold data in *; cbn [length] in *; lia).
    destruct (Z.eq_dec (di_engine info) ver_I2Cs) as [He|He].
    + destruct (outgoing_checksummed info (mkMsg 0 0 0 cmd data) He Hl) as (body & x & E & Eb & Ho). cbn [m_payload m_src m_cmd] in *.
      destruct (outgoing_sum info (mkMsg 0 0 0 cmd data) He Hl) as [S1 S2]. cbn [m_payload] in S2. rewrite (padded_nth_short data Hd) in S2.
      assert (Hv : checksum_valid (outgoing info (mkMsg 0 0 0 cmd data))) by (split; [exact S1|exact S2]). clear S1 S2.
      rewrite Ho in *. cbn [m_dst m_cmd m_flags m_payload].
      split; [reflexivity|]. split; [exact Hc1|]. split; [exact Hc2|]. split; [repeat split; vm_compute; congruence|].
      split; [discriminate|]. split; [|split; [|unfold ver_I2Cs in He; congruence]].
      2:{ intros _ _. split; [exact Hv|]. rewrite app_nth2 by lia. rewrite Eb. change (13 - 13)%nat with 0%nat. apply Z.mod_pos_bound. lia. }
      rewrite E. rewrite padded_full by (rewrite app_length; cbn [length]; lia). rewrite !firstn_app, Eb. reflexivity.
    + unfold outgoing. cbn [m_payload m_src m_cmd]. rewrite Hz. replace (di_engine info =? ver_I2Cs) with false by lia.
      cbn [m_dst m_cmd m_flags m_payload].
      split; [reflexivity|]. split; [exact Hc1|]. split; [exact Hc2|]. split; [repeat split; vm_compute; congruence|].
      split; [discriminate|]. split; [reflexivity|]. unfold ver_I2Cs in He. split; [congruence|reflexivity].
Qed.

Lemma send_command_sends : forall W (mw : mwriter W) info cmd data c1 c2,
  (length data < 14)%nat \/ (length data = 14%nat /\ nth 13 data 0 = 0) -> command1 cmd = c1 -> command2 cmd = c2 ->
  sends mw info c1 c2 data (bd_send_command info mw cmd data).
Proof.
  intros W mw info cmd data c1 c2 Hd <- <-. exists (outgoing info (mkMsg 0 0 0 cmd data)). split; [apply outgoing_is_request; exact Hd|].
  intro w. unfold bd_send_command, bd_send, bd_write, pbind, settled.
  destruct (mw_write mw _ w) as [[[[a|] [e|]]| |] w1]; reflexivity.
Qed.

Lemma send_asks : forall W (mw : mwriter W) info cmd c1 c2 (p : prog W (Z * option error)),
  command1 cmd = c1 -> command2 cmd = c2 ->
  (forall w, p w = (do (ack, err) <- bd_send info mw cmd [] ;; match err with Some e => pret (0, Some e) | None => pret (command2 ack, None) end) w) ->
  asks_once mw info c1 c2 p.
Proof.
  intros W mw info cmd c1 c2 p <- <- Hp. exists (outgoing info (mkMsg 0 0 0 cmd [])). split; [apply outgoing_is_request; left; cbn; lia|].
  intro w. rewrite Hp. unfold bd_send, bd_write, pbind, answered.
  destruct (mw_write mw _ w) as [[[[a|] [e|]]| |] w1]; try reflexivity. unfold pret. rewrite command2_mod. reflexivity.
Qed.

Lemma sub_command2 : forall c x, command2 (sub_command c x) = x mod 256.
Proof.
  intros c x. unfold command2, sub_command. rewrite Z.land_lor_distr_l, <- Z.land_assoc. change (Z.land 0xffff00 0xff) with 0.
  rewrite Z.land_0_r, Z.lor_0_l, <- (Z.land_comm x), <- Z.land_assoc. change (Z.land 0xff 0xff) with (Z.ones 8). rewrite Z.land_ones by lia. reflexivity.
Qed.
Lemma sub_command1 : forall c x, command1 (sub_command c x) = command1 c.
Proof.
  intros c x. unfold command1, sub_command. rewrite Z.shiftr_lor, !Z.shiftr_land. change (Z.shiftr 0xff 8) with 0. change (Z.shiftr 0xffff00 8) with 0xffff.
  rewrite Z.land_0_l, Z.lor_0_r, <- Z.land_assoc. reflexivity.
Qed.

Lemma list_set_beyond : forall (l : list Z) k i v, (k < i)%nat -> nth k (list_set l i v) 0 = nth k l 0.
Proof. induction l as [|x l IH]; intros [|k] [|i] v H; cbn [list_set nth]; try reflexivity; try lia. apply IH. lia. Qed.

(** One poll round after the other. *)
Lemma ask_all_poll : forall W (mw : mwriter W) info c1 cmds i done w w' log log' acc err n,
  Forall (fun c => command1 c = c1) cmds -> (length done = i) -> (i + length cmds = n)%nat ->
  ask_all info (mlogged mw) cmds i (padded n done) (w, log) = (Ret (acc, err), (w', log')) ->
  exists new vals, log' = log ++ new /\ poll info c1 (map command2 cmds) new vals err /\ acc = padded n (done ++ vals) /\
    (length vals <= length cmds)%nat /\ (err = None <-> length vals = length cmds).
Proof.
  intros W mw info c1 cmds. induction cmds as [|c cmds IH]; intros i done w w' log log' acc err n Hc Hi Hn H; cbn [ask_all] in H.
  - unfold pret in H. injection H as <- <- <- <-. exists [], []. rewrite !app_nil_r. split; [reflexivity|]. split; [constructor|]. split; [reflexivity|]. split; [cbn [length]; lia|]. split; reflexivity.
  - unfold bd_write, pbind in H. rewrite mlogged_write in H.
    assert (Hq := outgoing_is_request info c [] ltac:(left; cbn; lia)). assert (Hc0 := Forall_inv Hc). assert (Hcs := Forall_inv_tail Hc). cbv beta in Hc0. rewrite Hc0 in Hq. subst i n.
    destruct (mw_write mw (outgoing info (mkMsg 0 0 0 c [])) w) as [[[a [e|]]| |] w1]; try discriminate.
    + unfold pret in H. injection H as <- <- <- <-. eexists _, []. split; [reflexivity|]. cbn [map]. split; [constructor; exact Hq|].
      rewrite app_nil_r. split; [reflexivity|]. cbn [length]. split; [lia|]. split; [discriminate|lia].
    + destruct a as [a|]; [|discriminate].
      assert (E : list_set (padded (length done + length (c :: cmds)) done) (length done) (command2 (m_cmd a)) =
        padded (length done + length (c :: cmds)) (done ++ [command2 (m_cmd a)])).
      { unfold padded. cbn [length]. rewrite app_length. cbn [length]. replace (length done + S (length cmds) - length done)%nat with (S (length cmds)) by lia.
        replace (length done + S (length cmds) - (length done + 1))%nat with (length cmds) by lia. cbn [repeat].
        rewrite list_set_app_r. cbn [list_set]. rewrite <- app_assoc. reflexivity. }
      rewrite E in H. apply IH in H; [|exact Hcs|rewrite app_length; cbn [length]; lia|cbn [length]; lia].
      destruct H as (new & vals & -> & Hp & -> & Hl & He).
      exists (MW (outgoing info (mkMsg 0 0 0 c [])) (Ret (Some a, None)) :: new), (m_cmd a mod 256 :: vals).
      split; [rewrite <- app_assoc; reflexivity|]. cbn [map]. split; [constructor; assumption|].
      split; [rewrite command2_mod, <- app_assoc; reflexivity|]. cbn [length]. split; [lia|]. rewrite He. lia.
Qed.

Lemma poll_values : forall info c1 cs log vals err, poll info c1 cs log vals err -> Forall is_byte vals.
Proof. intros info c1 cs log vals err H. induction H; constructor; auto. unfold is_byte. lia. Qed.

(** ** Extended data *)
Lemma read_match_bd : forall W (mw : mwriter W) info p fuel w, read_match fuel (bd_mw info mw) p w = read_match fuel mw p w.
Proof.
  intros W mw info p. induction fuel as [|fuel IH]; intro w; [reflexivity|]. cbn [read_match]. unfold pbind. cbn [bd_mw mw_read].
  destruct (mw_read mw w) as [[[[m|] [e|]]| |] w1]; try reflexivity. destruct (p m); [reflexivity|apply IH].
Qed.

Lemma data_matcher : forall m, cmd_matcher c_ExtendedGetSet m = true <-> is_data_answer m.
Proof. intro m. unfold cmd_matcher, cmd_matches, is_data_answer. change (command1 c_ExtendedGetSet) with 0x2e. rewrite command1_div. lia. Qed.

Lemma exchange_reads : forall W (mw : mwriter W) fuel w log m e w' log',
  read_match fuel (mlogged mw) (cmd_matcher c_ExtendedGetSet) (w, log) = (Ret (m, e), (w', log')) ->
  exists pre, log' = log ++ pre ++ [MR (Ret (m, e))] /\ Forall skipped pre /\ (e = None -> exists r, m = Some r /\ is_data_answer r).
Proof.
  intros W mw fuel w log m e w' log' H. destruct (read_match_log _ _ _ _ _ _ _ _ _ _ H) as (pre & E & Hp & Hm).
  exists (map (fun x => MR (Ret (Some x, None))) pre). split; [exact E|]. split.
  - apply Forall_forall. intros x Hx. apply in_map_iff in Hx. destruct Hx as (y & <- & Hy). exists y. split; [reflexivity|].
    rewrite <- data_matcher. rewrite Forall_forall in Hp. rewrite (Hp _ Hy). discriminate.
  - intro He. destruct (Hm He) as (r & -> & Hr). exists r. split; [reflexivity|]. apply data_matcher. exact Hr.
Qed.

Lemma config_exchange : forall W (mw : mwriter W) fuel info w log p err w' log',
  config_payload fuel info (mlogged mw) (w, log) = (Ret (p, err), (w', log')) ->
  (err = None -> exists buf new, p = Some buf /\ log' = log ++ new /\ data_exchange info [1; 0] new buf) /\ (err <> None -> p = None).
Proof.
  intros W mw fuel info w log p err w' log' H. unfold config_payload, bd_write, pbind in H. rewrite mlogged_write in H.
  assert (Hq := outgoing_is_request info c_ExtendedGetSet [1; 0] ltac:(left; cbn; lia)).
  change (command1 c_ExtendedGetSet) with 0x2e in Hq. change (command2 c_ExtendedGetSet) with 0 in Hq.
  destruct (mw_write mw (outgoing info (mkMsg 0 0 0 c_ExtendedGetSet [1; 0])) w) as [[[a [e|]]| |] w1]; try discriminate.
  - unfold pret in H. injection H as <- <- <- <-. split; [discriminate|reflexivity].
  - rewrite read_match_bd in H.
    match type of H with context [read_match ?a ?b ?c ?d] => destruct (read_match a b c d) as [[[m [e|]]| |] [w3 log3]] eqn:Er end; try discriminate.
    + unfold pret in H. injection H as <- <- <- <-. split; [discriminate|reflexivity].
    + destruct (exchange_reads _ _ _ _ _ _ _ _ _ Er) as (pre & E & Hp & Hm). destruct (Hm eq_refl) as (r & -> & Hr).
      unfold pret in H. injection H as <- <- <- <-. split; [|congruence]. intros _.
      eexists _, _. split; [reflexivity|]. split; [rewrite E, <- app_assoc; reflexivity|].
      exists (outgoing info (mkMsg 0 0 0 c_ExtendedGetSet [1; 0])), a, pre, r. cbn [app].
      split; [exact Hq|]. split; [exact Hr|]. split; [reflexivity|]. split; [reflexivity|exact Hp].
Qed.

Lemma get_exchange : forall W (mw : mwriter W) fuel info data w log buf err w' log',
  (length data < 14)%nat ->
  bd_extended_get fuel info (mlogged mw) data (w, log) = (Ret (buf, err), (w', log')) ->
  exists new, log' = log ++ new /\ (err = None -> data_exchange info data new buf).
Proof.
  intros W mw fuel info data w log buf err w' log' Hl H. unfold bd_extended_get, bd_write, pbind in H. rewrite mlogged_write in H.
  assert (Hq := outgoing_is_request info c_ExtendedGetSet data ltac:(left; exact Hl)).
  change (command1 c_ExtendedGetSet) with 0x2e in Hq. change (command2 c_ExtendedGetSet) with 0 in Hq.
  destruct (mw_write mw (outgoing info (mkMsg 0 0 0 c_ExtendedGetSet data)) w) as [[[a [e|]]| |] w1]; try discriminate.
  - unfold pret in H. injection H as <- <- <- <-. eexists. split; [reflexivity|discriminate].
  - rewrite read_match_bd in H.
    match type of H with context [read_match ?a ?b ?c ?d] => destruct (read_match a b c d) as [[[m [e|]]| |] [w3 log3]] eqn:Er end; try discriminate;
    destruct (exchange_reads _ _ _ _ _ _ _ _ _ Er) as (pre & E & Hp & Hm).
    + unfold pret in H. injection H as <- <- <- <-. rewrite E, <- app_assoc. eexists. split; [reflexivity|discriminate].
    + destruct (Hm eq_refl) as (r & -> & Hr).
      unfold pret in H. injection H as <- <- <- <-. rewrite E, <- app_assoc. eexists. split; [reflexivity|]. intros _.
      exists (outgoing info (mkMsg 0 0 0 c_ExtendedGetSet data)), a, pre, r. cbn [app].
      split; [exact Hq|]. split; [exact Hr|]. split; [reflexivity|]. split; [reflexivity|exact Hp].
Qed.

(** The ramp byte: level in the high half, rate in the low half. *)
Lemma level_rate : forall level rate,
  Z.lor (byte_of (Z.shiftl (byte_of level) 4)) (Z.land (byte_of rate) 0x0f) = 16 * (level mod 16) + rate mod 16.
Proof.
  intros level rate.
  assert (H := sweep2 (fun l r => Z.lor (byte_of (Z.shiftl l 4)) (Z.land r 0x0f) =? 16 * (l mod 16) + r mod 16) ltac:(vm_compute; reflexivity)
    (byte_of level) (byte_of rate) (byte_of_range level) (byte_of_range rate)).
  apply Z.eqb_eq in H. rewrite H. unfold byte_of. lia.
Qed.
Lemma zone_sub : forall k zone, (k = 0 \/ k = 1 \/ k = 2 \/ k = 3) -> command2 (sub_command c_GetZoneInfo (Z.lor (16 * k) (Z.land zone 0x0f))) = 16 * k + zone mod 16.
Proof.
  intros k zone Hk. rewrite sub_command2. change 0x0f with (Z.ones 4). rewrite Z.land_ones by lia. change (2 ^ 4) with 16.
  set (z := zone mod 16). assert (Hz : 0 <= z <= 15) by (unfold z; lia). clearbody z.
  assert (Hc : z = 0 \/ z = 1 \/ z = 2 \/ z = 3 \/ z = 4 \/ z = 5 \/ z = 6 \/ z = 7 \/ z = 8 \/ z = 9 \/ z = 10 \/ z = 11 \/ z = 12 \/ z = 13 \/ z = 14 \/ z = 15) by lia.
  destruct Hk as [->|[->|[->| ->]]]; repeat (destruct Hc as [->|Hc]; [reflexivity|]); rewrite Hc; reflexivity.
Qed.
