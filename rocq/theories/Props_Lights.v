(** Property C45: requests to switches and dimmers. *)
From Coq Require Import ZArith List Bool Lia ZifyBool ZifyNat.
From Verif Require Import GoBase GoLemmas GoProg Command Message MessageSpec MsgWriter FiltersSpec FiltersProofs BasicDevice DeviceSpec DeviceProofs Lights DevReqSpec DevReqProofs Props_Filters Props_Device.
Import ListNotations.
Open Scope Z_scope.
Ltac Zify.zify_post_hook ::= Z.div_mod_to_equations.

Ltac fixed := apply send_command_sends; [(left; cbn; lia) || (right; split; reflexivity)|reflexivity|reflexivity].

(** * C45.  The requests without arguments: one message with the documented command bytes each. *)
Theorem C45_fixed_requests : forall W (mw : mwriter W) info,
  sends mw info 0x13 0x00 [] (switch_turn_off info mw) /\
  sends mw info 0x15 0x00 [] (dimmer_brighten info mw) /\
  sends mw info 0x16 0x00 [] (dimmer_dim info mw) /\
  sends mw info 0x17 0x01 [] (dimmer_start_brighten info mw) /\
  sends mw info 0x17 0x00 [] (dimmer_start_dim info mw) /\
  sends mw info 0x18 0x00 [] (dimmer_stop_manual info mw) /\
  sends mw info 0x12 0x00 [] (dimmer_on_fast info mw).
Proof. intros W mw info. repeat apply conj; fixed. Qed.
(** The operating-flag requests carry fourteen zero bytes. *)
Theorem C45_flag_requests : forall W (mw : mwriter W) info (on : bool),
  sends mw info 0x20 (if on then 6 else 7) (repeat 0 14) (switch_set_load_sense info mw on) /\
  sends mw info 0x20 (if on then 9 else 8) (repeat 0 14) (switch_set_backlight info mw on).
Proof. intros W mw info [|]; split; fixed. Qed.
(** The requests with a level: it travels in the second command byte. *)
Theorem C45_level_requests : forall W (mw : mwriter W) info level, 0 <= level <= 255 ->
  sends mw info 0x11 level [] (switch_turn_on info mw level) /\
  sends mw info 0x21 level [] (dimmer_instant_change info mw level) /\
  sends mw info 0x27 level [] (dimmer_set_status info mw level).
Proof.
  intros W mw info level Hl. unfold switch_turn_on, dimmer_instant_change, dimmer_set_status.
  repeat apply conj; (apply send_command_sends; [left; cbn; lia|rewrite sub_command1; reflexivity|rewrite sub_command2; lia]).
Qed.
(** Any other number is cut to its last eight bits: 256 turns the light off. *)
Theorem C45_level_any : forall W (mw : mwriter W) info level, sends mw info 0x11 (level mod 256) [] (switch_turn_on info mw level).
Proof. intros W mw info level. apply send_command_sends; [left; cbn; lia|rewrite sub_command1; reflexivity|rewrite sub_command2; reflexivity]. Qed.
Theorem C45_level_range_refuted : exists level, 255 < level /\
  forall W (mw : mwriter W) info w, switch_turn_on info mw level w = switch_turn_on info mw 0 w.
Proof. exists 256. split; [lia|]. reflexivity. Qed.
(** Ramping: level and rate share the second byte, four bits each; the command depends on the firmware. *)
Theorem C45_on_at_ramp : forall W (mw : mwriter W) info level rate, 0 <= level <= 15 -> 0 <= rate <= 15 ->
  sends mw info (if di_fw info <? 67 then 0x2e else 0x34) (16 * level + rate) [] (dimmer_on_at_ramp info mw level rate).
Proof.
  intros W mw info level rate Hl Hr. unfold dimmer_on_at_ramp. apply send_command_sends; [left; cbn; lia| |].
  - rewrite sub_command1. destruct (0x43 <=? di_fw info) eqn:E; replace (di_fw info <? 67) with (negb (0x43 <=? di_fw info)) by lia; rewrite E; reflexivity.
  - rewrite sub_command2, level_rate. lia.
Qed.
Theorem C45_on_at_ramp_any : forall W (mw : mwriter W) info level rate,
  sends mw info (if di_fw info <? 67 then 0x2e else 0x34) (16 * (level mod 16) + rate mod 16) [] (dimmer_on_at_ramp info mw level rate).
Proof.
  intros W mw info level rate. unfold dimmer_on_at_ramp. apply send_command_sends; [left; cbn; lia| |].
  - rewrite sub_command1. destruct (0x43 <=? di_fw info) eqn:E; replace (di_fw info <? 67) with (negb (0x43 <=? di_fw info)) by lia; rewrite E; reflexivity.
  - rewrite sub_command2, level_rate. lia.
Qed.
(** The on level of the same device is a full byte elsewhere ([TurnOn]); here full brightness 255 and dim 15 are the same request, and 16
    is off. *)
Theorem C45_on_at_ramp_level_refuted : exists level rate, 0 < level <= 255 /\
  forall W (mw : mwriter W) info w, dimmer_on_at_ramp info mw level rate w = dimmer_on_at_ramp info mw 0 rate w.
Proof. exists 16, 3. split; [lia|]. reflexivity. Qed.
Theorem C45_off_at_ramp : forall W (mw : mwriter W) info rate, 0 <= rate <= 15 ->
  sends mw info (if di_fw info <? 67 then 0x2f else 0x35) rate [] (dimmer_off_at_ramp info mw rate).
Proof.
  intros W mw info rate Hr. unfold dimmer_off_at_ramp. apply send_command_sends; [left; cbn; lia| |].
  - rewrite sub_command1. destruct (0x43 <=? di_fw info) eqn:E; replace (di_fw info <? 67) with (negb (0x43 <=? di_fw info)) by lia; rewrite E; reflexivity.
  - rewrite sub_command2, Z.land_comm. change 0x0f with (Z.ones 4). rewrite Z.land_ones by lia. change (2 ^ 4) with 16. lia.
Qed.
Theorem C45_off_at_ramp_any : forall W (mw : mwriter W) info rate,
  sends mw info (if di_fw info <? 67 then 0x2f else 0x35) (rate mod 16) [] (dimmer_off_at_ramp info mw rate).
Proof.
  intros W mw info rate. unfold dimmer_off_at_ramp. apply send_command_sends; [left; cbn; lia| |].
  - rewrite sub_command1. destruct (0x43 <=? di_fw info) eqn:E; replace (di_fw info <? 67) with (negb (0x43 <=? di_fw info)) by lia; rewrite E; reflexivity.
  - rewrite sub_command2, Z.land_comm. change 0x0f with (Z.ones 4). rewrite Z.land_ones by lia. change (2 ^ 4) with 16. lia.
Qed.

(** The status is the second command byte of the acknowledgement. *)
Theorem C45_status : forall W (mw : mwriter W) info, asks_once mw info 0x19 0x00 (switch_status info mw).
Proof. intros W mw info. apply send_asks with (cmd := c_LightStatusRequest); reflexivity. Qed.

(** The operating flags: five questions in turn; answers not reached stay zero. *)
Theorem C45_operating_flags : forall W (mw : mwriter W) info w flags err w' log,
  switch_operating_flags info (mlogged mw) (w, []) = (Ret (flags, err), (w', log)) ->
  exists vals, poll info 0x1f [0x01; 0x02; 0x04; 0x10; 0x20] log vals err /\ flags = padded 5 vals /\
    (length vals <= 5)%nat /\ (err = None <-> length vals = 5%nat) /\ Forall is_byte vals.
Proof.
  intros W mw info w flags err w' log H. unfold switch_operating_flags in H. change (zeros 5) with (padded 5 []) in H.
  apply (ask_all_poll _ _ _ 0x1f) in H; [|repeat constructor|reflexivity|reflexivity].
  destruct H as (new & vals & -> & Hp & -> & Hl & He). exists vals. cbn [app]. split; [exact Hp|]. split; [reflexivity|]. split; [exact Hl|].
  split; [exact He|]. exact (poll_values _ _ _ _ _ _ Hp).
Qed.
(** What the flag names say is one bit of the answer (or the answer itself). *)
Theorem C45_flag_bits : forall lf,
  lf_program_lock lf = Z.testbit (nth 0 lf 0) 0 /\ lf_tx_led lf = Z.testbit (nth 0 lf 0) 1 /\ lf_resume_dim lf = Z.testbit (nth 0 lf 0) 2 /\
  lf_led lf = Z.testbit (nth 3 lf 0) 4 /\ lf_load_sense lf = Z.testbit (nth 4 lf 0) 5 /\ lf_x10_enabled lf = negb (Z.testbit (nth 4 lf 0) 0) /\
  lf_error_blink lf = Z.testbit (nth 4 lf 0) 1 /\ lf_cleanup_report lf = Z.testbit (nth 4 lf 0) 2 /\
  lf_db_delta lf = nth 1 lf 0 /\ lf_snr lf = nth 2 lf 0.
Proof.
  intro lf.
  assert (B : forall x n, 0 <= n -> (Z.land x (2 ^ n) =? 2 ^ n) = Z.testbit x n).
  { intros x n Hn. destruct (Z.testbit x n) eqn:E.
    - apply Z.eqb_eq. apply Z.bits_inj'. intros k Hk. rewrite Z.land_spec, Z.pow2_bits_eqb by lia. destruct (Z.eqb_spec n k) as [<-|]; [rewrite E; reflexivity|apply andb_false_r].
    - apply Z.eqb_neq. intro H. apply (f_equal (fun y => Z.testbit y n)) in H. rewrite Z.land_spec, Z.pow2_bits_true, E in H by lia. discriminate. }
  unfold lf_program_lock, lf_tx_led, lf_resume_dim, lf_led, lf_load_sense, lf_x10_enabled, lf_error_blink, lf_cleanup_report, lf_db_delta, lf_snr, lf_byte.
  repeat split; try reflexivity;
    [apply (B _ 0)|apply (B _ 1)|apply (B _ 2)|apply (B _ 4)|apply (B _ 5)|f_equal; apply (B _ 0)|apply (B _ 1)|apply (B _ 2)]; lia.
Qed.

(** Configurations: a request for the data of group 1, then the first extended data message that comes in; its bytes 5 to 9 are the
    configuration. *)
Theorem C45_dimmer_config : forall W (mw : mwriter W) fuel info w c w' log,
  dimmer_config fuel info (mlogged mw) (w, []) = (Ret (c, None), (w', log)) ->
  exists buf, data_exchange info [1; 0] log buf /\ (14 <= length buf)%nat /\
    firstn 5 (skipn 4 buf) = [dc_house c; dc_unit c; dc_ramp c; dc_level c; dc_snt c].
Proof.
  intros W mw fuel info w c w' log H. unfold dimmer_config, pbind in H.
  match type of H with context [config_payload ?a ?b ?d ?e] => destruct (config_payload a b d e) as [[[p err]| |] [w1 log1]] eqn:E end; try discriminate.
  destruct (config_exchange _ _ _ _ _ _ _ _ _ _ E) as [H1 H2]. destruct p as [buf|].
  - destruct err as [e|]; [discriminate H2; congruence|]. destruct (H1 eq_refl) as (b & new & Hb & -> & Hx). injection Hb as <-.
    unfold pret, dc_unmarshal in H. destruct (zlen buf <? 14) eqn:Ez; [discriminate|].
    assert (Hl : (14 <= length buf)%nat) by (unfold zlen in Ez; lia).
    injection H as <- <- <-. exists buf. split; [exact Hx|]. split; [exact Hl|]. cbn [dc_house dc_unit dc_ramp dc_level dc_snt].
    do 9 (destruct buf as [|? buf]; [cbn [length] in Hl; lia|]). reflexivity.
  - unfold pret in H. injection H as Hc He Hw Hl. destruct (H1 He) as (b & new & Hb & _). discriminate.
Qed.
Theorem C45_switch_config : forall W (mw : mwriter W) fuel info w c w' log,
  switch_config fuel info (mlogged mw) (w, []) = (Ret (c, None), (w', log)) ->
  exists buf, data_exchange info [1; 0] log buf /\ (14 <= length buf)%nat /\ firstn 2 (skipn 4 buf) = [sc_house c; sc_unit c].
Proof.
  intros W mw fuel info w c w' log H. unfold switch_config, pbind in H.
  match type of H with context [config_payload ?a ?b ?d ?e] => destruct (config_payload a b d e) as [[[p err]| |] [w1 log1]] eqn:E end; try discriminate.
  destruct (config_exchange _ _ _ _ _ _ _ _ _ _ E) as [H1 H2]. destruct p as [buf|].
  - destruct err as [e|]; [discriminate H2; congruence|]. destruct (H1 eq_refl) as (b & new & Hb & -> & Hx). injection Hb as <-.
    unfold pret, sc_unmarshal in H. destruct (zlen buf <? 14) eqn:Ez; [discriminate|].
    assert (Hl : (14 <= length buf)%nat) by (unfold zlen in Ez; lia).
    injection H as <- <- <-. exists buf. split; [exact Hx|]. split; [exact Hl|]. cbn [sc_house sc_unit].
    do 9 (destruct buf as [|? buf]; [cbn [length] in Hl; lia|]). reflexivity.
  - unfold pret in H. injection H as Hc He Hw Hl. destruct (H1 He) as (b & new & Hb & _). discriminate.
Qed.
(** With an error there is no configuration: all its fields are zero. *)
Theorem C45_no_config_on_error : forall W (mw : mwriter W) fuel info w e w',
  (forall c, dimmer_config fuel info mw w = (Ret (c, Some e), w') -> c = mkDC 0 0 0 0 0) /\
  (forall c, switch_config fuel info mw w = (Ret (c, Some e), w') -> c = mkSC 0 0).
Proof.
  intros W mw fuel info w e w'. split; intros c H; unfold dimmer_config, switch_config, pbind in H;
    destruct (config_payload fuel info mw w) as [[[p err]| |] w1]; try discriminate; unfold pret in H;
    (destruct p as [buf|]; [|injection H as <- _ _; reflexivity]); unfold dc_unmarshal, sc_unmarshal in H; destruct (zlen buf <? 14); [|discriminate| |discriminate];
    injection H as <- _ _; reflexivity.
Qed.
Example C45_no_config_on_error_case : fst (switch_config 5 (mkDI 0x010203 1 1 0x43 2) script_mw
    [(Some (ex_m 5 0), None); (Some (mkMsg 0x010203 9 0x1a 0x2e00 [0;0;0;0;1;2;3]), None)]) = Ret (mkSC 0 0, Some EBufferTooShort) /\
  fst (dimmer_config 5 (mkDI 0x010203 1 1 0x43 2) script_mw [(Some (ex_m 5 0), None); (None, Some EDevNak)]) = Ret (mkDC 0 0 0 0 0, Some EDevNak).
Proof. split; vm_compute; reflexivity. Qed.
(** The answer is not checked to come from the device that was asked. *)
Theorem C45_config_from_other_device_refuted : exists fuel info (script : list mresult) c other,
  m_src other <> di_addr info /\ nth 1 script (None, None) = (Some other, None) /\
  fst (dimmer_config fuel info script_mw script) = Ret (c, None) /\ dc_level c = nth 7 (m_payload other) 0.
Proof.
  exists 5%nat, (mkDI 0x010203 1 1 67 1), [(Some (mkMsg 0x010203 9 0x2b 0x2e00 []), None); (Some (mkMsg 0x040506 9 0x1a 0x2e00 [0;0;0;0;1;2;3;200;5;0;0;0;0;0]), None)].
  eexists _, (mkMsg 0x040506 9 0x1a 0x2e00 [0;0;0;0;1;2;3;200;5;0;0;0;0;0]). split; [cbn; lia|]. split; [reflexivity|]. split; [vm_compute; reflexivity|reflexivity].
Qed.

(** Encoding and decoding configurations: exact for fields that are bytes. *)
Theorem C45_dimmer_config_round_trip : forall old c,
  is_byte (dc_house c) -> is_byte (dc_unit c) -> is_byte (dc_ramp c) -> is_byte (dc_level c) -> is_byte (dc_snt c) ->
  length (dc_marshal c) = 14%nat /\ dc_unmarshal old (dc_marshal c) = (c, None).
Proof.
  intros old [h u r l s] H1 H2 H3 H4 H5. cbn [dc_house dc_unit dc_ramp dc_level dc_snt] in *. split; [reflexivity|].
  unfold dc_unmarshal, dc_marshal. cbn [dc_house dc_unit dc_ramp dc_level dc_snt]. rewrite !byte_of_id by assumption. reflexivity.
Qed.
Theorem C45_switch_config_round_trip : forall old c, is_byte (sc_house c) -> is_byte (sc_unit c) ->
  length (sc_marshal c) = 14%nat /\ sc_unmarshal old (sc_marshal c) = (c, None).
Proof.
  intros old [h u] H1 H2. cbn [sc_house sc_unit] in *. split; [reflexivity|].
  unfold sc_unmarshal, sc_marshal. cbn [sc_house sc_unit]. rewrite !byte_of_id by assumption. reflexivity.
Qed.
Theorem C45_wide_config_refuted : exists c, snd (dc_unmarshal c (dc_marshal c)) = None /\ fst (dc_unmarshal c (dc_marshal c)) <> c.
Proof. exists (mkDC 0 0 256 0 0). split; [reflexivity|]. vm_compute. congruence. Qed.
(** Short answers are rejected and leave the configuration alone; of a long enough one everything but the named bytes is dropped. *)
Theorem C45_config_decode : forall old buf,
  ((length buf < 14)%nat -> dc_unmarshal old buf = (old, Some EBufferTooShort)) /\
  ((14 <= length buf)%nat -> bytes_ok buf -> exists c, dc_unmarshal old buf = (c, None) /\ dc_marshal c = repeat 0 4 ++ firstn 5 (skipn 4 buf) ++ repeat 0 5).
Proof.
  intros old buf. split; intro Hl.
  - unfold dc_unmarshal. replace (zlen buf <? 14) with true by (unfold zlen; lia). reflexivity.
  - intro Hb. unfold dc_unmarshal. replace (zlen buf <? 14) with false by (unfold zlen; lia). eexists. split; [reflexivity|].
    do 9 (destruct buf as [|? buf]; [cbn [length] in Hl; lia|]). unfold bytes_ok in Hb.
    repeat match goal with H : Forall _ (_ :: _) |- _ => inversion H; clear H; subst end.
    unfold dc_marshal. cbn [dc_house dc_unit dc_ramp dc_level dc_snt nth]. rewrite !byte_of_id by assumption. reflexivity.
Qed.

Example C45_ex_ramp : exists m', dimmer_on_at_ramp (mkDI 0x010203 1 1 0x43 2) (mlogged script_mw) 9 5 ([(Some (ex_m 5 9), None)], []) =
    (Ret None, ([], [MW m' (Ret (Some (ex_m 5 9), None))])) /\ m' = mkMsg 0 0x010203 0x0f 0x3495 [].
Proof. eexists. split; vm_compute; reflexivity. Qed.
Example C45_ex_backlight : exists m', switch_set_backlight (mkDI 0x010203 1 1 0x43 2) (mlogged script_mw) true ([(None, Some EDevNak)], []) =
    (Ret (Some EDevNak), ([], [MW m' (Ret (None, Some EDevNak))])) /\ m' = mkMsg 0 0x010203 0x1a 0x2009 [0;0;0;0;0;0;0;0;0;0;0;0;0;0xd7].
Proof. eexists. split; vm_compute; reflexivity. Qed.
Example C45_ex_flags : fst (switch_operating_flags (mkDI 0x010203 1 1 0x43 2) (mlogged script_mw)
    ([(Some (ex_m 5 0x07), None); (Some (ex_m 5 3), None); (Some (ex_m 5 4), None); (None, Some EDevNak)], [])) = Ret ([0x07 mod 256; 3; 4; 0; 0], Some EDevNak) /\
  lf_tx_led [7; 3; 4; 0; 0] = true /\ lf_led [7; 3; 4; 0; 0] = false.
Proof. split; [vm_compute; reflexivity|split; reflexivity]. Qed.
Example C45_ex_config : fst (dimmer_config 5 (mkDI 0x010203 1 1 0x43 2) script_mw
    [(Some (ex_m 5 0), None); (Some (ex_m 5 1), None); (Some (mkMsg 0x010203 9 0x1a 0x2e00 [0;0;0;0;1;2;3;200;5;0;0;0;0;0]), None)]) = Ret (mkDC 1 2 3 200 5, None).
Proof. vm_compute. reflexivity. Qed.
Print Assumptions C45_fixed_requests.
Print Assumptions C45_flag_requests.
Print Assumptions C45_level_requests.
Print Assumptions C45_level_any.
Print Assumptions C45_level_range_refuted.
Print Assumptions C45_on_at_ramp.
Print Assumptions C45_on_at_ramp_any.
Print Assumptions C45_on_at_ramp_level_refuted.
Print Assumptions C45_off_at_ramp.
Print Assumptions C45_off_at_ramp_any.
Print Assumptions C45_status.
Print Assumptions C45_operating_flags.
Print Assumptions C45_flag_bits.
Print Assumptions C45_dimmer_config.
Print Assumptions C45_switch_config.
Print Assumptions C45_no_config_on_error.
Print Assumptions C45_config_from_other_device_refuted.
Print Assumptions C45_dimmer_config_round_trip.
Print Assumptions C45_switch_config_round_trip.
Print Assumptions C45_wide_config_refuted.
Print Assumptions C45_config_decode.
