(** Property C44: requests to thermostats. *)
From Coq Require Import ZArith QArith Qabs Lqa List Bool Lia ZifyBool ZifyNat.
From Verif Require Import F32 F32Spec F32Proofs GoBase GoLemmas GoProg Command Message MessageSpec MsgWriter FiltersSpec FiltersProofs BasicDevice DeviceSpec DeviceProofs Lights Thermostat DevReqSpec DevReqProofs Props_Filters Props_Device.
Import ListNotations.
Open Scope Z_scope.
Ltac Zify.zify_post_hook ::= Z.div_mod_to_equations.

Ltac fixed := apply send_command_sends; [(left; cbn; lia) || (right; split; reflexivity)|reflexivity|reflexivity].

(** * C44.  Modes: off, heat, cool, auto, fan on, program auto, program heat, program cool, fan off with the second command byte that is
    documented for each (first byte 0x6b). *)
Definition mode_table : list (Z * Z) := [(0, 0x09); (1, 0x04); (2, 0x05); (3, 0x06); (4, 0x07); (5, 0x0c); (6, 0x0a); (7, 0x0b); (8, 0x08)].
Theorem C44_set_mode : forall W (mw : mwriter W) info mode,
  (exists c2, In (mode, c2) mode_table /\ sends mw info 0x6b c2 [] (therm_set_mode info mw mode)) \/
  (~ In mode (map fst mode_table) /\ rejects EDevInvalidThermostatMode (therm_set_mode info mw mode)).
Proof.
  intros W mw info mode. unfold mode_table, therm_set_mode, m_Off, m_Heat, m_Cool, m_Auto, m_FanOn, m_FanOff, m_ProgramAuto, m_ProgramHeat, m_ProgramCool.
  repeat match goal with
  | |- context [mode =? ?k] => destruct (Z.eqb_spec mode k) as [->|?];
      [left; eexists; split; [cbn [In]; repeat ((left; reflexivity) || right)|fixed]|]
  end.
  right. split; [cbn; intuition lia|]. intro w. reflexivity.
Qed.
(** Fan speeds: low, medium, high; units: Celsius, Fahrenheit. *)
Definition speed_table : list (Z * Z) := [(1, 0x13); (2, 0x14); (3, 0x15)].
Theorem C44_set_fan_speed : forall W (mw : mwriter W) info speed,
  (exists c2, In (speed, c2) speed_table /\ sends mw info 0x6b c2 [] (therm_set_fan_speed info mw speed)) \/
  (~ In speed (map fst speed_table) /\ rejects EDevInvalidFanSpeed (therm_set_fan_speed info mw speed)).
Proof.
  intros W mw info speed. unfold speed_table, therm_set_fan_speed, s_Low, s_Med, s_High.
  repeat match goal with
  | |- context [speed =? ?k] => destruct (Z.eqb_spec speed k) as [->|?];
      [left; eexists; split; [cbn [In]; repeat ((left; reflexivity) || right)|fixed]|]
  end.
  right. split; [cbn; intuition lia|]. intro w. reflexivity.
Qed.
Theorem C44_set_unit : forall W (mw : mwriter W) info unit,
  (unit = 1 /\ sends mw info 0x2e 0 [0; 4; 0; 8] (therm_set_unit info mw unit)) \/
  (unit = 0 /\ sends mw info 0x2e 0 [0; 4; 0; 0] (therm_set_unit info mw unit)) \/
  (unit <> 0 /\ unit <> 1 /\ rejects EDevInvalidUnit (therm_set_unit info mw unit)).
Proof.
  intros W mw info unit. unfold therm_set_unit, u_Celsius, u_Fahrenheit.
  destruct (Z.eqb_spec unit 1) as [->|H1]; [left; split; [reflexivity|fixed]|].
  destruct (Z.eqb_spec unit 0) as [->|H0]; [right; left; split; [reflexivity|fixed]|].
  right; right. split; [exact H0|]. split; [exact H1|]. intro w. reflexivity.
Qed.
(** One of the four documented fan speeds is rejected: single speed. *)
Theorem C44_single_speed_refuted : exists speed, speed = 0 /\ forall W (mw : mwriter W) info, rejects EDevInvalidFanSpeed (therm_set_fan_speed info mw speed).
Proof. exists 0. split; [reflexivity|]. intros W mw info w. reflexivity. Qed.
Theorem C44_status_message : forall W (mw : mwriter W) info,
  sends mw info 0x2e 0 [0; 8; 0] (therm_set_status_message info mw true) /\ sends mw info 0x6b 0x17 [] (therm_set_status_message info mw false).
Proof. intros W mw info. split; fixed. Qed.

(** Setpoints and changes: twice the value, as far as a byte goes. *)
Theorem C44_setpoints_partial : forall W (mw : mwriter W) info zone t, 0 <= t <= 127 ->
  sends mw info 0x6c (2 * t) [] (therm_set_cool info mw zone t) /\ sends mw info 0x6d (2 * t) [] (therm_set_heat info mw zone t) /\
  sends mw info 0x69 (2 * t) [] (therm_increase info mw t) /\ sends mw info 0x68 (2 * t) [] (therm_decrease info mw t).
Proof.
  intros W mw info zone t Ht. repeat apply conj; (apply send_command_sends; [left; cbn; lia|rewrite sub_command1; reflexivity|rewrite sub_command2; lia]).
Qed.
Theorem C44_setpoints_any : forall W (mw : mwriter W) info zone t,
  sends mw info 0x6c ((2 * t) mod 256) [] (therm_set_cool info mw zone t) /\ sends mw info 0x6d ((2 * t) mod 256) [] (therm_set_heat info mw zone t) /\
  sends mw info 0x69 ((2 * t) mod 256) [] (therm_increase info mw t) /\ sends mw info 0x68 ((2 * t) mod 256) [] (therm_decrease info mw t).
Proof.
  intros W mw info zone t. repeat apply conj; (apply send_command_sends; [left; cbn; lia|rewrite sub_command1; reflexivity|rewrite sub_command2; lia]).
Qed.
(** Larger values wrap round: a setpoint of 128 is sent as 0.  A decrease by one and an increase by 127 carry the same value. *)
Theorem C44_setpoints_refuted : exists t t', t <> t' /\ 0 <= t /\ 0 <= t' /\
  forall W (mw : mwriter W) info zone w, therm_set_heat info mw zone t w = therm_set_heat info mw zone t' w.
Proof. exists 128, 0. repeat split; lia. Qed.
(** The zone is not sent. *)
Theorem C44_setpoint_zone_refuted : exists zone zone', zone <> zone' /\
  forall W (mw : mwriter W) info t w, therm_set_cool info mw zone t w = therm_set_cool info mw zone' t w.
Proof. exists 1, 2. split; [lia|]. reflexivity. Qed.
(** Zone requests carry the zone in the second command byte and twice the value (and the deadband) as data. *)
Theorem C44_zone_requests_partial : forall W (mw : mwriter W) info zone t d, 0 <= zone <= 255 -> 0 <= t <= 127 -> 0 <= d <= 255 ->
  sends mw info 0x68 zone [2 * t] (therm_zone_up info mw zone t) /\ sends mw info 0x69 zone [2 * t] (therm_zone_down info mw zone t) /\
  sends mw info 0x6c zone [2 * t; d] (therm_zone_cool info mw zone t d) /\ sends mw info 0x6d zone [2 * t; d] (therm_zone_heat info mw zone t d).
Proof.
  intros W mw info zone t d Hz Ht Hd. unfold therm_zone_up, therm_zone_down, therm_zone_cool, therm_zone_heat.
  rewrite (byte_of_id (t * 2)) by (unfold is_byte; lia). rewrite (byte_of_id d) by (unfold is_byte; lia). rewrite (Z.mul_comm t 2).
  repeat apply conj; (apply send_command_sends; [left; cbn; lia|rewrite sub_command1; reflexivity|rewrite sub_command2; lia]).
Qed.
(** The same first command byte means "up" for the thermostat and "down" for a zone, and the other way round. *)
Theorem C44_up_is_down_refuted : exists up down, forall W (mw : mwriter W) info,
  sends mw info up 2 [] (therm_increase info mw 1) /\ sends mw info up 1 [2] (therm_zone_down info mw 1 1) /\
  sends mw info down 2 [] (therm_decrease info mw 1) /\ sends mw info down 1 [2] (therm_zone_up info mw 1 1).
Proof. exists 0x69, 0x68. intros W mw info. repeat apply conj; fixed. Qed.

(** Questions: one message each, answered by the second command byte of the acknowledgement. *)
Theorem C44_questions : forall W (mw : mwriter W) info,
  asks_once mw info 0x6b 0x02 (therm_get_mode info mw) /\ asks_once mw info 0x6b 0x03 (therm_get_ambient info mw) /\
  asks_once mw info 0x6b 0x0d (therm_get_equipment info mw) /\ asks_once mw info 0x6b 0x12 (therm_get_fan_speed info mw).
Proof.
  intros W mw info. repeat apply conj.
  - apply send_asks with (cmd := c_GetThermostatMode); reflexivity.
  - apply send_asks with (cmd := c_GetAmbientTemp); reflexivity.
  - apply send_asks with (cmd := c_GetEquipmentState); try reflexivity. intro w. unfold therm_get_equipment, bd_send, bd_write, pbind.
    destruct (mw_write mw _ w) as [[[[a|] [e|]]| |] w1]; reflexivity.
  - apply send_asks with (cmd := c_GetFanOnSpeed); try reflexivity. intro w. unfold therm_get_fan_speed, bd_send, bd_write, pbind.
    destruct (mw_write mw _ w) as [[[[a|] [e|]]| |] w1]; reflexivity.
Qed.
(** Zone information: four questions, one for each half byte 0 to 3 in front of the zone. *)
Theorem C44_zone_info : forall W (mw : mwriter W) info zone w zi err w' log,
  therm_zone_info info (mlogged mw) zone (w, []) = (Ret (zi, err), (w', log)) ->
  exists vals, poll info 0x6a [zone mod 16; 16 + zone mod 16; 32 + zone mod 16; 48 + zone mod 16] log vals err /\ zi = padded 4 vals /\
    (length vals <= 4)%nat /\ (err = None <-> length vals = 4%nat) /\ Forall is_byte vals.
Proof.
  intros W mw info zone w zi err w' log H. unfold therm_zone_info in H. change (zeros 4) with (padded 4 []) in H.
  apply (ask_all_poll _ _ _ 0x6a) in H; [|repeat constructor; apply sub_command1|reflexivity|reflexivity].
  destruct H as (new & vals & -> & Hp & -> & Hl & He). exists vals. cbn [app]. cbn [map] in Hp.
  pose proof (zone_sub 0 zone ltac:(lia)) as Z0. pose proof (zone_sub 1 zone ltac:(lia)) as Z1.
  pose proof (zone_sub 2 zone ltac:(lia)) as Z2. pose proof (zone_sub 3 zone ltac:(lia)) as Z3.
  change (16 * 0) with 0 in Z0. rewrite Z.lor_0_l in Z0. change (16 * 1) with 16 in Z1. change (16 * 2) with 32 in Z2. change (16 * 3) with 48 in Z3.
  rewrite Z0, Z1, Z2, Z3 in Hp. change (0 + zone mod 16) with (zone mod 16) in Hp.
  split; [exact Hp|]. split; [reflexivity|]. split; [exact Hl|]. split; [exact He|]. exact (poll_values _ _ _ _ _ _ Hp).
Qed.

(** ** Decoding the thermostat's data *)
(** What the first and the second data set tell beside the temperature (the revision is in both). *)
Definition first_set (ti : tinfo) : list Z :=
  [ti_humidity ti; ti_temp_offset ti; ti_humidity_offset ti; ti_mode ti; ti_fan_mode ti; ti_backlight ti; ti_hysteresis ti; ti_flags ti].
Definition second_set (ti : tinfo) : list Z * list bool :=
  ([ti_hum_high ti; ti_hum_low ti; ti_cool ti; ti_heat ti; ti_rf_offset ti; ti_setback ti; ti_ext_offset ti], [ti_report ti; ti_ext_power ti; ti_ext_temp ti]).
(** Local temperature: two bytes, tenths of a degree Celsius.  In Celsius the float32 nearest to it, in Fahrenheit one less than 0.002 degrees off. *)
Theorem C44_info_set0 : forall old data, (14 <= length data)%nat -> bytes_ok data -> nth 2 data 0 = 0 ->
  exists ti, ti_unmarshal old data = (ti, None) /\
    let tenths := 256 * nth 13 data 0 + nth 3 data 0 in
    (Z.testbit (nth 12 data 0) 3 = true -> f32_nearest (inject_Z tenths / 10) (ti_temp ti)) /\
    (Z.testbit (nth 12 data 0) 3 = false -> (Qabs (ti_temp ti - (inject_Z tenths / 10 * 9 / 5 + 32)) <= 1 # 500)%Q) /\
    [ti_humidity ti; ti_temp_offset ti; ti_humidity_offset ti; ti_mode ti; ti_fan_mode ti; ti_backlight ti; ti_hysteresis ti] = firstn 7 (skipn 4 data) /\
    ti_flags ti = nth 12 data 0 /\ ti_rev ti = nth 13 data 0 /\ second_set ti = second_set old.
Proof.
  intros old data Hl Hb H2. unfold ti_unmarshal. replace (zlen data <? 14) with false by (unfold zlen; lia). rewrite H2. cbn iota zeta.
  change (0 =? 0) with true. cbn iota. eexists. split; [reflexivity|].
  assert (H13 : is_byte (nth 13 data 0)) by (apply (proj1 (Forall_forall _ _) Hb); apply nth_In; lia).
  assert (H3 : is_byte (nth 3 data 0)) by (apply (proj1 (Forall_forall _ _) Hb); apply nth_In; lia).
  assert (H12 : is_byte (nth 12 data 0)) by (apply (proj1 (Forall_forall _ _) Hb); apply nth_In; lia).
  cbn [ti_temp ti_humidity ti_temp_offset ti_humidity_offset ti_mode ti_fan_mode ti_backlight ti_hysteresis ti_flags ti_cool ti_heat ti_hum_low ti_hum_high ti_rev].
  assert (Hw : Z.lor (Z.shiftl (nth 13 data 0) 8) (nth 3 data 0) = 256 * nth 13 data 0 + nth 3 data 0).
  { assert (S := sweep2 (fun a b => Z.lor (Z.shiftl a 8) b =? 256 * a + b) ltac:(vm_compute; reflexivity) _ _ H13 H3). lia. }
  rewrite Hw. set (t := 256 * nth 13 data 0 + nth 3 data 0).
  assert (Hf : (tf_temp_format (nth 12 data 0) =? u_Fahrenheit) = negb (Z.testbit (nth 12 data 0) 3)).
  { assert (S := sweep1 (fun f => Bool.eqb (tf_temp_format f =? u_Fahrenheit) (negb (Z.testbit f 3))) ltac:(vm_compute; reflexivity) _ H12). apply eqb_prop in S. exact S. }
  rewrite Hf. split; [intros ->; cbn [negb]; apply celsius_nearest; unfold t; unfold is_byte in *; lia|].
  split; [intros ->; cbn [negb]; apply fahrenheit_error; unfold t; unfold is_byte in *; lia|].
  split; [|repeat split; reflexivity].
  do 11 (destruct data as [|? data]; [cbn [length] in Hl; lia|]). reflexivity.
Qed.
Example C44_info_set0_case : exists ti, ti_unmarshal tinfo_zero [0; 1; 0; 200; 45; 1; 2; 3; 0; 5; 6; 0; 8; 0] = (ti, None) /\ f32_nearest (inject_Z 200 / 10) (ti_temp ti) /\ ti_humidity ti = 45.
Proof.
  destruct (C44_info_set0 tinfo_zero [0; 1; 0; 200; 45; 1; 2; 3; 0; 5; 6; 0; 8; 0]) as (ti & E & H1 & _ & H2 & _); [cbn; lia|unfold bytes_ok, is_byte; repeat constructor; lia|reflexivity|].
  exists ti. split; [exact E|]. split; [apply H1; reflexivity|]. injection H2. auto.
Qed.
Theorem C44_info_set1 : forall old data, (14 <= length data)%nat -> nth 2 data 0 = 1 ->
  exists ti, ti_unmarshal old data = (ti, None) /\
    [ti_hum_high ti; ti_hum_low ti; ti_rev ti; ti_cool ti; ti_heat ti; ti_rf_offset ti; ti_setback ti; ti_ext_offset ti] = firstn 8 (skipn 3 data) /\
    (ti_report ti = true <-> nth 11 data 0 = 1) /\ (ti_ext_power ti = true <-> nth 12 data 0 = 1) /\ (ti_ext_temp ti = true <-> nth 13 data 0 = 2) /\
    ti_temp ti = ti_temp old /\ first_set ti = first_set old.
Proof.
  intros old data Hl H2. unfold ti_unmarshal. replace (zlen data <? 14) with false by (unfold zlen; lia). rewrite H2. cbn iota zeta.
  change (1 =? 0) with false. change (1 =? 1) with true. cbn iota. eexists. split; [reflexivity|].
  cbn [ti_temp ti_humidity ti_temp_offset ti_humidity_offset ti_mode ti_fan_mode ti_backlight ti_hysteresis ti_flags ti_cool ti_heat ti_hum_low ti_hum_high ti_rev ti_rf_offset ti_setback ti_ext_offset ti_report ti_ext_power ti_ext_temp].
  split; [do 11 (destruct data as [|? data]; [cbn [length] in Hl; lia|]); reflexivity|].
  rewrite !Z.eqb_eq. repeat split; auto.
Qed.
Example C44_info_set1_case : exists ti, ti_unmarshal tinfo_zero [0; 1; 1; 60; 20; 7; 72; 68; 1; 2; 3; 1; 0; 2] = (ti, None) /\ ti_cool ti = 72 /\ ti_heat ti = 68.
Proof.
  destruct (C44_info_set1 tinfo_zero [0; 1; 1; 60; 20; 7; 72; 68; 1; 2; 3; 1; 0; 2]) as (ti & E & H & _); [cbn; lia|reflexivity|]. exists ti. injection H. auto.
Qed.
(** Anything else is rejected and changes nothing. *)
Theorem C44_info_other : forall old data, (length data < 14)%nat \/ (nth 2 data 0 <> 0 /\ nth 2 data 0 <> 1) ->
  exists e, ti_unmarshal old data = (old, Some e).
Proof.
  intros old data H. unfold ti_unmarshal. destruct (zlen data <? 14) eqn:E; [eauto|]. unfold zlen in E. cbn zeta.
  destruct H as [H|[H0 H1]]; [lia|]. replace (nth 2 data 0 =? 0) with false by lia. replace (nth 2 data 0 =? 1) with false by lia. eauto.
Qed.
(** The last byte of an extended message is the checksum for devices that use one, yet it is taken for the high byte of the temperature
    (and for the revision): a correctly checksummed answer of 20.0 degrees Celsius (200 tenths, high byte 0) decodes as something else. *)
Theorem C44_checksum_as_temperature_refuted : exists m old ti, checksum_valid m /\ is_data_answer m /\ nth 3 (m_payload m) 0 = 200 /\
  Z.testbit (nth 12 (m_payload m) 0) 3 = true /\ ti_unmarshal old (m_payload m) = (ti, None) /\ (ti_temp ti > 1000)%Q.
Proof.
  exists (mkMsg 0x010203 0x040506 0x1b 0x2e00 [0; 0; 0; 200; 45; 0; 0; 0; 0; 0; 0; 0; 8; 0xd5]), tinfo_zero. eexists.
  repeat split; vm_compute; reflexivity.
Qed.

(** Both data sets are asked for in turn; on success each answer is the first extended data message that came in after its request. *)
Theorem C44_get_info : forall W (mw : mwriter W) fuel info w ti w' log,
  therm_get_info fuel info (mlogged mw) (w, []) = (Ret (ti, None), (w', log)) ->
  exists log0 log1 buf0 buf1 ti0, log = log0 ++ log1 /\ data_exchange info [0; 0; 0] log0 buf0 /\ data_exchange info [0; 0; 1] log1 buf1 /\
    ti_unmarshal tinfo_zero buf0 = (ti0, None) /\ ti_unmarshal ti0 buf1 = (ti, None).
Proof.
  intros W mw fuel info w ti w' log H. unfold therm_get_info in H. cbn [therm_info_loop] in H. unfold pbind in H.
  match type of H with context [bd_extended_get ?a ?b ?c ?d ?e] => destruct (bd_extended_get a b c d e) as [[[buf0 [e0|]]| |] [w1 log1]] eqn:E0 end; try discriminate.
  apply get_exchange in E0; [|cbn; lia]. destruct E0 as (new0 & -> & X0).
  destruct (ti_unmarshal tinfo_zero buf0) as [ti0 [e0|]] eqn:U0; [discriminate|]. cbn [app] in H.
  match type of H with context [bd_extended_get ?a ?b ?c ?d ?e] => destruct (bd_extended_get a b c d e) as [[[buf1 [e1|]]| |] [w2 log2]] eqn:E1 end; try discriminate.
  apply get_exchange in E1; [|cbn; lia]. destruct E1 as (new1 & -> & X1).
  destruct (ti_unmarshal ti0 buf1) as [ti1 [e1|]] eqn:U1; [discriminate|]. unfold pret in H. injection H as <- <- <-.
  exists new0, new1, buf0, buf1, ti0. repeat split; auto.
Qed.
(** A device that answers both requests with its first data set is not noticed: the second set's fields stay zero. *)
Theorem C44_same_set_twice_refuted : exists fuel info (script : list mresult) ti, fst (therm_get_info fuel info script_mw script) = Ret (ti, None) /\
  Forall (fun r => match r with (Some m, None) => m_payload m = [] \/ nth 2 (m_payload m) 0 = 0 | _ => False end) script /\ ti_cool ti = 0.
Proof.
  exists 5%nat, (mkDI 0x010203 1 1 67 1).
  exists [(Some (mkMsg 0x010203 9 0x2b 0x2e00 []), None); (Some (mkMsg 0x010203 9 0x1a 0x2e00 [0;0;0;200;1;2;3;4;5;0;0;0;8;0]), None);
          (Some (mkMsg 0x010203 9 0x2b 0x2e00 []), None); (Some (mkMsg 0x010203 9 0x1a 0x2e00 [0;0;0;200;1;2;3;4;5;0;0;0;8;0]), None)].
  eexists. split; [vm_compute; reflexivity|]. split; [|reflexivity].
  repeat (apply Forall_cons || apply Forall_nil); cbn; auto.
Qed.

(** In general: fields that no answer told are zero, false for the flags. *)
Theorem C44_same_set_twice : forall W (mw : mwriter W) fuel info w ti w' log,
  therm_get_info fuel info (mlogged mw) (w, []) = (Ret (ti, None), (w', log)) ->
  exists log0 log1 buf0 buf1, log = log0 ++ log1 /\ data_exchange info [0; 0; 0] log0 buf0 /\ data_exchange info [0; 0; 1] log1 buf1 /\
    (nth 2 buf0 0 = 0 /\ nth 2 buf1 0 = 0 -> second_set ti = ([0; 0; 0; 0; 0; 0; 0], [false; false; false])) /\
    (nth 2 buf0 0 = 1 /\ nth 2 buf1 0 = 1 -> (ti_temp ti == 0)%Q /\ first_set ti = [0; 0; 0; 0; 0; 0; 0; 0]).
Proof.
  intros W mw fuel info w ti w' log H. destruct (C44_get_info W mw fuel info w ti w' log H) as (log0 & log1 & buf0 & buf1 & ti0 & E & X0 & X1 & U0 & U1).
  exists log0, log1, buf0, buf1. split; [exact E|]. split; [exact X0|]. split; [exact X1|]. split; intros [A B].
  - unfold ti_unmarshal in U0, U1. destruct (zlen buf0 <? 14); [discriminate|]. destruct (zlen buf1 <? 14); [discriminate|]. rewrite A in U0. rewrite B in U1.
    cbv iota zeta in U0, U1. change (0 =? 0) with true in *. cbv iota in U0, U1. injection U0 as <-. injection U1 as <-. reflexivity.
  - unfold ti_unmarshal in U0, U1. destruct (zlen buf0 <? 14); [discriminate|]. destruct (zlen buf1 <? 14); [discriminate|]. rewrite A in U0. rewrite B in U1.
    cbv iota zeta in U0, U1. change (1 =? 0) with false in *. change (1 =? 1) with true in *. cbv iota in U0, U1. injection U0 as <-. injection U1 as <-. split; reflexivity.
Qed.

(** ** The status *)
Lemma get_info_log : forall W (mw : mwriter W) fuel info w log ti err w' log',
  therm_get_info fuel info (mlogged mw) (w, log) = (Ret (ti, err), (w', log')) ->
  exists new, log' = log ++ new /\
    (err = None -> exists log0 log1 buf0 buf1 ti0, new = log0 ++ log1 /\ data_exchange info [0; 0; 0] log0 buf0 /\ data_exchange info [0; 0; 1] log1 buf1 /\
      ti_unmarshal tinfo_zero buf0 = (ti0, None) /\ ti_unmarshal ti0 buf1 = (ti, None)).
Proof.
  intros W mw fuel info w log ti err w' log' H. unfold therm_get_info in H. cbn [therm_info_loop] in H. unfold pbind in H.
  match type of H with context [bd_extended_get ?a ?b ?c ?d ?e] => destruct (bd_extended_get a b c d e) as [[[buf0 e0]| |] [w1 log1]] eqn:E0 end; try discriminate.
  apply get_exchange in E0; [|cbn; lia]. destruct E0 as (new0 & -> & X0).
  destruct e0 as [e0|]. { unfold pret in H. injection H as <- <- <- <-. exists new0. split; [reflexivity|discriminate]. }
  destruct (ti_unmarshal tinfo_zero buf0) as [ti0 [e0|]] eqn:U0. { unfold pret in H. injection H as <- <- <- <-. exists new0. split; [reflexivity|discriminate]. }
  match type of H with context [bd_extended_get ?a ?b ?c ?d ?e] => destruct (bd_extended_get a b c d e) as [[[buf1 e1]| |] [w2 log2]] eqn:E1 end; try discriminate.
  apply get_exchange in E1; [|cbn; lia]. destruct E1 as (new1 & -> & X1).
  destruct e1 as [e1|]. { unfold pret in H. injection H as <- <- <- <-. exists (new0 ++ new1). split; [rewrite app_assoc; reflexivity|discriminate]. }
  destruct (ti_unmarshal ti0 buf1) as [ti1 e1] eqn:U1.
  assert (H' : (Ret (ti1, e1), (w2, (log ++ new0) ++ new1)) = (Ret (ti, err), (w', log'))) by (destruct e1; exact H).
  injection H' as <- <- <- <-. exists (new0 ++ new1). split; [rewrite app_assoc; reflexivity|]. intros ->.
  exists new0, new1, buf0, buf1, ti0. repeat split; auto.
Qed.
Lemma temp_format_bit : forall f, tf_temp_format f = if Z.testbit f 3 then 1 else 0.
Proof.
  intro f. change (if Z.testbit f 3 then 1 else 0) with (Z.b2z (Z.testbit f 3)). unfold tf_temp_format. apply Z.bits_inj'. intros n Hn.
  rewrite Z.shiftr_spec by lia. rewrite Z.land_spec. destruct (Z.eq_dec n 0) as [->|Hn0].
  - change (0 + 3) with 3. change (Z.testbit 8 3) with true. rewrite andb_true_r, Z.b2z_bit0. reflexivity.
  - replace (Z.testbit 8 (n + 3)) with false.
    + rewrite andb_false_r. symmetry. destruct (Z.testbit f 3); [apply (Z.bits_above_log2 1); cbn; lia|apply Z.bits_0].
    + symmetry. apply Z.bits_above_log2; cbn; lia.
Qed.
Lemma unmarshal_flags : forall old buf ti, ti_unmarshal old buf = (ti, None) ->
  ti_flags ti = if nth 2 buf 0 =? 0 then nth 12 buf 0 else ti_flags old.
Proof.
  intros old buf ti H. unfold ti_unmarshal in H. destruct (zlen buf <? 14); [discriminate|]. cbv zeta in H.
  destruct (nth 2 buf 0 =? 0); [injection H as <-; reflexivity|]. destruct (nth 2 buf 0 =? 1); [injection H as <-; reflexivity|discriminate].
Qed.
(** Half of a number, rounded down. *)
Definition half (n h : Z) : Prop := 2 * h <= n <= 2 * h + 1.
(** The unit told by an answer that holds the first data set. *)
Definition unit_told (buf : list Z) (u : Z) : Prop := u = if Z.testbit (nth 12 buf 0) 3 then 1 else 0.
(** A status is made of zone 0's four values, the unit in the thermostat's data, the mode and the state of the equipment, each as the
    thermostat answered; temperature, setpoint and deadband come in half degrees. *)
Theorem C44_status : forall W (mw : mwriter W) fuel info w st w' log,
  therm_status fuel info (mlogged mw) (w, []) = (Ret (st, None), (w', log)) ->
  exists logz log0 log1 temp dead setp hum buf0 buf1 qm am qe ae,
    log = logz ++ log0 ++ log1 ++ [MW qm (Ret (Some am, None)); MW qe (Ret (Some ae, None))] /\
    poll info 0x6a [0; 16; 32; 48] logz [temp; dead; setp; hum] None /\
    data_exchange info [0; 0; 0] log0 buf0 /\ data_exchange info [0; 0; 1] log1 buf1 /\
    is_request info 0x6b 0x02 [] qm /\ is_request info 0x6b 0x0d [] qe /\
    half temp (ts_temp st) /\ half dead (ts_deadband st) /\ half setp (ts_setpoint st) /\ ts_humidity st = hum /\
    (nth 2 buf1 0 <> 0 -> nth 2 buf0 0 = 0 -> unit_told buf0 (ts_unit st)) /\ (nth 2 buf1 0 = 0 -> unit_told buf1 (ts_unit st)) /\
    ts_mode st = m_cmd am mod 256 /\ ts_state st = m_cmd ae mod 256.
Proof.
  intros W mw fuel info w st w' log H. unfold therm_status in H. unfold pbind at 1 in H.
  destruct (therm_zone_info info (mlogged mw) 0 (w, [])) as [[[zi err]| |] [w1 logz]] eqn:Ez; try discriminate.
  apply C44_zone_info in Ez. destruct Ez as (vals & Hp & Hzi & Hl & He & Hb). cbv zeta in H.
  destruct err as [e|]; [discriminate|]. pose proof (proj1 He eq_refl) as Hl4.
  destruct vals as [|a0 [|a1 [|a2 [|a3 [|? ?]]]]]; try discriminate Hl4. change (padded 4 [a0; a1; a2; a3]) with [a0; a1; a2; a3] in Hzi. subst zi.
  unfold therm_get_unit in H. unfold pbind at 1 2 in H.
  destruct (therm_get_info fuel info (mlogged mw) (w1, logz)) as [[[ti err]| |] [w2 logi]] eqn:Ei; try discriminate.
  apply get_info_log in Ei. destruct Ei as (new & -> & Hi). unfold pret at 1 in H. destruct err as [e|]; [discriminate|].
  destruct (Hi eq_refl) as (log0 & log1 & buf0 & buf1 & ti0 & -> & X0 & X1 & U0 & U1). clear Hi.
  destruct (C44_questions _ (mlogged mw) info) as ((qm & Hqm & Qm) & _ & (qe & Hqe & Qe) & _).
  unfold pbind at 1 in H. rewrite Qm, mlogged_write in H.
  destruct (mw_write mw qm w2) as [[[[am|] [e|]]| |] w3]; try discriminate. cbn [answered] in H.
  unfold pbind at 1 in H. rewrite Qe, mlogged_write in H.
  destruct (mw_write mw qe w3) as [[[[ae|] [e|]]| |] w4]; try discriminate. cbn [answered] in H.
  unfold pret in H. injection H as <- <- <-.
  exists logz, log0, log1, a0, a1, a2, a3, buf0, buf1, qm, am, qe, ae. cbn [ts_temp ts_humidity ts_setpoint ts_deadband ts_unit ts_mode ts_state].
  apply unmarshal_flags in U0, U1. rewrite <- !app_assoc. cbn [app].
  unfold zi_temperature, zi_deadband, zi_setpoint, zi_humidity, half, unit_told. cbn [nth].
  split; [reflexivity|]. split; [exact Hp|]. split; [exact X0|]. split; [exact X1|]. split; [exact Hqm|]. split; [exact Hqe|].
  split; [lia|]. split; [lia|]. split; [lia|]. split; [reflexivity|]. rewrite temp_format_bit, U1.
  split; [intros H1 H0; replace (nth 2 buf1 0 =? 0) with false by lia; rewrite U0; replace (nth 2 buf0 0 =? 0) with true by lia; reflexivity|].
  split; [intro H1; replace (nth 2 buf1 0 =? 0) with true by lia; reflexivity|]. split; reflexivity.
Qed.
(** After an error the status holds only what was answered before it: the values of zone 0 that were read, and no state of the equipment;
    when already the zone's values fail nothing else is asked. *)
Theorem C44_status_failed : forall W (mw : mwriter W) fuel info w st e w' log,
  therm_status fuel info (mlogged mw) (w, []) = (Ret (st, Some e), (w', log)) ->
  exists logz rest vals err, log = logz ++ rest /\ poll info 0x6a [0; 16; 32; 48] logz vals err /\
    half (nth 0 vals 0) (ts_temp st) /\ half (nth 1 vals 0) (ts_deadband st) /\ half (nth 2 vals 0) (ts_setpoint st) /\ ts_humidity st = nth 3 vals 0 /\
    ts_state st = 0 /\ (err <> None -> err = Some e /\ rest = [] /\ ts_unit st = 0 /\ ts_mode st = 0).
Proof.
  intros W mw fuel info w st e w' log H. unfold therm_status in H. unfold pbind at 1 in H.
  destruct (therm_zone_info info (mlogged mw) 0 (w, [])) as [[[zi err]| |] [w1 logz]] eqn:Ez; try discriminate.
  apply C44_zone_info in Ez. destruct Ez as (vals & Hp & Hzi & Hl & He & Hb). cbv zeta in H.
  assert (Hv : forall k, nth k zi 0 = nth k vals 0).
  { intro k. subst zi. unfold padded. destruct (Nat.ltb_spec k (length vals)) as [Hk|Hk]; [apply app_nth1; exact Hk|].
    rewrite app_nth2 by exact Hk. rewrite (nth_overflow vals) by exact Hk. apply nth_repeat. }
  assert (Hh : half (nth 0 vals 0) (zi_temperature zi) /\ half (nth 1 vals 0) (zi_deadband zi) /\ half (nth 2 vals 0) (zi_setpoint zi) /\
    zi_humidity zi = nth 3 vals 0).
  { unfold zi_temperature, zi_deadband, zi_setpoint, zi_humidity, half. rewrite !Hv. split; [lia|]. split; [lia|]. split; [lia|reflexivity]. }
  destruct Hh as (H0 & H1 & H2 & H3).
  destruct err as [e1|].
  { unfold pret in H. injection H as <- <- <- <-. exists logz, [], vals, (Some e1). rewrite app_nil_r. repeat split; auto; apply H0 || apply H1 || apply H2. }
  assert (Fin : forall rest, log = logz ++ rest -> ts_temp st = zi_temperature zi -> ts_deadband st = zi_deadband zi -> ts_setpoint st = zi_setpoint zi ->
    ts_humidity st = zi_humidity zi -> ts_state st = 0 -> exists logz rest vals err, log = logz ++ rest /\ poll info 0x6a [0; 16; 32; 48] logz vals err /\
    half (nth 0 vals 0) (ts_temp st) /\ half (nth 1 vals 0) (ts_deadband st) /\ half (nth 2 vals 0) (ts_setpoint st) /\ ts_humidity st = nth 3 vals 0 /\
    ts_state st = 0 /\ (err <> None -> err = Some e /\ rest = [] /\ ts_unit st = 0 /\ ts_mode st = 0)).
  { intros rest -> -> -> -> E5 E6. exists logz, rest, vals, None. split; [reflexivity|]. split; [exact Hp|]. split; [exact H0|]. split; [exact H1|].
    split; [exact H2|]. split; [congruence|]. split; [exact E6|]. intro C. exfalso. apply C. reflexivity. }
  unfold therm_get_unit in H. unfold pbind at 1 2 in H.
  destruct (therm_get_info fuel info (mlogged mw) (w1, logz)) as [[[ti err]| |] [w2 logi]] eqn:Ei; try discriminate.
  apply get_info_log in Ei. destruct Ei as (new & -> & _). unfold pret at 1 in H. destruct err as [e1|].
  { unfold pret in H. injection H as <- <- <- <-. apply (Fin new); reflexivity. }
  destruct (C44_questions _ (mlogged mw) info) as ((qm & Hqm & Qm) & _ & (qe & Hqe & Qe) & _).
  unfold pbind at 1 in H. rewrite Qm, mlogged_write in H.
  destruct (mw_write mw qm w2) as [[[[am|] [e1|]]| |] w3]; try discriminate; cbn [answered] in H;
    try (unfold pret in H; injection H as <- <- <- <-; (eapply Fin; [rewrite <- ?app_assoc; reflexivity|reflexivity..])).
  unfold pbind at 1 in H. rewrite Qe, mlogged_write in H.
  destruct (mw_write mw qe w3) as [[[[ae|] [e1|]]| |] w4]; try discriminate; cbn [answered] in H;
    unfold pret in H; injection H as <- <- <- <-; (eapply Fin; [rewrite <- ?app_assoc; reflexivity|reflexivity..]).
Qed.
Example C44_status_case : exists w' log, therm_status 5 (mkDI 0x010203 5 0 1 1) (mlogged script_mw)
    ([(Some (ex_m 5 141), None); (Some (ex_m 5 4), None); (Some (ex_m 5 144), None); (Some (ex_m 5 45), None);
      (Some (ex_m 5 0), None); (Some (mkMsg 0x010203 9 0x1a 0x2e00 [0;0;0;200;1;2;3;4;5;0;0;0;8;0]), None);
      (Some (ex_m 5 0), None); (Some (mkMsg 0x010203 9 0x1a 0x2e00 [0;0;1;200;1;2;3;4;5;0;0;0;8;0]), None);
      (Some (ex_m 5 1), None); (Some (ex_m 5 2), None)], []) = (Ret (mkTS 70 45 72 2 1 1 2, None), (w', log)).
Proof. eexists _, _. vm_compute. reflexivity. Qed.
Example C44_status_failed_case : exists w' log, therm_status 5 (mkDI 0x010203 5 0 1 1) (mlogged script_mw)
    ([(Some (ex_m 5 141), None); (Some (ex_m 5 4), None); (None, Some EDevNak)], []) = (Ret (mkTS 70 0 0 2 0 0 0, Some EDevNak), (w', log)).
Proof. eexists _, _. vm_compute. reflexivity. Qed.

(** Flags and states: one bit each; the time format is always 0, whatever the device says. *)
Theorem C44_flag_bits : forall b, is_byte b ->
  tf_linking_lock b = Z.testbit b 0 /\ tf_button_beep b = Z.testbit b 1 /\ tf_button_lock b = Z.testbit b 2 /\ tf_temp_format b = (if Z.testbit b 3 then 1 else 0) /\
  es_cool b = Z.testbit b 0 /\ es_heat b = Z.testbit b 1 /\ es_output_available b = Z.testbit b 2 /\ es_output_state b = Z.testbit b 3.
Proof.
  intros b Hb.
  assert (S := sweep1 (fun b => Bool.eqb (tf_linking_lock b) (Z.testbit b 0) && Bool.eqb (tf_button_beep b) (Z.testbit b 1) &&
    Bool.eqb (tf_button_lock b) (Z.testbit b 2) && (tf_temp_format b =? (if Z.testbit b 3 then 1 else 0)) &&
    Bool.eqb (es_cool b) (Z.testbit b 0) && Bool.eqb (es_heat b) (Z.testbit b 1) && Bool.eqb (es_output_available b) (Z.testbit b 2) && Bool.eqb (es_output_state b) (Z.testbit b 3))
    ltac:(vm_compute; reflexivity) b Hb).
  cbv beta in S. repeat (apply andb_true_iff in S; destruct S as [S ?]). repeat match goal with H : Bool.eqb _ _ = true |- _ => apply eqb_prop in H end.
  repeat match goal with H : (_ =? _) = true |- _ => apply Z.eqb_eq in H end. repeat split; assumption.
Qed.
Theorem C44_time_format_refuted : exists b, is_byte b /\ Z.testbit b 4 = true /\ tf_time_format b = 0.
Proof. exists 0x10. repeat split; reflexivity || (vm_compute; congruence). Qed.
Theorem C44_time_format_always_zero : forall b, is_byte b -> tf_time_format b = 0.
Proof. intros b Hb. assert (S := sweep1 (fun b => tf_time_format b =? 0) ltac:(vm_compute; reflexivity) b Hb). lia. Qed.

Example C44_ex_mode : exists m', therm_set_mode (mkDI 0x010203 5 0 1 2) (mlogged script_mw) 5 ([(Some (ex_m 5 9), None)], []) =
    (Ret None, ([], [MW m' (Ret (Some (ex_m 5 9), None))])) /\ m' = mkMsg 0 0x010203 0x0f 0x6b0c [].
Proof. eexists. split; vm_compute; reflexivity. Qed.
Example C44_ex_bad_mode : therm_set_mode (mkDI 0x010203 5 0 1 2) (mlogged script_mw) 9 ([(Some (ex_m 5 9), None)], []) =
    (Ret (Some EDevInvalidThermostatMode), ([(Some (ex_m 5 9), None)], [])).
Proof. vm_compute. reflexivity. Qed.
Example C44_ex_zone : exists m', therm_zone_heat (mkDI 0x010203 5 0 1 2) (mlogged script_mw) 3 70 5 ([(Some (ex_m 5 9), None)], []) =
    (Ret None, ([], [MW m' (Ret (Some (ex_m 5 9), None))])) /\ m' = mkMsg 0 0x010203 0x1a 0x16d03 [140; 5; 0; 0; 0; 0; 0; 0; 0; 0; 0; 0; 0; 0xff].
Proof. eexists. split; vm_compute; reflexivity. Qed.
Example C44_ex_zone_info : fst (therm_zone_info (mkDI 0x010203 5 0 1 2) (mlogged script_mw) 0x13
    ([(Some (ex_m 5 140), None); (Some (ex_m 5 4), None); (Some (ex_m 5 144), None); (Some (ex_m 5 45), None)], [])) = Ret ([140; 4; 144; 45], None) /\
  zi_temperature [140; 4; 144; 45] = 70 /\ zi_setpoint [140; 4; 144; 45] = 72 /\ zi_humidity [140; 4; 144; 45] = 45.
Proof. split; [vm_compute; reflexivity|repeat split]. Qed.
Print Assumptions C44_set_mode.
Print Assumptions C44_set_fan_speed.
Print Assumptions C44_set_unit.
Print Assumptions C44_single_speed_refuted.
Print Assumptions C44_status_message.
Print Assumptions C44_setpoints_partial.
Print Assumptions C44_setpoints_any.
Print Assumptions C44_setpoints_refuted.
Print Assumptions C44_setpoint_zone_refuted.
Print Assumptions C44_zone_requests_partial.
Print Assumptions C44_up_is_down_refuted.
Print Assumptions C44_questions.
Print Assumptions C44_zone_info.
Print Assumptions C44_same_set_twice.
Print Assumptions C44_info_set0.
Print Assumptions C44_info_set1.
Print Assumptions C44_info_other.
Print Assumptions C44_checksum_as_temperature_refuted.
Print Assumptions C44_get_info.
Print Assumptions C44_same_set_twice_refuted.
Print Assumptions C44_flag_bits.
Print Assumptions C44_time_format_refuted.
Print Assumptions C44_time_format_always_zero.
Print Assumptions C44_status.
Print Assumptions C44_status_failed.
