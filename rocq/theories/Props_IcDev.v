(** Property C63: the device subcommands of the command-line tool. *)
From Coq Require Import ZArith List Bool Lia ZifyBool ZifyNat String.
From Verif Require Import GoBase GoLemmas GoProg GoText GoJson Command Message MessageSpec MsgWriter FiltersSpec FiltersProofs BasicDevice DeviceSpec DeviceProofs Lights Thermostat DevReqSpec DevReqProofs Query Database Link LinkText Display DisplaySpec DisplayProofs IcDev IcDevSpec Props_Filters Props_Device Props_Lights Props_Thermostat.
Import ListNotations.
Open Scope Z_scope.
Ltac Zify.zify_post_hook ::= Z.div_mod_to_equations.

Lemma lookup_dimmer : forall i, is_dimmer (dev_lookup i) = true <-> a_dimmer i.
Proof. intro i. unfold dev_lookup, a_dimmer. destruct (Z.eqb_spec (di_dc0 i) 1); [cbn; tauto|]. repeat match goal with |- context [if ?b then _ else _] => destruct b end; cbn; split; congruence. Qed.
Lemma lookup_switch : forall i, is_switch (dev_lookup i) = true <-> a_switch i.
Proof.
  intro i. unfold dev_lookup, a_switch. destruct (Z.eqb_spec (di_dc0 i) 1); [cbn; split; [congruence|lia]|].
  destruct (Z.eqb_spec (di_dc0 i) 2); [destruct (Z.eqb_spec (di_dc1 i) 8); cbn; split; try congruence; lia|].
  destruct (di_dc0 i =? 5); cbn; split; try congruence; lia.
Qed.
Lemma lookup_thermostat : forall i, is_thermostat (dev_lookup i) = true <-> a_thermostat i.
Proof.
  intro i. unfold dev_lookup, a_thermostat. destruct (Z.eqb_spec (di_dc0 i) 1); [cbn; split; [congruence|lia]|].
  destruct (Z.eqb_spec (di_dc0 i) 2); [destruct (di_dc1 i =? 8); cbn; split; try congruence; lia|].
  destruct (Z.eqb_spec (di_dc0 i) 5); cbn; split; try congruence; lia.
Qed.
Lemma then_accepted : forall W (open : Z -> prog W (option (bdev W) * option error)) accept e sub a w d w1,
  opens open a w d w1 -> accept (dev_lookup (bd_info d)) = true -> ic_then (ic_init (open a) accept e) sub w = sub d w1.
Proof. intros W open accept e sub a w d w1 Ho Ha. unfold ic_then, ic_init, pbind. rewrite Ho, Ha. reflexivity. Qed.
Lemma then_refused : forall W (open : Z -> prog W (option (bdev W) * option error)) accept e sub a w d w1,
  opens open a w d w1 -> accept (dev_lookup (bd_info d)) <> true -> ic_then (ic_init (open a) accept e) sub w = (Ret (nothing_shown, Some e), w1).
Proof. intros W open accept e sub a w d w1 Ho Ha. unfold ic_then, ic_init, pbind. rewrite Ho. destruct (accept _); [congruence|reflexivity]. Qed.
Lemma then_failed : forall W (open : Z -> prog W (option (bdev W) * option error)) accept e sub a w d x w1,
  open a w = (Ret (d, Some x), w1) -> ic_then (ic_init (open a) accept e) sub w = (Ret (nothing_shown, Some x), w1).
Proof. intros W open accept e sub a w d x w1 Ho. unfold ic_then, ic_init, pbind. rewrite Ho. reflexivity. Qed.
Lemma silent_sends : forall W (d : bdev W) c1 c2 data p w1, sends (bd_writer d) (bd_info d) c1 c2 data p -> only_request d w1 c1 c2 data (silent p w1).
Proof.
  intros W d c1 c2 data p w1 (m & Hm & Hp). exists m. split; [exact Hm|]. unfold silent, pbind. rewrite Hp.
  destruct (settled _) as [[e| |] w2]; reflexivity.
Qed.

(** * C63.  Nothing is done to a device of the wrong kind, or to one that could not be opened: only the error is reported. *)
Theorem C63_wrong_kind : forall W (open : Z -> prog W (option (bdev W) * option error)) links fuel a w d w1, opens open a w d w1 ->
  (forall c, ~ a_dimmer (bd_info d) -> ic_dimmer fuel open a c w = (Ret (nothing_shown, Some err_not_dimmer), w1)) /\
  (forall c, ~ a_switch (bd_info d) -> ic_switch fuel open links a c w = (Ret (nothing_shown, Some err_not_switch), w1)) /\
  (forall c, ~ a_thermostat (bd_info d) -> ic_thermostat fuel open a c w = (Ret (nothing_shown, Some err_not_thermostat), w1)).
Proof.
  intros W open links fuel a w d w1 Ho.
  split; [|split]; intros c Hn; (eapply then_refused; [exact Ho|]); intro H; apply Hn;
    [apply lookup_dimmer|apply lookup_switch|apply lookup_thermostat]; exact H.
Qed.
Theorem C63_not_opened : forall W (open : Z -> prog W (option (bdev W) * option error)) links fuel a w d x w1, open a w = (Ret (d, Some x), w1) ->
  (forall c, ic_device open links a c w = (Ret (nothing_shown, Some x), w1)) /\
  (forall c, ic_dimmer fuel open a c w = (Ret (nothing_shown, Some x), w1)) /\
  (forall c, ic_switch fuel open links a c w = (Ret (nothing_shown, Some x), w1)) /\
  (forall c, ic_thermostat fuel open a c w = (Ret (nothing_shown, Some x), w1)).
Proof. intros W open links fuel a w d x w1 Ho. repeat apply conj; intro c; eapply then_failed; exact Ho. Qed.

(** The right kind: one request to the named device, the documented one, and the error is what becomes of it. *)
Theorem C63_dimmer_acts : forall W (open : Z -> prog W (option (bdev W) * option error)) fuel a w d w1 c c1 c2 data,
  opens open a w d w1 -> a_dimmer (bd_info d) -> dimmer_request (di_fw (bd_info d)) c = Some (c1, c2, data) ->
  only_request d w1 c1 c2 data (ic_dimmer fuel open a c w).
Proof.
  intros W open fuel a w d w1 c c1 c2 data Ho Hd Hr. apply lookup_dimmer in Hd. unfold ic_dimmer. rewrite (then_accepted _ _ _ _ _ _ _ _ _ Ho Hd).
  pose proof (C45_fixed_requests W (bd_writer d) (bd_info d)) as (F1 & F2 & F3 & F4 & F5 & F6 & F7).
  destruct c; cbn [dimmer_request] in Hr; try discriminate Hr; injection Hr as <- <- <-; cbn [dimmer_sub]; apply silent_sends; try assumption.
  - apply C45_level_any.
  - apply (C45_flag_requests W (bd_writer d) (bd_info d) on).
  - apply (C45_flag_requests W (bd_writer d) (bd_info d) on).
  - apply send_command_sends; [left; cbn; lia|rewrite sub_command1; reflexivity|rewrite sub_command2; reflexivity].
  - apply send_command_sends; [left; cbn; lia|rewrite sub_command1; reflexivity|rewrite sub_command2; reflexivity].
  - apply C45_on_at_ramp_any.
  - apply C45_off_at_ramp_any.
Qed.
Theorem C63_device_acts : forall W (open : Z -> prog W (option (bdev W) * option error)) links a w d w1 c c1 c2 data,
  opens open a w d w1 -> device_request (di_engine (bd_info d)) c = Some (c1, c2, data) ->
  only_request d w1 c1 c2 data (ic_device open links a c w).
Proof.
  intros W open links a w d w1 c c1 c2 data Ho Hr. unfold ic_device. rewrite (then_accepted _ _ _ _ _ _ _ _ _ Ho eq_refl).
  destruct c; cbn [device_request] in Hr; try discriminate Hr; cbn [device_sub];
    try (injection Hr as <- <- <-; apply silent_sends).
  - unfold bd_enter_linking, ver_I2Cs. destruct (di_engine (bd_info d) =? 2); (apply send_command_sends; [(left; cbn; lia) || (right; split; reflexivity)|rewrite sub_command1; reflexivity|rewrite sub_command2; reflexivity]).
  - unfold bd_enter_unlinking, ver_I2Cs. destruct (di_engine (bd_info d) =? 2); (apply send_command_sends; [(left; cbn; lia) || (right; split; reflexivity)|rewrite sub_command1; reflexivity|rewrite sub_command2; reflexivity]).
  - apply send_command_sends; [left; cbn; lia|reflexivity|reflexivity].
  - apply send_command_sends; [left; cbn; lia|apply command1_div|apply command2_mod].
  - destruct (Nat.ltb_spec (List.length data0) 14) as [Hl|Hl]; [|discriminate Hr]. injection Hr as <- <- <-. apply silent_sends.
    apply send_command_sends; [left; exact Hl|apply command1_div|apply command2_mod].
Qed.
Theorem C63_thermostat_acts : forall W (open : Z -> prog W (option (bdev W) * option error)) fuel a w d w1,
  opens open a w d w1 -> a_thermostat (bd_info d) ->
  only_request d w1 0x2e 0 [0; 8; 0] (ic_thermostat fuel open a (TSetStatus true) w) /\
  only_request d w1 0x6b 0x17 [] (ic_thermostat fuel open a (TSetStatus false) w).
Proof.
  intros W open fuel a w d w1 Ho Hd. apply lookup_thermostat in Hd. unfold ic_thermostat. rewrite !(then_accepted _ _ _ _ _ _ _ _ _ Ho Hd).
  destruct (C44_status_message W (bd_writer d) (bd_info d)). split; apply silent_sends; assumption.
Qed.

(** The level, in words. *)
Lemma dim_words_ok : forall l, is_byte l -> dimmer_words l (unlines [if l =? 0 then zs "Dimer is off" else if l =? 255 then zs "Dimer is on" else zs "Dimer is on at level " ++ fmt_int l]).
Proof.
  intros l Hl. unfold dimmer_words, unlines. cbn [flat_map]. rewrite app_nil_r.
  destruct (Z.eqb_spec l 0); [left; auto|]. destruct (Z.eqb_spec l 255); [right; left; auto|]. right; right. split; [assumption|]. split; [assumption|].
  exists (fmt_int l). split; [|rewrite <- app_assoc; reflexivity].
  rewrite fmt_int_byte by exact Hl. split; [apply fmt_d_byte_dec; exact Hl|apply fmt_d_byte_value; exact Hl].
Qed.
Lemma mod_byte : forall x, is_byte (x mod 256).
Proof. intro x. unfold is_byte. lia. Qed.
Theorem C63_dimmer_status : forall W (open : Z -> prog W (option (bdev W) * option error)) fuel a w d w1,
  opens open a w d w1 -> a_dimmer (bd_info d) -> level_told d w1 dimmer_words (ic_dimmer fuel open a MStatus w).
Proof.
  intros W open fuel a w d w1 Ho Hd. apply lookup_dimmer in Hd. unfold ic_dimmer. rewrite (then_accepted _ _ _ _ _ _ _ _ _ Ho Hd).
  destruct (C45_status W (bd_writer d) (bd_info d)) as (m & Hm & Hs). exists m. split; [exact Hm|].
  cbn [dimmer_sub]. unfold dim_status_cmd, pbind. rewrite Hs. unfold answered.
  destruct (mw_write (bd_writer d) m w1) as [[[[ack|] [e|]]| |] w2]; try reflexivity.
  eexists. split; [apply dim_words_ok; apply mod_byte|reflexivity].
Qed.
Theorem C63_switch_status : forall W (open : Z -> prog W (option (bdev W) * option error)) fuel links a w d w1,
  opens open a w d w1 -> a_switch (bd_info d) -> level_told d w1 switch_words (ic_switch fuel open links a SStatus w).
Proof.
  intros W open fuel links a w d w1 Ho Hd. apply lookup_switch in Hd. unfold ic_switch. rewrite (then_accepted _ _ _ _ _ _ _ _ _ Ho Hd).
  destruct (C45_status W (bd_writer d) (bd_info d)) as (m & Hm & Hs). exists m. split; [exact Hm|].
  cbn [switch_sub sw_Switch sw_assign on_receiver]. unfold sw_status_cmd, pbind. rewrite Hs. unfold answered.
  destruct (mw_write (bd_writer d) m w1) as [[[[ack|] [e|]]| |] w2]; try reflexivity.
  eexists. split; [|reflexivity]. unfold switch_words, unlines. cbn [flat_map]. rewrite app_nil_r.
  destruct (Z.eqb_spec (m_cmd ack mod 256) 0); auto.
Qed.

(** Turning a switch on or off, its backlight or its load sense: every attempt crashes the program before anything is sent. *)
Theorem C63_switch_crashes : forall W (open : Z -> prog W (option (bdev W) * option error)) fuel links a w d w1 c,
  opens open a w d w1 -> a_switch (bd_info d) -> switch_request c <> None -> ic_switch fuel open links a c w = (Panic, w1).
Proof.
  intros W open fuel links a w d w1 c Ho Hd Hc. apply lookup_switch in Hd. unfold ic_switch. rewrite (then_accepted _ _ _ _ _ _ _ _ _ Ho Hd).
  destruct c; try (exfalso; apply Hc; reflexivity); reflexivity.
Qed.
(** So the claim that each of them sends its request is false of every switch there is. *)
Theorem C63_switch_acts_refuted : exists (open : Z -> prog (list mresult) (option (bdev (list mresult)) * option error)) a w d w1 c1 c2 data,
  opens open a w d w1 /\ a_switch (bd_info d) /\ switch_request SOff = Some (c1, c2, data) /\
  (exists ack, w1 = [(Some ack, None)]) /\ ~ only_request d w1 c1 c2 data (ic_switch 5 open (fun _ => pret ([], None)) a SOff w).
Proof.
  set (d := mkBD (mkDI 0x010203 2 42 65 2) script_mw). set (w := [(Some (mkMsg 0x010203 0x0a0b0c 0x2b 0x1300 []), @None error)]).
  exists (fun _ => pret (Some d, None)), 0x010203, w, d, w, 0x13, 0, []. split; [reflexivity|]. split; [unfold a_switch; cbn; lia|]. split; [reflexivity|].
  split; [eexists; reflexivity|]. intros (m & _ & H). vm_compute in H. discriminate H.
Qed.

(** [dimmer config]: the error of the operating flags is the error of the command ... *)
Theorem C63_dimmer_config_error : forall W (open : Z -> prog W (option (bdev W) * option error)) fuel a w d w1 cfg e1 w2 lf e2 w3,
  opens open a w d w1 -> a_dimmer (bd_info d) ->
  dimmer_config fuel (bd_info d) (bd_writer d) w1 = (Ret (cfg, e1), w2) ->
  switch_operating_flags (bd_info d) (bd_writer d) w2 = (Ret (lf, e2), w3) ->
  exists t, ic_dimmer fuel open a MConfig w = (Ret (text_shown t, e2), w3) /\
    (e1 <> None -> e2 <> None -> t = []).
Proof.
  intros W open fuel a w d w1 cfg e1 w2 lf e2 w3 Ho Hd H1 H2. apply lookup_dimmer in Hd. unfold ic_dimmer. rewrite (then_accepted _ _ _ _ _ _ _ _ _ Ho Hd).
  cbn [dimmer_sub]. unfold dim_config_cmd, pbind. rewrite H1, H2. unfold pret. eexists. split; [reflexivity|].
  destruct e1, e2; intros; congruence || reflexivity.
Qed.
(** ... so a configuration that could not be had is not reported. *)
Definition ex_ack (c : Z) : mresult := (Some (mkMsg 0x010203 0x0a0b0c 0x2b c []), None).
Definition ex_dimmer : bdev (list mresult) := mkBD (mkDI 0x010203 1 32 65 2) script_mw.
Theorem C63_dimmer_config_error_refuted : exists (open : Z -> prog (list mresult) (option (bdev (list mresult)) * option error)) a w d w1 w2 cfg t w3,
  opens open a w d w1 /\ a_dimmer (bd_info d) /\
  dimmer_config 5 (bd_info d) (bd_writer d) w1 = (Ret (cfg, Some EDevReadTimeout), w2) /\
  ic_dimmer 5 open a MConfig w = (Ret (t, None), w3).
Proof.
  set (w := (None, Some EDevReadTimeout) :: map ex_ack [0x1f01; 0x1f02; 0x1f03; 0x1f04; 0x1f05]).
  exists (fun _ => pret (Some ex_dimmer, None)), 0x010203, w, ex_dimmer, w. eexists _, _, _, _. split; [reflexivity|]. split; [reflexivity|].
  split; vm_compute; reflexivity.
Qed.

(** [thermostat status]: before it asks anything it sets the unit to Fahrenheit, and if that fails it asks nothing. *)
Theorem C63_thermostat_status_first : forall W (open : Z -> prog W (option (bdev W) * option error)) fuel a w d w1,
  opens open a w d w1 -> a_thermostat (bd_info d) -> exists m, is_request (bd_info d) 0x2e 0 [0; 4; 0; 0] m /\
    match mw_write (bd_writer d) m w1 with
    | (Ret (Some ack, None), w2) =>
        ic_thermostat fuel open a TStatus w =
        match therm_status fuel (bd_info d) (bd_writer d) w2 with
        | (Ret (s, None), w3) => (Ret (text_shown (therm_text s), None), w3)
        | (Ret (_, Some e), w3) => (Ret (nothing_shown, Some e), w3)
        | (Panic, w3) => (Panic, w3)
        | (NoFuel, w3) => (NoFuel, w3)
        end
    | (Ret (_, Some e), w2) => ic_thermostat fuel open a TStatus w = (Ret (nothing_shown, Some e), w2)
    | (Ret (None, None), w2) | (Panic, w2) => ic_thermostat fuel open a TStatus w = (Panic, w2)
    | (NoFuel, w2) => ic_thermostat fuel open a TStatus w = (NoFuel, w2)
    end.
Proof.
  intros W open fuel a w d w1 Ho Hd. apply lookup_thermostat in Hd. unfold ic_thermostat. rewrite (then_accepted _ _ _ _ _ _ _ _ _ Ho Hd).
  destruct (C44_set_unit W (bd_writer d) (bd_info d) u_Fahrenheit) as [[X _]|[[_ (m & Hm & Hs)]|[X _]]]; try (exfalso; vm_compute in X; congruence).
  exists m. split; [exact Hm|]. cbn [therm_sub]. unfold therm_status_cmd, pbind. rewrite Hs. unfold settled.
  destruct (mw_write (bd_writer d) m w1) as [[[[ack|] [e|]]| |] w2]; try reflexivity.
  destruct (therm_status fuel (bd_info d) (bd_writer d) w2) as [[[s [e|]]| |] w3]; reflexivity.
Qed.
(** A request that only reports must not change the thermostat: this one does. *)
Theorem C63_status_changes_nothing_refuted : exists (open : Z -> prog (list mresult * list mev) (option (bdev (list mresult * list mev)) * option error)) a w d w1 m r t,
  opens open a w d w1 /\ a_thermostat (bd_info d) /\ snd w1 = [] /\ is_request (bd_info d) 0x2e 0 [0; 4; 0; 0] m /\
  snd (snd (ic_thermostat 5 open a TStatus w)) = MW m r :: t.
Proof.
  set (d := mkBD (mkDI 0x010203 5 3 65 2) (mlogged script_mw)). set (w := (map ex_ack [0x2e00; 0x6a00], @nil mev)).
  destruct (C44_set_unit _ (bd_writer d) (bd_info d) 0) as [[X _]|[[_ (m & Hm & _)]|[X _]]]; try congruence.
  exists (fun _ => pret (Some d, None)), 0x010203, w, d, w. eexists _, _, _. split; [reflexivity|]. split; [reflexivity|]. split; [reflexivity|].
  split; [|vm_compute; reflexivity]. apply (outgoing_is_request (bd_info d) 0x2e00 [0; 4; 0; 0]). left. cbn. lia.
Qed.

(** Linking on the way: the device that was not linked when it was opened is used with the category 0.0 it was opened with, so that a
    dimmer, switch or thermostat linked this way is then refused as not being one. *)
Lemma open_error_category : forall W (mw : mwriter W) fuel dst w dev info e w', dev_open fuel mw dst w = (Ret (dev, info, Some e), w') -> di_dc0 info = 0.
Proof.
  intros W mw fuel dst w dev info e w' H. unfold dev_open, pbind in H.
  destruct (get_engine_version mw dst w) as [[[v [e1|]]| |] w1]; try discriminate.
  - unfold pret in H. apply pair_equal_spec in H. destruct H as [H1 H2]. injection H1 as <- <- <-. reflexivity.
  - destruct (id_request fuel mw dst w1) as [[[[fw dc] [e1|]]| |] w2] eqn:E; try discriminate.
    unfold pret in H. apply pair_equal_spec in H. destruct H as [H1 H2]. injection H1 as <- <- <-. cbn [di_dc0].
    unfold id_request, pbind in E. destruct (mw_write mw _ w1) as [[[m [x|]]| |] w3]; try discriminate.
    + unfold pret in E. apply pair_equal_spec in E. destruct E as [E1 E2]. injection E1 as <- <- <-. reflexivity.
    + destruct (read_match fuel mw _ w3) as [[[m1 [x|]]| |] w4]; try discriminate.
      * unfold pret in E. apply pair_equal_spec in E. destruct E as [E1 E2]. injection E1 as <- <- <-. reflexivity.
      * destruct m1; discriminate.
Qed.
Lemma db_opener_not_linked : forall W fuel os (mw : mwriter W) filters a st d st1, file_errors os ->
  db_opener fuel os mw filters a st = (Ret (Some d, Some EDevNotLinked), st1) -> di_dc0 (bd_info d) = 0.
Proof.
  intros W fuel os mw filters a [[f db] w] d st1 [Ho Hw] H. unfold db_opener, filedb_open, pbind in H.
  destruct (memdb_open fuel db mw a [] w) as [[[[dev db1] err]| |] w1] eqn:E; try discriminate.
  destruct (filedb_save os f db1 err) as [[f1 db2] e] eqn:Es. unfold pret in H.
  apply pair_equal_spec in H. destruct H as [H1 H2]. injection H1 as Hd He. subst e.
  assert (Herr : err = Some EDevNotLinked).
  { unfold filedb_save in Es. destruct err as [x|]; [apply pair_equal_spec in Es; destruct Es; assumption|].
    destruct (db_dirty db1) eqn:Ed; [|apply pair_equal_spec in Es; destruct Es; discriminate].
    unfold save_db, db_needs_saving, db_save in Es. rewrite Ed in Es. destruct (os_open os) as [x|] eqn:E1; [apply pair_equal_spec in Es; destruct Es; congruence|].
    destruct (snd (os_write os)) as [x|] eqn:E2; apply pair_equal_spec in Es; destruct Es; congruence. }
  subst err. clear Es. unfold memdb_open in E. destruct (db_get db a) as [i []]; [discriminate|].
  unfold pbind, dev_open_filters in E. cbn [apply_filters fold_left] in E. unfold pbind in E.
  destruct (dev_open fuel mw a w) as [[[[dev1 info] [x|]]| |] w2] eqn:Eo; try discriminate.
  - unfold pret in E. apply pair_equal_spec in E. destruct E as [E1 E2]. injection E1 as E1 _ ->.
    pose proof (open_error_category _ _ _ _ _ _ _ _ _ Eo) as Hz. destruct (C43_handle _ _ _ _ _ _ _ _ _ Eo) as (_ & Hh & _).
    rewrite (proj2 Hh (or_intror eq_refl)) in E1. subst dev. cbn in Hd. injection Hd as <-. exact Hz.
  - unfold plift, pret in E. destruct (db_put db info); discriminate.
Qed.
Theorem C63_just_linked : forall W fuel os (mw : mwriter W) filters link yes links n a st d st1 st2 st3, file_errors os ->
  db_opener fuel os mw filters a st = (Ret (Some d, Some EDevNotLinked), st1) -> yes st1 = (Ret true, st2) -> link a st2 = (Ret None, st3) ->
  let open := ic_open_dev (db_opener fuel os mw filters) link true yes in
  (forall c, ic_dimmer n open a c st = (Ret (nothing_shown, Some err_not_dimmer), st3)) /\
  (forall c, ic_switch n open links a c st = (Ret (nothing_shown, Some err_not_switch), st3)) /\
  (forall c, ic_thermostat n open a c st = (Ret (nothing_shown, Some err_not_thermostat), st3)).
Proof.
  intros W fuel os mw filters link yes links n a st d st1 st2 st3 Hos H Hy Hl open.
  pose proof (db_opener_not_linked _ _ _ _ _ _ _ _ _ Hos H) as Hz.
  assert (Ho : opens open a st d st3) by (unfold opens, open, ic_open_dev, pbind; rewrite H, Hy, Hl; reflexivity).
  destruct (C63_wrong_kind _ open links n a st d st3 Ho) as (H1 & H2 & H3). unfold a_dimmer, a_switch, a_thermostat in *.
  split; [|split]; intro c; [apply H1|apply H2|apply H3]; lia.
Qed.
(** Here is a dimmer, asked for as a dimmer, linked, and refused; opened again at once it is a dimmer. *)
Definition ex_os : osresp := mkOS None (0%nat, None).
Definition ex_open : Z -> prog ((fstate * memdb) * list mresult) (option (bdev ((fstate * memdb) * list mresult)) * option error) :=
  db_opener 5 ex_os script_mw [].
Theorem C63_just_linked_refuted : exists link yes a st t st3 d st4,
  ic_dimmer 5 (ic_open_dev ex_open link true yes) a MOff st = (Ret (t, Some err_not_dimmer), st3) /\
  opens ex_open a st3 d st4 /\ a_dimmer (bd_info d).
Proof.
  exists (fun _ => pret None), (pret true), 0x010203,
    ((None, new_memdb), [(Some (mkMsg 0x010203 0 0xab 0x0dff []), Some EDevNak); ex_ack 0x0d02; ex_ack 0x1000;
                         (Some (mkMsg 0x010203 0x012041 0x8b 0x080100 []), None)]).
  eexists _, _, _, _. split; [vm_compute; reflexivity|]. split; [vm_compute; reflexivity|]. reflexivity.
Qed.

(** [device version] is described as the engine version; it prints the firmware version, whatever the engine. *)
Theorem C63_version_text : forall W (open : Z -> prog W (option (bdev W) * option error)) links a w d w1, opens open a w d w1 -> is_byte (di_fw (bd_info d)) ->
  exists ds, decimal (di_fw (bd_info d)) ds /\ ic_device open links a DVersion w = (Ret (text_shown (zs "Device version: " ++ ds ++ [10]), None), w1).
Proof.
  intros W open links a w d w1 Ho Hb. unfold ic_device. rewrite (then_accepted _ _ _ _ _ _ _ _ _ Ho eq_refl). exists (fmt_int (di_fw (bd_info d))). split.
  - rewrite fmt_int_byte by exact Hb. split; [apply fmt_d_byte_dec; exact Hb|apply fmt_d_byte_value; exact Hb].
  - cbn [device_sub]. unfold pret, unlines, fw_string. cbn [flat_map]. rewrite app_nil_r, <- app_assoc. reflexivity.
Qed.
Theorem C63_version_refuted : exists (d d' : bdev unit), di_engine (bd_info d) <> di_engine (bd_info d') /\
  device_sub (fun _ => pret ([], None)) DVersion d tt = device_sub (fun _ => pret ([], None)) DVersion d' tt.
Proof.
  exists (mkBD (mkDI 0x010203 1 32 65 0) (mkMW ppanic (fun _ => ppanic))), (mkBD (mkDI 0x010203 1 32 65 2) (mkMW ppanic (fun _ => ppanic))).
  split; [cbn; lia|reflexivity].
Qed.
Example C63_ex : exists t w, ic_dimmer 5 (ic_open_dev ex_open (fun _ => pret None) true (pret false)) 0x010203 MStatus
    ((None, new_memdb), [ex_ack 0x0d02; ex_ack 0x1000; (Some (mkMsg 0x010203 0x012041 0x8b 0x080100 []), None); ex_ack 0x197f]) = (Ret (t, None), w) /\
  sh_text t = zs "Dimer is on at level 127" ++ [10].
Proof. eexists _, _. split; vm_compute; reflexivity. Qed.
Example C63_ex_ramp : exists w, dimmer_sub 5 (MOnRamp 9 4) ex_dimmer [ex_ack 0x2e94] = (Ret (nothing_shown, None), w) /\
  dimmer_request 65 (MOnRamp 9 4) = Some (0x2e, 0x94, []).
Proof. eexists. split; vm_compute; reflexivity. Qed.
Example C63_ex_outlet : ~ a_switch (mkDI 0x010203 2 8 65 2) /\ a_switch (mkDI 0x010203 2 42 65 2) /\ a_thermostat (mkDI 0x010203 5 3 65 2).
Proof. unfold a_switch, a_thermostat. cbn. lia. Qed.
(** One of each kind, each opened at once. *)
Definition ex_switch : bdev (list mresult) := mkBD (mkDI 0x010203 2 42 65 2) script_mw.
Definition ex_thermostat : bdev (list mresult) := mkBD (mkDI 0x010203 5 3 65 2) script_mw.
Definition ex_at_once (d : bdev (list mresult)) : Z -> prog (list mresult) (option (bdev (list mresult)) * option error) := fun _ => pret (Some d, None).
Example C63_wrong_kind_case : ic_dimmer 5 (ex_at_once ex_switch) 0x010203 MOff [ex_ack 0x1300] = (Ret (nothing_shown, Some err_not_dimmer), [ex_ack 0x1300]) /\
  ic_switch 5 (ex_at_once ex_thermostat) (fun _ => pret ([], None)) 0x010203 SStatus [ex_ack 0x1900] = (Ret (nothing_shown, Some err_not_switch), [ex_ack 0x1900]) /\
  ic_thermostat 5 (ex_at_once ex_dimmer) 0x010203 TStatus [ex_ack 0x2e00] = (Ret (nothing_shown, Some err_not_thermostat), [ex_ack 0x2e00]).
Proof.
  split; [|split].
  - apply (proj1 (C63_wrong_kind _ (ex_at_once ex_switch) (fun _ => pret ([], None)) 5 0x010203 [ex_ack 0x1300] ex_switch _ eq_refl)). discriminate.
  - apply (proj1 (proj2 (C63_wrong_kind _ (ex_at_once ex_thermostat) (fun _ => pret ([], None)) 5 0x010203 [ex_ack 0x1900] ex_thermostat _ eq_refl))). intros [H _]. discriminate H.
  - apply (proj2 (proj2 (C63_wrong_kind _ (ex_at_once ex_dimmer) (fun _ => pret ([], None)) 5 0x010203 [ex_ack 0x2e00] ex_dimmer _ eq_refl))). discriminate.
Qed.
Example C63_dimmer_acts_case : only_request ex_dimmer [ex_ack 0x2e94] 0x2e 0x94 [] (ic_dimmer 5 (ex_at_once ex_dimmer) 0x010203 (MOnRamp 9 4) [ex_ack 0x2e94]).
Proof. apply (C63_dimmer_acts _ (ex_at_once ex_dimmer) 5 0x010203 _ ex_dimmer); reflexivity. Qed.
Example C63_device_acts_case : only_request ex_dimmer [ex_ack 0x0901] 0x09 1 (repeat 0 14) (ic_device (ex_at_once ex_dimmer) (fun _ => pret ([], None)) 0x010203 (DLink 257) [ex_ack 0x0901]).
Proof. apply (C63_device_acts _ (ex_at_once ex_dimmer) _ 0x010203 _ ex_dimmer); reflexivity. Qed.
Example C63_thermostat_acts_case : only_request ex_thermostat [ex_ack 0x2e00] 0x2e 0 [0; 8; 0] (ic_thermostat 5 (ex_at_once ex_thermostat) 0x010203 (TSetStatus true) [ex_ack 0x2e00]).
Proof. apply (C63_thermostat_acts _ (ex_at_once ex_thermostat) 5 0x010203 _ ex_thermostat); reflexivity. Qed.
Example C63_dimmer_status_case : level_told ex_dimmer [ex_ack 0x197f] dimmer_words (ic_dimmer 5 (ex_at_once ex_dimmer) 0x010203 MStatus [ex_ack 0x197f]).
Proof. apply (C63_dimmer_status _ (ex_at_once ex_dimmer) 5 0x010203 _ ex_dimmer); reflexivity. Qed.
Example C63_switch_status_case : level_told ex_switch [ex_ack 0x1900] switch_words (ic_switch 5 (ex_at_once ex_switch) (fun _ => pret ([], None)) 0x010203 SStatus [ex_ack 0x1900]).
Proof. apply (C63_switch_status _ (ex_at_once ex_switch) 5 (fun _ => pret ([], None)) 0x010203 _ ex_switch); [reflexivity|split; [reflexivity|discriminate]]. Qed.
Example C63_switch_crashes_case : ic_switch 5 (ex_at_once ex_switch) (fun _ => pret ([], None)) 0x010203 (SOn 200) [ex_ack 0x11c8] = (Panic, [ex_ack 0x11c8]).
Proof. apply (C63_switch_crashes _ (ex_at_once ex_switch) 5 (fun _ => pret ([], None)) 0x010203 _ ex_switch); [reflexivity|split; [reflexivity|discriminate]|discriminate]. Qed.
Example C63_dimmer_config_error_case : exists t w3, ic_dimmer 5 (ex_at_once ex_dimmer) 0x010203 MConfig [(None, Some EDevReadTimeout); (None, Some EDevNak)] = (Ret (text_shown t, Some EDevNak), w3) /\ t = [].
Proof.
  destruct (dimmer_config 5 (bd_info ex_dimmer) (bd_writer ex_dimmer) [(None, Some EDevReadTimeout); (None, Some EDevNak)]) as [r w2] eqn:E1.
  pose proof E1 as E1'. vm_compute in E1'. injection E1' as Er Ew. subst r w2.
  destruct (switch_operating_flags (bd_info ex_dimmer) (bd_writer ex_dimmer) [(None, Some EDevNak)]) as [r w3] eqn:E2.
  pose proof E2 as E2'. vm_compute in E2'. injection E2' as Er Ew. subst r w3.
  destruct (C63_dimmer_config_error _ (ex_at_once ex_dimmer) 5 0x010203 _ ex_dimmer _ _ _ _ _ _ _ eq_refl eq_refl E1 E2) as (t & H1 & H2).
  exists t. eexists. split; [exact H1|]. apply H2; discriminate.
Qed.
Example C63_thermostat_status_first_case : exists m, is_request (bd_info ex_thermostat) 0x2e 0 [0; 4; 0; 0] m /\
  ic_thermostat 5 (ex_at_once ex_thermostat) 0x010203 TStatus [(None, Some EDevNak); ex_ack 0x6a00] = (Ret (nothing_shown, Some EDevNak), [ex_ack 0x6a00]).
Proof. apply (C63_thermostat_status_first _ (ex_at_once ex_thermostat) 5 0x010203 [(None, Some EDevNak); ex_ack 0x6a00] ex_thermostat _ eq_refl eq_refl). Qed.
Example C63_just_linked_case : exists d st1, file_errors ex_os /\
  db_opener 5 ex_os script_mw [] 0x010203 ((None, new_memdb), [(Some (mkMsg 0x010203 0 0xab 0x0dff []), Some EDevNak)]) = (Ret (Some d, Some EDevNotLinked), st1) /\
  ic_thermostat 5 (ic_open_dev ex_open (fun _ => pret None) true (pret true)) 0x010203 TStatus
    ((None, new_memdb), [(Some (mkMsg 0x010203 0 0xab 0x0dff []), Some EDevNak)]) = (Ret (nothing_shown, Some err_not_thermostat), st1).
Proof.
  destruct (db_opener 5 ex_os script_mw [] 0x010203 ((None, new_memdb), [(Some (mkMsg 0x010203 0 0xab 0x0dff []), Some EDevNak)])) as [r st1] eqn:E.
  assert (Hr : exists d, r = Ret (Some d, Some EDevNotLinked)) by (apply (f_equal fst) in E; vm_compute in E; eexists; symmetry; exact E).
  destruct Hr as [d ->]. assert (F : file_errors ex_os) by (split; discriminate). exists d, st1. split; [exact F|]. split; [reflexivity|].
  apply (C63_just_linked _ _ _ _ _ (fun _ => pret None) (pret true) (fun _ => pret ([], None)) 5 _ _ _ _ st1 st1 F E eq_refl eq_refl).
Qed.
Example C63_version_text_case : exists ds, decimal 65 ds /\ ic_device (ex_at_once ex_dimmer) (fun _ => pret ([], None)) 0x010203 DVersion [] = (Ret (text_shown (zs "Device version: " ++ ds ++ [10]), None), []).
Proof. apply (C63_version_text _ (ex_at_once ex_dimmer) _ 0x010203 [] ex_dimmer); [reflexivity|cbn; unfold is_byte; lia]. Qed.

Print Assumptions C63_wrong_kind.
Print Assumptions C63_not_opened.
Print Assumptions C63_dimmer_acts.
Print Assumptions C63_device_acts.
Print Assumptions C63_thermostat_acts.
Print Assumptions C63_dimmer_status.
Print Assumptions C63_switch_status.
Print Assumptions C63_switch_crashes.
Print Assumptions C63_switch_acts_refuted.
Print Assumptions C63_dimmer_config_error.
Print Assumptions C63_dimmer_config_error_refuted.
Print Assumptions C63_thermostat_status_first.
Print Assumptions C63_status_changes_nothing_refuted.
Print Assumptions C63_just_linked.
Print Assumptions C63_just_linked_refuted.
Print Assumptions C63_version_text.
Print Assumptions C63_version_refuted.
