(** Property C64: the reports of the command-line tool, its log flags, and the walk over all devices. *)
From Coq Require Import ZArith List Bool Lia ZifyBool ZifyNat String Permutation.
From Verif Require Import GoBase GoLemmas GoProg GoText GoJson Address Command Message MessageSpec MsgWriter FiltersSpec BasicDevice Lights Thermostat Query Database Link LinkText Plm Display DisplaySpec DisplayProofs DisplayProofs2 IcDev IcDevSpec IcDevProofs Props_Filters Props_Display Props_IcDev.
Import ListNotations.
Open Scope Z_scope.
Ltac Zify.zify_post_hook ::= Z.div_mod_to_equations.

Lemma device_info_shown : forall W (open : Z -> prog W (option (bdev W) * option error)) links a w d w1 ls w2,
  opens open a w d w1 -> links d w1 = (Ret (ls, None), w2) ->
  ic_device open links a DInfo w = (Ret (mkShown (info_head (kind_string (bd_info d)) (bd_info d) []) (Some ls), None), w2).
Proof.
  intros W open links a w d w1 ls w2 Ho Hl. unfold ic_device. rewrite (then_accepted _ _ _ _ _ _ _ _ _ Ho) by reflexivity.
  cbn [device_sub]. unfold print_dev_info, pbind. rewrite Hl. reflexivity.
Qed.

(** * C64.  [device info] succeeds when the links can be had, and what it then prints tells the address, the engine, the category, the
    firmware and the records (as far as C62 says a listing tells them), for every device that is not a thermostat. *)
Theorem C64_device_info : forall W (open : Z -> prog W (option (bdev W) * option error)) links a w d w1 ls w2 a' w' d' w1' ls' w2' out,
  opens open a w d w1 -> links d w1 = (Ret (ls, None), w2) -> info_shown_ok (bd_info d) -> Forall link_ok ls ->
  opens open a' w' d' w1' -> links d' w1' = (Ret (ls', None), w2') -> info_shown_ok (bd_info d') -> Forall link_ok ls' ->
  exists s s', ic_device open links a DInfo w = (Ret (s, None), w2) /\ ic_device open links a' DInfo w' = (Ret (s', None), w2') /\
    (terminal s out -> terminal s' out ->
       di_engine (bd_info d) = di_engine (bd_info d') /\ di_dc0 (bd_info d) = di_dc0 (bd_info d') /\ di_dc1 (bd_info d) = di_dc1 (bd_info d') /\
       di_fw (bd_info d) = di_fw (bd_info d') /\ (~ a_thermostat (bd_info d) -> di_addr (bd_info d) = di_addr (bd_info d')) /\
       exists l, Permutation ls' l /\ Forall2 record_alike ls l).
Proof.
  intros W open links a w d w1 ls w2 a' w' d' w1' ls' w2' out Ho Hl Hi Hk Ho' Hl' Hi' Hk'.
  eexists _, _. split; [apply (device_info_shown _ _ _ _ _ _ _ _ _ Ho Hl)|]. split; [apply (device_info_shown _ _ _ _ _ _ _ _ _ Ho' Hl')|].
  unfold terminal. cbn [sh_links sh_text]. intros (p & Hp & ->) (q & Hq & H).
  apply info_head_cut in H; try assumption; try apply nonl_kind. destruct H as (En & Ee & E0 & E1 & Ef & ->).
  repeat (split; [assumption|]). split; [|apply (C62_listing_contents _ _ _ Hk Hk' Hp Hq)].
  intro Ht. apply kind_addr; assumption.
Qed.
(** Thermostats all show the same address. *)
Theorem C64_device_info_refuted : exists (d d' : bdev unit) s, a_thermostat (bd_info d) /\ a_thermostat (bd_info d') /\
  info_shown_ok (bd_info d) /\ info_shown_ok (bd_info d') /\ di_addr (bd_info d) <> di_addr (bd_info d') /\
  ic_device (fun _ => pret (Some d, None)) (fun _ => pret ([], None)) (di_addr (bd_info d)) DInfo tt = (Ret (s, None), tt) /\
  ic_device (fun _ => pret (Some d', None)) (fun _ => pret ([], None)) (di_addr (bd_info d')) DInfo tt = (Ret (s, None), tt).
Proof.
  set (mw := mkMW (W := unit) (fun _ => (NoFuel, tt)) (fun _ _ => (NoFuel, tt))).
  exists (mkBD (mkDI 0x010203 5 3 65 2) mw), (mkBD (mkDI 0x040506 5 3 65 2) mw). eexists.
  unfold a_thermostat, info_shown_ok, is_byte. cbn [bd_info di_addr di_dc0 di_dc1 di_fw di_engine].
  split; [reflexivity|]. split; [reflexivity|]. split; [lia|]. split; [lia|]. split; [lia|]. split; vm_compute; reflexivity.
Qed.

(** [dimmer config], when both questions are answered, tells every field and every flag. *)
Theorem C64_dimmer_config : forall W (open : Z -> prog W (option (bdev W) * option error)) fuel a w d w1 c w2 lf w3 a' w' d' w1' c' w2' lf' w3' s,
  opens open a w d w1 -> a_dimmer (bd_info d) -> dimmer_config fuel (bd_info d) (bd_writer d) w1 = (Ret (c, None), w2) ->
  switch_operating_flags (bd_info d) (bd_writer d) w2 = (Ret (lf, None), w3) -> is_byte (dc_house c) -> is_byte (dc_unit c) ->
  opens open a' w' d' w1' -> a_dimmer (bd_info d') -> dimmer_config fuel (bd_info d') (bd_writer d') w1' = (Ret (c', None), w2') ->
  switch_operating_flags (bd_info d') (bd_writer d') w2' = (Ret (lf', None), w3') -> is_byte (dc_house c') -> is_byte (dc_unit c') ->
  ic_dimmer fuel open a MConfig w = (Ret (s, None), w3) -> ic_dimmer fuel open a' MConfig w' = (Ret (s, None), w3') ->
  c = c' /\ same_flags lf lf'.
Proof.
  intros W open fuel a w d w1 c w2 lf w3 a' w' d' w1' c' w2' lf' w3' s Ho Hd Hc Hf Hh Hu Ho' Hd' Hc' Hf' Hh' Hu' R R'.
  apply lookup_dimmer in Hd, Hd'. unfold ic_dimmer in R, R'.
  rewrite (then_accepted _ _ _ _ _ _ _ _ _ Ho Hd) in R. rewrite (then_accepted _ _ _ _ _ _ _ _ _ Ho' Hd') in R'.
  cbn [dimmer_sub] in R, R'. unfold dim_config_cmd, pbind in R, R'. rewrite Hc, Hf in R. rewrite Hc', Hf' in R'. unfold pret in R, R'.
  apply pair_equal_spec in R, R'. destruct R as [R _], R' as [R' _]. assert (T : text_shown (dim_config_text c ++ dim_flags_text lf) = text_shown (dim_config_text c' ++ dim_flags_text lf')) by congruence.
  apply (f_equal sh_text) in T. unfold text_shown in T. cbn [sh_text] in T.
  apply dim_config_cut in T; try assumption. destruct T as [-> T]. split; [reflexivity|].
  rewrite <- (app_nil_r (dim_flags_text lf)), <- (app_nil_r (dim_flags_text lf')) in T. apply dim_flags_cut in T. exact (proj1 T).
Qed.

(** A thermostat's report tells all of it, the four state bits included. *)
Theorem C64_thermostat_report : forall s t, tstatus_ok s -> tstatus_ok t -> (therm_text s = therm_text t <-> tstatus_alike s t).
Proof.
  intros s t Hs Ht. split; [apply therm_text_alike; assumption|]. destruct Hs as (_ & _ & Hs), Ht as (_ & _ & Ht).
  intros (E1 & E2 & E3 & E4 & E5 & E6 & E7). apply es_alike in E7; try assumption. unfold therm_text. rewrite E1, E2, E3, E4, E5, E6, E7. reflexivity.
Qed.

(** [plm info]: it stops at the first error and returns it; without one the text tells address, category, firmware, the four settings. *)
Definition plm_info_ok (i : info) : Prop := 0 <= i_addr i < 16777216 /\ is_byte (i_dc0 i) /\ is_byte (i_dc1 i).
Theorem C64_modem_info_errors : forall W get_info get_config links (w : W),
  (forall i e w1, get_info w = (Ret (i, Some e), w1) -> exists s, plm_info_cmd get_info get_config links w = (Ret (s, Some e), w1) /\ sh_links s = None) /\
  (forall i w1, get_info w = (Ret (Some i, None), w1) ->
    (forall c e w2, get_config w1 = (Ret (c, Some e), w2) -> exists s, plm_info_cmd get_info get_config links w = (Ret (s, Some e), w2) /\ sh_links s = None) /\
    (forall c ls e w2 w3, get_config w1 = (Ret (c, None), w2) -> links w2 = (Ret (ls, Some e), w3) ->
       exists s, plm_info_cmd get_info get_config links w = (Ret (s, Some e), w3) /\ sh_links s = None)).
Proof.
  intros W get_info get_config links w. split.
  - intros i e w1 H. unfold plm_info_cmd, pbind. rewrite H. eexists. split; reflexivity.
  - intros i w1 H. split.
    + intros c e w2 H2. unfold plm_info_cmd, pbind. rewrite H, H2. eexists. split; reflexivity.
    + intros c ls e w2 w3 H2 H3. unfold plm_info_cmd, pbind. rewrite H, H2, H3. eexists. split; reflexivity.
Qed.
Theorem C64_modem_info : forall W get_info get_config links (w : W) i w1 c w2 ls w3 w' i' w1' c' w2' ls' w3' out,
  get_info w = (Ret (Some i, None), w1) -> get_config w1 = (Ret (c, None), w2) -> links w2 = (Ret (ls, None), w3) ->
  plm_info_ok i -> is_byte c -> Forall link_ok ls ->
  get_info w' = (Ret (Some i', None), w1') -> get_config w1' = (Ret (c', None), w2') -> links w2' = (Ret (ls', None), w3') ->
  plm_info_ok i' -> is_byte c' -> Forall link_ok ls' ->
  exists s s', plm_info_cmd get_info get_config links w = (Ret (s, None), w3) /\ plm_info_cmd get_info get_config links w' = (Ret (s', None), w3') /\
    (terminal s out -> terminal s' out -> i = i' /\ c / 16 = c' / 16 /\ exists l, Permutation ls' l /\ Forall2 record_alike ls l).
Proof.
  intros W get_info get_config links w i w1 c w2 ls w3 w' i' w1' c' w2' ls' w3' out Hi Hc Hl Oi Oc Ol Hi' Hc' Hl' Oi' Oc' Ol'.
  unfold plm_info_cmd, pbind. rewrite Hi, Hc, Hl, Hi', Hc', Hl'. unfold pret. eexists _, _. split; [reflexivity|]. split; [reflexivity|].
  unfold terminal. cbn [sh_links sh_text]. intros (p & Hp & ->) (q & Hq & H).
  destruct i as [ia i0 i1 fw], i' as [ia' i0' i1' fw']. unfold plm_info_ok in *. cbn [i_addr i_dc0 i_dc1 i_fw] in *.
  destruct Oi as (Oa & O0 & O1), Oi' as (Oa' & O0' & O1').
  rewrite <- !unlines_app in H. cbn [app] in H. rewrite !unlines_cons, unlines_nil, !app_nil_r in H. rewrite <- !(app_assoc (_ ++ [ch_nl])) in H.
  do 5 (let E := fresh "E" in apply line_cut in H; [destruct H as [E H]|nonl; apply nonl_cfg; assumption..]).
  apply app_inv_head in E0, E1, E2, E3. apply addr_string_inj in E0; try (unfold word24; lia).
  apply fmt_02x_cut in E1; try assumption. destruct E1 as [-> E1]. apply app_inv_head, fmt_02x_inj in E1; try assumption. apply fmt_int_inj in E2.
  apply cfg_alike in E3; try assumption. subst. split; [reflexivity|]. split; [exact E3|]. apply (C62_listing_contents _ _ _ Ol Ol' Hp Hq).
Qed.

(** The log flags.  Nothing can silence the log, and the flag for it switches the debugging log on instead. *)
Theorem C64_log_flags : forall ns, let l := ic_logging (give_flags ns) in
  to_log l = true /\ (to_debug l = true <-> In NDebug ns \/ In NQuiet ns).
Proof.
  intro ns. unfold give_flags.
  assert (G : forall ns st, lg_quiet st = false -> lg_quiet (fold_left give_flag ns st) = false /\
    (lg_debug (fold_left give_flag ns st) = true <-> lg_debug st = true \/ In NDebug ns \/ In NQuiet ns)).
  { clear ns. induction ns as [|n ns IH]; intros st Hq; cbn [fold_left In]; [split; [exact Hq|tauto]|].
    destruct (IH (give_flag st n)) as [I1 I2]; [destruct n; exact Hq|]. split; [exact I1|]. rewrite I2.
    destruct n; cbn [give_flag lg_debug]; intuition congruence. }
  destruct (G ns (mkLF false false false) eq_refl) as [G1 G2]. cbn [lg_debug] in G2. unfold ic_logging. rewrite G1.
  destruct (lg_debug _); cbn [to_log to_debug]; (split; [reflexivity|]); intuition congruence.
Qed.
Theorem C64_quiet_refuted : exists ns, ns = [NQuiet] /\ to_log (ic_logging (give_flags ns)) = true /\
  to_debug (ic_logging (give_flags ns)) = true /\ to_debug (ic_logging (give_flags [])) = false.
Proof. exists [NQuiet]. repeat split; reflexivity. Qed.

(** The walk: each device of the modem's list is asked once, in order; a failure is logged for that device and the walk goes on. *)
Theorem C64_walk_lines : forall W (iterate : prog W (list Z * option error)) (open : dev_opener W) links w addrs w1 lines e w2,
  iterate w = (Ret (addrs, None), w1) -> iwalk iterate open links w = (Ret (lines, e), w2) ->
  e = None /\ map line_addr (filter is_query lines) = addrs /\
  exists blocks, Forall2 walk_block addrs blocks /\ lines = List.concat blocks.
Proof.
  intros W iterate open links w addrs w1 lines e w2 Hi H. unfold iwalk, pbind in H. rewrite Hi in H.
  destruct (walk_all open links addrs w1) as [[l| |] w3] eqn:E; try discriminate. unfold pret in H.
  apply pair_equal_spec in H. destruct H as [H _]. injection H as -> <-. split; [reflexivity|].
  destruct (walk_blocks _ _ _ _ _ _ _ E) as (bs & Hb & ->). split; [|exists bs; split; [exact Hb|reflexivity]].
  clear E Hi. induction Hb as [|a b t bs B _ IH]; [reflexivity|]. cbn [List.concat]. rewrite filter_app, map_app, IH.
  destruct B as [->|(x & [->| ->])]; reflexivity.
Qed.
(** Afterwards every device of the list is in the database, unless the log says it could not be opened; none is forgotten. *)
Theorem C64_walk_stores : forall W (iterate : prog ((fstate * memdb) * W) (list Z * option error)) fuel os (mw : mwriter W) filters links st addrs f db w lines e f1 db1 w1,
  keeps_database links -> iterate st = (Ret (addrs, None), ((f, db), w)) -> ~ In 0 addrs ->
  iwalk iterate (db_opener fuel os mw filters) links st = (Ret (lines, e), ((f1, db1), w1)) ->
  (forall b, knows db b -> knows db1 b) /\ (forall a, In a addrs -> knows db1 a \/ exists x, In (WOpenFailed a x) lines).
Proof.
  intros W iterate fuel os mw filters links st addrs f db w lines e f1 db1 w1 K Hi H0 H. unfold iwalk, pbind in H. rewrite Hi in H.
  destruct (walk_all (db_opener fuel os mw filters) links addrs ((f, db), w)) as [[l| |] w3] eqn:E; try discriminate. unfold pret in H.
  apply pair_equal_spec in H. destruct H as [H ->]. injection H as -> _. eapply walk_knows; eassumption.
Qed.

(** A walk over a dimmer that answers and a device that refuses. *)
Example C64_ex : exists lines db w,
  iwalk (pret ([0x010203; 0x040506], None)) ex_open (fun _ => pret ([], None))
    ((None, new_memdb), [ex_ack 0x0d02; ex_ack 0x1000; (Some (mkMsg 0x010203 0x012041 0x8b 0x080100 []), None); (None, Some EDevReadTimeout)])
    = (Ret (lines, None), (db, w)) /\
  lines = [WQuery 0x010203; WQuery 0x040506; WOpenFailed 0x040506 EDevReadTimeout] /\ knows (snd db) 0x010203 /\ ~ knows (snd db) 0x040506.
Proof.
  eexists _, _, _. split; [vm_compute; reflexivity|]. split; [reflexivity|]. cbn [snd]. unfold knows, db_map. cbn [db_values]. split.
  - eexists. left. reflexivity.
  - intros (i & [H|[]]). discriminate H.
Qed.
Example C64_ex_keeps : keeps_database (W := list mresult) (fun _ => pret ([], None)).
Proof. intros d st r st' H. unfold pret in H. apply pair_equal_spec in H. destruct H as [_ <-]. reflexivity. Qed.
Example C64_ex_report : tstatus_ok (mkTS 71 40 68 2 0 1 2) /\
  therm_text (mkTS 71 40 68 2 0 1 2) = unlines [zs "Temperature: 71 " ++ [194; 176; 70]; zs "   Humidity: 40%"; zs "   Setpoint: 68 " ++ [194; 176; 70];
    zs "   Deadband: 2"; zs "       Mode: Heat Mode"; zs "      State: heating"].
Proof. split; [unfold tstatus_ok, is_byte; cbn; lia|vm_compute; reflexivity]. Qed.
(** The reports of a dimmer and of a modem with one record, and the walk above. *)
Example C64_device_info_case : exists s, ic_device (ex_at_once ex_dimmer) (fun _ => pret ([mkLink 0xe2 1 0x0a0b0c 1 2 3], None)) 0x010203 DInfo [] = (Ret (s, None), []) /\
  forall out, terminal s out -> terminal s out -> exists l, Permutation [mkLink 0xe2 1 0x0a0b0c 1 2 3] l /\ Forall2 record_alike [mkLink 0xe2 1 0x0a0b0c 1 2 3] l.
Proof.
  assert (Hi : info_shown_ok (bd_info ex_dimmer)) by (unfold info_shown_ok, is_byte; cbn; lia).
  assert (Hl : Forall link_ok [mkLink 0xe2 1 0x0a0b0c 1 2 3]) by (repeat constructor; cbn; lia).
  pose proof (fun out => C64_device_info _ (ex_at_once ex_dimmer) (fun _ => pret ([mkLink 0xe2 1 0x0a0b0c 1 2 3], None)) 0x010203 [] ex_dimmer [] _ [] 0x010203 [] ex_dimmer [] _ [] out
    eq_refl eq_refl Hi Hl eq_refl eq_refl Hi Hl) as H.
  destruct (H []) as (s & _ & E & _). exists s. split; [exact E|]. intros out Ht _. destruct (H out) as (s1 & s2 & E1 & E2 & K).
  assert (s1 = s) by congruence. assert (s2 = s) by congruence. subst s1 s2. apply (K Ht Ht).
Qed.
Definition ex_config : list mresult := [ex_ack 0x2e00; (Some (mkMsg 0x010203 0x0a0b0c 0x1b 0x012e00 [1; 0; 0; 0; 3; 4; 31; 255; 40; 0; 0; 0; 0; 0]), None); ex_ack 0x1f01; ex_ack 0x1f02; ex_ack 0x1f03; ex_ack 0x1f04; ex_ack 0x1f05].
Example C64_dimmer_config_case : exists c w2 lf w3 s, dimmer_config 5 (bd_info ex_dimmer) (bd_writer ex_dimmer) ex_config = (Ret (c, None), w2) /\
  switch_operating_flags (bd_info ex_dimmer) (bd_writer ex_dimmer) w2 = (Ret (lf, None), w3) /\ is_byte (dc_house c) /\ is_byte (dc_unit c) /\
  ic_dimmer 5 (ex_at_once ex_dimmer) 0x010203 MConfig ex_config = (Ret (s, None), w3) /\ c = mkDC 3 4 31 255 40 /\ lf = [1; 2; 3; 4; 5].
Proof.
  eexists _, _, _, _, _. split; [vm_compute; reflexivity|]. split; [vm_compute; reflexivity|]. unfold is_byte. cbn [dc_house dc_unit].
  split; [lia|]. split; [lia|]. split; [vm_compute; reflexivity|]. split; reflexivity.
Qed.
Example C64_modem_info_case : exists s, plm_info_cmd (W := unit) (pret (Some (mkInfo 0x112233 3 0x15 0x9b), None)) (pret (0x48, None)) (pret ([mkLink 0xe2 1 0x0a0b0c 1 2 3], None)) tt = (Ret (s, None), tt) /\
  forall out i c, terminal s out -> plm_info_ok i -> is_byte c -> (exists s', plm_info_cmd (W := unit) (pret (Some i, None)) (pret (c, None)) (pret ([], None)) tt = (Ret (s', None), tt) /\ terminal s' out) -> False.
Proof.
  eexists. split; [reflexivity|]. intros out i c Ht Hi Hc (s' & E & Ht').
  destruct (C64_modem_info (option link) (fun w => (Ret (Some (match w with Some _ => mkInfo 0x112233 3 0x15 0x9b | None => i end), None), w)) (fun w => (Ret (match w with Some _ => 0x48 | None => c end, None), w))
    (fun w => (Ret (match w with Some l => [l] | None => [] end, None), w)) (Some (mkLink 0xe2 1 0x0a0b0c 1 2 3)) (mkInfo 0x112233 3 0x15 0x9b) (Some (mkLink 0xe2 1 0x0a0b0c 1 2 3)) 0x48 (Some (mkLink 0xe2 1 0x0a0b0c 1 2 3)) [mkLink 0xe2 1 0x0a0b0c 1 2 3]
    (Some (mkLink 0xe2 1 0x0a0b0c 1 2 3)) None i None c None [] None out eq_refl eq_refl eq_refl)
    as (s1 & s2 & E1 & E2 & K); [| | |reflexivity|reflexivity|reflexivity|exact Hi|exact Hc|constructor|].
  - unfold plm_info_ok, is_byte. cbn. lia.
  - unfold is_byte. lia.
  - repeat constructor; cbn; lia.
  - injection E1 as E1. injection E2 as E2. injection E as E. subst s1 s2 s'. destruct (K Ht Ht') as (_ & _ & l & P & F). apply Permutation_nil in P. subst l. inversion F.
Qed.
Example C64_walk_stores_case : exists lines f1 db1 w1,
  iwalk (pret ([0x010203; 0x040506], None)) ex_open (fun _ => pret ([], None))
    ((None, new_memdb), [ex_ack 0x0d02; ex_ack 0x1000; (Some (mkMsg 0x010203 0x012041 0x8b 0x080100 []), None); (None, Some EDevReadTimeout)]) = (Ret (lines, None), ((f1, db1), w1)) /\
  forall a, In a [0x010203; 0x040506] -> knows db1 a \/ exists x, In (WOpenFailed a x) lines.
Proof.
  destruct (iwalk (pret ([0x010203; 0x040506], None)) ex_open (fun _ => pret ([], None))
    ((None, new_memdb), [ex_ack 0x0d02; ex_ack 0x1000; (Some (mkMsg 0x010203 0x012041 0x8b 0x080100 []), None); (None, Some EDevReadTimeout)])) as [r [[f1 db1] w1]] eqn:E.
  assert (Hr : exists lines, r = Ret (lines, None)) by (apply (f_equal fst) in E; vm_compute in E; eexists; symmetry; exact E). destruct Hr as [lines ->].
  exists lines, f1, db1, w1. split; [reflexivity|].
  refine (proj2 (C64_walk_stores _ (pret ([0x010203; 0x040506], None)) 5 ex_os script_mw [] (fun _ => pret ([], None)) _ _ _ _ _ _ _ _ _ _ C64_ex_keeps eq_refl _ E)).
  cbn [In]. lia.
Qed.

Print Assumptions C64_device_info.
Print Assumptions C64_device_info_refuted.
Print Assumptions C64_dimmer_config.
Print Assumptions C64_thermostat_report.
Print Assumptions C64_modem_info_errors.
Print Assumptions C64_modem_info.
Print Assumptions C64_log_flags.
Print Assumptions C64_quiet_refuted.
Print Assumptions C64_walk_lines.
Print Assumptions C64_walk_stores.
