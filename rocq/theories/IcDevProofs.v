(** Proofs for C64: reports on the terminal, walks over all devices. *)
From Coq Require Import ZArith List Bool Lia ZifyBool ZifyNat String Permutation.
From Verif Require Import GoBase GoLemmas GoProg GoText GoJson Address Command Message MessageSpec MsgWriter BasicDevice Lights Thermostat DevReqSpec Query Database DatabaseSpec DatabaseProofs Link LinkText LinkProofs Plm Display DisplaySpec DisplayProofs DisplayProofs2 IcDev IcDevSpec Props_Lights Props_Device.
Import ListNotations.
Open Scope Z_scope.
Ltac Zify.zify_post_hook ::= Z.div_mod_to_equations.

(** ** Lines *)
Definition nonl (c : Z) : Prop := c <> 10.
Lemma nonl_zs : forall s, forallb (fun c => negb (c =? 10)) (zs s) = true -> Forall nonl (zs s).
Proof. intros s H. rewrite forallb_forall in H. rewrite Forall_forall. intros c Hc Hn. specialize (H c Hc). unfold nonl in *. lia. Qed.
Lemma nonl_num : forall n, Forall nonl (fmt_int n).
Proof. intro n. eapply Forall_impl; [|apply fmt_int_num]. unfold is_num, is_dec, nonl. intros; lia. Qed.
Lemma nonl_hex : forall n, 0 <= n -> nonl (hex_char n).
Proof. intros n Hn. unfold nonl, hex_char. destruct (n <? 10); lia. Qed.
Lemma nonl_02x : forall b, 0 <= b -> Forall nonl (fmt_02x b).
Proof. intros b Hb. unfold fmt_02x. repeat constructor; apply nonl_hex; lia. Qed.
Lemma nonl_addr : forall a, Forall nonl (addr_string a).
Proof. intro a. unfold addr_string. pose proof (fun x => Z.mod_pos_bound x 256) as B. repeat (apply Forall_app; split); try (apply nonl_02x; unfold byte_of; apply B; lia); (constructor; [unfold nonl, ch_dot; lia|constructor]). Qed.
Lemma line_cut : forall a b r s, Forall nonl a -> Forall nonl b -> (a ++ [ch_nl]) ++ r = (b ++ [ch_nl]) ++ s -> a = b /\ r = s.
Proof.
  intros a b r s Ha Hb H. rewrite <- !app_assoc in H. cbn [app] in H. apply (until_cut nonl) in H; try assumption; try (unfold nonl, ch_nl; lia).
  destruct H as [H1 H2]. split; [exact H1|]. apply (f_equal (@tl Z)) in H2. exact H2.
Qed.
Lemma unlines_cons : forall l ls, unlines (l :: ls) = (l ++ [ch_nl]) ++ unlines ls.
Proof. reflexivity. Qed.
Lemma unlines_nil : unlines [] = [].
Proof. reflexivity. Qed.
(** One step down a pair of texts made of lines. *)
Ltac nonl := lazymatch goal with
  | |- Forall nonl (fmt_02x _) => apply nonl_02x; unfold is_byte in *; lia
  | |- Forall nonl (fmt_int _) => apply nonl_num
  | |- Forall nonl (addr_string _) => apply nonl_addr
  | |- Forall nonl (zs _) => apply nonl_zs; vm_compute; reflexivity
  | |- Forall nonl (_ ++ _) => apply Forall_app; split; nonl
  | |- _ => idtac end.
Ltac line H E := rewrite !unlines_cons in H; rewrite <- !(app_assoc (_ ++ [ch_nl])) in H; apply line_cut in H; [destruct H as [E H]|nonl..].

Lemma ev_inj : forall a b, 0 <= a <= 2 -> 0 <= b <= 2 -> ev_string a = ev_string b -> a = b.
Proof.
  intros a b Ha Hb H. assert (A : a = 0 \/ a = 1 \/ a = 2) by lia. assert (B : b = 0 \/ b = 1 \/ b = 2) by lia.
  destruct A as [->|[->| ->]]; destruct B as [->|[->| ->]]; try reflexivity; vm_compute in H; discriminate H.
Qed.
Lemma nonl_ev : forall a, Forall nonl (ev_string a).
Proof. intro a. unfold ev_string. repeat match goal with |- context [if ?b then _ else _] => destruct b end; apply nonl_zs; vm_compute; reflexivity. Qed.
Lemma devcat_inj : forall a b c d, is_byte a -> is_byte b -> is_byte c -> is_byte d -> devcat_string a b = devcat_string c d -> a = c /\ b = d.
Proof.
  intros a b c d Ha Hb Hc Hd H. unfold devcat_string in H. apply fmt_02x_cut in H; try assumption. destruct H as [-> H].
  apply app_inv_head in H. split; [reflexivity|]. apply fmt_02x_inj; assumption.
Qed.
Lemma nonl_devcat : forall a b, 0 <= a -> 0 <= b -> Forall nonl (devcat_string a b).
Proof. intros a b Ha Hb. unfold devcat_string. nonl. Qed.
Lemma nonl_kind : forall i, Forall nonl (kind_string i).
Proof.
  intro i. unfold kind_string, basic_string, dimmer_string, switch_string, therm_string.
  destruct (dev_lookup i); nonl; apply nonl_ev.
Qed.
Lemma kind_addr : forall i j, info_shown_ok i -> info_shown_ok j -> di_dc0 i <> 5 -> di_dc0 i = di_dc0 j -> di_dc1 i = di_dc1 j -> di_engine i = di_engine j ->
  kind_string i = kind_string j -> di_addr i = di_addr j.
Proof.
  intros i j Hi Hj Ht E0 E1 Ee H. unfold info_shown_ok in *. unfold kind_string, dev_lookup in H. rewrite <- E0, <- E1 in H.
  assert (A : forall a b, a = di_addr i -> b = di_addr j -> addr_string a = addr_string b -> di_addr i = di_addr j)
    by (intros a b -> -> X; apply addr_string_inj; unfold word24; (lia || exact X)).
  destruct (di_dc0 i =? 1); [unfold dimmer_string in H; apply app_inv_head, app_inv_tail in H; eapply A; eauto|].
  destruct (di_dc0 i =? 2); [destruct (di_dc1 i =? 8); unfold switch_string in H; apply app_inv_head, app_inv_tail in H; eapply A; eauto|].
  destruct (Z.eqb_spec (di_dc0 i) 5); [contradiction|]. unfold basic_string in H. rewrite Ee in H. apply app_inv_head, app_inv_head, app_inv_tail in H.
  eapply A; eauto.
Qed.

(** The heading of [device info]. *)
Definition info_head (name : list Z) (i : dinfo) (more : list (list Z)) : list Z := unlines
  ([ zs "       Device: " ++ name; zs "       Engine: " ++ ev_string (di_engine i)
   ; zs "     Category: " ++ devcat_string (di_dc0 i) (di_dc1 i); zs "     Firmware: " ++ fw_string (di_fw i) ] ++ more).
Lemma info_head_cut : forall n m i j r s, Forall nonl n -> Forall nonl m -> info_shown_ok i -> info_shown_ok j ->
  info_head n i [] ++ r = info_head m j [] ++ s ->
  n = m /\ di_engine i = di_engine j /\ di_dc0 i = di_dc0 j /\ di_dc1 i = di_dc1 j /\ di_fw i = di_fw j /\ r = s.
Proof.
  intros n m i j r s Hn Hm Hi Hj H. unfold info_head in H. cbn [app] in H. unfold info_shown_ok in *.
  rewrite !unlines_cons, unlines_nil, !app_nil_r in H. rewrite <- !(app_assoc (_ ++ [ch_nl])) in H.
  apply line_cut in H; [|nonl; assumption..]. destruct H as [E1 H].
  apply line_cut in H; [|nonl; apply nonl_ev..]. destruct H as [E2 H].
  apply line_cut in H; [|nonl; apply nonl_devcat; unfold is_byte in *; lia..]. destruct H as [E3 H].
  apply line_cut in H; [|unfold fw_string; nonl..]. destruct H as [E4 H].
  apply app_inv_head in E1, E2, E3, E4. split; [exact E1|]. split; [apply ev_inj; (lia || exact E2)|].
  apply devcat_inj in E3; try tauto. destruct E3 as [D0 D1]. split; [exact D0|]. split; [exact D1|].
  split; [apply fmt_int_inj; exact E4|]. exact H.
Qed.

(** ** Configuration of a dimmer *)
Lemma bool_string_inj : forall a b, bool_string a = bool_string b -> a = b.
Proof. intros [] [] H; try reflexivity; vm_compute in H; discriminate H. Qed.
Lemma nonl_bool : forall b, Forall nonl (bool_string b).
Proof. intros []; apply nonl_zs; vm_compute; reflexivity. Qed.
Lemma dim_config_cut : forall c d r s,
  is_byte (dc_house c) -> is_byte (dc_unit c) -> is_byte (dc_house d) -> is_byte (dc_unit d) ->
  dim_config_text c ++ r = dim_config_text d ++ s -> c = d /\ r = s.
Proof.
  intros [h u a l t] [h' u' a' l' t'] r s Hh Hu Hh' Hu' H. cbn [dc_house dc_unit] in *. unfold dim_config_text in H. cbn [dc_house dc_unit dc_ramp dc_level dc_snt] in H.
  rewrite !unlines_cons, unlines_nil, !app_nil_r in H. rewrite <- !(app_assoc (_ ++ [ch_nl])) in H.
  apply line_cut in H; [|nonl..]. destruct H as [E1 H]. apply line_cut in H; [|nonl..]. destruct H as [E2 H].
  apply line_cut in H; [|nonl..]. destruct H as [E3 H]. apply line_cut in H; [|nonl..]. destruct H as [E4 H].
  apply app_inv_head in E1, E2, E3, E4. apply fmt_02x_cut in E1; try assumption. destruct E1 as [-> E1]. apply app_inv_head, fmt_02x_inj in E1; try assumption.
  apply fmt_int_inj in E2, E3, E4. subst. split; reflexivity || exact H.
Qed.
Lemma dim_flags_cut : forall a b r s, dim_flags_text a ++ r = dim_flags_text b ++ s -> same_flags a b /\ r = s.
Proof.
  intros a b r s H. unfold dim_flags_text in H. rewrite !unlines_cons, unlines_nil, !app_nil_r in H. rewrite <- !(app_assoc (_ ++ [ch_nl])) in H.
  do 10 (let E := fresh "E" in apply line_cut in H; [destruct H as [E H]; apply app_inv_head in E|nonl; apply nonl_bool..]).
  pose proof (C45_flag_bits a) as (A1 & A2 & A3 & A4 & A5 & A6 & A7 & A8 & A9 & A10).
  pose proof (C45_flag_bits b) as (B1 & B2 & B3 & B4 & B5 & B6 & B7 & B8 & B9 & B10).
  apply bool_string_inj in E, E0, E1, E2, E3, E6, E7, E8. apply fmt_int_inj in E4, E5.
  split; [|exact H]. unfold same_flags. cbn [In]. repeat apply conj; try congruence.
  - intros k [<-|[<-|[<-|[]]]]; congruence.
  - intros k [<-|[<-|[<-|[<-|[]]]]]; try congruence. rewrite A6, B6 in E6. destruct (Z.testbit (nth 4 a 0) 0), (Z.testbit (nth 4 b 0) 0); cbn in E6; congruence.
Qed.

(** ** Opening through the file database *)
Lemma save_keeps : forall os f db err f1 db1 e, filedb_save os f db err = (f1, db1, e) -> db_map db1 = db_map db.
Proof.
  intros os f db err f1 db1 e H. unfold filedb_save in H. destruct err; [apply pair_equal_spec in H; destruct H as [H _]; injection H as _ ->; reflexivity|].
  destruct (db_dirty db) eqn:Ed; [|apply pair_equal_spec in H; destruct H as [H _]; injection H as _ ->; reflexivity].
  unfold save_db, db_needs_saving, db_save in H. rewrite Ed in H.
  destruct (os_open os); [|destruct (snd (os_write os))]; apply pair_equal_spec in H; destruct H as [H _]; injection H as _ <-; reflexivity.
Qed.
Lemma mset_knows : forall m a v b i, In (b, i) m -> exists j, In (b, j) (mset m a v).
Proof.
  induction m as [|[k u] m IH]; intros a v b i Hin; [destruct Hin|]. cbn [mset]. destruct (Z.eqb_spec k a) as [->|Hk].
  - destruct Hin as [E|Hin]; [injection E as <- _; exists v; left; reflexivity|exists i; right; exact Hin].
  - destruct Hin as [E|Hin]; [exists u; left; congruence|]. destruct (IH a v b i Hin) as (j & Hj). exists j. right. exact Hj.
Qed.
Lemma mset_in : forall m a v, In (a, v) (mset m a v).
Proof. induction m as [|[k u] m IH]; intros a v; cbn [mset]; [left; reflexivity|]. destruct (Z.eqb_spec k a) as [->|_]; [left; reflexivity|right; apply IH]. Qed.
Lemma mget_in : forall m a i, mget m a = Some i -> In (a, i) m.
Proof.
  intros m a i H. unfold mget in H. destruct (find _ m) as [[k v]|] eqn:E; [|discriminate]. apply find_some in E. destruct E as [Hin Hk].
  cbn [fst snd] in *. injection H as <-. apply Z.eqb_eq in Hk. subst k. exact Hin.
Qed.
Lemma open_knows : forall W fuel os (mw : mwriter W) filters a f db w dev err f1 db1 w1, a <> 0 ->
  db_opener fuel os mw filters a ((f, db), w) = (Ret (dev, err), ((f1, db1), w1)) ->
  (forall b, knows db b -> knows db1 b) /\ (err = None -> knows db1 a).
Proof.
  intros W fuel os mw filters a f db w dev err f1 db1 w1 Ha H. unfold db_opener, filedb_open, pbind in H.
  destruct (memdb_open fuel db mw a [] w) as [[[[d db2] e]| |] w2] eqn:E; try discriminate.
  destruct (filedb_save os f db2 e) as [[f3 db3] e3] eqn:Es. unfold pret in H.
  apply pair_equal_spec in H. destruct H as [H1 H2]. injection H1 as _ He. injection H2 as Hf Hd _. subst e3 f3 db3.
  pose proof (save_keeps _ _ _ _ _ _ _ Es) as Hm. unfold knows. rewrite Hm.
  assert (He : err = None -> e = None).
  { intros ->. unfold filedb_save in Es. destruct e; [|reflexivity]. apply pair_equal_spec in Es. destruct Es; discriminate. }
  clear Es Hm. unfold memdb_open in E. unfold db_get in E. destruct (mget (db_map db) a) as [i|] eqn:G.
  - unfold pret in E. apply pair_equal_spec in E. destruct E as [E _]. injection E as _ <- <-. split; [auto|]. intros _. exists i. apply mget_in. exact G.
  - unfold pbind in E. destruct (dev_open_filters fuel mw a [] w) as [[[[d1 info] [x|]]| |] w3] eqn:Eo; try discriminate.
    + unfold pret in E. apply pair_equal_spec in E. destruct E as [E _]. injection E as _ <- <-. split; [auto|]. intro X. specialize (He X). discriminate.
    + assert (Hi : di_addr info = a).
      { unfold dev_open_filters, pbind in Eo. cbn [apply_filters fold_left] in Eo. destruct (dev_open fuel mw a w) as [[[[d2 i2] e2]| |] w4] eqn:Ed; try discriminate.
        unfold pret in Eo. apply pair_equal_spec in Eo. destruct Eo as [Eo _]. injection Eo as _ <- _. exact (proj1 (C43_handle _ _ _ _ _ _ _ _ _ Ed)). }
      unfold plift in E. destruct (db_put db info) as [db4| |] eqn:Ep; try discriminate. unfold pret in E.
      apply pair_equal_spec in E. destruct E as [E _]. injection E as _ <- _.
      unfold db_put, db_get in Ep. rewrite Hi, G in Ep. cbn [fst] in Ep.
      assert (Hz : dinfo_eqb dinfo_zero info = false). { unfold dinfo_eqb, dinfo_zero. cbn [di_addr]. lia. }
      rewrite Hz in Ep. unfold db_map in *. destruct (db_values db) as [m|]; [|discriminate]. injection Ep as <-. cbn [db_values].
      split; [|intros _; exists info; apply mset_in].
      intros b (i & Hb). destruct (mset_knows m a info b i Hb) as (j & Hj). exists j. exact Hj.
Qed.

(** ** Thermostat report *)
Lemma unit_inj : forall a b, is_byte a -> is_byte b -> name_of (unit_string a) = name_of (unit_string b) -> a = b.
Proof.
  intros a b Ha Hb H. pose proof (sweep2 (fun a b => Bool.eqb (bytes_eqb (name_of (unit_string a)) (name_of (unit_string b))) (a =? b)) ltac:(vm_compute; reflexivity) a b Ha Hb) as S.
  apply Bool.eqb_prop in S. rewrite H, (proj2 (bytes_eqb_eq _ _) eq_refl) in S. lia.
Qed.
Lemma tmode_inj : forall a b, is_byte a -> is_byte b -> name_of (tmode_string a) = name_of (tmode_string b) -> a = b.
Proof.
  intros a b Ha Hb H. pose proof (sweep2 (fun a b => Bool.eqb (bytes_eqb (name_of (tmode_string a)) (name_of (tmode_string b))) (a =? b)) ltac:(vm_compute; reflexivity) a b Ha Hb) as S.
  apply Bool.eqb_prop in S. rewrite H, (proj2 (bytes_eqb_eq _ _) eq_refl) in S. lia.
Qed.
Lemma forallb_nonl : forall l, forallb (fun c => negb (c =? 10)) l = true -> Forall nonl l.
Proof. intros l H. rewrite forallb_forall in H. rewrite Forall_forall. intros c Hc. specialize (H c Hc). unfold nonl. lia. Qed.
Lemma nonl_unit : forall a, is_byte a -> Forall nonl (name_of (unit_string a)).
Proof. intros a Ha. apply forallb_nonl. exact (sweep1 (fun a => forallb (fun c => negb (c =? 10)) (name_of (unit_string a))) ltac:(vm_compute; reflexivity) a Ha). Qed.
Lemma nonl_tmode : forall a, is_byte a -> Forall nonl (name_of (tmode_string a)).
Proof. intros a Ha. apply forallb_nonl. exact (sweep1 (fun a => forallb (fun c => negb (c =? 10)) (name_of (tmode_string a))) ltac:(vm_compute; reflexivity) a Ha). Qed.
Lemma nonl_es : forall a, is_byte a -> Forall nonl (es_string a).
Proof. intros a Ha. apply forallb_nonl. exact (sweep1 (fun a => forallb (fun c => negb (c =? 10)) (es_string a)) ltac:(vm_compute; reflexivity) a Ha). Qed.
Lemma nonl_cfg : forall a, is_byte a -> Forall nonl (cfg_string a).
Proof. intros a Ha. apply forallb_nonl. exact (sweep1 (fun a => forallb (fun c => negb (c =? 10)) (cfg_string a)) ltac:(vm_compute; reflexivity) a Ha). Qed.
Lemma num_cut : forall a b c x y, ~ is_num c -> fmt_int a ++ c :: x = fmt_int b ++ c :: y -> a = b /\ x = y.
Proof.
  intros a b c x y Hc H. apply (until_cut is_num) in H; try apply fmt_int_num; try exact Hc. destruct H as [H1 H2].
  split; [apply fmt_int_inj; exact H1|]. apply (f_equal (@tl Z)) in H2. exact H2.
Qed.
Lemma therm_text_alike : forall s t, tstatus_ok s -> tstatus_ok t -> therm_text s = therm_text t -> tstatus_alike s t.
Proof.
  intros [a h p b u m e] [a' h' p' b' u' m' e'] (Hu & Hm & He) (Hu' & Hm' & He') H. unfold tstatus_alike, therm_text in *.
  cbn [ts_temp ts_humidity ts_setpoint ts_deadband ts_unit ts_mode ts_state] in *.
  rewrite !unlines_cons, unlines_nil in H.
  do 6 (let E := fresh "E" in apply line_cut in H; [destruct H as [E H]; apply app_inv_head in E|nonl; (apply nonl_unit || apply nonl_tmode || apply nonl_es); assumption..]).
  change (zs " ") with [32] in *. change (zs "%") with [37] in *. cbn [app] in E, E0, E1.
  assert (N : ~ is_num 32) by (unfold is_num, is_dec; lia). assert (P : ~ is_num 37) by (unfold is_num, is_dec; lia).
  apply num_cut in E; [|exact N]. apply num_cut in E0; [|exact P]. apply num_cut in E1; [|exact N].
  destruct E as [Ea Eu], E0 as [Eh _], E1 as [Ep _]. apply fmt_int_inj in E2. apply unit_inj in Eu; try assumption. apply tmode_inj in E3; try assumption.
  apply es_alike in E4; try assumption. auto 10.
Qed.

(** ** Walks *)
Lemma walk_blocks : forall W (open : dev_opener W) links addrs w lines w', walk_all open links addrs w = (Ret lines, w') ->
  exists blocks, Forall2 walk_block addrs blocks /\ lines = List.concat blocks.
Proof.
  intros W open links. induction addrs as [|a t IH]; intros w lines w' H; cbn [walk_all] in H.
  - unfold pret in H. injection H as <- _. exists []. split; [constructor|reflexivity].
  - unfold pbind in H. destruct (walk_one open links a w) as [[l1| |] w1] eqn:E1; try discriminate.
    destruct (walk_all open links t w1) as [[l2| |] w2] eqn:E2; try discriminate. unfold pret in H. injection H as <- _.
    destruct (IH _ _ _ E2) as (bs & Hb & ->). exists (l1 :: bs). split; [|reflexivity]. constructor; [|exact Hb].
    unfold walk_one, pbind in E1. destruct (open a w) as [[[dev [x|]]| |] w3]; try discriminate.
    + unfold pret in E1. injection E1 as <- _. right. exists x. right. reflexivity.
    + destruct dev as [d|]; [|discriminate]. destruct (links d w3) as [[[ls [x|]]| |] w4]; try discriminate; unfold pret in E1; injection E1 as <- _;
        [right; exists x; left; reflexivity|left; reflexivity].
Qed.
Lemma walk_knows : forall W fuel os (mw : mwriter W) filters links, keeps_database links -> forall addrs f db w lines f1 db1 w1,
  walk_all (db_opener fuel os mw filters) links addrs ((f, db), w) = (Ret lines, ((f1, db1), w1)) -> ~ In 0 addrs ->
  (forall b, knows db b -> knows db1 b) /\ (forall a, In a addrs -> knows db1 a \/ exists e, In (WOpenFailed a e) lines).
Proof.
  intros W fuel os mw filters links K. induction addrs as [|a t IH]; intros f db w lines f1 db1 w1 H H0; cbn [walk_all] in H.
  - unfold pret in H. apply pair_equal_spec in H. destruct H as [_ H]. injection H as _ <- _. split; [auto|intros a []].
  - unfold pbind in H. destruct (walk_one _ links a ((f, db), w)) as [[l1| |] st2] eqn:E1; try discriminate.
    destruct (walk_all _ links t st2) as [[l2| |] st3] eqn:E2; try discriminate. unfold pret in H.
    apply pair_equal_spec in H. destruct H as [H ->]. injection H as <-. destruct st2 as [[f2 db2] w2].
    assert (Ha : a <> 0) by (intros ->; apply H0; left; reflexivity). assert (Ht : ~ In 0 t) by (intro X; apply H0; right; exact X).
    destruct (IH _ _ _ _ _ _ _ E2 Ht) as (I1 & I2).
    unfold walk_one, pbind in E1. destruct (db_opener fuel os mw filters a ((f, db), w)) as [[[dev err]| |] [[f3 db3] w3]] eqn:Eo; try discriminate.
    destruct (open_knows _ _ _ _ _ _ _ _ _ _ _ _ _ _ Ha Eo) as (O1 & O2).
    assert (Hdb : db2 = db3 /\ (err = None \/ exists e, In (WOpenFailed a e) l1)).
    { destruct err as [x|].
      - unfold pret in E1. apply pair_equal_spec in E1. destruct E1 as [E1 E3]. injection E1 as <-. injection E3 as _ <- _.
        split; [reflexivity|]. right. exists x. right. left. reflexivity.
      - destruct dev as [d|]; [|discriminate]. destruct (links d ((f3, db3), w3)) as [[[ls er]| |] st4] eqn:El; try discriminate.
        assert (Hd : exists d0, d = lift_bdev d0).
        { unfold db_opener in Eo. destruct (filedb_open fuel os f db mw a filters w) as [[[[dv fd] er1]| |] w5]; try discriminate.
          apply pair_equal_spec in Eo. destruct Eo as [Eo _]. destruct dv as [d0|]; [|discriminate Eo]. injection Eo as Eo _. exists d0. symmetry. exact Eo. }
        destruct Hd as [d0 ->]. apply K in El. unfold pret in E1. apply pair_equal_spec in E1. destruct E1 as [_ E3]. subst st4. cbn [fst] in El. injection El as _ ->. auto. }
    destruct Hdb as (-> & Hr). split; [intros b Hb; apply I1, O1, Hb|].
    intros b [<-|Hb].
    + destruct Hr as [->|(e & He)]; [left; apply I1, O2; reflexivity|right; exists e; apply in_or_app; left; exact He].
    + destruct (I2 b Hb) as [X|(e & He)]; [left; exact X|right; exists e; apply in_or_app; right; exact He].
Qed.
