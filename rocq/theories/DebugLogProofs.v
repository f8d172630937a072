(** Linking and unlinking with the debug log on. *)
From Coq Require Import ZArith List Bool Lia ZifyBool ZifyNat.
From Verif Require Import GoBase GoProg Address AddressProofs Command Message MessageSpec MessageProofs MsgWriter BasicDevice DeviceSpec DevReqSpec DevReqProofs PlmPacket Plm PlmSpec PlmProofs
  PlmLinkdb PlmLinkdbProofs Query Database DatabaseProofs Link UtilLink LineSpec MovesProofs LineProofs IcCmd IcDev IcDevSpec IcDevProofs IcLine IcWalk WalkSpec WalkProofs
  IcLink LinkLineSpec LinkLineProofs DebugLog DebugLogSpec.
Import ListNotations.
Open Scope Z_scope.
Ltac Zify.zify_post_hook ::= Z.div_mod_to_equations.

(** ** The text of the modem *)
Lemma packet_fuel : forall sc pkt st st', plm_write_packet sc pkt st <> (NoFuel, st').
Proof.
  intros sc pkt st st' H. remember NoFuel as r eqn:Er in H. destruct (write_packet_cases _ _ _ _ _ H) as [e st1 E1|st1 st2 E1 E2|st1 st2 E1 E2|p st1 st2 E1 E2]; try discriminate Er.
  revert Er. unfold judge_ack. repeat match goal with |- context [if ?b then _ else _] => destruct b end; cbn [bindo]; discriminate.
Qed.
Lemma retry_fuel : forall sc n nak pkt last st st', retry_loop (plm_pw sc) n nak pkt last st <> (NoFuel, st').
Proof.
  intros sc n nak pkt. induction n as [|n IH]; intros last st st' H; cbn [retry_loop] in H; [discriminate H|].
  cbn [plm_pw pw_write] in H. destruct (plm_write_packet sc pkt st) as [o st1] eqn:E. destruct o as [[a e]| |]; [|discriminate H|exact (packet_fuel _ _ _ _ E)].
  destruct ((err_is e EPlmNak && nak) || err_is e EPlmReadTimeout); [exact (IH _ _ _ H)|discriminate H].
Qed.
Lemma address_sent : forall P sc st o st', sched_all P sc -> 0 <= p_retries st -> plm_address sc st = (o, st') ->
  o <> NoFuel /\ kept P st st' /\ exists fs, asked (p_retries st) (p_addr st =? 0) fs /\ p_sent st' = p_sent st ++ fs.
Proof.
  intros P sc st o st' Hs Hr H. unfold plm_address in H. destruct (p_addr st =? 0).
  2:{ injection H as <- <-. split; [discriminate|]. split; [apply kept_pre|]. exists []. split; [exists O; split; reflexivity|]. rewrite app_nil_r. reflexivity. }
  destruct (plm_info sc st) as [x s1] eqn:E. unfold plm_info in E.
  destruct (pw_write (retry (plm_pw sc) (p_retries st) true) (mkPkt pc_GetInfo [] 0) st) as [y s2] eqn:E2. unfold retry in E2. cbn [pw_write] in E2.
  pose proof (kept_retry P _ _ _ _ _ _ _ _ Hs E2) as K. destruct (retry_sent _ _ _ _ _ _ _ _ E2) as (k & K1 & K2 & K3). cbn [p_cmd p_payload] in K3.
  assert (Hy : y <> NoFuel) by (intros ->; exact (retry_fuel _ _ _ _ _ _ _ E2)).
  assert (Hx : s1 = s2 /\ x <> NoFuel).
  { destruct y as [[[a|] [e|]]| |]; injection E as <- <-; (split; [reflexivity|]); try discriminate; try congruence.
    unfold info_unmarshal. destruct (p_payload a) as [|? [|? [|? [|? [|? [|? ?]]]]]]; discriminate. }
  destruct Hx as [-> Hx].
  assert (Ho : o <> NoFuel /\ kept P st st' /\ p_sent st' = p_sent s2).
  { destruct x as [[[a|] [e|]]| |]; injection H as <- <-; (split; [discriminate || congruence|]); (split; [|reflexivity]); exact K. }
  destruct Ho as (Ho & Hk & Hse). split; [exact Ho|]. split; [exact Hk|]. exists (repeat ask_modem k). split; [exists k; split; [reflexivity|lia]|]. rewrite Hse. exact K3.
Qed.
Lemma text_modem : forall S P (on : bool) n sc now (s : S) st, sched_all P sc -> 0 <= p_retries st ->
  exists st', log_debug on (modem_lg n sc now) (s, st) = (Ret tt, (s, st')) /\ kept P st st' /\
    exists fs, asked (p_retries st) (on && (p_addr st =? 0)) fs /\ p_sent st' = p_sent st ++ fs.
Proof.
  intros S P on n sc now s st Hs Hr. destruct on; cbn [log_debug andb].
  - cbn [modem_lg lg_text]. unfold psnd, swallow. cbn [fst snd]. destruct (plm_address sc st) as [o st1] eqn:E.
    destruct (address_sent P _ _ _ _ Hs Hr E) as (Ho & Hk & Hf). exists st1. destruct o; [auto|auto|contradiction].
  - exists st. split; [reflexivity|]. split; [apply kept_pre|]. exists []. split; [exists O; split; reflexivity|]. rewrite app_nil_r. reflexivity.
Qed.
(** With a known address, or with the log off, nothing happens. *)
Lemma text_nothing : forall S on n sc now (s : S) st, on = false \/ p_addr st <> 0 -> log_debug on (modem_lg n sc now) (s, st) = (Ret tt, (s, st)).
Proof.
  intros S on n sc now s st H. destruct on; [|reflexivity]. destruct H as [H|H]; [discriminate H|]. cbn [log_debug modem_lg lg_text]. unfold psnd, swallow. cbn [fst snd].
  rewrite address_known by exact H. reflexivity.
Qed.
Lemma log_device : forall W on n now (d : bdev W) w, log_debug on (bdev_lg n now d) w = (Ret tt, w).
Proof. intros W on n now d w. destruct on; reflexivity. Qed.

(** ** Linking: the text of the modem, then as without the log *)
Lemma one_logged : forall W (on : bool) (modem : logged W) (c r : bool) g (d : logged W), (forall w, log_debug on d w = (Ret tt, w)) -> forall w,
  ic_link_one_logged on modem c r g d w = pbind (if c then log_debug on modem else pret tt) (fun _ => ic_link_one (lg_lk modem) c r g (lg_lk d)) w.
Proof.
  intros W on modem c r g d Hd w. unfold ic_link_one_logged, ic_link_one, force_link_logged, pbind. destruct c.
  - destruct (log_debug on modem w) as [[[]| |] w1]; try reflexivity.
    destruct (force_link g (lg_lk modem) (lg_lk d) w1) as [[[e|]| |] w2]; try reflexivity. destruct r; [|reflexivity]. rewrite Hd. reflexivity.
  - unfold pret. destruct r; [|reflexivity]. rewrite Hd. reflexivity.
Qed.
Lemma one_same : forall S (on : bool) fuel n sc now (c r : bool) g i (s : S) st, on = false \/ c = false \/ p_addr st <> 0 ->
  ic_link_one_logged on (modem_lg n sc now) c r g (bdev_lg n now (mkBD i (lift_mw (plm_mw fuel sc)))) (s, st) =
  ic_link_one (modem_lk n sc now) c r g (bdev_lk n now (mkBD i (lift_mw (plm_mw fuel sc)))) (s, st).
Proof.
  intros S on fuel n sc now c r g i s st H. rewrite one_logged by (intro; apply log_device). unfold pbind. destruct c; [|reflexivity].
  rewrite text_nothing by (destruct H as [H|[H|H]]; [auto|discriminate H|auto]). reflexivity.
Qed.

(** Opening leaves the address alone. *)
Definition same_addr (st st' : plm) : Prop := p_addr st' = p_addr st.
Lemma same_pre : preorder same_addr.
Proof. split; unfold same_addr; [reflexivity|congruence]. Qed.
Lemma same_moves : forall fuel sc a, mw_moves same_addr a (plm_mw fuel sc).
Proof.
  intros fuel sc a.
  assert (Hread : forall st r st', plm_read sc st = (r, st') -> same_addr st st').
  { intros st r st' H. unfold plm_read in H. destruct (receive sc QMsg st) as [x s1] eqn:E. apply receive_fields in E. destruct E as (_ & _ & _ & _ & _ & E).
    destruct x; repeat match goal with H : context [match ?y with _ => _ end] |- _ => destruct y end; injection H as _ <-; exact E. }
  assert (Hawait : forall k d st r st', await_ack k sc d st = (r, st') -> same_addr st st').
  { induction k as [|k IH]; intros d st r st' H; cbn [await_ack] in H; [injection H as _ <-; reflexivity|].
    destruct (plm_read sc st) as [x s1] eqn:E. apply Hread in E. destruct x as [[[m|] [e|]]| |]; try (injection H as _ <-; exact E).
    destruct ((m_src m =? d) && (fl_ack (m_flags m) || fl_nak (m_flags m))); [injection H as _ <-; exact E|]. apply IH in H. unfold same_addr in *. congruence. }
  split; [exact Hread|]. intros m _ st r st' H. cbn [plm_mw mw_write] in H. unfold plm_write in H.
  destruct (pw_write (retry (plm_pw sc) (p_retries st) true) (mkPkt pc_SendInsteonMsg (skipn 3 (msg_marshal m)) 0) st) as [x s1] eqn:E.
  destruct (retry_keeps_addr _ _ _ _ _ _ _ E) as [E1 _]. destruct x as [[y [e|]]| |]; try (injection H as _ <-; exact E1). apply Hawait in H. unfold same_addr in *. congruence.
Qed.

Lemma net_link_same : forall (on : bool) fuel n os sc now filters (c r : bool) g addrs f db st, on = false \/ c = false \/ p_addr st <> 0 ->
  Forall (fun a => 0 <= a < 16777216) addrs -> own_addresses db ->
  net_link_logged on fuel n os sc now filters c r g addrs ((f, db), st) = net_link fuel n os sc now filters c r g addrs ((f, db), st).
Proof.
  intros on fuel n os sc now filters c r g addrs f db st H Hadr. revert f db st H. unfold net_link_logged, net_link.
  induction addrs as [|a addrs IH]; intros f db st H Ho; cbn [ic_link_logged ic_link]; [reflexivity|].
  inversion Hadr as [|? ? Ha Hadr']; subst x l. specialize (IH Hadr'). unfold open_lg at 1, open_lk at 1. unfold pbind at 1 2 3 4.
  destruct (db_opener fuel os (plm_mw fuel sc) filters a ((f, db), st)) as [o [[f1 db1] st1]] eqn:E.
  destruct (opener_line _ _ _ _ _ _ _ _ _ _ Ha Ho E) as [_ D1]. pose proof (opener_own _ _ _ _ _ _ _ _ _ _ _ _ Ho E) as Ho1.
  pose proof (opener_moves same_addr _ _ _ _ _ _ _ _ _ _ same_pre (same_moves fuel sc a) E) as A1. cbn [snd] in A1. unfold same_addr in A1.
  destruct o as [[dv er]| |]; try reflexivity. unfold pret at 1 2.
  assert (H1 : on = false \/ c = false \/ p_addr st1 <> 0) by (rewrite A1; exact H).
  assert (Huse : (er = None \/ er = Some EDevNotLinked) ->
    ic_link_one_logged on (modem_lg n sc now) c r g (lg_or_nil (option_map (bdev_lg n now) dv)) (f1, db1, st1) = ic_link_one (modem_lk n sc now) c r g (lk_or_nil (option_map (bdev_lk n now) dv)) (f1, db1, st1)).
  { intro He. destruct (opener_some _ _ _ _ _ _ _ _ _ _ _ E He) as [[i mw] ->]. destruct (D1 _ _ eq_refl) as [_ Hw]. cbn [bd_writer] in Hw. subst mw. apply one_same. exact H1. }
  destruct er as [x|]; [|apply Huse; auto]. destruct x; try (apply IH; assumption). apply Huse; auto.
Qed.

Lemma net_link_logged_line : forall P (on : bool) fuel n os sc now filters (c r : bool) g addrs retries, sched_all P sc -> 0 <= retries -> is_byte g -> (forall q, P q -> bytes_ok (p_payload q)) ->
  Forall (fun a => 0 <= a < 16777216) addrs -> forall f db st e w', own_addresses db -> p_retries st = retries -> queues_all P st ->
  net_link_logged on fuel n os sc now filters c r g addrs ((f, db), st) = (Ret e, w') ->
  exists skipped rest blocks fs, addrs = skipped ++ rest /\ p_sent (snd w') = p_sent st ++ concat blocks ++ fs /\ skipped_blocks skipped blocks /\
    match rest with
    | [] => e = None /\ fs = []
    | a :: _ => exists i opening asks linking, di_addr i = a /\ fs = opening ++ asks ++ linking /\ Forall (frame_to a) opening /\
        asked retries (on && c && (p_addr st =? 0)) asks /\ link_frames retries i c r g e linking /\
        (c = true \/ r = true -> e = None -> (exists p, P p /\ start_taken g p) /\ exists q, P q /\ ack_from a q) /\ lost_start P retries i c r g e linking
    end.
Proof.
  intros P on fuel n os sc now filters c r g addrs retries Hs Hr Hg Hb. unfold net_link_logged. induction addrs as [|a addrs IH]; intros Hadr f db st e w' Ho Hrt Hq H; cbn [ic_link_logged] in H.
  - unfold pret in H. injection H as <- <-. exists [], [], [], []. cbn. rewrite app_nil_r. repeat split; constructor.
  - inversion Hadr as [|? ? Ha Hadr']; subst x l. unfold pbind at 1 in H. unfold open_lg at 1 in H. unfold pbind at 1 in H.
    destruct (db_opener fuel os (plm_mw fuel sc) filters a ((f, db), st)) as [o [[f1 db1] st1]] eqn:E.
    destruct (opener_line _ _ _ _ _ _ _ _ _ _ Ha Ho E) as [(fo & T1 & L1) D1]. cbn [snd] in T1.
    pose proof (opener_own _ _ _ _ _ _ _ _ _ _ _ _ Ho E) as Ho1.
    pose proof (opener_moves same_addr _ _ _ _ _ _ _ _ _ _ same_pre (same_moves fuel sc a) E) as A1. cbn [snd] in A1. unfold same_addr in A1.
    pose proof (opener_moves (kept P) _ _ _ _ _ _ _ _ _ _ (kept_pre P) (kept_moves P fuel sc a Hs) E) as [K1 Q1]. cbn [snd] in K1, Q1. specialize (Q1 Hq). rewrite Hrt in K1.
    destruct o as [[dv er]| |]; try discriminate H. unfold pret at 1 in H.
    assert (Hdone : (er = None \/ er = Some EDevNotLinked) -> ic_link_one_logged on (modem_lg n sc now) c r g (lg_or_nil (option_map (bdev_lg n now) dv)) (f1, db1, st1) = (Ret e, w') ->
      exists skipped rest blocks fs, a :: addrs = skipped ++ rest /\ p_sent (snd w') = p_sent st ++ concat blocks ++ fs /\ skipped_blocks skipped blocks /\
      match rest with
      | [] => e = None /\ fs = []
      | a :: _ => exists i opening asks linking, di_addr i = a /\ fs = opening ++ asks ++ linking /\ Forall (frame_to a) opening /\
          asked retries (on && c && (p_addr st =? 0)) asks /\ link_frames retries i c r g e linking /\
          (c = true \/ r = true -> e = None -> (exists p, P p /\ start_taken g p) /\ exists q, P q /\ ack_from a q) /\ lost_start P retries i c r g e linking
      end).
    { intros He Hl. destruct (opener_some _ _ _ _ _ _ _ _ _ _ _ E He) as [[i mw] ->]. destruct (D1 _ _ eq_refl) as [Hi Hw]. cbn [bd_info bd_writer] in Hi, Hw. subst mw.
      cbn [option_map lg_or_nil] in Hl. rewrite one_logged in Hl by (intro; apply log_device). unfold pbind at 1 in Hl.
      assert (Ht : exists st2, (if c then log_debug on (modem_lg n sc now) else pret tt) (f1, db1, st1) = (Ret tt, ((f1, db1), st2)) /\ kept P st1 st2 /\
        exists fs, asked retries (on && c && (p_addr st =? 0)) fs /\ p_sent st2 = p_sent st1 ++ fs).
      { destruct c.
        - rewrite andb_true_r, <- A1, <- K1. apply (text_modem _ P on n sc now (f1, db1) st1 Hs). lia.
        - exists st1. split; [reflexivity|]. split; [apply kept_pre|]. exists []. rewrite andb_false_r, app_nil_r. split; [exists O; split; reflexivity|reflexivity]. }
      destruct Ht as (st2 & Et & [K2 Q2] & asks & Hask & T2). rewrite Et in Hl. specialize (Q2 Q1). rewrite K1 in K2.
      destruct (link_one_line _ P fuel n now sc retries i c r g _ _ _ _ Hs Hr (eq_ind_r (fun z => 0 <= z < 16777216) Ha Hi) Hg K2 Q2 Hb Hl) as (_ & _ & fs & T3 & G & A).
      exists [], (a :: addrs), [], (fo ++ asks ++ fs). split; [reflexivity|]. split; [rewrite T3, T2, T1; cbn [concat app]; rewrite !app_assoc; reflexivity|]. split; [constructor|].
      exists i, fo, asks, fs. split; [exact Hi|]. split; [reflexivity|]. split; [exact L1|]. split; [exact Hask|]. split; [exact G|]. rewrite Hi in A. exact A. }
    assert (Hskip : forall x, er = Some x -> ic_link_logged on (open_lg n now (db_opener fuel os (plm_mw fuel sc) filters)) (modem_lg n sc now) c r g addrs (f1, db1, st1) = (Ret e, w') ->
      exists skipped rest blocks fs, a :: addrs = skipped ++ rest /\ p_sent (snd w') = p_sent st ++ concat blocks ++ fs /\ skipped_blocks skipped blocks /\
      match rest with
      | [] => e = None /\ fs = []
      | a :: _ => exists i opening asks linking, di_addr i = a /\ fs = opening ++ asks ++ linking /\ Forall (frame_to a) opening /\
          asked retries (on && c && (p_addr st =? 0)) asks /\ link_frames retries i c r g e linking /\
          (c = true \/ r = true -> e = None -> (exists p, P p /\ start_taken g p) /\ exists q, P q /\ ack_from a q) /\ lost_start P retries i c r g e linking
      end).
    { intros x _ Hl. destruct (IH Hadr' _ _ _ _ _ Ho1 K1 Q1 Hl) as (sk & re & bl & fs & A & B & C & D). rewrite A1 in D. exists (a :: sk), re, (fo :: bl), fs.
      split; [cbn [app]; congruence|]. split; [rewrite B, T1; cbn [concat]; rewrite !app_assoc; reflexivity|]. split; [constructor; assumption|exact D]. }
    destruct er as [x|]; [|apply Hdone; auto]. destruct x; try (eapply Hskip; [reflexivity|exact H]). apply Hdone; auto.
Qed.

(** ** Unlinking *)
Lemma unlink_op : forall S P sc retries n now (on : bool) g (c r : logged (S * plm)) F1 F2 F3 F4 A1 A2 (b1 b2 : bool),
  op S P retries F1 A1 (lk_unlink (lg_lk c) g) -> op S P retries F2 A2 (lk_enter (lg_lk r) g) -> op S P retries F3 True (lk_exit (lg_lk c)) -> op S P retries F4 True (lk_exit (lg_lk r)) ->
  sched_all P sc -> 0 <= retries ->
  (if b1 then c = modem_lg n sc now else forall w, log_debug on c w = (Ret tt, w)) -> (if b2 then r = modem_lg n sc now else forall w, log_debug on r w = (Ret tt, w)) ->
  (b1 = false -> forall s st o w', lk_unlink (lg_lk c) g (s, st) = (o, w') -> p_addr (snd w') = p_addr st) ->
  (b1 && b2 = false) ->
  forall s st e w', p_retries st = retries -> queues_all P st -> unlink_logged on g c r (s, st) = (Ret e, w') ->
    fst w' = s /\ exists before fs, asked retries (on && b1 && (p_addr st =? 0)) before /\ p_sent (snd w') = p_sent st ++ before ++ fs /\
      ((e <> None /\ F1 fs) \/ exists f1 m f2 f3 f4, F1 f1 /\ asked retries (on && b2 && (p_addr st =? 0)) m /\ F2 f2 /\ F3 f3 /\ F4 f4 /\ fs = f1 ++ m ++ f2 ++ f3 ++ f4 /\ A1 /\ (e = None -> A2)).
Proof.
  intros S P sc retries n now on g c r F1 F2 F3 F4 A1 A2 b1 b2 O1 O2 O3 O4 Hs Hr Hc Hd Hk Hb s st e w' Hrt Hq H. unfold unlink_logged, pbind in H.
  assert (Htext : forall (x : logged (S * plm)) (b : bool) st, (if b then x = modem_lg n sc now else forall w, log_debug on x w = (Ret tt, w)) -> p_retries st = retries -> exists st', log_debug on x (s, st) = (Ret tt, (s, st')) /\ kept P st st' /\
    exists fs, asked retries (on && b && (p_addr st =? 0)) fs /\ p_sent st' = p_sent st ++ fs /\ (b = false -> st' = st)).
  { intros x b st0 Hx Hrt0. destruct b.
    - subst x. rewrite andb_true_r, <- Hrt0. destruct (text_modem _ P on n sc now s st0 Hs ltac:(lia)) as (st' & X1 & X2 & fs & X3 & X4). exists st'. split; [exact X1|]. split; [exact X2|]. exists fs. split; [exact X3|]. split; [exact X4|discriminate].
    - exists st0. split; [apply Hx|]. split; [apply kept_pre|]. exists []. rewrite andb_false_r, app_nil_r. split; [exists O; split; reflexivity|]. split; reflexivity. }
  destruct (Htext c b1 st Hc Hrt) as (st0 & E0 & [K0 Q0] & before & Hbef & T0 & Y0). rewrite E0 in H. specialize (Q0 Hq). rewrite Hrt in K0.
  destruct (lk_unlink (lg_lk c) g (s, st0)) as [o1 [s1 st1]] eqn:E1. destruct (O1 _ _ _ _ K0 Q0 E1) as (S1 & [K1 Q1] & (f1 & G1 & T1) & B1). cbn [fst snd] in *. subst s1.
  destruct o1 as [[e1|]| |]; try discriminate H.
  - unfold pret in H. injection H as <- <-. cbn [fst snd]. split; [reflexivity|]. exists before, f1. split; [exact Hbef|]. split; [rewrite T1, T0, app_assoc; reflexivity|]. left. split; [discriminate|exact G1].
  - specialize (Q1 Q0). rewrite K0 in K1.
    assert (Hm : exists st1', log_debug on r (s, st1) = (Ret tt, (s, st1')) /\ kept P st1 st1' /\ exists m, asked retries (on && b2 && (p_addr st =? 0)) m /\ p_sent st1' = p_sent st1 ++ m).
    { destruct (Htext r b2 st1 Hd K1) as (st1' & X1 & X2 & m & X3 & X4 & _). exists st1'. split; [exact X1|]. split; [exact X2|]. exists m. split; [|exact X4].
      destruct b1; cbn [andb] in Hb.
      - subst b2. rewrite andb_false_r in *. exact X3.
      - rewrite <- (Y0 eq_refl). rewrite <- (Hk eq_refl _ _ _ _ E1). exact X3. }
    destruct Hm as (st1' & Em & [Km Qm] & m & Hm & Tm). rewrite Em in H. specialize (Qm Q1). rewrite K1 in Km.
    destruct (lk_enter (lg_lk r) g (s, st1')) as [o2 [s2 st2]] eqn:E2. destruct (O2 _ _ _ _ Km Qm E2) as (S2 & [K2 Q2] & (f2 & G2 & T2) & B2). cbn [fst snd] in *. subst s2.
    destruct o2 as [e2| |]; try discriminate H. specialize (Q2 Qm). rewrite Km in K2.
    destruct (lk_exit (lg_lk c) (s, st2)) as [o3 [s3 st3]] eqn:E3. destruct (O3 _ _ _ _ K2 Q2 E3) as (S3 & [K3 Q3] & (f3 & G3 & T3) & _). cbn [fst snd] in *. subst s3.
    destruct o3 as [e3| |]; try discriminate H. specialize (Q3 Q2). rewrite K2 in K3.
    destruct (lk_exit (lg_lk r) (s, st3)) as [o4 [s4 st4]] eqn:E4. destruct (O4 _ _ _ _ K3 Q3 E4) as (S4 & [K4 Q4] & (f4 & G4 & T4) & _). cbn [fst snd] in *. subst s4.
    destruct o4 as [e4| |]; try discriminate H. unfold pret in H. injection H as <- <-. cbn [fst snd]. split; [reflexivity|].
    exists before, (f1 ++ m ++ f2 ++ f3 ++ f4). split; [exact Hbef|]. split; [rewrite T4, T3, T2, Tm, T1, T0, !app_assoc; reflexivity|]. right. exists f1, m, f2, f3, f4. repeat (split; [assumption || reflexivity|]).
    split; [apply B1; reflexivity|]. intros ->. apply B2. reflexivity.
Qed.
Lemma modem_unlink_op : forall S P sc retries g, sched_all P sc ->
  op S P retries (eq [modem_unlink g]) (exists q, P q /\ p_cmd q = 0x64 /\ p_ack q = 0x06 /\ p_payload q = [0xff; g]) (psnd (pdb_enter_unlinking (plm_pw sc) g)).
Proof.
  intros S P sc retries g Hs s st o w' H1 H2 H. destruct (modem_op S P sc Hs retries (mkPkt 0x64 [0xff; g] 0) eq_refl s st o w' H1 H2 H) as (A & B & C & D). split; [exact A|]. split; [exact B|]. split; [exact C|].
  intro Ho. destruct (D Ho) as (q & Hq & (_ & Ha & (Hc & He))). exists q. split; [exact Hq|]. cbn [p_cmd p_payload] in *.
  split; [exact Hc|]. split; [exact Ha|]. destruct He as [He|[He|[[He _]|[_ He]]]]; [lia|lia|lia|exact He].
Qed.
Lemma device_unlink_op : forall S P sc retries fuel i g, sched_all P sc -> 0 <= retries -> 0 <= di_addr i < 16777216 -> is_byte g ->
  op S P retries (device_unlink retries i g) ((forall q, P q -> bytes_ok (p_payload q)) -> exists q, P q /\ ack_from (di_addr i) q) (bd_enter_unlinking i (lift_mw (plm_mw fuel sc)) g).
Proof.
  intros S P sc retries fuel i g Hs Hr Ha Hg. unfold device_unlink. eapply device_op; [exact Hs|exact Hr|exact Ha|]. unfold is_byte in Hg. unfold bd_enter_unlinking, ver_I2Cs.
  destruct (di_engine i =? 2); (apply send_command_sends; [(left; cbn; lia) || (right; split; reflexivity)|rewrite sub_command1; reflexivity|rewrite sub_command2; try reflexivity; lia]).
Qed.
(** Telling a device something leaves the address of the modem alone. *)
Lemma unlink_same_addr : forall S fuel sc i g (s : S) st o w', bd_enter_unlinking i (lift_mw (plm_mw fuel sc)) g (s, st) = (o, w') -> p_addr (snd w') = p_addr st.
Proof.
  intros S fuel sc i g s st o w' H. set (R := fun x y : S * plm => same_addr (snd x) (snd y)).
  assert (HR : preorder R) by (split; unfold R, same_addr; [reflexivity|congruence]).
  assert (Hmw : mw_moves R (di_addr i) (lift_mw (plm_mw fuel sc))) by (apply lift_moves2, same_moves).
  assert (M : moves R (bd_enter_unlinking i (lift_mw (plm_mw fuel sc)) g)) by (apply mv_unenter; assumption).
  exact (M _ _ _ H).
Qed.

(** ** Whatever happens *)
Lemma address_line : forall (Q : list Z -> Prop) sc, Q ask_modem -> moves (line_of Q) (swallow (plm_address sc)).
Proof.
  intros Q sc HQ st o st' H. unfold swallow in H. destruct (plm_address sc st) as [x s0] eqn:E0.
  assert (s0 = st') by (destruct x; injection H as _ <-; reflexivity). subst s0. clear H o. unfold plm_address in E0.
  destruct (p_addr st =? 0); [|injection E0 as _ <-; apply line_of_pre].
  destruct (plm_info sc st) as [y s1] eqn:E. unfold plm_info in E.
  destruct (pw_write (retry (plm_pw sc) (p_retries st) true) (mkPkt pc_GetInfo [] 0) st) as [z s2] eqn:E2. unfold retry in E2. cbn [pw_write] in E2.
  destruct (retry_sent _ _ _ _ _ _ _ _ E2) as (k & _ & _ & K3). cbn [p_cmd p_payload] in K3.
  assert (s1 = s2) by (destruct z as [[[a|] [e|]]| |]; injection E as _ <-; reflexivity). subst s2.
  assert (Hse : p_sent st' = p_sent s1) by (destruct y as [[[a|] [e|]]| |]; injection E0 as _ <-; reflexivity).
  exists (repeat ask_modem k). split; [rewrite Hse; exact K3|]. apply Forall_forall. intros f Hf. apply repeat_spec in Hf. subst f. exact HQ.
Qed.
Lemma net_link_logged_moves : forall (Q : list Z -> Prop) (on : bool) fuel n os sc now filters (c r : bool) g, Q (modem_start g) -> Q modem_stop -> Q ask_modem ->
  forall addrs, Forall (fun a => 0 <= a < 16777216 /\ forall f, frame_to a f -> Q f) addrs ->
  forall f db st o w', own_addresses db -> net_link_logged on fuel n os sc now filters c r g addrs ((f, db), st) = (o, w') -> line_of Q st (snd w') /\ own_addresses (snd (fst w')).
Proof.
  intros Q on fuel n os sc now filters c r g Q1 Q2 Q3. unfold net_link_logged. induction addrs as [|a addrs IH]; intros Hadr f db st o w' Ho H; cbn [ic_link_logged] in H.
  - unfold pret in H. injection H as <- <-. split; [apply line_of_pre|exact Ho].
  - inversion Hadr as [|? ? [Ha HQ] Hadr']; subst x l. unfold pbind at 1 in H. unfold open_lg at 1 in H. unfold pbind at 1 in H.
    destruct (db_opener fuel os (plm_mw fuel sc) filters a ((f, db), st)) as [oo [[f1 db1] st1]] eqn:E.
    destruct (opener_line _ _ _ _ _ _ _ _ _ _ Ha Ho E) as [_ D1].
    pose proof (opener_own _ _ _ _ _ _ _ _ _ _ _ _ Ho E) as Ho1.
    pose proof (opener_moves (line_of Q) _ _ _ _ _ _ _ _ _ _ (line_of_pre Q) (line_of_moves Q fuel sc a Ha HQ) E) as L1. cbn [snd] in L1.
    destruct oo as [[dv er]| |]; try (injection H as _ <-; split; [exact L1|exact Ho1]). unfold pret at 1 in H.
    assert (Huse : (er = None \/ er = Some EDevNotLinked) -> ic_link_one_logged on (modem_lg n sc now) c r g (lg_or_nil (option_map (bdev_lg n now) dv)) (f1, db1, st1) = (o, w') ->
      line_of Q st (snd w') /\ own_addresses (snd (fst w'))).
    { intros He Hl. destruct (opener_some _ _ _ _ _ _ _ _ _ _ _ E He) as [[i mw] ->]. destruct (D1 _ _ eq_refl) as [Hi Hw]. cbn [bd_info bd_writer] in Hi, Hw. subst mw.
      cbn [option_map lg_or_nil] in Hl. rewrite one_logged in Hl by (intro; apply log_device).
      set (R := fun x y : (fstate * memdb) * plm => line_of Q (snd x) (snd y) /\ fst x = fst y).
      assert (HR : preorder R).
      { split; [intro x; split; [apply line_of_pre|reflexivity]|]. intros x y z [X1 X2] [Y1 Y2]. split; [eapply line_of_pre; eassumption|congruence]. }
      assert (Hps : forall A (p : prog plm A), moves (line_of Q) p -> moves R (psnd p)).
      { intros A p Hp [x y] r0 z Hz. unfold psnd in Hz. cbn [fst snd] in Hz. destruct (p y) as [o1 y1] eqn:Ey. injection Hz as _ <-. split; [exact (Hp _ _ _ Ey)|reflexivity]. }
      assert (Hmw : mw_moves R (di_addr i) (lift_mw (plm_mw fuel sc))).
      { rewrite Hi. destruct (line_of_moves Q fuel sc a Ha HQ) as [W1 W2]. split; [apply Hps; exact W1|]. intros m Hm. cbn [lift_mw mw_write]. apply Hps. exact (W2 m Hm). }
      assert (Hmp : forall pkt, pkt_marshal pkt = 0x02 :: p_cmd pkt :: p_payload pkt -> Q (0x02 :: p_cmd pkt :: p_payload pkt) -> moves R (psnd (do (_, err) <- pw_write (plm_pw sc) pkt ;; pret err))).
      { intros pkt Hp1 Hp2. intros [x y] r0 z Hz. pose proof (mv_modem _ Q sc pkt Hp1 Hp2 _ _ _ Hz) as X. split; [exact X|]. unfold psnd in Hz. cbn [fst snd] in Hz.
        match type of Hz with context [pbind ?u ?v y] => destruct (pbind u v y) as [o1 y1] end. injection Hz as _ <-. reflexivity. }
      assert (M1 : moves R (lk_enter (modem_lk n sc now) g)) by (apply (Hmp (mkPkt 0x64 [3; g] 0)); [reflexivity|exact Q1]).
      assert (M2 : moves R (lk_exit (modem_lk n sc now))) by (apply (Hmp (mkPkt 0x65 [] 0)); [reflexivity|exact Q2]).
      assert (M3 : moves R (log_debug on (modem_lg n sc now))).
      { destruct on; cbn [log_debug modem_lg lg_text]; [apply Hps, address_line, Q3|apply mv_ret; exact HR]. }
      assert (N1 : moves R (lk_enter (bdev_lk n now (mkBD i (lift_mw (plm_mw fuel sc)))) g)) by (apply mv_enter; [exact HR|exact Hmw]).
      assert (N2 : moves R (lk_exit (bdev_lk n now (mkBD i (lift_mw (plm_mw fuel sc)))))) by (apply mv_exit; [exact HR|exact Hmw]).
      assert (HM : R (f1, db1, st1) w').
      { revert Hl. apply (fun X : moves R _ => X (f1, db1, st1) o w'). apply mv_bind; [exact HR|destruct c; [exact M3|apply mv_ret; exact HR]|]. intros _.
        unfold ic_link_one. apply mv_bind; [exact HR| |].
        - destruct c; [apply mv_force; assumption|apply mv_ret; exact HR].
        - intros [e|]; [apply mv_ret; exact HR|]. destruct r; [apply mv_force; assumption|apply mv_ret; exact HR]. }
      destruct HM as [X1 X2]. split; [eapply line_of_pre; [exact L1|exact X1]|]. rewrite <- X2. exact Ho1. }
    assert (Hskip : ic_link_logged on (open_lg n now (db_opener fuel os (plm_mw fuel sc) filters)) (modem_lg n sc now) c r g addrs (f1, db1, st1) = (o, w') ->
      line_of Q st (snd w') /\ own_addresses (snd (fst w'))).
    { intro Hl. destruct (IH Hadr' _ _ _ _ _ Ho1 Hl) as [X1 X2]. split; [eapply line_of_pre; [exact L1|exact X1]|exact X2]. }
    destruct er as [x|]; [|apply Huse; auto]. destruct x; try (apply Hskip; exact H). apply Huse; auto.
Qed.
