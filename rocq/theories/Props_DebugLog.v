(** * C84.  What the debug log changes on the serial line. *)
From Coq Require Import ZArith List Bool Lia ZifyBool ZifyNat.
From Verif Require Import GoBase GoProg Address AddressProofs Command Message MessageSpec MsgWriter BasicDevice DeviceSpec DevReqSpec DevReqProofs PlmPacket Plm PlmSpec PlmProofs
  PlmLinkdb Query Database DatabaseProofs Link UtilLink LineSpec MovesProofs LineProofs IcCmd IcDev IcDevSpec IcDevProofs IcLine IcWalk WalkSpec WalkProofs Props_Line Props_Walk
  IcLink LinkLineSpec LinkLineProofs Props_LinkLine DebugLog DebugLogSpec DebugLogProofs.
Import ListNotations.
Open Scope Z_scope.
Ltac Zify.zify_post_hook ::= Z.div_mod_to_equations.

(** The link command as in C68, the debug log on or off.  All is as without it, but for one place: if the log is on, the modem is to be the
    controller and its address is not known yet, then the modem is asked who it is, one to retries+1 times, between opening the device and
    the first start.  The answer to the question, or that there is none, does not stop the linking. *)
Theorem C84_link : forall on fuel n os sc now filters controller responder g addrs f db st e w',
  is_byte g -> Forall (fun a => 0 <= a < 16777216) addrs -> own_addresses db -> 0 <= p_retries st -> all_bytes sc st ->
  net_link_logged on fuel n os sc now filters controller responder g addrs ((f, db), st) = (Ret e, w') ->
  exists skipped rest blocks fs, addrs = skipped ++ rest /\ p_sent (snd w') = p_sent st ++ concat blocks ++ fs /\
    Forall2 (fun a b => Forall (frame_to a) b) skipped blocks /\
    match rest with
    | [] => e = None /\ fs = []
    | a :: _ => exists i opening asks linking, di_addr i = a /\ fs = opening ++ asks ++ linking /\ Forall (frame_to a) opening /\
        asked (p_retries st) (on && controller && (p_addr st =? 0)) asks /\ link_frames (p_retries st) i controller responder g e linking /\
        (controller = true \/ responder = true -> e = None -> (exists p, comes_in sc st p /\ start_taken g p) /\ exists q, comes_in sc st q /\ ack_from a q) /\
        lost_start (comes_in sc st) (p_retries st) i controller responder g e linking
    end.
Proof.
  intros on fuel n os sc now filters controller responder g addrs f db st e w' Hg Ha Ho Hr Hb H.
  destruct (came sc st) as [Hs Hq].
  exact (net_link_logged_line (comes_in sc st) on fuel n os sc now filters controller responder g addrs (p_retries st) Hs Hr Hg Hb Ha f db st e w' Ho eq_refl Hq H).
Qed.

(** With the log off, or the modem not the controller, or its address known: the same run in every respect, the result, the time taken and
    the state of the modem and the database included. *)
Theorem C84_same : forall on fuel n os sc now filters controller responder g addrs f db st,
  on = false \/ controller = false \/ p_addr st <> 0 -> Forall (fun a => 0 <= a < 16777216) addrs -> own_addresses db ->
  net_link_logged on fuel n os sc now filters controller responder g addrs ((f, db), st) = net_link fuel n os sc now filters controller responder g addrs ((f, db), st).
Proof. exact net_link_same. Qed.

(** Whatever happens, a crash included: the frames of linking, and the question to the modem. *)
Theorem C84_any_outcome : forall on fuel n os sc now filters controller responder g addrs f db st r w',
  Forall (fun a => 0 <= a < 16777216) addrs -> own_addresses db ->
  net_link_logged on fuel n os sc now filters controller responder g addrs ((f, db), st) = (r, w') ->
  exists fs, p_sent (snd w') = p_sent st ++ fs /\ Forall (fun fr => linking_frame addrs g fr \/ fr = ask_modem) fs.
Proof.
  intros on fuel n os sc now filters controller responder g addrs f db st r w' Ha Ho H.
  refine (proj1 (net_link_logged_moves (fun fr => linking_frame addrs g fr \/ fr = ask_modem) on fuel n os sc now filters controller responder g _ _ _ addrs _ f db st r w' Ho H)).
  - left. right. left. reflexivity.
  - left. right. right. reflexivity.
  - right. reflexivity.
  - rewrite Forall_forall in *. intros a Hin. split; [exact (Ha _ Hin)|]. intros fr Hf. left. left. exists a. auto.
Qed.
(** A device command when the user may be asked whether to link, and may agree. *)
Theorem C84_agreed : forall on fuel n now os sc filters ask yes a f db st r f' db' st',
  0 <= a < 16777216 -> own_addresses db -> (forall w, snd (yes w) = w) ->
  let open := ic_open_net_logged on fuel n os sc now filters ask yes in
  (exists c, ic_device open (device_links n now) a c ((f, db), st) = (r, ((f', db'), st'))) \/
  (exists c, ic_dimmer n open a c ((f, db), st) = (r, ((f', db'), st'))) \/
  (exists c, ic_switch n open (device_links n now) a c ((f, db), st) = (r, ((f', db'), st'))) \/
  (exists c, ic_thermostat n open a c ((f, db), st) = (r, ((f', db'), st'))) ->
  exists fs, p_sent st' = p_sent st ++ fs /\ Forall (fun fr => linking_frame [a] 1 fr \/ fr = ask_modem) fs.
Proof.
  intros on fuel n now os sc filters ask yes a f db st r f' db' st' Ha Hown Hyes open H.
  set (Q := fun fr => linking_frame [a] 1 fr \/ fr = ask_modem).
  assert (HQ : forall fr, frame_to a fr -> Q fr) by (intros fr Hf; left; left; exists a; split; [left; reflexivity|exact Hf]).
  pose proof (@line_of2_pre (fstate * memdb) Q) as HP.
  pose proof (lift_moves2 (fstate * memdb) _ _ _ (line_of_moves Q fuel sc a Ha HQ)) as HL.
  change (line_of2 Q ((f, db), st) ((f', db'), st')).
  assert (Hopen : forall o w1, open a ((f, db), st) = (o, w1) -> line_of2 Q ((f, db), st) w1 /\
    forall d e, o = Ret (Some d, e) -> di_addr (bd_info d) = a /\ bd_writer d = lift_mw (plm_mw fuel sc)).
  { intros o w1 E. unfold open, ic_open_net_logged, ic_open_dev, pbind in E.
    destruct (db_opener fuel os (plm_mw fuel sc) filters a ((f, db), st)) as [oo w2] eqn:E2. destruct (opener_line _ _ _ _ _ _ _ _ _ _ Ha Hown E2) as [[fs [T1 L1]] D1].
    destruct w2 as [[f2 db2] st2]. pose proof (opener_own _ _ _ _ _ _ _ _ _ _ _ _ Hown E2) as Ho2.
    assert (X1 : line_of2 Q ((f, db), st) ((f2, db2), st2)) by (exists fs; split; [exact T1|eapply Forall_impl; [exact HQ|exact L1]]).
    assert (Hx : forall dv er, oo = Ret (dv, er) -> forall er', o = Ret (dv, er') -> line_of2 Q ((f2, db2), st2) w1 ->
      line_of2 Q ((f, db), st) w1 /\ forall d e, o = Ret (Some d, e) -> di_addr (bd_info d) = a /\ bd_writer d = lift_mw (plm_mw fuel sc)).
    { intros dv er -> er' -> X2. split; [eapply (proj2 HP); [exact X1|exact X2]|]. intros d e Hd. injection Hd as -> _. exact (D1 _ _ eq_refl). }
    destruct oo as [[dv er]| |]; try (injection E as <- <-; split; [exact X1|discriminate]).
    assert (Hsame : forall er', (Ret (dv, er'), ((f2, db2), st2)) = (o, w1) -> line_of2 Q ((f, db), st) w1 /\
      forall d e, o = Ret (Some d, e) -> di_addr (bd_info d) = a /\ bd_writer d = lift_mw (plm_mw fuel sc)).
    { intros er' Heq. apply pair_equal_spec in Heq. destruct Heq as [<- <-]. eapply Hx; [reflexivity|reflexivity|apply HP]. }
    unfold pret in E. destruct er as [er|]; [|exact (Hsame _ E)]. destruct er; try exact (Hsame _ E).
    destruct ask; [|exact (Hsame _ E)].
    pose proof (Hyes ((f2, db2), st2)) as Hy. destruct (yes ((f2, db2), st2)) as [y w3]. cbn [snd] in Hy. subst w3.
    destruct y as [[|]| |]; try exact (Hsame _ E); try (injection E as <- <-; split; [exact X1|discriminate]).
    destruct (net_link_logged on fuel n os sc now filters true false 1 [a] ((f2, db2), st2)) as [ol w4] eqn:E4.
    assert (X2 : line_of2 Q ((f2, db2), st2) w4).
    { refine (proj1 (net_link_logged_moves Q on fuel n os sc now filters true false 1 _ _ _ [a] _ f2 db2 st2 ol w4 Ho2 E4)).
      - left. right. left. reflexivity.
      - left. right. right. reflexivity.
      - right. reflexivity.
      - constructor; [split; [exact Ha|exact HQ]|constructor]. }
    destruct ol as [el| |]; injection E as <- <-; [eapply Hx; [reflexivity|reflexivity|exact X2]| |];
      (split; [eapply (proj2 HP); [exact X1|exact X2]|discriminate]). }
  assert (Hop : forall sub : bdev ((fstate * memdb) * plm) -> prog ((fstate * memdb) * plm) cmdres,
    (forall d, mw_moves (line_of2 Q) (di_addr (bd_info d)) (bd_writer d) -> moves (line_of2 Q) (sub d)) ->
    forall o w1, open a ((f, db), st) = (o, w1) -> line_of2 Q ((f, db), st) w1 /\ forall d e, o = Ret (Some d, e) -> moves (line_of2 Q) (sub d)).
  { intros sub Hsub o w1 Ho. destruct (Hopen _ _ Ho) as [H1 H2]. split; [exact H1|].
    intros d e Hd. apply Hsub. destruct (H2 _ _ Hd) as [-> ->]. exact HL. }
  destruct H as [[c H]|[[c H]|[[c H]|[c H]]]]; (eapply then_line; [exact HP| |exact H]); apply Hop; intros d Hd.
  - apply mv_device_sub; auto. apply mv_device_links; auto.
  - apply mv_dimmer_sub; auto.
  - apply mv_switch_sub; auto. apply mv_device_links; auto.
  - apply mv_therm_sub; auto.
Qed.

(** Unlinking the modem from a device, the modem as the controller: the question, if it is asked, comes first. *)
Theorem C84_unlink_modem : forall S on fuel n sc now g i (s : S) st e w',
  is_byte g -> 0 <= di_addr i < 16777216 -> 0 <= p_retries st -> all_bytes sc st ->
  unlink_logged on g (modem_lg n sc now) (bdev_lg n now (mkBD i (lift_mw (plm_mw fuel sc)))) (s, st) = (Ret e, w') ->
  fst w' = s /\ exists before fs, p_sent (snd w') = p_sent st ++ fs /\ asked (p_retries st) (on && (p_addr st =? 0)) before /\
    modem_unlinks (p_retries st) i g e before fs /\
    (e = None -> (exists p, comes_in sc st p /\ p_cmd p = 0x64 /\ p_ack p = 0x06 /\ p_payload p = [0xff; g]) /\ exists q, comes_in sc st q /\ ack_from (di_addr i) q).
Proof.
  intros S on fuel n sc now g i s st e w' Hg Ha Hr Hb H. destruct (came sc st) as [Hs Hq]. set (P := comes_in sc st) in *.
  destruct (unlink_op S P sc (p_retries st) n now on g (modem_lg n sc now) (bdev_lg n now (mkBD i (lift_mw (plm_mw fuel sc)))) _ _ _ _ _ _ true false
    (modem_unlink_op S P sc (p_retries st) g Hs) (device_start_op S P sc Hs (p_retries st) Hr fuel i g Ha Hg) (modem_stop_op S P sc Hs (p_retries st)) (device_stop_op S P sc Hs (p_retries st) Hr fuel i Ha)
    Hs Hr eq_refl (log_device _ on n now _) ltac:(discriminate) eq_refl s st e w' eq_refl Hq H) as (Hf & before & fs & Hbe & Hse & Hcase).
  rewrite andb_true_r in Hbe. split; [exact Hf|]. exists before, (before ++ fs). split; [exact Hse|]. split; [exact Hbe|].
  destruct Hcase as [[He Hfs]|(f1 & m & f2 & f3 & f4 & G1 & (k & Gm & Gk) & G2 & G3 & G4 & -> & A1 & A2)].
  - subst fs. split; [left; auto|]. intro; contradiction.
  - rewrite andb_false_r in Gk. cbn [andb] in Gk. subst k m f1 f3. split; [right; exists f2, f4; auto|]. intro He. split; [exact A1|]. exact (A2 He Hb).
Qed.
(** The device as the controller: the question comes when the device has accepted, before the modem is told to start. *)
Theorem C84_unlink_device : forall S on fuel n sc now g i (s : S) st e w',
  is_byte g -> 0 <= di_addr i < 16777216 -> 0 <= p_retries st -> all_bytes sc st ->
  unlink_logged on g (bdev_lg n now (mkBD i (lift_mw (plm_mw fuel sc)))) (modem_lg n sc now) (s, st) = (Ret e, w') ->
  fst w' = s /\ exists fs, p_sent (snd w') = p_sent st ++ fs /\
    device_unlinks (p_retries st) i g e (asked (p_retries st) (on && (p_addr st =? 0))) fs /\
    (e = None -> (exists p, comes_in sc st p /\ start_taken g p) /\ exists q, comes_in sc st q /\ ack_from (di_addr i) q).
Proof.
  intros S on fuel n sc now g i s st e w' Hg Ha Hr Hb H. destruct (came sc st) as [Hs Hq]. set (P := comes_in sc st) in *.
  destruct (unlink_op S P sc (p_retries st) n now on g (bdev_lg n now (mkBD i (lift_mw (plm_mw fuel sc)))) (modem_lg n sc now) _ _ _ _ _ _ false true
    (device_unlink_op S P sc (p_retries st) fuel i g Hs Hr Ha Hg) (modem_start_op S P sc Hs (p_retries st) g) (device_stop_op S P sc Hs (p_retries st) Hr fuel i Ha) (modem_stop_op S P sc Hs (p_retries st))
    Hs Hr (log_device _ on n now _) eq_refl (fun _ => unlink_same_addr S fuel sc i g) eq_refl s st e w' eq_refl Hq H) as (Hf & before & fs & (k & -> & Hk) & Hse & Hcase).
  rewrite andb_false_r in Hk. cbn [andb] in Hk. subst k. cbn [repeat app] in Hse. rewrite andb_true_r in Hcase. split; [exact Hf|]. exists fs. split; [exact Hse|].
  destruct Hcase as [[He Hfs]|(f1 & m & f2 & f3 & f4 & G1 & Gm & G2 & G3 & G4 & -> & A1 & A2)].
  - split; [left; auto|]. intro; contradiction.
  - subst f2 f4. split; [right; exists f1, m, f3; auto|]. intro He. split; [exact (A2 He)|exact (A1 Hb)].
Qed.

(** Switching on the debug log does change what goes over the line: the link of [C68_ex], everything answered. *)
Definition ex_info84 : packet := mkPkt 0x60 [0x0a; 0x0b; 0x0c; 3; 0x15; 0x9b] 6.
Definition ex_sc84 : schedule := fun t =>
  match t with 0%nat => mkStep [] [] false None | 1%nat => mkStep [] [EvPacket ex_info84] false None | S (S k) => ex_sc68 k end.
Theorem C84_log_unseen_refuted : exists sc w', net_link_logged true 5 5 (mkOS None (0%nat, None)) sc 100000 [] true false 7 [0x112233] ((None, ex_db68), ex_plm65) = (Ret None, w') /\
  ~ Forall (linking_frame [0x112233] 7) (p_sent (snd w')) /\
  p_sent (snd w') = [[2; 0x60]; [2; 0x64; 3; 7]; [2; 0x62; 0x11; 0x22; 0x33; 15; 9; 7]; [2; 0x65]; [2; 0x62; 0x11; 0x22; 0x33; 15; 8; 0]].
Proof.
  exists ex_sc84. destruct (net_link_logged true 5 5 (mkOS None (0%nat, None)) ex_sc84 100000 [] true false 7 [0x112233] ((None, ex_db68), ex_plm65)) as [o w'] eqn:E.
  assert (Hs : o = Ret None /\ p_sent (snd w') = [[2; 0x60]; [2; 0x64; 3; 7]; [2; 0x62; 0x11; 0x22; 0x33; 15; 9; 7]; [2; 0x65]; [2; 0x62; 0x11; 0x22; 0x33; 15; 8; 0]]).
  { split; [transitivity (fst (net_link_logged true 5 5 (mkOS None (0%nat, None)) ex_sc84 100000 [] true false 7 [0x112233] ((None, ex_db68), ex_plm65))); [rewrite E|vm_compute]; reflexivity|]. transitivity (p_sent (snd (snd (net_link_logged true 5 5 (mkOS None (0%nat, None)) ex_sc84 100000 [] true false 7 [0x112233] ((None, ex_db68), ex_plm65))))); [rewrite E|vm_compute]; reflexivity. }
  destruct Hs as [-> Hs]. exists w'. split; [reflexivity|]. split; [|exact Hs]. rewrite Hs. intro HF. inversion HF as [|? ? H1 _]; subst.
  destruct H1 as [(a & _ & (? & ? & ? & ? & ? & ? & ? & ? & _ & _ & _ & F))|[F|F]]; discriminate F.
Qed.
(** It can make the linking fail.  The modem answers every frame in turn, but the answer to the question comes late and is then taken for
    the answer to the start: an error is returned, and the modem, which did start, stays in linking mode. *)
Theorem C84_log_harmless_refuted : exists sc w', net_link_logged true 5 5 (mkOS None (0%nat, None)) sc 100000 [] true false 7 [0x112233] ((None, ex_db68), ex_plm65) =
    (Ret (Some EPlmWrongAck), w') /\
  p_sent (snd w') = [ask_modem; modem_start 7] /\
  flat_map (fun t => s_before (sc t) ++ s_wait (sc t)) (seq 0 10) = [EvPacket ex_info84; EvPacket (mkPkt 0x64 [3; 7] 6)].
Proof.
  exists (fun t => match t with 3%nat => mkStep [] [EvPacket ex_info84; EvPacket (mkPkt 0x64 [3; 7] 6)] false None | _ => mkStep [] [] false None end).
  eexists. split; [vm_compute; reflexivity|]. split; vm_compute; reflexivity.
Qed.

(** The theorems at work. *)
Lemma ex_bytes84 : all_bytes ex_sc84 ex_plm65.
Proof.
  intros p [[]|[[]|(t & Ht)]]. destruct t as [|[|t]].
  - cbn in Ht. destruct Ht as [[]|[]].
  - cbn in Ht. destruct Ht as [[]|[Ht|[]]]. injection Ht as <-. unfold bytes_ok, is_byte; cbn; repeat constructor; lia.
  - apply ex_bytes68. right. right. exists t. exact Ht.
Qed.
Example C84_link_case : exists w' i opening asks linking, net_link_logged true 5 5 (mkOS None (0%nat, None)) ex_sc84 100000 [] true false 7 [0x112233] ((None, ex_db68), ex_plm65) = (Ret None, w') /\
  p_sent (snd w') = opening ++ asks ++ linking /\ Forall (frame_to 0x112233) opening /\ asked 3 true asks /\ link_frames 3 i true false 7 None linking.
Proof.
  destruct (net_link_logged true 5 5 (mkOS None (0%nat, None)) ex_sc84 100000 [] true false 7 [0x112233] ((None, ex_db68), ex_plm65)) as [o w'] eqn:E.
  assert (Hs : o = Ret None /\ hd [] (p_sent (snd w')) = [2; 0x60]).
  { split; [transitivity (fst (net_link_logged true 5 5 (mkOS None (0%nat, None)) ex_sc84 100000 [] true false 7 [0x112233] ((None, ex_db68), ex_plm65))); [rewrite E|vm_compute]; reflexivity|]. transitivity (hd [] (p_sent (snd (snd (net_link_logged true 5 5 (mkOS None (0%nat, None)) ex_sc84 100000 [] true false 7 [0x112233] ((None, ex_db68), ex_plm65)))))); [rewrite E|vm_compute]; reflexivity. }
  destruct Hs as [-> Hhd].
  destruct (C84_link true 5 5 (mkOS None (0%nat, None)) ex_sc84 100000 [] true false 7 [0x112233] None ex_db68 ex_plm65 None w') as (sk & rest & bl & fs & Ha & Hs & Hb & H);
    [unfold is_byte; lia|constructor; [lia|constructor]|exact ex_own68|cbn; lia|exact ex_bytes84|exact E|].
  destruct rest as [|a rest].
  - exfalso. rewrite app_nil_r in Ha. subst sk. destruct H as [_ ->].
    inversion Hb as [|x y l l' Hx Hy]; subst. inversion Hy; subst. cbn [concat] in Hs. rewrite !app_nil_r in Hs. cbn [ex_plm65 p_sent app] in Hs. rewrite Hs in Hhd.
    destruct y as [|y0 y]; [discriminate Hhd|]. cbn [hd] in Hhd. subst y0. inversion Hx as [|? ? F _]; subst. destruct F as (? & ? & ? & ? & ? & ? & ? & ? & _ & _ & _ & F). discriminate F.
  - destruct H as (i & op & asks & li & Hi & -> & Hop & Hask & Hl & _). destruct sk as [|s0 sk]; [|destruct sk; discriminate Ha]. injection Ha as <- <-.
    inversion Hb; subst. exists w', i, op, asks, li. split; [reflexivity|]. split; [exact Hs|]. split; [exact Hop|]. split; [exact Hask|exact Hl].
Qed.
Example C84_same_case : net_link_logged true 5 5 (mkOS None (0%nat, None)) ex_sc68 100000 [] true true 7 [0x112233] ((None, ex_db68), set_addr ex_plm65 0x0a0b0c) =
  net_link 5 5 (mkOS None (0%nat, None)) ex_sc68 100000 [] true true 7 [0x112233] ((None, ex_db68), set_addr ex_plm65 0x0a0b0c).
Proof. apply C84_same; [right; right; cbn; lia|constructor; [lia|constructor]|exact ex_own68]. Qed.
(** The device is not linked when it is opened, and again when it is opened to be linked. *)
Definition ex_ask84 : schedule := fun t => match t with S (S (S k)) => ex_ask68 k | _ => ex_ask68 t end.
Example C84_agreed_case : exists r f' db' st' fs,
  ic_dimmer 5 (ic_open_net_logged true 5 5 (mkOS None (0%nat, None)) ex_ask84 100000 [] true (pret true)) 0x445566 MOff ((None, ex_db68), ex_plm65) = (r, ((f', db'), st')) /\
  p_sent st' = fs /\ Forall (fun fr => linking_frame [0x445566] 1 fr \/ fr = ask_modem) fs /\ In ask_modem fs.
Proof.
  destruct (ic_dimmer 5 (ic_open_net_logged true 5 5 (mkOS None (0%nat, None)) ex_ask84 100000 [] true (pret true)) 0x445566 MOff ((None, ex_db68), ex_plm65)) as [r [[f' db'] st']] eqn:E.
  destruct (C84_agreed true 5 5 100000 (mkOS None (0%nat, None)) ex_ask84 [] true (pret true) 0x445566 None ex_db68 ex_plm65 r f' db' st') as (fs & Hs & Hf);
    [lia|exact ex_own68|reflexivity|right; left; exists MOff; exact E|].
  exists r, f', db', st', fs. split; [reflexivity|]. split; [exact Hs|]. split; [exact Hf|].
  replace fs with (p_sent st') by (rewrite Hs; reflexivity). replace st' with (snd (snd (ic_dimmer 5 (ic_open_net_logged true 5 5 (mkOS None (0%nat, None)) ex_ask84 100000 [] true (pret true)) 0x445566 MOff ((None, ex_db68), ex_plm65)))) by (rewrite E; reflexivity).
  vm_compute. auto.
Qed.
(** Unlinking with the log on, a modem that answers nothing and one that is not needed as its address is known. *)
Definition ex_silent84 : schedule := fun _ => mkStep [] [] false None.
Lemma ex_bytes84s : forall st, p_msgq st = [] -> p_pktq st = [] -> all_bytes ex_silent84 st.
Proof. intros st H1 H2 p [H|[H|(t & H)]]; [rewrite H1 in H|rewrite H2 in H|cbn in H; destruct H as [H|H]]; destruct H. Qed.
Example C84_unlink_modem_case : exists e w' before fs, unlink_logged true 7 (modem_lg 5 ex_silent84 0) (bdev_lg 5 0 (mkBD (mkDI 0x112233 1 32 65 1) (lift_mw (plm_mw 5 ex_silent84)))) (tt, ex_plm65) = (Ret e, w') /\
  p_sent (snd w') = fs /\ asked 3 true before /\ modem_unlinks 3 (mkDI 0x112233 1 32 65 1) 7 e before fs.
Proof.
  destruct (unlink_logged true 7 (modem_lg 5 ex_silent84 0) (bdev_lg 5 0 (mkBD (mkDI 0x112233 1 32 65 1) (lift_mw (plm_mw 5 ex_silent84)))) (tt, ex_plm65)) as [o w'] eqn:E.
  assert (Ho : exists e, o = Ret e) by (exists (match o with Ret e => e | _ => None end); transitivity (fst (unlink_logged true 7 (modem_lg 5 ex_silent84 0) (bdev_lg 5 0 (mkBD (mkDI 0x112233 1 32 65 1) (lift_mw (plm_mw 5 ex_silent84)))) (tt, ex_plm65))); [rewrite E; reflexivity|]; replace o with (fst (unlink_logged true 7 (modem_lg 5 ex_silent84 0) (bdev_lg 5 0 (mkBD (mkDI 0x112233 1 32 65 1) (lift_mw (plm_mw 5 ex_silent84)))) (tt, ex_plm65))) by (rewrite E; reflexivity); vm_compute; reflexivity). destruct Ho as [e ->].
  destruct (C84_unlink_modem unit true 5 5 ex_silent84 0 7 (mkDI 0x112233 1 32 65 1) tt ex_plm65 e w') as (_ & before & fs & H1 & H2 & H3 & _);
    [unfold is_byte; lia|cbn; lia|cbn; lia|apply ex_bytes84s; reflexivity|exact E|]. exists e, w', before, fs. auto.
Qed.
Example C84_unlink_device_case : exists e w' fs, unlink_logged true 7 (bdev_lg 5 0 (mkBD (mkDI 0x112233 1 32 65 1) (lift_mw (plm_mw 5 ex_silent84)))) (modem_lg 5 ex_silent84 0) (tt, ex_plm65) = (Ret e, w') /\
  p_sent (snd w') = fs /\ device_unlinks 3 (mkDI 0x112233 1 32 65 1) 7 e (asked 3 true) fs.
Proof.
  destruct (unlink_logged true 7 (bdev_lg 5 0 (mkBD (mkDI 0x112233 1 32 65 1) (lift_mw (plm_mw 5 ex_silent84)))) (modem_lg 5 ex_silent84 0) (tt, ex_plm65)) as [o w'] eqn:E.
  assert (Ho : exists e, o = Ret e) by (exists (match o with Ret e => e | _ => None end); transitivity (fst (unlink_logged true 7 (bdev_lg 5 0 (mkBD (mkDI 0x112233 1 32 65 1) (lift_mw (plm_mw 5 ex_silent84)))) (modem_lg 5 ex_silent84 0) (tt, ex_plm65))); [rewrite E; reflexivity|]; replace o with (fst (unlink_logged true 7 (bdev_lg 5 0 (mkBD (mkDI 0x112233 1 32 65 1) (lift_mw (plm_mw 5 ex_silent84)))) (modem_lg 5 ex_silent84 0) (tt, ex_plm65))) by (rewrite E; reflexivity); vm_compute; reflexivity). destruct Ho as [e ->].
  destruct (C84_unlink_device unit true 5 5 ex_silent84 0 7 (mkDI 0x112233 1 32 65 1) tt ex_plm65 e w') as (_ & fs & H1 & H2 & _);
    [unfold is_byte; lia|cbn; lia|cbn; lia|apply ex_bytes84s; reflexivity|exact E|]. exists e, w', fs. auto.
Qed.

(** The modem gone: asking it crashes, which the log swallows; starting it crashes too, which nothing does. *)
Example C84_any_outcome_case : exists w', net_link_logged true 5 5 (mkOS None (0%nat, None)) ex_silent84 100000 [] true false 7 [0x112233] ((None, ex_db68), mkPlm [] [] true [] [] 0 3 3 0) = (Panic, w') /\
  p_sent (snd w') = [ask_modem; modem_start 7] /\ Forall (fun fr => linking_frame [0x112233] 7 fr \/ fr = ask_modem) (p_sent (snd w')).
Proof.
  eexists. split; [vm_compute; reflexivity|]. split; [vm_compute; reflexivity|].
  match goal with |- Forall _ (p_sent (snd ?w)) => destruct (C84_any_outcome true 5 5 (mkOS None (0%nat, None)) ex_silent84 100000 [] true false 7 [0x112233] None ex_db68 (mkPlm [] [] true [] [] 0 3 3 0) Panic w) as (fs & Hs & Hf) end;
    [constructor; [lia|constructor]|exact ex_own68|vm_compute; reflexivity|]. rewrite Hs. exact Hf.
Qed.

Print Assumptions C84_link.
Print Assumptions C84_same.
Print Assumptions C84_any_outcome.
Print Assumptions C84_agreed.
Print Assumptions C84_unlink_modem.
Print Assumptions C84_unlink_device.
Print Assumptions C84_log_unseen_refuted.
Print Assumptions C84_log_harmless_refuted.
