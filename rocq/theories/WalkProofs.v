(** A walk over the network, from the modem's records to the bytes on the serial line. *)
From Coq Require Import ZArith List Bool Lia ZifyBool ZifyNat.
From Verif Require Import GoBase GoProg Address AddressProofs Message MsgWriter BasicDevice PlmPacket Plm PlmSpec PlmProofs PlmLinkdb PlmLinkdbSpec PlmLinkdbProofs
  Query Database DatabaseProofs Link LineSpec MovesProofs LineProofs IcDev IcDevSpec IcDevProofs IcLine IcWalk WalkSpec.
Import ListNotations.
Open Scope Z_scope.
Ltac Zify.zify_post_hook ::= Z.div_mod_to_equations.

(** ** The modem's records *)
Lemma retry_all : forall (P : packet -> Prop) sc n nak pkt last st r st', sched_all P sc -> queues_all P st ->
  retry_loop (plm_pw sc) n nak pkt last st = (r, st') -> queues_all P st'.
Proof.
  intros P sc n nak pkt last st r st' Hs Hq H. refine (retry_ind (queues_all P) sc n nak pkt last st r st' _ Hq H).
  intros s x s' Q E. destruct (write_packet_cases _ _ _ _ _ E) as [e s1 E1|s1 s2 E1 E2|s1 s2 E1 E2|p s1 s2 E1 E2];
    pose proof (port_write_all P _ _ _ _ _ Hs Q E1) as Q1; auto; apply (receive_all P _ _ _ _ _ Hs Q1 E2).
Qed.
Lemma refresh_line : forall (P : packet -> Prop) sc retries fuel links err st r st', sched_all P sc -> queues_all P st ->
  refresh_loop fuel (plm_pw sc) retries links err st = (r, st') ->
  queues_all P st' /\ (exists rest, p_sent st' = p_sent st ++ rest /\ Forall (eq [0x02; 0x6a]) rest) /\
  forall ls e l, r = Ret (ls, e) -> In l ls -> In l links \/ exists p, P p /\ p_cmd p = 0x57 /\ link_unmarshal link_zero (p_payload p) = (l, None).
Proof.
  intros P sc retries. induction fuel as [|k IH]; intros links err st r st' Hs Hq H; cbn [refresh_loop] in H.
  - destruct err as [e0|]; injection H as <- <-; (split; [exact Hq|]); (split; [exists []; rewrite app_nil_r; split; [reflexivity|apply Forall_nil]|]); intros ls e l Hr Hl; [|discriminate].
    injection Hr as <- _. auto.
  - assert (Hstop : forall x st1, queues_all P st1 -> p_sent st1 = p_sent st -> (r, st') = (Ret (links, x), st1) \/ (exists o, (r, st') = (o, st1) /\ forall y, o <> Ret y) ->
      queues_all P st' /\ (exists rest, p_sent st' = p_sent st ++ rest /\ Forall (eq [0x02; 0x6a]) rest) /\
      forall ls e l, r = Ret (ls, e) -> In l ls -> In l links \/ exists p, P p /\ p_cmd p = 0x57 /\ link_unmarshal link_zero (p_payload p) = (l, None)).
    { intros x st1 Q1 S1 [E|(o & E & No)]; injection E as -> ->; (split; [exact Q1|]); (split; [exists []; rewrite app_nil_r; split; [exact S1|apply Forall_nil]|]);
        intros ls e l Hr Hl; [injection Hr as <- _; auto|elim (No _ Hr)]. }
    destruct err as [e0|]; [apply (Hstop (Some e0) st Hq eq_refl); left; symmetry; exact H|].
    unfold pbind in H. cbn [plm_pw pw_read] in H. unfold plm_read_packet in H. destruct (receive sc QPkt st) as [x st1] eqn:E.
    destruct (receive_all P _ _ _ _ _ Hs Hq E) as [Q1 P1]. destruct (receive_fields _ _ _ _ _ E) as (S1 & _).
    destruct x as [p| |].
    + destruct (p_cmd p =? pc_AllLinkRecordResp) eqn:Ec.
      * destruct (link_unmarshal link_zero (p_payload p)) as [l [e1|]] eqn:El; [apply (Hstop (Some e1) st1 Q1 S1); left; symmetry; exact H|].
        match type of H with context [pw_write ?a ?b ?c] => destruct (pw_write a b c) as [o st2] eqn:E2 end.
        unfold retry in E2. cbn [pw_write] in E2. pose proof (retry_all P _ _ _ _ _ _ _ _ Hs Q1 E2) as Q2.
        destruct (retry_sent _ _ _ _ _ _ _ _ E2) as (j & _ & _ & S2). cbn [p_cmd p_payload] in S2. change (0x02 :: pc_GetNextAllLink :: []) with [0x02; 0x6a] in S2.
        assert (F2 : Forall (eq [0x02; 0x6a]) (repeat [0x02; 0x6a] j)) by (apply Forall_forall; intros f Hf; apply repeat_spec in Hf; auto).
        destruct o as [[ack err2]| |].
        -- destruct (IH _ _ _ _ _ Hs Q2 H) as (Q3 & (rest & S3 & F3) & L3). split; [exact Q3|]. split.
           ++ exists (repeat [0x02; 0x6a] j ++ rest). rewrite S3, S2, S1, <- app_assoc. split; [reflexivity|]. apply Forall_app. auto.
           ++ intros ls e l1 Hr Hl. destruct (L3 _ _ _ Hr Hl) as [L|L]; [|auto]. apply in_app_or in L. destruct L as [L|[<-|[]]]; [auto|].
              right. exists p. split; [apply P1; reflexivity|]. split; [unfold pc_AllLinkRecordResp in Ec; lia|exact El].
        -- injection H as <- <-. split; [exact Q2|]. split; [eexists; rewrite S2, S1; split; [reflexivity|exact F2]|discriminate].
        -- injection H as <- <-. split; [exact Q2|]. split; [eexists; rewrite S2, S1; split; [reflexivity|exact F2]|discriminate].
      * destruct (IH _ _ _ _ _ Hs Q1 H) as (Q3 & (rest & S3 & F3) & L3). split; [exact Q3|]. split; [exists rest; rewrite S3, S1; auto|exact L3].
    + apply (Hstop None st1 Q1 S1). right. exists Panic. split; [symmetry; exact H|discriminate].
    + apply (Hstop (Some (EWrap EPlmReadTimeout)) st1 Q1 S1). left. symmetry. exact H.
Qed.
Lemma record_addr : forall p l, bytes_ok (p_payload p) -> p_cmd p = 0x57 -> link_unmarshal link_zero (p_payload p) = (l, None) ->
  record_about (l_addr l) p /\ 0 <= l_addr l < 16777216.
Proof.
  intros p l Hb Hc H. unfold link_unmarshal in H.
  destruct (p_payload p) as [|f [|g [|a [|b [|c [|d0 [|d1 [|d2 rest]]]]]]]] eqn:Ep; try discriminate H.
  injection H as <-. cbn [l_addr]. rewrite addr_put3.
  assert (Hx : is_byte a /\ is_byte b /\ is_byte c).
  { unfold bytes_ok in Hb. rewrite Forall_forall in Hb. repeat split; apply (Hb _); cbn; auto 10. }
  destruct Hx as (Ha & Hb1 & Hc1). split.
  - split; [exact Hc|]. exists f, g, a, b, c, d0, d1, d2, rest. split; [exact Ep|]. unfold addr3. auto.
  - unfold is_byte in *. lia.
Qed.
Lemma devices_line : forall (P : packet -> Prop) n sc now S (s : S) st r w', sched_all P sc -> queues_all P st ->
  modem_devices n sc now (s, st) = (r, w') ->
  fst w' = s /\ (exists first rest, p_sent (snd w') = p_sent st ++ first ++ rest /\ Forall (eq [0x02; 0x69]) first /\ Forall (eq [0x02; 0x6a]) rest) /\
  forall addrs e, r = Ret (addrs, e) -> NoDup addrs /\ (e <> None -> addrs = []) /\
    forall a, In a addrs -> exists p l, P p /\ p_cmd p = 0x57 /\ link_unmarshal link_zero (p_payload p) = (l, None) /\ l_addr l = a.
Proof.
  intros P n sc now S s st r w' Hs Hq H. unfold modem_devices, psnd in H. cbn [fst snd] in H.
  destruct (pdb_iterate n (plm_pw sc) now (modem_db st, st)) as [o [db1 st1]] eqn:E.
  apply pair_equal_spec in H. destruct H as [<- <-]. cbn [fst snd]. split; [reflexivity|].
  destruct (pdb_links n (plm_pw sc) now (modem_db st, st)) as [o1 [db2 st2]] eqn:E1.
  assert (Hst : st1 = st2 /\ (forall ls, o1 = Ret (ls, None) -> o = Ret (iterate_addrs [] ls, None)) /\ (forall ls e, o1 = Ret (ls, Some e) -> o = Ret ([], Some e)) /\
    (forall x, o = Ret x -> exists y, o1 = Ret y)).
  { unfold pdb_iterate, pbind in E. rewrite E1 in E. destruct o1 as [[ls [e|]]| |]; unfold pret in E; apply pair_equal_spec in E; destruct E as [<- E]; injection E as _ <-;
      (split; [reflexivity|]); (split; [|split]); intros; try discriminate; try (eexists; reflexivity); congruence. }
  destruct Hst as (-> & O1 & O2 & O3).
  assert (Hmain : (exists first rest, p_sent st2 = p_sent st ++ first ++ rest /\ Forall (eq [0x02; 0x69]) first /\ Forall (eq [0x02; 0x6a]) rest) /\
    forall ls, o1 = Ret (ls, None) -> forall l, In l ls -> exists p, P p /\ p_cmd p = 0x57 /\ link_unmarshal link_zero (p_payload p) = (l, None)).
  { unfold pdb_links, pdb_refresh, pbind, pfst, psnd, pget, pput, pret in E1. cbn [fst snd] in E1.
    destruct (pdb_old now (modem_db st)); cbn [negb] in E1.
    2:{ cbn [fst snd] in E1. apply pair_equal_spec in E1. destruct E1 as [<- E1]. injection E1 as _ <-. split.
        - exists [], []. rewrite app_nil_r. auto.
        - intros ls Hr l Hl. injection Hr as <-. destruct Hl. }
    match type of E1 with context [pw_write ?a ?b ?c] => destruct (pw_write a b c) as [o2 st3] eqn:E2 end.
    unfold retry in E2. cbn [pw_write] in E2. pose proof (retry_all P _ _ _ _ _ _ _ _ Hs Hq E2) as Q2.
    destruct (retry_sent _ _ _ _ _ _ _ _ E2) as (j & _ & _ & S2). cbn [p_cmd p_payload] in S2. change (0x02 :: pc_GetFirstAllLink :: []) with [0x02; 0x69] in S2.
    assert (F2 : Forall (eq [0x02; 0x69]) (repeat [0x02; 0x69] j)) by (apply Forall_forall; intros f Hf; apply repeat_spec in Hf; auto).
    destruct o2 as [[ack err]| |].
    - cbn [fst snd] in E1. match type of E1 with context [refresh_loop ?a ?b ?c ?d ?e ?f] => destruct (refresh_loop a b c d e f) as [o3 st4] eqn:E3 end.
      destruct (refresh_line P _ _ _ _ _ _ _ _ Hs Q2 E3) as (Q4 & (rest & S4 & F4) & L4).
      assert (Hst : st2 = st4 /\ forall ls, o1 = Ret (ls, None) -> ls = [] \/ exists e, o3 = Ret (ls, e)).
      { destruct o3 as [[links err1]| |]; cbn [fst snd] in E1.
        - destruct (err_is err1 EPlmNak); cbn [fst snd set_pd_links modem_db pd_links] in E1;
            apply pair_equal_spec in E1; destruct E1 as [<- E1]; injection E1 as _ <-; (split; [reflexivity|]); intros ls Hr; injection Hr as <-; eauto.
        - apply pair_equal_spec in E1; destruct E1 as [<- E1]; injection E1 as _ <-; (split; [reflexivity|]); discriminate.
        - apply pair_equal_spec in E1; destruct E1 as [<- E1]; injection E1 as _ <-; (split; [reflexivity|]); discriminate. }
      destruct Hst as (-> & L). split.
      + exists (repeat [0x02; 0x69] j), rest. rewrite S4, S2, <- app_assoc. auto.
      + intros ls Hr l Hl. destruct (L _ Hr) as [->|(e & Ho)]; [destruct Hl|]. destruct (L4 _ _ _ Ho Hl) as [[]|X]. exact X.
    - apply pair_equal_spec in E1; destruct E1 as [<- E1]; injection E1 as _ <-. split; [|discriminate].
      exists (repeat [0x02; 0x69] j), []. rewrite S2, app_nil_r. auto.
    - apply pair_equal_spec in E1; destruct E1 as [<- E1]; injection E1 as _ <-. split; [|discriminate].
      exists (repeat [0x02; 0x69] j), []. rewrite S2, app_nil_r. auto. }
  destruct Hmain as (M1 & M2). split; [exact M1|]. intros addrs e Ho. destruct (O3 _ Ho) as ([ls [e1|]] & Eo).
  - rewrite (O2 _ _ Eo) in Ho. injection Ho as <- <-. split; [constructor|]. split; [auto|]. intros a [].
  - rewrite (O1 _ Eo) in Ho. injection Ho as <- <-. destruct (firsts_complete _ _ (iterate_firsts ls)) as [F1 F2].
    split; [exact F2|]. split; [congruence|]. intros a Ha. apply F1 in Ha. apply in_map_iff in Ha. destruct Ha as (l & <- & Hl).
    destruct (M2 _ Eo _ Hl) as (p & Hp & Hc & Hu). exists p, l. auto.
Qed.

(** ** The devices *)
Lemma opener_own : forall fuel os (mw : mwriter plm) filters a f db st r f' db' st', own_addresses db ->
  db_opener fuel os mw filters a ((f, db), st) = (r, ((f', db'), st')) -> own_addresses db'.
Proof.
  intros fuel os mw filters a f db st r f' db' st' Ho H. unfold db_opener, filedb_open, pbind in H.
  destruct (memdb_open fuel db mw a [] st) as [o w1] eqn:E.
  assert (Hm : forall dv db1 er, o = Ret (dv, db1, er) -> own_addresses db1).
  { intros dv db1 er ->. unfold memdb_open in E. destruct (db_get db a) as [i []] eqn:Eg.
    - injection E as _ <- _ _. exact Ho.
    - unfold pbind in E. match type of E with context [dev_open_filters ?x ?y ?z ?u ?v] => destruct (dev_open_filters x y z u v) as [[[[dv1 inf] [e1|]]| |] w2] eqn:E2 end; try discriminate.
      + injection E as _ <- _ _. exact Ho.
      + unfold plift in E. destruct (db_put db inf) as [db2| |] eqn:Ep; try discriminate. injection E as _ <- _ _. exact (put_own _ _ _ Ho Ep). }
  destruct o as [[[dv db1] er]| |]; try (injection H as _ _ <- _; exact Ho). specialize (Hm _ _ _ eq_refl).
  assert (Hv : db_values db' = db_values db1).
  { unfold pret in H. unfold filedb_save, save_db, db_save in H.
    destruct er as [er|]; [apply pair_equal_spec in H; destruct H as [_ H]; injection H as _ -> _; reflexivity|].
    destruct (db_dirty db1); [|apply pair_equal_spec in H; destruct H as [_ H]; injection H as _ -> _; reflexivity].
    destruct (db_needs_saving db1); [|apply pair_equal_spec in H; destruct H as [_ H]; injection H as _ -> _; reflexivity].
    destruct (os_open os); [apply pair_equal_spec in H; destruct H as [_ H]; injection H as _ -> _; reflexivity|].
    destruct (snd (os_write os)); apply pair_equal_spec in H; destruct H as [_ H]; injection H as _ <- _; reflexivity. }
  intros b j Hg. apply Hm. unfold db_get, db_map in *. rewrite <- Hv. exact Hg.
Qed.
Lemma walk_one_line : forall fuel n os sc now filters a f db st r f' db' st', 0 <= a < 16777216 -> own_addresses db ->
  walk_one (db_opener fuel os (plm_mw fuel sc) filters) (device_links n now) a ((f, db), st) = (r, ((f', db'), st')) ->
  own_addresses db' /\ line_only a st st'.
Proof.
  intros fuel n os sc now filters a f db st r f' db' st' Ha Ho H. unfold walk_one, pbind in H.
  destruct (db_opener fuel os (plm_mw fuel sc) filters a ((f, db), st)) as [o [[f1 db1] st1]] eqn:E.
  pose proof (opener_own _ _ _ _ _ _ _ _ _ _ _ _ Ho E) as O1. destruct (opener_line _ _ _ _ _ _ _ _ _ _ Ha Ho E) as [L1 L2]. cbn [snd] in L1.
  assert (Hend : ((f', db'), st') = ((f1, db1), st1) -> own_addresses db' /\ line_only a st st').
  { intro X. injection X as _ -> ->. auto. }
  destruct o as [[dv [er|]]| |]; try (apply Hend; apply pair_equal_spec in H; destruct H as [_ H]; symmetry; exact H).
  destruct dv as [d|]; [|apply Hend; apply pair_equal_spec in H; destruct H as [_ H]; symmetry; exact H].
  destruct (L2 _ _ eq_refl) as [Hi Hw].
  destruct (device_links n now d ((f1, db1), st1)) as [o2 w2] eqn:E2.
  assert (R2 : line_only2 a ((f1, db1), st1) w2).
  { refine (mv_device_links _ _ d n now (line2_preorder _ a) _ _ _ _ E2). rewrite Hi, Hw. apply lift_moves, plm_moves. exact Ha. }
  assert (R3 : fst w2 = (f1, db1)).
  { assert (PE : preorder (fun x y : (fstate * memdb) * plm => fst y = fst x)) by (split; [reflexivity|intros x y z E3 E4; congruence]).
    refine (mv_device_links _ (fun x y => fst y = fst x) d n now PE _ _ _ _ E2). rewrite Hw. split; [|intros m _]; intros x y z Hz; cbn [lift_mw mw_read mw_write] in Hz;
      unfold psnd in Hz; match type of Hz with context [match ?t with (_, _) => _ end] => destruct t as [o3 w3] end; apply pair_equal_spec in Hz; destruct Hz as [_ <-]; reflexivity. }
  assert (Hw2 : ((f', db'), st') = w2) by (destruct o2 as [[ls e2]| |]; apply pair_equal_spec in H; destruct H as [_ H]; symmetry; exact H).
  destruct w2 as [fd2 st2]. cbn [fst] in R3. subst fd2. injection Hw2 as _ -> ->. split; [exact O1|].
  eapply (proj2 (line_preorder a)); [exact L1|exact R2].
Qed.
Lemma walk_all_line : forall fuel n os sc now filters addrs f db st r f' db' st', Forall (fun a => 0 <= a < 16777216) addrs -> own_addresses db ->
  walk_all (db_opener fuel os (plm_mw fuel sc) filters) (device_links n now) addrs ((f, db), st) = (r, ((f', db'), st')) ->
  own_addresses db' /\ exists done later blocks, addrs = done ++ later /\ (forall x, r = Ret x -> later = []) /\
    p_sent st' = p_sent st ++ List.concat blocks /\ Forall2 (fun a b => Forall (frame_to a) b) done blocks.
Proof.
  intros fuel n os sc now filters. induction addrs as [|a t IH]; intros f db st r f' db' st' Ha Ho H; cbn [walk_all] in H.
  - unfold pret in H. apply pair_equal_spec in H. destruct H as [<- H]. injection H as _ <- <-. split; [exact Ho|].
    exists [], [], []. split; [reflexivity|]. split; [reflexivity|]. split; [rewrite app_nil_r; reflexivity|constructor].
  - inversion Ha as [|? ? Ha1 Ha2]; subst. unfold pbind in H.
    match type of H with context [walk_one ?x ?y ?z ?u] => destruct (walk_one x y z u) as [o [[f1 db1] st1]] eqn:E end.
    destruct (walk_one_line _ _ _ _ _ _ _ _ _ _ _ _ _ _ Ha1 Ho E) as (O1 & fs & S1 & F1).
    destruct o as [l1| |].
    + match type of H with context [walk_all ?x ?y ?z ?u] => destruct (walk_all x y z u) as [o2 [[f2 db2] st2]] eqn:E2 end.
      destruct (IH _ _ _ _ _ _ _ Ha2 O1 E2) as (O2 & dn & lt & bs & -> & L2 & S2 & F2).
      assert (Hx : ((f', db'), st') = ((f2, db2), st2) /\ forall x, r = Ret x -> exists y, o2 = Ret y).
      { destruct o2 as [l2| |]; apply pair_equal_spec in H; destruct H as [<- H]; (split; [symmetry; exact H|]); intros x Hx; try discriminate Hx; eauto. }
      destruct Hx as [Hx Hr]. injection Hx as _ -> ->. split; [exact O2|]. exists (a :: dn), lt, (fs :: bs). split; [reflexivity|].
      split; [intros x Hx; destruct (Hr _ Hx) as [y Hy]; exact (L2 _ Hy)|]. split; [|constructor; assumption].
      cbn [List.concat]. rewrite S2, S1, <- app_assoc. reflexivity.
    + apply pair_equal_spec in H. destruct H as [<- H]. injection H as _ <- <-. split; [exact O1|]. exists [a], t, [fs]. split; [reflexivity|]. split; [discriminate|].
      cbn [List.concat]. rewrite S1, app_nil_r. split; [reflexivity|]. constructor; [exact F1|constructor].
    + apply pair_equal_spec in H. destruct H as [<- H]. injection H as _ <- <-. split; [exact O1|]. exists [a], t, [fs]. split; [reflexivity|]. split; [discriminate|].
      cbn [List.concat]. rewrite S1, app_nil_r. split; [reflexivity|]. constructor; [exact F1|constructor].
Qed.
Lemma device_links_keep : forall W n now, keeps_database (W := W) (device_links n now).
Proof.
  intros W n now d st r st' H.
  assert (PE : preorder (fun x y : (fstate * memdb) * W => fst y = fst x)) by (split; [reflexivity|intros x y z E3 E4; congruence]).
  refine (mv_device_links _ (fun x y => fst y = fst x) (lift_bdev d) n now PE _ _ _ _ H). unfold lift_bdev. cbn [bd_writer].
  split; [|intros m _]; intros x y z Hz; cbn [lift_mw mw_read mw_write] in Hz;
    unfold psnd in Hz; match type of Hz with context [match ?t with (_, _) => _ end] => destruct t as [o3 w3] end; apply pair_equal_spec in Hz; destruct Hz as [_ <-]; reflexivity.
Qed.

(** ** A modem that tells all its records *)
Lemma write_replied : forall sc pkt st p, idle st -> comes_at sc (p_time st) [] -> comes_at sc (S (p_time st)) [p] -> network_message p = false ->
  exists st', plm_write_packet sc pkt st = (judge_ack pkt (Some p), st') /\ idle st' /\ p_time st' = S (S (p_time st)) /\ p_retries st' = p_retries st.
Proof.
  intros sc pkt st p (Hq1 & Hq2 & Hc) C0 C1 Hn. destruct st as [q1 q2 cl sent waits time tmo retries addr]. cbn [p_msgq p_pktq p_closed p_time p_retries] in *. subst q1 q2 cl.
  unfold comes_at in C0, C1. cbn [map] in C0, C1. unfold plm_write_packet, port_write. cbn [p_time]. rewrite C0. cbn [s_werr s_before reader_turns fold_left].
  unfold tick, log_sent. cbn [p_msgq p_pktq p_closed p_sent p_waits p_time p_timeout p_retries p_addr]. unfold plm_read_packet.
  rewrite (receive_one sc QPkt p); [|exact C1|unfold goes_to; rewrite Hn; reflexivity]. eexists. split; [reflexivity|]. unfold idle. cbn [p_msgq p_pktq p_closed p_time p_retries]. auto.
Qed.
Lemma read_came : forall sc st p, idle st -> comes_at sc (p_time st) [p] -> network_message p = false ->
  exists st', plm_read_packet sc st = (Ret (Some p, None), st') /\ idle st' /\ p_time st' = S (p_time st) /\ p_retries st' = p_retries st.
Proof.
  intros sc st p (Hq1 & Hq2 & Hc) C0 Hn. destruct st as [q1 q2 cl sent waits time tmo retries addr]. cbn [p_msgq p_pktq p_closed p_time p_retries] in *. subst q1 q2 cl.
  unfold comes_at in C0. cbn [map] in C0. unfold plm_read_packet.
  rewrite (receive_one sc QPkt p); [|exact C0|unfold goes_to; rewrite Hn; reflexivity]. eexists. split; [reflexivity|]. unfold idle. cbn [p_msgq p_pktq p_closed p_time p_retries]. auto.
Qed.
Lemma echo_judged : forall c p, c <> 0x62 -> 0x60 <= c -> p_cmd p = c -> p_ack p = 0x06 -> p_payload p = [] -> judge_ack (mkPkt c [] 0) (Some p) = Ret (Some p, None).
Proof.
  intros c p Hc H6 H1 H2 H3. apply judge_success. unfold good_ack, echoes. cbn [p_cmd p_payload]. rewrite H1, H3. split; [exact H6|]. split; [exact H2|].
  split; [reflexivity|]. right. right. right. auto.
Qed.
Lemma retry_answered : forall sc pkt nak st p e, idle st -> 0 <= p_retries st -> comes_at sc (p_time st) [] -> comes_at sc (S (p_time st)) [p] -> network_message p = false ->
  judge_ack pkt (Some p) = Ret (Some p, e) -> (err_is e EPlmNak && nak) || err_is e EPlmReadTimeout = false ->
  forall retries, 0 <= retries -> exists st', pw_write (retry (plm_pw sc) retries nak) pkt st = (Ret (Some p, e), st') /\ idle st' /\ p_time st' = S (S (p_time st)) /\ p_retries st' = p_retries st.
Proof.
  intros sc pkt nak st p e Hi Hr C0 C1 Hn Hj He retries Hre. destruct (write_replied sc pkt st p Hi C0 C1 Hn) as (st' & W & R). exists st'. split; [|exact R].
  unfold retry. cbn [pw_write]. replace (Z.to_nat (retries + 1)) with (S (Z.to_nat retries)) by lia. cbn [retry_loop plm_pw pw_write]. rewrite W, Hj, He. reflexivity.
Qed.
Lemma record_read : forall a p, record_about a p -> exists l, link_unmarshal link_zero (p_payload p) = (l, None) /\ l_addr l = a.
Proof.
  intros a p (_ & fl & g & a2 & a1 & a0 & d0 & d1 & d2 & rest & -> & (_ & _ & _ & ->)). eexists. split; [reflexivity|]. cbn [l_addr]. apply addr_put3.
Qed.
Lemma refresh_told : forall sc retries, 0 <= retries -> forall rest addrs, Forall2 record_about addrs rest -> forall a rec n links st,
  record_about a rec -> idle st -> 0 <= p_retries st -> comes_at sc (p_time st) [rec] -> tells sc (S (p_time st)) 0x6a rest -> (S (List.length rest) <= n)%nat ->
  exists ls st', refresh_loop n (plm_pw sc) retries links None st = (Ret (links ++ ls, Some EPlmNak), st') /\ map l_addr ls = a :: addrs.
Proof.
  intros sc retries Hre. induction rest as [|r2 rest IH]; intros addrs Hra a rec n links st Ha Hi Hr C0 T Hn.
  - destruct n as [|n]; [cbn in Hn; lia|]. inversion Hra; subst. destruct (record_read _ _ Ha) as (l & Hl & Hla). cbn [refresh_loop]. unfold pbind. cbn [plm_pw pw_read].
    assert (Hnm : network_message rec = false) by (destruct Ha as [Hc _]; unfold network_message; rewrite Hc; reflexivity).
    destruct (read_came sc st rec Hi C0 Hnm) as (st1 & E1 & I1 & T1 & R1). rewrite E1. destruct Ha as [Hc _]. rewrite Hc. change (0x57 =? pc_AllLinkRecordResp) with true. cbn iota. rewrite Hl.
    inversion T as [t refusal D0 D1 D2 D3|]; subst.
    assert (Hnm2 : network_message refusal = false) by (unfold network_message; rewrite D2; reflexivity).
    assert (Hj : judge_ack (mkPkt pc_GetNextAllLink [] 0) (Some refusal) = Ret (Some refusal, Some EPlmNak)) by (apply judge_nak; [split; [rewrite D2; lia|exact D3]|rewrite D2; lia]).
    rewrite <- T1 in D0, D1. rewrite <- R1 in Hr.
    destruct (retry_answered sc (mkPkt pc_GetNextAllLink [] 0) false st1 refusal (Some EPlmNak) I1 Hr D0 D1 Hnm2 Hj eq_refl retries Hre) as (st2 & E2 & _).
    unfold plm_pw in E2 at 1. fold (plm_pw sc) in E2. rewrite E2. exists [l]. destruct n; cbn [refresh_loop]; eexists; split; reflexivity.
  - destruct n as [|n]; [cbn in Hn; lia|]. inversion Hra as [|a2 ? addrs2 ? Ha2 Hra2]; subst. destruct (record_read _ _ Ha) as (l & Hl & Hla). cbn [refresh_loop]. unfold pbind. cbn [plm_pw pw_read].
    assert (Hnm : network_message rec = false) by (destruct Ha as [Hc _]; unfold network_message; rewrite Hc; reflexivity).
    destruct (read_came sc st rec Hi C0 Hnm) as (st1 & E1 & I1 & T1 & R1). rewrite E1. destruct Ha as [Hc _]. rewrite Hc. change (0x57 =? pc_AllLinkRecordResp) with true. cbn iota. rewrite Hl.
    inversion T as [|t c echo r3 rest3 D0 D1 D2 D3 D4 D5 D6]; subst.
    assert (Hnm2 : network_message echo = false) by (unfold network_message; rewrite D2; reflexivity).
    assert (Hj : judge_ack (mkPkt pc_GetNextAllLink [] 0) (Some echo) = Ret (Some echo, None)) by (apply echo_judged; auto; unfold pc_GetNextAllLink; lia).
    rewrite <- T1 in D0, D1, D5, D6. rewrite <- R1 in Hr.
    destruct (retry_answered sc (mkPkt pc_GetNextAllLink [] 0) false st1 echo None I1 Hr D0 D1 Hnm2 Hj eq_refl retries Hre) as (st2 & E2 & I2 & T2 & R2).
    unfold plm_pw in E2 at 1. fold (plm_pw sc) in E2. rewrite E2. rewrite <- T2 in D5, D6. rewrite <- R2 in Hr. cbn [List.length] in Hn.
    destruct (IH addrs2 Hra2 a2 r2 n (links ++ [l]) st2 Ha2 I2 Hr D5 D6 ltac:(lia)) as (ls & st' & E3 & M). exists (l :: ls), st'.
    rewrite E3, <- app_assoc. split; [reflexivity|]. cbn [map]. rewrite M. reflexivity.
Qed.
Lemma devices_told : forall S sc n now (s : S) st addrs recs, idle st -> 0 <= p_retries st -> p_timeout st < now -> Forall2 record_about addrs recs ->
  tells sc (p_time st) 0x69 recs -> (List.length recs <= n)%nat ->
  exists asked st', modem_devices n sc now (s, st) = (Ret (asked, None), (s, st')) /\ firsts addrs asked.
Proof.
  intros S sc n now s st addrs recs Hi Hr Hold HF T Hn. inversion T as [|t c echo rec rest D0 D1 D2 D3 D4 D5 D6]; subst.
  inversion HF as [|a ? addrs1 ? Ha HF1]; subst. cbn [List.length] in Hn.
  assert (Hnm2 : network_message echo = false) by (unfold network_message; rewrite D2; reflexivity).
  assert (Hj : judge_ack (mkPkt pc_GetFirstAllLink [] 0) (Some echo) = Ret (Some echo, None)) by (apply echo_judged; auto; unfold pc_GetFirstAllLink; lia).
  destruct (retry_answered sc (mkPkt pc_GetFirstAllLink [] 0) true st echo None Hi Hr D0 D1 Hnm2 Hj eq_refl (p_retries st) Hr) as (st2 & E2 & I2 & T2 & R2).
  rewrite <- T2 in D5, D6. rewrite <- R2 in Hr.
  destruct (refresh_told sc (p_retries st) ltac:(lia) rest addrs1 HF1 a rec n [] st2 Ha I2 Hr D5 D6 ltac:(lia)) as (ls & st3 & E3 & M).
  exists (iterate_addrs [] ls), st3. split.
  - unfold modem_devices, psnd, pdb_iterate, pdb_links, pdb_refresh, pbind, pfst, psnd, pget, pput, pret. cbn [fst snd].
    assert (Ho : pdb_old now (modem_db st) = true) by (unfold pdb_old, modem_db; cbn [pd_age pd_timeout]; lia). rewrite Ho. cbn [negb fst snd].
    change (pd_retries (modem_db st)) with (p_retries st). rewrite E2. cbn [fst snd]. rewrite E3. reflexivity.
  - change ([] ++ ls) with ls in *. rewrite <- M. apply iterate_firsts.
Qed.
