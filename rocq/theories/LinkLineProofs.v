(** Linking over the serial line: from the commands of the tool to the frames. *)
From Coq Require Import ZArith List Bool Lia ZifyBool ZifyNat.
From Verif Require Import GoBase GoProg Address AddressProofs Command Message MessageSpec MessageProofs MsgWriter BasicDevice DeviceSpec DevReqSpec DevReqProofs PlmPacket Plm PlmSpec PlmProofs
  PlmLinkdb PlmLinkdbProofs Query Database DatabaseProofs Link UtilLink LineSpec MovesProofs LineProofs IcCmd IcDev IcDevSpec IcDevProofs IcLine IcWalk WalkSpec WalkProofs
  IcLink LinkLineSpec.
Import ListNotations.
Open Scope Z_scope.
Ltac Zify.zify_post_hook ::= Z.div_mod_to_equations.

(** ** What every operation of the modem keeps *)
Definition kept (P : packet -> Prop) (st st' : plm) : Prop := p_retries st' = p_retries st /\ (queues_all P st -> queues_all P st').
Lemma kept_pre : forall P, preorder (kept P).
Proof. intro P. split; [intro; split; auto|]. intros x y z [H1 H2] [H3 H4]. split; [congruence|auto]. Qed.
Lemma kept_receive : forall (P : packet -> Prop) sc q st r st', sched_all P sc -> receive sc q st = (r, st') -> kept P st st'.
Proof. intros P sc q st r st' Hs H. split; [apply receive_fields in H; apply H|]. intro Hq. apply (receive_all P _ _ _ _ _ Hs Hq H). Qed.
Lemma kept_port : forall (P : packet -> Prop) sc st b e st', sched_all P sc -> port_write sc st b = (e, st') -> kept P st st'.
Proof.
  intros P sc st b e st' Hs H. split; [|intro Hq; apply (port_write_all P _ _ _ _ _ Hs Hq H)].
  apply port_write_fields in H. destruct H as (_ & _ & _ & _ & F & _). exact F.
Qed.
Lemma kept_packet : forall (P : packet -> Prop) sc pkt st r st', sched_all P sc -> plm_write_packet sc pkt st = (r, st') -> kept P st st'.
Proof.
  intros P sc pkt st r st' Hs H. destruct (write_packet_cases _ _ _ _ _ H) as [e s1 E1|s1 s2 E1 E2|s1 s2 E1 E2|p s1 s2 E1 E2];
    apply (kept_port P) in E1; auto; (eapply (proj2 (kept_pre P)); [exact E1|]); eapply kept_receive; eauto.
Qed.
Lemma kept_retry : forall (P : packet -> Prop) sc n nak pkt last st r st', sched_all P sc -> retry_loop (plm_pw sc) n nak pkt last st = (r, st') -> kept P st st'.
Proof.
  intros P sc n nak pkt last st r st' Hs H. refine (retry_ind (kept P st) sc n nak pkt last st r st' _ (proj1 (kept_pre P) st) H).
  intros s x s' Q E. eapply (proj2 (kept_pre P)); [exact Q|]. eapply kept_packet; eauto.
Qed.
Lemma kept_read : forall (P : packet -> Prop) sc st r st', sched_all P sc -> plm_read sc st = (r, st') -> kept P st st'.
Proof.
  intros P sc st r st' Hs H. unfold plm_read in H. destruct (receive sc QMsg st) as [x st1] eqn:E. apply (kept_receive P _ _ _ _ _ Hs) in E.
  destruct x; [destruct (msg_unmarshal msg_zero (p_payload p))| |]; injection H as _ <-; exact E.
Qed.
Lemma kept_await : forall (P : packet -> Prop) fuel sc dst st r st', sched_all P sc -> await_ack fuel sc dst st = (r, st') -> kept P st st'.
Proof.
  induction fuel as [|k IH]; intros sc dst st r st' Hs H; cbn [await_ack] in H; [injection H as _ <-; apply kept_pre|].
  destruct (plm_read sc st) as [x st1] eqn:E. apply (kept_read P _ _ _ _ Hs) in E.
  destruct x as [[[m|] [e|]]| |]; try (injection H as _ <-; exact E).
  destruct ((m_src m =? dst) && (fl_ack (m_flags m) || fl_nak (m_flags m))); [injection H as _ <-; exact E|].
  eapply (proj2 (kept_pre P)); [exact E|exact (IH _ _ _ _ _ Hs H)].
Qed.
Lemma kept_write : forall (P : packet -> Prop) fuel sc m st r st', sched_all P sc -> plm_write fuel sc m st = (r, st') -> kept P st st'.
Proof.
  intros P fuel sc m st r st' Hs H. unfold plm_write in H. unfold retry in H. cbn [pw_write] in H.
  match type of H with context [retry_loop ?a ?b ?c ?d ?e ?f] => destruct (retry_loop a b c d e f) as [x st1] eqn:E end.
  apply (kept_retry P _ _ _ _ _ _ _ _ Hs) in E. destruct x as [[a [e|]]| |]; try (injection H as _ <-; exact E).
  eapply (proj2 (kept_pre P)); [exact E|exact (kept_await P _ _ _ _ _ _ Hs H)].
Qed.

(** ** Opening, for any relation the messages to the device respect *)
Lemma opener_moves : forall (R : plm -> plm -> Prop) fuel os sc filters a f db st r st', preorder R -> mw_moves R a (plm_mw fuel sc) ->
  db_opener fuel os (plm_mw fuel sc) filters a ((f, db), st) = (r, st') -> R st (snd st').
Proof.
  intros R fuel os sc filters a f db st r st' HR Hmw H. unfold db_opener, filedb_open, pbind in H.
  destruct (memdb_open fuel db (plm_mw fuel sc) a [] st) as [o w1] eqn:E.
  assert (Hmain : R st w1).
  { unfold memdb_open in E. destruct (db_get db a) as [i []] eqn:Eg.
    - injection E as <- <-. apply HR.
    - unfold dev_open_filters, pbind in E. cbn [apply_filters fold_left] in E.
      pose proof (mv_dev_open plm R fuel (plm_mw fuel sc) a HR Hmw) as Hmv.
      match type of E with context [dev_open ?x ?y ?z ?u] => destruct (dev_open x y z u) as [[[[dv inf] er]| |] w2] eqn:E2 end;
        try (injection E as <- <-; exact (Hmv _ _ _ E2)).
      destruct er as [er|]; [injection E as <- <-; exact (Hmv _ _ _ E2)|].
      unfold pret, plift in E. destruct (db_put db inf) as [db1| |]; injection E as <- <-; exact (Hmv _ _ _ E2). }
  destruct o as [[[dv db1] er]| |]; try (injection H as <- <-; exact Hmain).
  unfold pret in H. destruct (filedb_save os f db1 er) as [[f1 db2] e1]. injection H as <- <-. exact Hmain.
Qed.
Lemma kept_moves : forall P fuel sc a, sched_all P sc -> mw_moves (kept P) a (plm_mw fuel sc).
Proof. intros P fuel sc a Hs. split; [intros st r st' H; exact (kept_read P _ _ _ _ Hs H)|intros m _ st r st' H; exact (kept_write P _ _ _ _ _ _ Hs H)]. Qed.
(** A device that can be used is there. *)
Lemma opener_some : forall fuel os sc filters a f db st dv e st', db_opener fuel os (plm_mw fuel sc) filters a ((f, db), st) = (Ret (dv, e), st') ->
  e = None \/ e = Some EDevNotLinked -> exists d, dv = Some d.
Proof.
  intros fuel os sc filters a f db st dv e st' H He. unfold db_opener, filedb_open, pbind in H.
  destruct (memdb_open fuel db (plm_mw fuel sc) a [] st) as [o w1] eqn:E. destruct o as [[[dv0 db1] er]| |]; try discriminate H.
  unfold pret in H. destruct (filedb_save os f db1 er) as [[f1 db2] e1] eqn:Es. injection H as <- <- <-.
  assert (Her : er = None \/ er = Some EDevNotLinked).
  { unfold filedb_save in Es. destruct er as [er|]; [|auto]. injection Es as _ _ <-. destruct He as [|He]; [discriminate|]. auto. }
  unfold memdb_open in E. destruct (db_get db a) as [i []] eqn:Eg.
  - injection E as <- <- <- <-. eexists; reflexivity.
  - unfold dev_open_filters, pbind in E. cbn [apply_filters fold_left] in E.
    match type of E with context [dev_open ?x ?y ?z ?u] => destruct (dev_open x y z u) as [[[[dv inf] er2]| |] w2] eqn:E2 end; try discriminate E.
    assert (Hd : er2 = None \/ er2 = Some EDevNotLinked -> exists j, dv = Some j).
    { intro Hx. unfold dev_open, pbind in E2. destruct (get_engine_version (plm_mw fuel sc) a st) as [[[v [x|]]| |] w3]; try discriminate E2.
      - injection E2 as <- <- <- <-. destruct Hx as [|Hx]; [discriminate|]. injection Hx as ->. rewrite GoLemmas.error_eqb_refl. eexists; reflexivity.
      - destruct (id_request fuel (plm_mw fuel sc) a w3) as [[[[fw dc] [x|]]| |] w4]; try discriminate E2; injection E2 as <- <- <- <-.
        + destruct Hx as [|Hx]; [discriminate|]. injection Hx as ->. rewrite GoLemmas.error_eqb_refl. eexists; reflexivity.
        + eexists; reflexivity. }
    destruct er2 as [x|].
    + injection E as <- <- <- <-. destruct Her as [|Her]; [discriminate|]. destruct (Hd (or_intror Her)) as [j ->]. eexists; reflexivity.
    + unfold pret, plift in E. destruct (db_put db inf) as [db2'| |]; try discriminate E. injection E as <- <- <- <-. destruct (Hd (or_introl eq_refl)) as [j ->]. eexists; reflexivity.
Qed.

(** ** The modem and the device are told something *)
Section Ops.
  Variable S : Type.
  Variable P : packet -> Prop.
  Variable sc : schedule.
  Hypothesis Hs : sched_all P sc.
  Variable retries : Z.
  Hypothesis Hr : 0 <= retries.

  (** [p] puts frames [F] on the line and nothing else; if it succeeds, [A] holds. *)
  Definition op (F : list (list Z) -> Prop) (A : Prop) (p : prog (S * plm) (option error)) : Prop :=
    forall s st o w', p_retries st = retries -> queues_all P st -> p (s, st) = (o, w') ->
      fst w' = s /\ kept P st (snd w') /\ (exists fs, F fs /\ p_sent (snd w') = p_sent st ++ fs) /\ (o = Ret None -> A).

  Lemma modem_op : forall pkt, pkt_marshal pkt = 0x02 :: p_cmd pkt :: p_payload pkt ->
    op (eq [0x02 :: p_cmd pkt :: p_payload pkt]) (exists q, P q /\ good_ack pkt q) (psnd (do (_, err) <- pw_write (plm_pw sc) pkt ;; pret err)).
  Proof.
    intros pkt Hm s st o w' _ Hq H. unfold psnd, pbind in H. cbn [fst snd plm_pw pw_write] in H.
    destruct (plm_write_packet sc pkt st) as [x st1] eqn:E. pose proof (kept_packet P _ _ _ _ _ Hs E) as K.
    assert (Hsent : p_sent st1 = p_sent st ++ [pkt_marshal pkt]).
    { destruct (write_packet_cases _ _ _ _ _ E) as [e s1 E1|s1 s2 E1 E2|s1 s2 E1 E2|p s1 s2 E1 E2];
        destruct (port_write_fields _ _ _ _ _ E1) as (F & _); auto; apply receive_fields in E2; destruct E2 as (F2 & _); congruence. }
    assert (Hw : w' = (s, st1) /\ (o = Ret None -> exists a, x = Ret (a, None))).
    { unfold pret in H. destruct x as [[a e]| |]; injection H as <- <-; (split; [reflexivity|]); intro Ho; try discriminate Ho. injection Ho as ->. eauto. }
    destruct Hw as [-> Ho]. cbn [fst snd]. split; [reflexivity|]. split; [exact K|]. split; [eexists; split; [reflexivity|rewrite <- Hm; exact Hsent]|].
    intro HN. destruct (Ho HN) as [a Hx]. rewrite Hx in E. clear - E Hs Hq.
    remember (Ret (a, @None error)) as r0 eqn:Er. destruct (write_packet_cases _ _ _ _ _ E) as [e s1 E1|s1 s2 E1 E2|s1 s2 E1 E2|p s1 s2 E1 E2]; try discriminate Er.
    exists p. pose proof (port_write_all P _ _ _ _ _ Hs Hq E1) as Q1. split; [apply (receive_all P _ _ _ _ _ Hs Q1 E2); reflexivity|].
    apply judge_success. rewrite Er. f_equal. unfold judge_ack in Er. destruct (pkt_is_nak p); [|].
    - exfalso. revert Er. match goal with |- bindo ?m _ = _ -> _ => destruct m end; discriminate.
    - revert Er. match goal with |- bindo ?m _ = _ -> _ => destruct m end; try discriminate. cbn [bindo]. intro Er. injection Er as <- _. reflexivity.
  Qed.
  Lemma modem_start_op : forall g, op (eq [modem_start g]) (exists q, P q /\ start_taken g q) (psnd (pdb_enter_linking (plm_pw sc) g)).
  Proof.
    intros g s st o w' H1 H2 H. destruct (modem_op (mkPkt 0x64 [3; g] 0) eq_refl s st o w' H1 H2 H) as (A & B & C & D). split; [exact A|]. split; [exact B|]. split; [exact C|].
    intro Ho. destruct (D Ho) as (q & Hq & (_ & Ha & (Hc & He))). exists q. split; [exact Hq|]. cbn [p_cmd p_payload] in *. unfold start_taken.
    split; [exact Hc|]. split; [exact Ha|]. destruct He as [He|[He|[[He _]|[_ He]]]]; [lia|lia|lia|exact He].
  Qed.
  Lemma modem_stop_op : op (eq [modem_stop]) True (psnd (pdb_exit_linking (plm_pw sc))).
  Proof. intros s st o w' H1 H2 H. destruct (modem_op (mkPkt 0x65 [] 0) eq_refl s st o w' H1 H2 H) as (A & B & C & D). auto. Qed.

  Lemma device_op : forall fuel i c1 c2 data p, 0 <= di_addr i < 16777216 -> sends (lift_mw (plm_mw fuel sc)) i c1 c2 data p ->
    op (told retries i c1 c2 data) ((forall q, P q -> bytes_ok (p_payload q)) -> exists q, P q /\ ack_from (di_addr i) q) p.
  Proof.
    intros fuel i c1 c2 data p Ha (m & Hm & Hp) s st o w' Hrt Hq H. rewrite Hp in H. cbn [lift_mw mw_write] in H. unfold psnd in H. cbn [fst snd] in H.
    destruct (mw_write (plm_mw fuel sc) m st) as [x st1] eqn:E. cbn [plm_mw mw_write] in E. pose proof (kept_write P _ _ _ _ _ _ Hs E) as K.
    destruct (write_sent _ _ _ _ _ _ E) as (k & K1 & K2 & K3). rewrite Hrt in K1, K2. specialize (K2 Hr).
    assert (Hw : w' = (s, st1) /\ (o = Ret None -> exists a, x = Ret (Some a, None))).
    { destruct x as [[[a|] [e|]]| |]; cbn [settled] in H; injection H as <- <-; (split; [reflexivity|]); intro Ho; try discriminate Ho. eauto. }
    destruct Hw as [-> Ho]. cbn [fst snd]. split; [reflexivity|]. split; [exact K|]. split.
    - exists (repeat (frame_of m) k). split; [|exact K3]. exists (frame_of m), k. split; [apply request_frame_of; auto|]. split; [lia|reflexivity].
    - intros HN Hb. destruct (Ho HN) as [a ->]. assert (Hr2 : 0 <= p_retries st) by lia.
      destruct (plm_write_result P _ _ _ _ _ _ _ Hs Hq Hr2 E (or_introl eq_refl)) as (q & Hpq & Hu & Hsrc & Hack & _).
      exists q. split; [exact Hpq|]. apply (ack_packet q a); auto; [rewrite Hsrc; apply Hm|apply Hack; reflexivity].
  Qed.
  Lemma device_start_op : forall fuel i g, 0 <= di_addr i < 16777216 -> is_byte g ->
    op (device_start retries i g) ((forall q, P q -> bytes_ok (p_payload q)) -> exists q, P q /\ ack_from (di_addr i) q) (bd_enter_linking i (lift_mw (plm_mw fuel sc)) g).
  Proof.
    intros fuel i g Ha Hg. unfold device_start. eapply device_op; [exact Ha|]. unfold is_byte in Hg. unfold bd_enter_linking, ver_I2Cs.
    destruct (di_engine i =? 2); (apply send_command_sends; [(left; cbn; lia) || (right; split; reflexivity)|rewrite sub_command1; reflexivity|rewrite sub_command2; try reflexivity; lia]).
  Qed.
  Lemma device_stop_op : forall fuel i, 0 <= di_addr i < 16777216 -> op (device_stop retries i) True (bd_exit_linking i (lift_mw (plm_mw fuel sc))).
  Proof.
    intros fuel i Ha s st o w' H1 H2 H. unfold device_stop.
    assert (Hsd : sends (lift_mw (S := S) (plm_mw fuel sc)) i 0x08 0 [] (bd_exit_linking i (lift_mw (plm_mw fuel sc)))) by (apply send_command_sends; [left; cbn; lia|reflexivity|reflexivity]).
    destruct (device_op fuel i 0x08 0 [] _ Ha Hsd s st o w' H1 H2 H) as (A & B & C & _). auto.
  Qed.

  (** One party starts, the other starts, both stop. *)
  Lemma force_op : forall g (c r : linkable (S * plm)) F1 F2 F3 F4 A1 A2, op F1 A1 (lk_enter c g) -> op F2 A2 (lk_enter r g) -> op F3 True (lk_exit c) -> op F4 True (lk_exit r) ->
    forall s st e w', p_retries st = retries -> queues_all P st -> force_link g c r (s, st) = (Ret e, w') ->
      fst w' = s /\ kept P st (snd w') /\
      exists fs, p_sent (snd w') = p_sent st ++ fs /\ ((e <> None /\ F1 fs) \/ exists f1 f2 f3 f4, F1 f1 /\ F2 f2 /\ F3 f3 /\ F4 f4 /\ fs = f1 ++ f2 ++ f3 ++ f4 /\ A1 /\ (e = None -> A2)).
  Proof.
    intros g c r F1 F2 F3 F4 A1 A2 O1 O2 O3 O4 s st e w' Hrt Hq H. unfold force_link, pbind in H.
    destruct (lk_enter c g (s, st)) as [o1 [s1 st1]] eqn:E1. destruct (O1 _ _ _ _ Hrt Hq E1) as (S1 & [K1 Q1] & (f1 & G1 & T1) & B1). cbn [fst snd] in *. subst s1.
    destruct o1 as [[e1|]| |]; try discriminate H.
    - unfold pret in H. injection H as <- <-. cbn [fst snd]. split; [reflexivity|]. split; [split; assumption|]. exists f1. split; [exact T1|]. left. split; [discriminate|exact G1].
    - specialize (Q1 Hq). rewrite Hrt in K1. destruct (lk_enter r g (s, st1)) as [o2 [s2 st2]] eqn:E2. destruct (O2 _ _ _ _ K1 Q1 E2) as (S2 & [K2 Q2] & (f2 & G2 & T2) & B2). cbn [fst snd] in *. subst s2.
      destruct o2 as [e2| |]; try discriminate H. specialize (Q2 Q1). rewrite K1 in K2.
      destruct (lk_exit c (s, st2)) as [o3 [s3 st3]] eqn:E3. destruct (O3 _ _ _ _ K2 Q2 E3) as (S3 & [K3 Q3] & (f3 & G3 & T3) & _). cbn [fst snd] in *. subst s3.
      destruct o3 as [e3| |]; try discriminate H. specialize (Q3 Q2). rewrite K2 in K3.
      destruct (lk_exit r (s, st3)) as [o4 [s4 st4]] eqn:E4. destruct (O4 _ _ _ _ K3 Q3 E4) as (S4 & [K4 Q4] & (f4 & G4 & T4) & _). cbn [fst snd] in *. subst s4.
      destruct o4 as [e4| |]; try discriminate H. unfold pret in H. injection H as <- <-. cbn [fst snd]. split; [reflexivity|]. split; [split; [congruence|auto]|].
      exists (f1 ++ f2 ++ f3 ++ f4). split; [rewrite T4, T3, T2, T1, !app_assoc; reflexivity|]. right. exists f1, f2, f3, f4. repeat (split; [assumption || reflexivity|]).
      split; [apply B1; reflexivity|]. intros ->. apply B2. reflexivity.
  Qed.
End Ops.

(** ** Linking with an opened device *)
Lemma link_one_line : forall S P fuel n now sc retries i c r g (s : S) st e w', sched_all P sc -> 0 <= retries -> 0 <= di_addr i < 16777216 -> is_byte g ->
  p_retries st = retries -> queues_all P st -> (forall q, P q -> bytes_ok (p_payload q)) ->
  ic_link_one (modem_lk n sc now) c r g (bdev_lk n now (mkBD i (lift_mw (plm_mw fuel sc)))) (s, st) = (Ret e, w') ->
  fst w' = s /\ kept P st (snd w') /\
  exists fs, p_sent (snd w') = p_sent st ++ fs /\ link_frames retries i c r g e fs /\
    (c = true \/ r = true -> e = None -> (exists p, P p /\ start_taken g p) /\ exists q, P q /\ ack_from (di_addr i) q) /\ lost_start P retries i c r g e fs.
Proof.
  intros S P fuel n now sc retries i c r g s st e w' Hs Hr Ha Hg Hrt Hq Hb H.
  set (m := @modem_lk S n sc now) in *. set (d := bdev_lk n now (mkBD i (lift_mw (S := S) (plm_mw fuel sc)))) in *.
  assert (M1 : op S P retries (eq [modem_start g]) (exists q, P q /\ start_taken g q) (lk_enter m g)) by (apply modem_start_op; assumption).
  assert (M2 : op S P retries (eq [modem_stop]) True (lk_exit m)) by (apply modem_stop_op; assumption).
  assert (D1 : op S P retries (device_start retries i g) ((forall q, P q -> bytes_ok (p_payload q)) -> exists q, P q /\ ack_from (di_addr i) q) (lk_enter d g))
    by (apply (device_start_op S P sc Hs retries Hr fuel i g Ha Hg)).
  assert (D2 : op S P retries (device_stop retries i) True (lk_exit d)) by (apply (device_stop_op S P sc Hs retries Hr fuel i Ha)).
  unfold ic_link_one, pbind in H.
  destruct ((if c then force_link g m d else pret None) (s, st)) as [o w1] eqn:E.
  assert (H1 : forall e1, o = Ret e1 -> fst w1 = s /\ kept P st (snd w1) /\
    exists f1, p_sent (snd w1) = p_sent st ++ f1 /\ (if c then modem_controls retries i g e1 f1 else e1 = None /\ f1 = []) /\
      (c = true -> e1 = None -> (exists p, P p /\ start_taken g p) /\ exists q, P q /\ ack_from (di_addr i) q) /\
      (c = true -> (exists p, P p /\ start_taken g p) \/ (e1 <> None /\ f1 = [modem_start g]))).
  { intros e1 ->. destruct c.
    - destruct (force_op S P retries g m d _ _ _ _ _ _ M1 D1 M2 D2 s st e1 w1 Hrt Hq E) as (A & B & fs & C & G).
      split; [exact A|]. split; [exact B|]. exists fs. split; [exact C|]. split.
      + destruct G as [[G1 G2]|(f1 & f2 & f3 & f4 & G1 & G2 & G3 & G4 & G5 & _)]; [left; split; [exact G1|symmetry; exact G2]|].
        right. exists f2, f4. subst f1 f3. auto.
      + split.
        * intros _ He. destruct G as [[G1 _]|(f1 & f2 & f3 & f4 & _ & _ & _ & _ & _ & G6 & G7)]; [contradiction|]. specialize (G7 He). auto.
        * intros _. destruct G as [[G1 G2]|(f1 & f2 & f3 & f4 & _ & _ & _ & _ & _ & G6 & G7)]; [right; auto|left; exact G6].
    - unfold pret in E. injection E as <- <-. cbn [fst snd]. split; [reflexivity|]. split; [apply kept_pre|]. exists []. rewrite app_nil_r. split; [reflexivity|]. split; [auto|]. split; discriminate. }
  destruct o as [e1| |]; [|discriminate H|discriminate H].
  destruct (H1 _ eq_refl) as (F1 & [K1 Q1] & f1 & T1 & G1 & A1 & Z1). destruct w1 as [s1 st1]. cbn [fst snd] in *. subst s1.
  destruct e1 as [e1|].
  - unfold pret in H. injection H as <- <-. cbn [fst snd]. split; [reflexivity|]. split; [split; assumption|]. exists f1. split; [exact T1|].
    split; [exists (Some e1), f1, []; rewrite app_nil_r; auto|]. split; [discriminate|]. split.
    + intros Hc Hn. destruct (Z1 Hc) as [(p & Y1 & Y2)|Y]; [destruct (Hn _ Y1 Y2)|exact Y].
    + intros -> _ _. destruct G1 as [G1 _]. discriminate G1.
  - destruct r.
    + rewrite Hrt in K1. destruct (force_op S P retries g d m _ _ _ _ _ _ D1 M1 D2 M2 s st1 e w' K1 (Q1 Hq) H) as (A & [K2 Q2] & fs & C & G).
      split; [exact A|]. split; [split; [congruence|auto]|]. exists (f1 ++ fs). split; [rewrite C, T1, app_assoc; reflexivity|]. split.
      * exists None, f1, fs. split; [reflexivity|]. split; [exact G1|].
        destruct G as [[Ga Gb]|(g1 & g2 & g3 & g4 & Ga & Gb & Gc & Gd & Ge & _)]; [left; auto|]. right. exists g1, g3. subst g2 g4. auto.
      * split.
        -- intros _ He. destruct G as [[Ga _]|(g1 & g2 & g3 & g4 & _ & _ & _ & _ & _ & G6 & G7)]; [contradiction|]. specialize (G7 He). auto.
        -- split.
           ++ intros Hc Hn. destruct (Z1 Hc) as [(p & Y1 & Y2)|[Y _]]; [destruct (Hn _ Y1 Y2)|contradiction].
           ++ intros Hc _ Hn. subst c. destruct G1 as [_ ->]. destruct G as [G|(g1 & g2 & g3 & g4 & _ & _ & _ & _ & _ & G6 & _)]; [exact G|].
              destruct (G6 Hb) as (q & Y1 & Y2). destruct (Hn _ Y1 Y2).
    + unfold pret in H. injection H as <- <-. cbn [fst snd]. split; [reflexivity|]. split; [split; assumption|]. exists f1. split; [exact T1|].
      split; [exists None, f1, []; rewrite app_nil_r; auto|]. split; [intros [Hc|Hc]; [auto|discriminate Hc]|]. split; [|discriminate].
      intros Hc Hn. destruct (Z1 Hc) as [(p & Y1 & Y2)|[Y _]]; [destruct (Hn _ Y1 Y2)|contradiction].
Qed.

(** ** The command *)
Definition skipped_blocks (addrs : list Z) (blocks : list (list (list Z))) : Prop := Forall2 (fun a b => Forall (frame_to a) b) addrs blocks.
Lemma net_link_line : forall P fuel n os sc now filters c r g addrs retries, sched_all P sc -> 0 <= retries -> is_byte g -> (forall q, P q -> bytes_ok (p_payload q)) ->
  Forall (fun a => 0 <= a < 16777216) addrs -> forall f db st e w', own_addresses db -> p_retries st = retries -> queues_all P st ->
  net_link fuel n os sc now filters c r g addrs ((f, db), st) = (Ret e, w') ->
  exists skipped rest blocks fs, addrs = skipped ++ rest /\ p_sent (snd w') = p_sent st ++ concat blocks ++ fs /\ skipped_blocks skipped blocks /\
    match rest with
    | [] => e = None /\ fs = []
    | a :: _ => exists i opening linking, di_addr i = a /\ fs = opening ++ linking /\ Forall (frame_to a) opening /\ link_frames retries i c r g e linking /\
        (c = true \/ r = true -> e = None -> (exists p, P p /\ start_taken g p) /\ exists q, P q /\ ack_from a q) /\ lost_start P retries i c r g e linking
    end.
Proof.
  intros P fuel n os sc now filters c r g addrs retries Hs Hr Hg Hb. unfold net_link. induction addrs as [|a addrs IH]; intros Hadr f db st e w' Ho Hrt Hq H; cbn [ic_link] in H.
  - unfold pret in H. injection H as <- <-. exists [], [], [], []. cbn. rewrite app_nil_r. repeat split; constructor.
  - inversion Hadr as [|? ? Ha Hadr']; subst x l. unfold pbind at 1 in H. unfold open_lk at 1 in H. unfold pbind at 1 in H.
    destruct (db_opener fuel os (plm_mw fuel sc) filters a ((f, db), st)) as [o [[f1 db1] st1]] eqn:E.
    destruct (opener_line _ _ _ _ _ _ _ _ _ _ Ha Ho E) as [(fo & T1 & L1) D1]. cbn [snd] in T1.
    pose proof (opener_own _ _ _ _ _ _ _ _ _ _ _ _ Ho E) as Ho1.
    pose proof (opener_moves (kept P) _ _ _ _ _ _ _ _ _ _ (kept_pre P) (kept_moves P fuel sc a Hs) E) as [K1 Q1]. cbn [snd] in K1, Q1. specialize (Q1 Hq). rewrite Hrt in K1.
    destruct o as [[dv er]| |]; try discriminate H. unfold pret at 1 in H.
    assert (Huse : (er = None \/ er = Some EDevNotLinked) -> ic_link_one (modem_lk n sc now) c r g (lk_or_nil (option_map (bdev_lk n now) dv)) (f1, db1, st1) = (Ret e, w') ->
      exists i opening linking, di_addr i = a /\ p_sent (snd w') = p_sent st ++ opening ++ linking /\ Forall (frame_to a) opening /\ link_frames retries i c r g e linking /\
        (c = true \/ r = true -> e = None -> (exists p, P p /\ start_taken g p) /\ exists q, P q /\ ack_from a q) /\ lost_start P retries i c r g e linking).
    { intros He Hl. destruct (opener_some _ _ _ _ _ _ _ _ _ _ _ E He) as [[i mw] ->]. destruct (D1 _ _ eq_refl) as [Hi Hw]. cbn [bd_info bd_writer] in Hi, Hw. subst mw.
      cbn [option_map lk_or_nil] in Hl. destruct (link_one_line _ P fuel n now sc retries i c r g _ _ _ _ Hs Hr (eq_ind_r (fun z => 0 <= z < 16777216) Ha Hi) Hg K1 Q1 Hb Hl) as (_ & _ & fs & T2 & G & A).
      exists i, fo, fs. split; [exact Hi|]. split; [rewrite T2, T1, app_assoc; reflexivity|]. split; [exact L1|]. split; [exact G|]. rewrite Hi in A. exact A. }
    assert (Hdone : (er = None \/ er = Some EDevNotLinked) -> ic_link_one (modem_lk n sc now) c r g (lk_or_nil (option_map (bdev_lk n now) dv)) (f1, db1, st1) = (Ret e, w') ->
      exists skipped rest blocks fs, a :: addrs = skipped ++ rest /\ p_sent (snd w') = p_sent st ++ concat blocks ++ fs /\ skipped_blocks skipped blocks /\
      match rest with
      | [] => e = None /\ fs = []
      | a :: _ => exists i opening linking, di_addr i = a /\ fs = opening ++ linking /\ Forall (frame_to a) opening /\ link_frames retries i c r g e linking /\
          (c = true \/ r = true -> e = None -> (exists p, P p /\ start_taken g p) /\ exists q, P q /\ ack_from a q) /\ lost_start P retries i c r g e linking
      end).
    { intros He Hl. destruct (Huse He Hl) as (i & op & li & A & B & C & D & F). exists [], (a :: addrs), [], (op ++ li). split; [reflexivity|]. split; [exact B|]. split; [constructor|]. exists i, op, li. auto. }
    assert (Hskip : forall x, er = Some x -> ic_link (open_lk n now (db_opener fuel os (plm_mw fuel sc) filters)) (modem_lk n sc now) c r g addrs (f1, db1, st1) = (Ret e, w') ->
      exists skipped rest blocks fs, a :: addrs = skipped ++ rest /\ p_sent (snd w') = p_sent st ++ concat blocks ++ fs /\ skipped_blocks skipped blocks /\
      match rest with
      | [] => e = None /\ fs = []
      | a :: _ => exists i opening linking, di_addr i = a /\ fs = opening ++ linking /\ Forall (frame_to a) opening /\ link_frames retries i c r g e linking /\
          (c = true \/ r = true -> e = None -> (exists p, P p /\ start_taken g p) /\ exists q, P q /\ ack_from a q) /\ lost_start P retries i c r g e linking
      end).
    { intros x _ Hl. destruct (IH Hadr' _ _ _ _ _ Ho1 K1 Q1 Hl) as (sk & re & bl & fs & A & B & C & D). exists (a :: sk), re, (fo :: bl), fs.
      split; [cbn [app]; congruence|]. split; [rewrite B, T1; cbn [concat]; rewrite !app_assoc; reflexivity|]. split; [constructor; assumption|exact D]. }
    destruct er as [x|]; [|apply Hdone; auto]. destruct x; try (eapply Hskip; [reflexivity|exact H]). apply Hdone; auto.
Qed.

(** ** Whatever happens *)
Definition line_of (Q : list Z -> Prop) (st st' : plm) : Prop := exists fs, p_sent st' = p_sent st ++ fs /\ Forall Q fs.
Lemma line_of_pre : forall Q, preorder (line_of Q).
Proof.
  intro Q. split.
  - intro w. exists []. rewrite app_nil_r. split; [reflexivity|constructor].
  - intros x y z (f1 & E1 & F1) (f2 & E2 & F2). exists (f1 ++ f2). rewrite E2, E1, app_assoc. split; [reflexivity|]. apply Forall_app. split; assumption.
Qed.
Definition line_of2 {S} Q (x y : S * plm) : Prop := line_of Q (snd x) (snd y).
Lemma line_of2_pre : forall S Q, preorder (@line_of2 S Q).
Proof. intros S Q. destruct (line_of_pre Q) as [H1 H2]. split; unfold line_of2; [intro; apply H1|intros x y z; apply H2]. Qed.
Lemma line_of_moves : forall (Q : list Z -> Prop) fuel sc a, 0 <= a < 16777216 -> (forall f, frame_to a f -> Q f) -> mw_moves (line_of Q) a (plm_mw fuel sc).
Proof.
  intros Q fuel sc a Ha HQ. destruct (plm_moves fuel sc a Ha) as [H1 H2].
  assert (Hw : forall x y, line_only a x y -> line_of Q x y) by (intros x y (fs & E & F); exists fs; split; [exact E|]; eapply Forall_impl; [exact HQ|exact F]).
  split; [intros st r st' H; apply Hw; exact (H1 _ _ _ H)|intros m Hm st r st' H; apply Hw; exact (H2 m Hm _ _ _ H)].
Qed.
Lemma lift_moves2 : forall S (R : plm -> plm -> Prop) a (mw : mwriter plm), mw_moves R a mw -> mw_moves (fun x y : S * plm => R (snd x) (snd y)) a (lift_mw mw).
Proof.
  intros S R a mw [Hr Hw]. split.
  - intros [s w] r w' H. cbn [lift_mw mw_read] in H. unfold psnd in H. cbn [snd fst] in H. destruct (mw_read mw w) as [o w1] eqn:E. injection H as _ <-. exact (Hr _ _ _ E).
  - intros m Hm [s w] r w' H. cbn [lift_mw mw_write] in H. unfold psnd in H. cbn [snd fst] in H. destruct (mw_write mw m w) as [o w1] eqn:E. injection H as _ <-. exact (Hw m Hm _ _ _ E).
Qed.
Lemma mv_modem : forall S (Q : list Z -> Prop) sc pkt, pkt_marshal pkt = 0x02 :: p_cmd pkt :: p_payload pkt -> Q (0x02 :: p_cmd pkt :: p_payload pkt) ->
  moves (@line_of2 S Q) (psnd (do (_, err) <- pw_write (plm_pw sc) pkt ;; pret err)).
Proof.
  intros S Q sc pkt Hm HQ [s st] o w' H. unfold psnd, pbind in H. cbn [fst snd plm_pw pw_write] in H. destruct (plm_write_packet sc pkt st) as [x st1] eqn:E.
  assert (Hsent : p_sent st1 = p_sent st ++ [pkt_marshal pkt]).
  { destruct (write_packet_cases _ _ _ _ _ E) as [e s1 E1|s1 s2 E1 E2|s1 s2 E1 E2|p s1 s2 E1 E2];
      destruct (port_write_fields _ _ _ _ _ E1) as (F & _); auto; apply receive_fields in E2; destruct E2 as (F2 & _); congruence. }
  assert (Hw : w' = (s, st1)) by (unfold pret in H; destruct x as [[a e]| |]; injection H as <- <-; reflexivity). subst w'.
  exists [pkt_marshal pkt]. cbn [snd]. split; [exact Hsent|]. constructor; [rewrite Hm; exact HQ|constructor].
Qed.
Lemma mv_force : forall W (R : W -> W -> Prop) g (c r : linkable W), preorder R -> moves R (lk_enter c g) -> moves R (lk_enter r g) -> moves R (lk_exit c) -> moves R (lk_exit r) ->
  moves R (force_link g c r).
Proof.
  intros W R g c r HR H1 H2 H3 H4. unfold force_link. apply mv_bind; [exact HR|exact H1|]. intros [e|]; [apply mv_ret; exact HR|].
  apply mv_bind; [exact HR|exact H2|]. intro e1. apply mv_bind; [exact HR|exact H3|]. intros _. apply mv_bind; [exact HR|exact H4|]. intros _. apply mv_ret; exact HR.
Qed.
Lemma net_link_moves : forall (Q : list Z -> Prop) fuel n os sc now filters c r g, Q (modem_start g) -> Q modem_stop -> forall addrs, Forall (fun a => 0 <= a < 16777216 /\ forall f, frame_to a f -> Q f) addrs ->
  forall f db st o w', own_addresses db -> net_link fuel n os sc now filters c r g addrs ((f, db), st) = (o, w') -> line_of Q st (snd w') /\ own_addresses (snd (fst w')).
Proof.
  intros Q fuel n os sc now filters c r g Q1 Q2. unfold net_link. induction addrs as [|a addrs IH]; intros Hadr f db st o w' Ho H; cbn [ic_link] in H.
  - unfold pret in H. injection H as <- <-. split; [apply line_of_pre|exact Ho].
  - inversion Hadr as [|? ? [Ha HQ] Hadr']; subst x l. unfold pbind at 1 in H. unfold open_lk at 1 in H. unfold pbind at 1 in H.
    destruct (db_opener fuel os (plm_mw fuel sc) filters a ((f, db), st)) as [oo [[f1 db1] st1]] eqn:E.
    destruct (opener_line _ _ _ _ _ _ _ _ _ _ Ha Ho E) as [_ D1].
    pose proof (opener_own _ _ _ _ _ _ _ _ _ _ _ _ Ho E) as Ho1.
    pose proof (opener_moves (line_of Q) _ _ _ _ _ _ _ _ _ _ (line_of_pre Q) (line_of_moves Q fuel sc a Ha HQ) E) as L1. cbn [snd] in L1.
    destruct oo as [[dv er]| |]; try (injection H as _ <-; split; [exact L1|exact Ho1]). unfold pret at 1 in H.
    assert (Huse : (er = None \/ er = Some EDevNotLinked) -> ic_link_one (modem_lk n sc now) c r g (lk_or_nil (option_map (bdev_lk n now) dv)) (f1, db1, st1) = (o, w') ->
      line_of Q st (snd w') /\ own_addresses (snd (fst w'))).
    { intros He Hl. destruct (opener_some _ _ _ _ _ _ _ _ _ _ _ E He) as [[i mw] ->]. destruct (D1 _ _ eq_refl) as [Hi Hw]. cbn [bd_info bd_writer] in Hi, Hw. subst mw.
      cbn [option_map lk_or_nil] in Hl.
      set (R := fun x y : (fstate * memdb) * plm => line_of Q (snd x) (snd y) /\ fst x = fst y).
      assert (HR : preorder R).
      { split; [intro x; split; [apply line_of_pre|reflexivity]|]. intros x y z [X1 X2] [Y1 Y2]. split; [eapply line_of_pre; eassumption|congruence]. }
      assert (Hps : forall A (p : prog plm A), moves (line_of Q) p -> moves R (psnd p)).
      { intros A p Hp [x y] r0 z Hz. unfold psnd in Hz. cbn [fst snd] in Hz. destruct (p y) as [o1 y1] eqn:Ey. injection Hz as _ <-. split; [exact (Hp _ _ _ Ey)|reflexivity]. }
      assert (Hmw : mw_moves R (di_addr i) (lift_mw (plm_mw fuel sc))).
      { rewrite Hi. destruct (line_of_moves Q fuel sc a Ha HQ) as [W1 W2]. split; [apply Hps; exact W1|]. intros m Hm. cbn [lift_mw mw_write]. apply Hps. exact (W2 m Hm). }
      assert (Hmp : forall pkt, pkt_marshal pkt = 0x02 :: p_cmd pkt :: p_payload pkt -> Q (0x02 :: p_cmd pkt :: p_payload pkt) -> moves R (psnd (do (_, err) <- pw_write (plm_pw sc) pkt ;; pret err))).
      { intros pkt Hp1 Hp2. intros [x y] r0 z Hz. pose proof (mv_modem _ Q sc pkt Hp1 Hp2 _ _ _ Hz) as X. split; [exact X|]. unfold psnd in Hz. cbn [fst snd] in Hz.
        match type of Hz with context [pbind ?u ?v y] => destruct (pbind u v y) as [o1 y1] end. injection Hz as _ <-. reflexivity. }
      assert (M1 : moves R (lk_enter (modem_lk n sc now) g)) by (apply (Hmp (mkPkt 0x64 [3; g] 0)); [reflexivity|exact Q1]).
      assert (M2 : moves R (lk_exit (modem_lk n sc now))) by (apply (Hmp (mkPkt 0x65 [] 0)); [reflexivity|exact Q2]).
      assert (N1 : moves R (lk_enter (bdev_lk n now (mkBD i (lift_mw (plm_mw fuel sc)))) g)) by (apply mv_enter; [exact HR|exact Hmw]).
      assert (N2 : moves R (lk_exit (bdev_lk n now (mkBD i (lift_mw (plm_mw fuel sc)))))) by (apply mv_exit; [exact HR|exact Hmw]).
      assert (HM : R (f1, db1, st1) w').
      { revert Hl. apply (fun X : moves R _ => X (f1, db1, st1) o w'). unfold ic_link_one. apply mv_bind; [exact HR| |].
        - destruct c; [apply mv_force; assumption|apply mv_ret; exact HR].
        - intros [e|]; [apply mv_ret; exact HR|]. destruct r; [apply mv_force; assumption|apply mv_ret; exact HR]. }
      destruct HM as [X1 X2]. split; [eapply line_of_pre; [exact L1|exact X1]|]. rewrite <- X2. exact Ho1. }
    assert (Hskip : ic_link (open_lk n now (db_opener fuel os (plm_mw fuel sc) filters)) (modem_lk n sc now) c r g addrs (f1, db1, st1) = (o, w') ->
      line_of Q st (snd w') /\ own_addresses (snd (fst w'))).
    { intro Hl. destruct (IH Hadr' _ _ _ _ _ Ho1 Hl) as [X1 X2]. split; [eapply line_of_pre; [exact L1|exact X1]|exact X2]. }
    destruct er as [x|]; [|apply Huse; auto]. destruct x; try (apply Hskip; exact H). apply Huse; auto.
Qed.

(** ** When everything is taken and answered *)
Lemma answer_unmarshals : forall i good reply, answer_from (di_addr i) good reply ->
  network_message reply = true /\ exists x, msg_unmarshal msg_zero (p_payload reply) = (x, None) /\ m_src x = di_addr i /\ fl_ack (m_flags x) = good /\ fl_nak (m_flags x) = negb good.
Proof.
  intros i good reply (Hcmd & s2 & s1 & s0 & d2 & d1 & d0 & fl & k1 & k2 & rest & k & ext & l & h & Hp & Ha3 & Hfl & Hk & Hext).
  split; [unfold network_message; lia|].
  pose proof (accessors_layout _ _ _ _ _ Hfl) as (_ & _ & _ & He & _ & _ & Hack & Hnak & _).
  assert (Hu : exists msg, msg_unmarshal msg_zero (p_payload reply) = (msg, None) /\ m_src msg = di_addr i /\ m_flags msg = fl).
  { rewrite Hp. cbn [app]. unfold msg_unmarshal. cbv zeta. rewrite He. destruct Ha3 as (_ & _ & _ & Ha3). destruct ext.
    - replace (zlen (s2 :: s1 :: s0 :: d2 :: d1 :: d0 :: fl :: k1 :: k2 :: rest) <? 23) with false by (specialize (Hext eq_refl); unfold zlen; cbn [List.length]; lia).
      eexists. split; [reflexivity|]. cbn [m_src m_flags]. rewrite addr_put3. split; [symmetry; exact Ha3|reflexivity].
    - eexists. split; [reflexivity|]. cbn [m_src m_flags]. rewrite addr_put3. split; [symmetry; exact Ha3|reflexivity]. }
  destruct Hu as (msg & Hu & Hs & Hf). exists msg. split; [exact Hu|]. split; [exact Hs|]. rewrite Hf, Hack, Hnak.
  destruct good; destruct k; cbn in *; split; congruence.
Qed.
Lemma packet_taken : forall sc pkt p st, idle st -> in_turn sc (p_time st) [None; Some p] -> goes_to QPkt p = true -> good_ack pkt p ->
  exists st', plm_write_packet sc pkt st = (Ret (Some p, None), st') /\ idle st' /\ p_time st' = S (S (p_time st)) /\ p_retries st' = p_retries st /\
    p_sent st' = p_sent st ++ [pkt_marshal pkt].
Proof.
  intros sc pkt p [q1 q2 cl sent waits time tmo retries addr] (I1 & I2 & I3) (S0 & S1 & _) Hg Hp. cbn [p_msgq p_pktq p_closed p_time p_retries p_sent] in *. subst q1 q2 cl.
  exists (mkPlm [] [] false (sent ++ [pkt_marshal pkt]) (waits ++ [tmo]) (S (S time)) tmo retries addr). split; [|repeat split; reflexivity].
  eapply write_packet_accepts; [| |exact Hp].
  - unfold port_write. cbn [p_time]. rewrite S0. cbn [s_werr s_before reader_turns fold_left]. reflexivity.
  - unfold tick, log_sent. cbn [p_msgq p_pktq p_closed p_sent p_waits p_time p_timeout p_retries p_addr]. apply (receive_one sc QPkt p); assumption.
Qed.
Lemma write_taken : forall fuel sc i m st echo reply good, (1 <= fuel)%nat -> 0 <= p_retries st -> idle st -> m_dst m = di_addr i ->
  in_turn sc (p_time st) [None; Some echo; Some reply] -> echo_of (frame_of m) echo -> answer_from (di_addr i) good reply ->
  exists x st', plm_write fuel sc m st = (Ret (Some x, if good then None else Some EDevNak), st') /\ idle st' /\ p_time st' = S (S (S (p_time st))) /\
    p_retries st' = p_retries st /\ p_sent st' = p_sent st ++ [frame_of m].
Proof.
  intros fuel sc i m st echo reply good Hfu Hr Hi Hdst (S0 & S1 & S2 & _) (E1 & E2 & x1 & y1 & z1 & E3) Ha.
  destruct (answer_unmarshals _ _ _ Ha) as (Hnet & x & Hu & Hsrc & Hack & Hnak).
  destruct fuel as [|fuel]; [lia|].
  assert (Hecho : good_ack (mkPkt 0x62 (skipn 3 (msg_marshal m)) 0) echo).
  { split; [rewrite E1; lia|]. split; [exact E2|]. split; [exact E1|]. right. right. left. split; [reflexivity|]. exists x1, y1, z1. exact E3. }
  destruct (packet_taken sc (mkPkt pc_SendInsteonMsg (skipn 3 (msg_marshal m)) 0) echo st Hi) as (st1 & Hw & (I1 & I2 & I3) & T1 & R1 & F1);
    [cbn [in_turn]; auto|unfold goes_to, network_message; rewrite E1; reflexivity|exact Hecho|].
  unfold plm_write, retry. replace (Z.to_nat (p_retries st + 1)) with (S (Z.to_nat (p_retries st))) by lia. cbn [retry_loop].
  cbn [plm_pw pw_write]. rewrite Hw. cbn [err_is andb orb]. cbn [await_ack]. unfold plm_read.
  destruct st1 as [q1 q2 cl sent waits time tmo retries addr]. cbn [p_msgq p_pktq p_closed p_time p_retries p_sent] in *. subst q1 q2 cl time retries.
  rewrite (receive_one sc QMsg reply) by assumption. rewrite Hu. rewrite Hsrc, Hdst, Z.eqb_refl, Hack, Hnak.
  exists x. eexists. split; [destruct good; reflexivity|]. cbn. repeat split; auto.
Qed.
Lemma sends_taken : forall S fuel sc i c1 c2 data (p : prog (S * plm) (option error)), 0 <= di_addr i < 16777216 -> (1 <= fuel)%nat ->
  sends (lift_mw (plm_mw fuel sc)) i c1 c2 data p ->
  exists frame, request_frame i c1 c2 data frame /\ forall s st echo reply good, 0 <= p_retries st -> idle st -> in_turn sc (p_time st) [None; Some echo; Some reply] ->
    echo_of frame echo -> answer_from (di_addr i) good reply ->
    exists st', p (s, st) = (Ret (if good then None else Some EDevNak), (s, st')) /\ idle st' /\ p_time st' = Datatypes.S (Datatypes.S (Datatypes.S (p_time st))) /\
      p_retries st' = p_retries st /\ p_sent st' = p_sent st ++ [frame].
Proof.
  intros S fuel sc i c1 c2 data p Ha Hfu (m & Hm & Hp). exists (frame_of m). split; [apply request_frame_of; auto|].
  intros s st echo reply good Hr Hi Ht He Hw. assert (Hd : m_dst m = di_addr i) by apply Hm.
  destruct (write_taken fuel sc i m st echo reply good Hfu Hr Hi Hd Ht He Hw) as (x & st' & E & R). exists st'. split; [|exact R].
  rewrite Hp. cbn [lift_mw mw_write]. unfold psnd. cbn [fst snd plm_mw mw_write]. rewrite E. destruct good; reflexivity.
Qed.
