(** C70, C71: several goroutines calling one PLM at the same time. *)
From Coq Require Import ZArith List Bool Lia ZifyBool ZifyNat.
From Verif Require Import GoBase GoLemmas GoSlice Link Message PlmPacket Plm PlmSpec PlmProofs PlmLinkdb Conc ConcSpec ConcProofs.
Import ListNotations.
Open Scope Z_scope.

(** C70.  While no other goroutine acts, a call does what the method of Plm.v or PlmLinkdb.v does under some schedule ... *)
Theorem C70_alone : forall i k l y y' o, Forall (only i) l -> acts y l = Some y' -> db_ok (y_db y) -> enough k (y_db y) ->
  nth_error (y_gors y) i = Some (mkGor false (call_client (p_retries (y_plm y)) k)) -> finished y' i = Some o ->
  exists sc es st', method k sc (db_of (y_db y), y_plm y) = (o, (db_of (y_db y'), st')) /\ y_plm y' = reader_turns st' es /\ db_ok (y_db y').
Proof.
  intros i k l y y' o Hl H Hd He Hg Ho.
  destruct (proj1 (exec_solo i l y y' o Hl H Ho (call_client (p_retries (y_plm y)) k) (y_plm y) []) Hg eq_refl) as (sc & es & st' & Hs & Hr).
  exists sc, es, st'. pose proof (solo_call k sc (y_db y) (y_plm y) Hd He) as Ha. rewrite Hs in Ha. destruct Ha as [Ha Hk]. auto.
Qed.
(** ... and everything the method does under a schedule is such an execution. *)
Theorem C70_every_schedule : forall k sc d st o db' st', db_ok d -> enough k d -> method k sc (db_of d, st) = (o, (db', st')) ->
  exists l y, Forall (only 0) l /\ acts (started st d [k]) l = Some y /\ finished y 0 = Some o /\ y_plm y = st' /\ db_of (y_db y) = db'.
Proof.
  intros k sc d st o db' st' Hd He H. pose proof (solo_call k sc d st Hd He) as Ha. rewrite H in Ha.
  destruct (solo sc (call_client (p_retries st) k) d st) as [o1 [d1 st1]] eqn:Es. destruct Ha as [Ha Hk]. injection Ha as -> -> ->.
  destruct (solo_exec _ sc d st o1 d1 st1 [] [] Es) as (l & Hl & w & g & p & Hg).
  exists l, (mkSys st1 d1 [mkGor w (CDone o1)] g p). auto.
Qed.

(** C70.  Whatever calls run and however they interleave: each queue is a first-in-first-out queue of ten places, so every packet
    that arrives is delivered to one goroutine at most, in the order of arrival. *)
Theorem C70_delivered_once : forall st d calls l y q, fresh st -> acts (started st d calls) l = Some y ->
  (exists h, fifo h (queue_of q (y_plm y)) /\ arrivals h = filter (goes_to q) (live (reads l)) /\ takings h = taken q (y_got y)) /\
  subseq (taken q (y_got y)) (live (reads l)).
Proof.
  intros st d calls l y q (H1 & H2 & H3) H.
  assert (Hf : fifo [] (queue_of q (y_plm (started st d calls)))) by (destruct q; cbn; rewrite ?H1, ?H2; constructor).
  destruct (acts_fifo l _ y q [] H Hf eq_refl) as (h & I1 & I2 & I3). cbn [started y_plm] in I2. rewrite H3 in I2. cbn [arrivals flat_map app live_from] in I2.
  split; [exists h; auto|]. apply fifo_subseq in I1. rewrite I3 in I1. apply subseq_cut in I1. rewrite I2 in I1.
  eapply subseq_trans; [apply subseq_filter|exact I1].
Qed.

(** C70.  What goes over the line is what the goroutines send, in that order; every call sends only its own frames: its one frame as
    often as it is allowed to, Links the two requests, WriteLinks deletions and its records in order. *)
Theorem C70_line : forall st d calls l y, acts (started st d calls) l = Some y ->
  p_sent (y_plm y) = p_sent st ++ map snd (y_put y) /\
  forall i k, nth_error calls i = Some k ->
    (single k -> exists n, (n <= Z.to_nat (call_times (p_retries st) k))%nat /\ by_gor i (y_put y) = repeat (call_bytes k) n) /\
    (forall fuel spare now, k = KLinks fuel spare now -> exists n m, by_gor i (y_put y) = repeat [0x02; 0x69] n ++ repeat [0x02; 0x6a] m) /\
    (forall fuel grow ls, k = KWriteLinks fuel grow ls -> writes_records ls (by_gor i (y_put y))).
Proof.
  intros st d calls l y H. split.
  - destruct (acts_sent _ _ _ H) as (ext & E1 & E2). cbn [started y_put y_plm app] in *. rewrite E1, E2. reflexivity.
  - intros i k Hk. split; [|split].
    + intro Hs. destruct (started_follows _ i st d calls k l y Hk (call_sends _ _ Hs) H) as (g & Hg & F). apply follows_here in F. exact F.
    + intros fuel spare now ->. destruct (started_follows _ i st d calls _ l y Hk (links_asks _ _ _ _) H) as (g & Hg & F). apply follows_here in F. exact F.
    + intros fuel grow ls ->. destruct (started_follows _ i st d calls _ l y Hk (write_links_sends _ _ _ _) H) as (g & Hg & F). apply follows_here in F. exact F.
Qed.

(** C70.  A call that returns without an error has received what it reports: a call about a packet an acknowledgement that matches its
    packet, a message call an acknowledging message from the device written to. *)
Theorem C70_success : forall st d calls l y i, acts (started st d calls) l = Some y ->
  (forall k pkt r, 0 <= p_retries st -> nth_error calls i = Some k -> sends_packet k pkt -> finished y i = Some (Ret r) -> success r ->
     exists a, reports r a /\ good_ack pkt a /\ In (i, (QPkt, a)) (y_got y)) /\
  (forall fuel msg m, nth_error calls i = Some (KWrite fuel msg) -> finished y i = Some (Ret (RsMessage (Some m, None))) ->
     m_src m = m_dst msg /\ fl_ack (m_flags m) = true /\
     exists p, In (i, (QMsg, p)) (y_got y) /\ msg_unmarshal msg_zero (p_payload p) = (m, None)).
Proof.
  intros st d calls l y i H. split.
  - intros k pkt r Hp Hk Hs Hr Hc. destruct (started_follows _ i st d calls k l y Hk (call_acked _ _ _ Hp Hs) H) as (g & Hg & F). apply follows_here in F.
    unfold finished in Hr. rewrite Hg in Hr. destruct g as [w c]. cbn [g_rest] in F. destruct c; try discriminate Hr. injection Hr as ->.
    destruct (F r eq_refl Hc) as (a & F1 & F2 & F3). exists a. split; [exact F1|]. split; [exact F2|]. apply by_gor_in. exact F3.
  - intros fuel msg m Hk Hm. destruct (started_follows _ i st d calls _ l y Hk (call_answered _ _ _) H) as (g & Hg & F). apply follows_here in F.
    unfold finished in Hm. rewrite Hg in Hm. destruct g as [w c]. cbn [g_rest] in F. destruct c; try discriminate Hm. injection Hm as ->.
    destruct (F m eq_refl) as (F1 & F2 & p & F3 & F4). split; [exact F1|]. split; [exact F2|]. exists p. split; [|exact F4]. apply by_gor_in. exact F3.
Qed.

(** C70.  There are never more calls that succeed with a packet than matching acknowledgements that came in. *)
Theorem C70_count : forall st d calls l y pkt ids, fresh st -> 0 <= p_retries st -> acts (started st d calls) l = Some y -> NoDup ids ->
  (forall i, In i ids -> exists k, nth_error calls i = Some k /\ sends_packet k pkt /\ succeeded y i) ->
  exists acks, length acks = length ids /\ Forall (good_ack pkt) acks /\ subseq acks (live (reads l)).
Proof.
  intros st d calls l y pkt ids Hf Hp H Hn Hi.
  destruct (distinct_acks (good_ack pkt) (y_got y) ids Hn) as (ps & P1 & P2 & P3).
  { intros i Hin. destruct (Hi i Hin) as (k & Hk & Hs & r & Hr & Hc).
    destruct (proj1 (C70_success st d calls l y i H) k pkt r Hp Hk Hs Hr Hc) as (a & _ & G1 & G2). exists a. auto. }
  exists ps. split; [exact P1|]. split; [exact P2|]. eapply subseq_trans; [|exact P3]. apply (C70_delivered_once st d calls l y QPkt Hf H).
Qed.

(** An idle modem. *)
Definition conc_idle : plm := mkPlm [] [] false [] [] 0 3 3 0.
Definition conc_db : dbmem := mkDm 0 [[]] nil_slice 3 3.
Definition to_dev (b : Z) : packet := mkPkt 0x62 [0x11; 0x22; b; 0x0f; 0x11; 0xff] 0.
Definition modem_echo (pkt : packet) : packet := mkPkt 0x62 ([0xaa; 0xbb; 0xcc] ++ p_payload pkt) 0x06.

(** C70.  That a call succeeds when the modem does its part is false with two callers: both frames are echoed, promptly and in the order
    written, and each caller takes the other's echo. *)
Theorem C70_crossed_refuted : exists calls l y, acts (started conc_idle conc_db calls) l = Some y /\ prompt l /\
  Forall2 echoed (map snd (y_put y)) (live (reads l)) /\ length (y_put y) = 2%nat /\
  (exists a, finished y 0 = Some (Ret (RsPacket (Some a, Some EPlmWrongPayload)))) /\
  (exists a, finished y 1 = Some (Ret (RsPacket (Some a, Some EPlmWrongPayload)))).
Proof.
  exists [KRetry (to_dev 1); KRetry (to_dev 2)].
  exists [ASend 0 None; ASend 1 None; AReader (EvPacket (modem_echo (to_dev 1))); AReader (EvPacket (modem_echo (to_dev 2)));
          AWait 1; ARecv 1; AWait 0; ARecv 0].
  eexists. split; [vm_compute; reflexivity|]. split.
  { split; [intros i H|intros i e H]; cbn in H; intuition discriminate. }
  split.
  { apply Forall2_cons; [|apply Forall2_cons; [|apply Forall2_nil]].
    - split; [reflexivity|]. eexists _, _. split; [reflexivity|]. split; [reflexivity|]. eexists _, _, _. reflexivity.
    - split; [reflexivity|]. eexists _, _. split; [reflexivity|]. split; [reflexivity|]. eexists _, _, _. reflexivity. }
  split; [reflexivity|]. split; eexists; reflexivity.
Qed.

Definition cmd_to (b : Z) : message := mkMsg 0 (0x112200 + b) 0x0f 0x0011ff [].
Definition ack_of (b : Z) : packet := mkPkt 0x50 [0x11; 0x22; b; 0xaa; 0xbb; 0xcc; 0x2f; 0x11; 0xff] 0.

(** C70.  Nor does it help that the devices answer: each of two callers takes the other device's acknowledgement off the queue, throws it
    away, and both time out. *)
Theorem C70_stolen_refuted : exists l y, acts (started conc_idle conc_db [KWrite 3 (cmd_to 1); KWrite 3 (cmd_to 2)]) l = Some y /\
  In (ack_of 1) (live (reads l)) /\ In (ack_of 2) (live (reads l)) /\
  In (1%nat, (QMsg, ack_of 1)) (y_got y) /\ In (0%nat, (QMsg, ack_of 2)) (y_got y) /\
  finished y 0 = Some (Ret (RsMessage (None, Some (EWrap EInsteonReadTimeout)))) /\
  finished y 1 = Some (Ret (RsMessage (None, Some (EWrap EInsteonReadTimeout)))).
Proof.
  exists ([ASend 0 None; AReader (EvPacket (modem_echo (to_dev 1))); AWait 0; ARecv 0;
           ASend 1 None; AReader (EvPacket (modem_echo (to_dev 2))); AWait 1; ARecv 1] ++
          [AWait 1; AReader (EvPacket (ack_of 1)); ARecv 1; AWait 0; AReader (EvPacket (ack_of 2)); ARecv 0] ++
          [AWait 0; AWait 1; ALate 0; ALate 1]).
  eexists. split; [vm_compute; reflexivity|]. cbn. auto 20.
Qed.

(** Two callers that do not get in each other's way. *)
Example C70_ex : exists y, acts (started conc_idle conc_db [KWrite 3 (cmd_to 1); KWrite 3 (cmd_to 2)])
  [ASend 0 None; AReader (EvPacket (modem_echo (to_dev 1))); AWait 0; ARecv 0; ASend 1 None; AWait 0;
   AReader (EvPacket (ack_of 1)); ARecv 0; AWait 1; AReader (EvPacket (modem_echo (to_dev 2))); ARecv 1; AWait 1; AReader (EvPacket (ack_of 2)); ARecv 1] = Some y /\
  (exists m, finished y 0 = Some (Ret (RsMessage (Some m, None))) /\ m_src m = 0x112201) /\
  (exists m, finished y 1 = Some (Ret (RsMessage (Some m, None))) /\ m_src m = 0x112202) /\
  p_sent (y_plm y) = [[0x02; 0x62; 0x11; 0x22; 1; 0x0f; 0x11; 0xff]; [0x02; 0x62; 0x11; 0x22; 2; 0x0f; 0x11; 0xff]].
Proof. eexists. split; [vm_compute; reflexivity|]. cbn. split; [|split; [|reflexivity]]; eexists; split; reflexivity. Qed.
(** Two calls with the same packet and one acknowledgement: one of them has to fail. *)
Example C70_ex_count : exists y, acts (started conc_idle conc_db [KWritePacket (to_dev 1); KWritePacket (to_dev 1)])
  [ASend 0 None; ASend 1 None; AWait 0; AReader (EvPacket (modem_echo (to_dev 1))); AWait 1; ARecv 1; ALate 0] = Some y /\
  succeeded y 1 /\ finished y 0 = Some (Ret (RsPacket (None, Some (EWrap EPlmReadTimeout)))).
Proof. eexists. split; [vm_compute; reflexivity|]. split; [eexists; split; [reflexivity|exact I]|reflexivity]. Qed.
(** Config and SetConfig at the same time, and a walk over the modem's records while another goroutine sends to a device. *)
Example C70_ex_config : exists y, acts (started conc_idle conc_db [KConfig; KSetConfig 0xa5; KEnterLinking 7])
  [ASend 1 None; ASend 0 None; AReader (EvPacket (mkPkt 0x6b [0xa0] 0x06)); AWait 1; ARecv 1; AWait 0; AReader (EvPacket (mkPkt 0x73 [0x48; 0; 0] 0x06)); ARecv 0;
   ASend 2 None; AWait 2; AReader (EvPacket (mkPkt 0x64 [3; 7] 0x06)); ARecv 2] = Some y /\
  finished y 0 = Some (Ret (RsConfig (0x48, None))) /\ finished y 1 = Some (Ret (RsError None)) /\ finished y 2 = Some (Ret (RsError None)) /\
  by_gor 1 (y_put y) = [[0x02; 0x6b; 0xa0]] /\ by_gor 2 (y_put y) = [[0x02; 0x64; 3; 7]].
Proof. eexists. split; [vm_compute; reflexivity|]. repeat split. Qed.
Definition record_of (b : Z) : packet := mkPkt 0x57 [0xe2; 1; 0x11; 0x22; b; 1; 2; 3] 0.
Example C70_ex_links : exists y, acts (started conc_idle conc_db [KLinks 9 0 5; KWritePacket (to_dev 1)])
  [AMem 0; ASend 0 None; ASend 1 None; AReader (EvPacket (mkPkt 0x69 [] 0x06)); AWait 0; ARecv 0; AReader (EvPacket (record_of 9)); AWait 0; ARecv 0;
   ASend 0 None; AWait 0; AReader (EvPacket (mkPkt 0x6a [] 0x15)); ARecv 0; AWait 1; AReader (EvPacket (modem_echo (to_dev 1))); ARecv 1;
   AMem 0; AMem 0; AMem 0; AMem 0] = Some y /\
  finished y 0 = Some (Ret (RsLinks ([mkLink 0xe2 1 0x112209 1 2 3], None))) /\ succeeded y 1 /\
  by_gor 0 (y_put y) = [[0x02; 0x69]; [0x02; 0x6a]].
Proof. eexists. split; [vm_compute; reflexivity|]. split; [reflexivity|]. split; [eexists; split; [reflexivity|exact I]|reflexivity]. Qed.

(** C71.  The time-out of the modem has, at every moment of every execution, its first value or the twenty seconds of Reset, and every wait
    is entered with one of the two. *)
Theorem C71_values : forall st d calls l y, acts (started st d calls) l = Some y ->
  (p_timeout (y_plm y) = p_timeout st \/ p_timeout (y_plm y) = 20) /\
  exists ws, p_waits (y_plm y) = p_waits st ++ ws /\ Forall (fun t => t = p_timeout st \/ t = 20) ws.
Proof.
  intros st d calls l y H. destruct (acts_range (fun t => t = p_timeout st \/ t = 20) l _ y H) as [[R1 _] (ws & W & F)].
  { apply started_range; [left; reflexivity|]. intros _. right. reflexivity. }
  split; [exact R1|]. exists ws. auto.
Qed.
(** C71.  Without a Reset it never changes. *)
Theorem C71_no_reset : forall st d calls l y, acts (started st d calls) l = Some y -> ~ In KReset calls ->
  p_timeout (y_plm y) = p_timeout st /\ exists ws, p_waits (y_plm y) = p_waits st ++ ws /\ Forall (fun t => t = p_timeout st) ws.
Proof.
  intros st d calls l y H Hn. destruct (acts_range (fun t => t = p_timeout st) l _ y H) as [[R1 _] (ws & W & F)].
  { apply started_range; [reflexivity|]. intro Hc. contradiction. }
  split; [exact R1|]. exists ws. auto.
Qed.
(** C71.  With one Reset among any other calls it has its first value again once Reset has returned. *)
Theorem C71_one_reset : forall st d calls l y i r, acts (started st d calls) l = Some y ->
  (forall j, nth_error calls j = Some KReset <-> j = i) -> finished y i = Some (Ret r) -> p_timeout (y_plm y) = p_timeout st.
Proof.
  intros st d calls l y i r H Hone Hf.
  assert (Hy : one_assigns (p_timeout st) i y).
  { eapply acts_one; [exact H|]. intros j g Hj. cbn [started y_gors y_plm] in *. rewrite nth_error_map in Hj.
    destruct (nth_error calls j) as [k|] eqn:Ek; [|discriminate Hj]. injection Hj as <-. cbn [g_rest]. destruct (Nat.eqb_spec j i) as [->|Hn].
    - rewrite (proj2 (Hone i) eq_refl) in Ek. injection Ek as <-. apply restores_reset.
    - apply silent_call. intros ->. apply Hone in Ek. contradiction. }
  unfold finished in Hf. destruct (nth_error (y_gors y) i) as [[w c]|] eqn:Eg; [|discriminate Hf]. destruct c; try discriminate Hf. injection Hf as ->.
  specialize (Hy _ _ Eg). rewrite Nat.eqb_refl in Hy. exact Hy.
Qed.

Definition reset_ack : packet := mkPkt 0x67 [] 0x06.
(** C71.  That Reset puts the time-out back is false when two of them overlap: both succeed (the second without waiting its twenty seconds), the modem keeps the twenty, and a
    call made afterwards waits that long. *)
Theorem C71_overlap_refuted : exists l y, acts (started conc_idle conc_db [KReset; KReset; KRead]) l = Some y /\ prompt l /\
  finished y 0 = Some (Ret (RsError None)) /\ finished y 1 = Some (Ret (RsError None)) /\
  p_timeout conc_idle = 3 /\ p_timeout (y_plm y) = 20 /\ p_waits (y_plm y) = [20; 3; 20] /\ finished y 2 = Some (Ret (RsMessage (match msg_unmarshal msg_zero (p_payload (ack_of 1)) with (m, e) => (Some m, e) end))).
Proof.
  exists ([AMem 0; AMem 0; AMem 1; AMem 1; ASend 0 None; AReader (EvPacket reset_ack); AWait 0; ARecv 0; AMem 0;
           ASend 1 None; AReader (EvPacket reset_ack); AWait 1; ARecv 1; AMem 1] ++
          [AWait 2; AReader (EvPacket (ack_of 1)); ARecv 2]).
  eexists. split; [vm_compute; reflexivity|]. split.
  { split; [intros i H|intros i e H]; cbn in H; intuition discriminate. }
  split; [reflexivity|]. split; [reflexivity|]. split; [reflexivity|]. split; [reflexivity|]. split; [reflexivity|]. vm_compute. reflexivity.
Qed.
(** One Reset while another goroutine waits: the other entered its wait before and after. *)
Example C71_ex : exists y, acts (started conc_idle conc_db [KReadPacket; KReset; KRead])
  [AWait 0; AMem 1; AMem 1; AWait 2; ASend 1 None; AWait 1; AReader (EvPacket reset_ack); ARecv 1; ALate 0; AMem 1; ALate 2] = Some y /\
  p_waits (y_plm y) = [3; 20; 20] /\ p_timeout (y_plm y) = 3 /\ finished y 1 = Some (Ret (RsError None)).
Proof. eexists. split; [vm_compute; reflexivity|]. repeat split. Qed.

(** The theorems on these executions, and on one goroutine alone. *)
Definition ex_alone : list action :=
  [AMem 0; ASend 0 None; AReader (EvPacket (mkPkt 0x69 [] 0x06)); AWait 0; ARecv 0; AReader (EvPacket (record_of 9)); AWait 0; ARecv 0;
   ASend 0 None; AWait 0; AReader (EvPacket (mkPkt 0x6a [] 0x15)); ARecv 0; AMem 0; AMem 0; AMem 0; AMem 0].
Lemma conc_db_ok : db_ok conc_db.
Proof. repeat split; cbn; lia. Qed.
Example C70_alone_case : exists y' sc db st', acts (started conc_idle conc_db [KLinks 9 0 5]) ex_alone = Some y' /\
  method (KLinks 9 0 5) sc (db_of conc_db, conc_idle) = (Ret (RsLinks ([mkLink 0xe2 1 0x112209 1 2 3], None)), (db, st')).
Proof.
  destruct (acts (started conc_idle conc_db [KLinks 9 0 5]) ex_alone) as [y'|] eqn:E; [|exfalso; vm_compute in E; discriminate E].
  assert (F : finished y' 0 = Some (Ret (RsLinks ([mkLink 0xe2 1 0x112209 1 2 3], None)))) by (apply (f_equal (option_map (fun y => finished y 0))) in E; vm_compute in E; injection E as E; symmetry; exact E).
  destruct (C70_alone 0 (KLinks 9 0 5) ex_alone (started conc_idle conc_db [KLinks 9 0 5]) y' (Ret (RsLinks ([mkLink 0xe2 1 0x112209 1 2 3], None)))) as (sc & es & st' & M & _ & _); [|exact E|exact conc_db_ok|exact I|reflexivity|exact F|].
  - unfold ex_alone. repeat (constructor; [exact I || reflexivity|]). constructor.
  - exists y', sc, (db_of (y_db y')), st'. split; [reflexivity|exact M].
Qed.
Example C70_every_schedule_case : exists l y, Forall (only 0) l /\ acts (started conc_idle conc_db [KWritePacket (to_dev 1)]) l = Some y /\
  finished y 0 = Some (Ret (RsPacket (Some (modem_echo (to_dev 1)), None))).
Proof.
  destruct (method (KWritePacket (to_dev 1)) (fun _ => mkStep [] [EvPacket (modem_echo (to_dev 1))] false None) (db_of conc_db, conc_idle)) as [o [db' st']] eqn:E.
  assert (Eo : o = Ret (RsPacket (Some (modem_echo (to_dev 1)), None))) by (apply (f_equal fst) in E; vm_compute in E; symmetry; exact E). subst o.
  destruct (C70_every_schedule (KWritePacket (to_dev 1)) _ conc_db _ _ _ _ conc_db_ok I E) as (l & y & H1 & H2 & H3 & _). exists l, y. auto.
Qed.
Example C70_count_case : exists y acks, acts (started conc_idle conc_db [KWritePacket (to_dev 1); KWritePacket (to_dev 1)])
    [ASend 0 None; ASend 1 None; AWait 0; AReader (EvPacket (modem_echo (to_dev 1))); AWait 1; ARecv 1; ALate 0] = Some y /\
  length acks = 1%nat /\ Forall (good_ack (to_dev 1)) acks /\ subseq acks [modem_echo (to_dev 1)].
Proof.
  destruct C70_ex_count as (y & E & S & _). exists y.
  destruct (C70_count conc_idle conc_db _ _ _ (to_dev 1) [1%nat] ltac:(repeat split) ltac:(cbn; lia) E ltac:(repeat constructor; intros [])) as (acks & H1 & H2 & H3).
  - intros i [<-|[]]. exists (KWritePacket (to_dev 1)). split; [reflexivity|]. split; [reflexivity|exact S].
  - exists acks. auto.
Qed.
Example C70_success_case : exists y a, acts (started conc_idle conc_db [KWritePacket (to_dev 1); KWritePacket (to_dev 1)])
    [ASend 0 None; ASend 1 None; AWait 0; AReader (EvPacket (modem_echo (to_dev 1))); AWait 1; ARecv 1; ALate 0] = Some y /\
  good_ack (to_dev 1) a /\ In (1%nat, (QPkt, a)) (y_got y).
Proof.
  destruct C70_ex_count as (y & E & (r & Hr & Hs) & _). destruct (C70_success conc_idle conc_db _ _ _ 1 E) as [H _].
  destruct (H (KWritePacket (to_dev 1)) (to_dev 1) r ltac:(cbn; lia) eq_refl eq_refl Hr Hs) as (a & _ & H1 & H2). exists y, a. auto.
Qed.
Example C71_one_reset_case : exists y, acts (started conc_idle conc_db [KReadPacket; KReset; KRead])
    [AWait 0; AMem 1; AMem 1; AWait 2; ASend 1 None; AWait 1; AReader (EvPacket reset_ack); ARecv 1; ALate 0; AMem 1; ALate 2] = Some y /\ p_timeout (y_plm y) = 3.
Proof.
  destruct C71_ex as (y & E & _ & _ & F). exists y. split; [exact E|]. refine (C71_one_reset _ _ _ _ _ 1 _ E _ F).
  intros [|[|[|[|j]]]]; cbn; split; intro H; try discriminate H; reflexivity.
Qed.

Print Assumptions C70_alone.
Print Assumptions C70_every_schedule.
Print Assumptions C70_delivered_once.
Print Assumptions C70_line.
Print Assumptions C70_success.
Print Assumptions C70_count.
Print Assumptions C70_crossed_refuted.
Print Assumptions C70_stolen_refuted.
Print Assumptions C70_ex.
Print Assumptions C70_ex_count.
Print Assumptions C70_ex_config.
Print Assumptions C70_ex_links.
Print Assumptions C71_values.
Print Assumptions C71_no_reset.
Print Assumptions C71_one_reset.
Print Assumptions C71_overlap_refuted.
Print Assumptions C71_ex.
