(** Counting the packets the modem's programs use up. *)
From Coq Require Import ZArith List Bool Lia ZifyBool ZifyNat.
From Verif Require Import GoBase GoProg Command Message Link MsgWriter BasicDevice Query PlmPacket Plm PlmProofs PlmLinkdb Database DevLinkdb UtilLink IcCmd IcDev IcLine IcWalk IcLink
  DebugLogProofs EndsSpec EndsProofs.
Import ListNotations.
Open Scope Z_scope.
Ltac Zify.zify_post_hook ::= Z.div_mod_to_equations.

Definition held (st : plm) : nat := (List.length (p_msgq st) + List.length (p_pktq st))%nat.
Definition used (sc : schedule) (k : nat) (st st' : plm) : Prop :=
  exists d, p_time st' = (p_time st + d)%nat /\ (k + held st' <= held st + arrivals sc (p_time st) d)%nat.

Lemma arrivals_app : forall sc a b t, arrivals sc t (a + b) = (arrivals sc t a + arrivals sc (t + a) b)%nat.
Proof.
  intros sc a. induction a as [|a IH]; intros b t; cbn [arrivals Nat.add]; [f_equal; lia|]. rewrite IH. replace (S t + a)%nat with (t + S a)%nat by lia. lia.
Qed.
Lemma used_counts : forall sc, counts (used sc).
Proof.
  intro sc. split; [|split].
  - intro w. exists O. split; [lia|]. cbn [arrivals]. lia.
  - intros a b x y z (d & T1 & H1) (e & T2 & H2). exists (d + e)%nat. split; [lia|]. rewrite arrivals_app. rewrite T1 in H2. lia.
  - intros a b x y Hab (d & T & H). exists d. split; [exact T|lia].
Qed.

(** ** The queues *)
Lemma turn_held : forall st e, (held (reader_turn st e) <= held st + packets [e])%nat.
Proof.
  intros st e. unfold reader_turn. destruct (p_closed st); [lia|]. destruct e as [p|]; [|unfold held; cbn; lia].
  unfold held, offer, packets. destruct (is_msg_packet p); cbn [p_msgq p_pktq filter List.length];
    match goal with |- context [Nat.ltb ?a ?b] => destruct (Nat.ltb a b) end; rewrite ?app_length; cbn [List.length]; lia.
Qed.
Lemma packets_cons : forall e es, packets (e :: es) = (packets [e] + packets es)%nat.
Proof. intros [p|] es; reflexivity. Qed.
Lemma turns_held : forall es st, (held (reader_turns st es) <= held st + packets es)%nat.
Proof.
  unfold reader_turns. induction es as [|e es IH]; intro st; cbn [fold_left]; [cbn; lia|]. rewrite packets_cons. pose proof (turn_held st e). specialize (IH (reader_turn st e)). lia.
Qed.
Definition one (r : received) : nat := match r with RPacket _ => 1%nat | _ => O end.
Lemma wait_held : forall q es st r st', wait_for q st es = (r, st') -> (one r + held st' <= held st + packets es)%nat.
Proof.
  intros q. assert (Hq : forall st p rest, queue_of q st = p :: rest -> (S (held (set_queue q st rest)) = held st)%nat).
  { intros st p rest H. destruct q; cbn [queue_of set_queue] in *; unfold held, set_msgq, set_pktq; cbn [p_msgq p_pktq]; rewrite H; cbn [List.length]; lia. }
  induction es as [|e es IH]; intros st r st' H; cbn [wait_for] in H; destruct (queue_of q st) as [|p rest] eqn:E.
  - destruct (p_closed st); injection H as <- <-; cbn [one]; lia.
  - injection H as <- <-. cbn [one]. specialize (Hq _ _ _ E). unfold reader_turns. cbn [fold_left]. lia.
  - destruct (p_closed st); [injection H as <- <-; cbn [one]; lia|]. specialize (IH _ _ _ H). rewrite packets_cons. pose proof (turn_held st e). lia.
  - injection H as <- <-. cbn [one]. specialize (Hq _ _ _ E). pose proof (turns_held (e :: es) (set_queue q st rest)) as X.
    change (reader_turns (set_queue q st rest) (e :: es)) with (reader_turns (reader_turn (set_queue q st rest) e) es) in X. lia.
Qed.
Lemma receive_used : forall sc q st r st', receive sc q st = (r, st') -> used sc (one r) st st'.
Proof.
  intros sc q st r st' H. destruct (receive_fields _ _ _ _ _ H) as (_ & _ & T & _). exists 1%nat. split; [lia|]. cbn [arrivals].
  unfold receive in H. cbv zeta in H. pose proof (turns_held (s_before (sc (p_time st))) st) as H0.
  change (held (reader_turns st (s_before (sc (p_time st))))) with (held (log_wait (tick (reader_turns st (s_before (sc (p_time st))))))) in H0.
  destruct (s_late (sc (p_time st))).
  - injection H as <- <-. cbn [one]. match goal with |- context [reader_turns ?x ?y] => pose proof (turns_held y x) end. lia.
  - apply wait_held in H. lia.
Qed.
Lemma port_used : forall sc st b r st', port_write sc st b = (r, st') -> used sc O st st'.
Proof.
  intros sc st b r st' H. unfold port_write in H. injection H as <- <-. exists 1%nat. split; [cbn; destruct (reader_turns_fields (s_before (sc (p_time st))) st) as (_ & _ & -> & _); lia|].
  cbn [arrivals]. pose proof (turns_held (s_before (sc (p_time st))) st). unfold held in *. cbn. lia.
Qed.
Lemma packet_used : forall sc pkt st r st', plm_write_packet sc pkt st = (r, st') -> used sc O st st'.
Proof.
  intros sc pkt st r st' H. destruct (used_counts sc) as (_ & Ht & Hle).
  destruct (write_packet_cases _ _ _ _ _ H) as [e s1 E1|s1 s2 E1 E2|s1 s2 E1 E2|p s1 s2 E1 E2]; apply port_used in E1; [exact E1|..];
    apply receive_used in E2; pose proof (Ht _ _ _ _ _ E1 E2) as E3; (eapply Hle; [|exact E3]; lia).
Qed.
Lemma retry_used : forall sc n nak pkt last st r st', retry_loop (plm_pw sc) n nak pkt last st = (r, st') -> used sc O st st'.
Proof.
  intros sc n nak pkt. destruct (used_counts sc) as (Hr & Ht & _). induction n as [|n IH]; intros last st r st' H; cbn [retry_loop] in H; [injection H as _ <-; apply Hr|].
  cbn [plm_pw pw_write] in H. destruct (plm_write_packet sc pkt st) as [o st1] eqn:E. apply packet_used in E.
  destruct o as [[a e]| |]; [|injection H as _ <-; exact E|injection H as _ <-; exact E].
  destruct ((err_is e EPlmNak && nak) || err_is e EPlmReadTimeout); [|injection H as _ <-; exact E]. exact (Ht O O _ _ _ E (IH _ _ _ _ H)).
Qed.

(** ** Reading and writing messages *)
Lemma read_used : forall sc st r st', plm_read sc st = (r, st') -> used sc O st st' /\ r <> NoFuel /\ forall m, r = Ret (m, None) -> used sc 1 st st'.
Proof.
  intros sc st r st' H. unfold plm_read in H. destruct (receive sc QMsg st) as [x st1] eqn:E. apply receive_used in E. pose proof (U_le _ _ (used_counts sc)) as Hle.
  assert (E0 : used sc O st st1) by (eapply Hle; [|exact E]; lia). destruct x as [p| |].
  - destruct (msg_unmarshal msg_zero (p_payload p)) as [m e]. injection H as <- <-. split; [exact E0|]. split; [discriminate|]. intros. exact E.
  - injection H as <- <-. split; [exact E0|]. split; discriminate.
  - injection H as <- <-. split; [exact E0|]. split; [discriminate|]. intros m Hm. discriminate Hm.
Qed.
Lemma await_fits : forall sc dst k k', (k <= k')%nat -> fits (used sc) k (await_ack k sc dst) (await_ack k' sc dst).
Proof.
  intros sc dst. pose proof (used_counts sc) as HU. induction k as [|k IH]; intros k' Hk st r st' H; [injection H as <- <-; split; apply HU|].
  destruct k' as [|k']; [lia|]. cbn [await_ack] in H |- *. destruct (plm_read sc st) as [o st1] eqn:E. destruct (read_used _ _ _ _ E) as (H1 & H2 & H3).
  destruct o as [[[m|] [e|]]| |]; try (injection H as <- <-; split; [exact H1|eexists; split; reflexivity]); try (injection H as <- <-; split; [exact H1|reflexivity]); [|congruence].
  destruct ((m_src m =? dst) && (fl_ack (m_flags m) || fl_nak (m_flags m))); [injection H as <- <-; split; [exact H1|eexists; split; reflexivity]|].
  destruct (IH k' ltac:(lia) _ _ _ H) as [H4 H5]. split; [eapply U_step; eassumption|]. destruct r; try exact H5. eapply U_more; [exact HU|exact (H3 _ eq_refl)|exact H5].
Qed.
Lemma write_fits : forall sc N k k' m, (N <= k)%nat -> (k <= k')%nat -> fits (used sc) N (plm_write k sc m) (plm_write k' sc m).
Proof.
  intros sc N k k' m HN Hk st r st' H. pose proof (used_counts sc) as HU. unfold plm_write in H |- *. unfold retry in *. cbn [pw_write] in *.
  match type of H with context [retry_loop ?a ?b ?c ?d ?e ?f] => destruct (retry_loop a b c d e f) as [x st1] eqn:E end.
  assert (Hx : x <> NoFuel) by (intros ->; exact (retry_fuel _ _ _ _ _ _ _ E)). apply retry_used in E.
  destruct x as [[a [e|]]| |]; [injection H as <- <-; split; [exact E|eexists; split; reflexivity]| |injection H as <- <-; split; [exact E|reflexivity]|congruence].
  destruct (ft_le _ _ HU N k _ _ _ HN (await_fits sc (m_dst m) k k' Hk) _ _ _ H) as [H1 H2]. split; [eapply U_step; eassumption|]. destruct r; try exact H2. eapply U_step; eassumption.
Qed.
Lemma plm_fits : forall sc N k k', (N <= k)%nat -> (k <= k')%nat -> mw_fits (used sc) N (plm_mw k sc) (plm_mw k' sc).
Proof.
  intros sc N k k' HN Hk. split; [|intro m; cbn [plm_mw mw_write]; apply write_fits; assumption]. intros st r st' H. cbn [plm_mw mw_read] in *.
  destruct (read_used _ _ _ _ H) as (H1 & H2 & H3). auto.
Qed.

(** ** The world with the device file *)
Definition used2 {S} (sc : schedule) (k : nat) (x y : S * plm) : Prop := used sc k (snd x) (snd y).
Lemma used2_counts : forall S sc, counts (@used2 S sc).
Proof.
  intros S sc. destruct (used_counts sc) as (H1 & H2 & H3). split; [|split]; unfold used2; [intro; apply H1|intros a b x y z; apply H2|intros a b x y; apply H3].
Qed.
Lemma psnd_fits : forall S sc N A (p p' : prog plm A), fits (used sc) N p p' -> fits (@used2 S sc) N (psnd p) (psnd p').
Proof.
  intros S sc N A p p' Hp w r w' H. unfold psnd in H |- *. destruct (p (snd w)) as [o w1] eqn:E. injection H as <- <-. destruct (Hp _ _ _ E) as [H1 H2].
  split; [exact H1|]. destruct o; [|rewrite H2; reflexivity|exact H2]. destruct H2 as (a' & H2 & ->). rewrite H2. eexists. split; reflexivity.
Qed.
Lemma lift_fits : forall S sc N mw mw', mw_fits (used sc) N mw mw' -> mw_fits (@used2 S sc) N (lift_mw mw) (lift_mw mw').
Proof.
  intros S sc N mw mw' [Hr Hw]. split; [|intro m; cbn [lift_mw mw_write]; apply psnd_fits, Hw].
  intros w r w' H. cbn [lift_mw mw_read] in *. unfold psnd in H |- *. destruct (mw_read mw (snd w)) as [o w1] eqn:E. injection H as <- <-.
  destruct (Hr _ _ _ E) as (H1 & H2 & H3 & H4). rewrite H2. auto.
Qed.

(** ** Opening *)
Lemma dev_open_fits : forall W (U : nat -> W -> W -> Prop) N n n' mw mw' a, counts U -> (N < n)%nat -> (n <= n')%nat -> mw_fits U N mw mw' ->
  fits U N (dev_open n mw a) (dev_open n' mw' a).
Proof.
  intros W U N n n' mw mw' a HU Hn Hnn Hmw. unfold dev_open, get_engine_version, id_request. cbv zeta. ft; try apply Hmw.
  all: apply (ft_le _ _ HU N n); [lia|]; apply (read_match_fits _ _ HU N _ _ _ Hmw n n' Hnn).
Qed.
Definition same_dev {W} (U : nat -> W -> W -> Prop) (N : nat) (x y : option (bdev W) * option error) : Prop :=
  snd x = snd y /\ match fst x, fst y with Some d, Some d' => bdev_fits U N d d' | None, None => True | _, _ => False end.
Lemma opener_fits : forall sc N k k' os filters a, (N < k)%nat -> (k <= k')%nat ->
  fits_by (used2 sc) N (same_dev (used2 sc) N) (db_opener k os (plm_mw k sc) filters a) (db_opener k' os (plm_mw k' sc) filters a).
Proof.
  intros sc N k k' os filters a HN Hk [[f db] st] r w' H. pose proof (used_counts sc) as HU.
  assert (Hmw : mw_fits (used sc) N (plm_mw k sc) (plm_mw k' sc)) by (apply plm_fits; lia).
  pose proof (lift_fits (fstate * memdb) _ _ _ _ Hmw) as Hmw2.
  unfold db_opener, filedb_open, memdb_open in H |- *. destruct (db_get db a) as [i []] eqn:Eg.
  - unfold pbind, pret in H |- *. destruct (filedb_save os f db None) as [[f1 db2] e1]. injection H as <- <-. split; [apply HU|].
    eexists. split; [reflexivity|]. split; [reflexivity|]. split; [reflexivity|exact Hmw2].
  - unfold dev_open_filters in H |- *. cbn [apply_filters fold_left] in H |- *. unfold pbind in H |- *.
    pose proof (dev_open_fits plm (used sc) N k k' _ _ a HU HN Hk Hmw) as Hop.
    match type of H with context [dev_open ?x ?y ?z ?u] => destruct (dev_open x y z u) as [o w2] eqn:E2 end.
    destruct (Hop _ _ _ E2) as [G1 G2]. destruct o as [[[dv inf] er]| |]; [|rewrite G2; injection H as <- <-; split; [exact G1|reflexivity]|injection H as <- <-; split; [exact G1|exact G2]].
    destruct G2 as (x & G2 & <-). rewrite G2. unfold pret, plift in H |- *. destruct er as [er|].
    + destruct (filedb_save os f db (Some er)) as [[f1 db2] e1]. injection H as <- <-. split; [exact G1|]. eexists. split; [reflexivity|]. split; [reflexivity|].
      destruct dv as [d|]; cbn; [|exact I]. split; [reflexivity|exact Hmw2].
    + destruct (db_put db inf) as [db1| |] eqn:Ep; [|injection H as <- <-; split; [exact G1|reflexivity]|exfalso].
      * destruct (filedb_save os f db1 None) as [[f1 db2] e1]. injection H as <- <-. split; [exact G1|]. eexists. split; [reflexivity|]. split; [reflexivity|].
        destruct dv as [d|]; cbn; [|exact I]. split; [reflexivity|exact Hmw2].
      * unfold db_put in Ep. destruct (dinfo_eqb _ _); [discriminate Ep|]. destruct (db_values db); discriminate Ep.
Qed.

(** ** Linking *)
Definition same_lk {W} (U : nat -> W -> W -> Prop) (N : nat) (x y : option (linkable W) * option error) : Prop :=
  snd x = snd y /\ lk_fits W U N (lk_or_nil (fst x)) (lk_or_nil (fst y)).
Lemma nil_fits : forall W (U : nat -> W -> W -> Prop) N, counts U -> lk_fits W U N lk_nil lk_nil.
Proof. intros W U N HU. split; [intro g|]; apply ft_panic; exact HU. Qed.
Lemma open_lk_fits : forall sc N k k' n n' os now filters a, (N < k)%nat -> (k <= k')%nat -> (N < n)%nat -> (n <= n')%nat ->
  fits_by (used2 sc) N (same_lk (used2 sc) N) (open_lk n now (db_opener k os (plm_mw k sc) filters) a) (open_lk n' now (db_opener k' os (plm_mw k' sc) filters) a).
Proof.
  intros sc N k k' n n' os now filters a HN Hk Hn Hnn. pose proof (used2_counts (fstate * memdb) sc) as HU. unfold open_lk.
  eapply by_bind; [exact HU|apply opener_fits; assumption|]. intros [x e] [y e'] [H1 H2]. cbn [fst snd] in H1, H2. subst e'. apply by_ret; [exact HU|]. split; [reflexivity|].
  cbn [fst]. destruct x as [d|], y as [d'|]; try contradiction; cbn [option_map lk_or_nil]; [|apply nil_fits; exact HU]. apply bdev_lk_fits; assumption.
Qed.
Lemma packet_fits : forall sc N pkt, fits (used sc) N (plm_write_packet sc pkt) (plm_write_packet sc pkt).
Proof.
  intros sc N pkt st r st' H. split; [exact (packet_used _ _ _ _ _ H)|]. destruct r; [eexists; split; [exact H|reflexivity]|exact H|]. destruct (packet_fuel _ _ _ _ H).
Qed.
Lemma modem_lk_fits : forall S sc N n n' now, lk_fits _ (@used2 S sc) N (modem_lk n sc now) (modem_lk n' sc now).
Proof.
  intros S sc N n n' now. pose proof (used_counts sc) as HU. split; cbn [modem_lk lk_enter lk_exit]; [intro g|]; apply psnd_fits; unfold pdb_enter_linking, pdb_exit_linking; cbn [plm_pw pw_write];
    (apply ft_bind; [exact HU|apply packet_fits|intros [x e]; apply ft_ret; exact HU]).
Qed.
Lemma force_fits : forall W (U : nat -> W -> W -> Prop) N g c c' r r', counts U -> lk_fits W U N c c' -> lk_fits W U N r r' -> fits U N (force_link g c r) (force_link g c' r').
Proof. intros W U N g c c' r r' HU [C1 C2] [R1 R2]. unfold force_link. ft; auto. Qed.
Lemma net_link_fits : forall sc N k k' n n' os now filters c r g, (N < k)%nat -> (k <= k')%nat -> (N < n)%nat -> (n <= n')%nat -> forall addrs,
  fits (used2 sc) N (net_link k n os sc now filters c r g addrs) (net_link k' n' os sc now filters c r g addrs).
Proof.
  intros sc N k k' n n' os now filters c r g HN Hk Hn Hnn. pose proof (used2_counts (fstate * memdb) sc) as HU. unfold net_link.
  induction addrs as [|a addrs IH]; cbn [ic_link]; [apply ft_ret; exact HU|].
  eapply (by_bind _ _ HU); [apply open_lk_fits; eassumption|]. intros [x e] [y e'] [H1 H2]. cbn [fst snd] in H1, H2. subst e'.
  assert (Hone : fits (used2 sc) N (ic_link_one (modem_lk n sc now) c r g (lk_or_nil x)) (ic_link_one (modem_lk n' sc now) c r g (lk_or_nil y))).
  { pose proof (modem_lk_fits (fstate * memdb) sc N n n' now) as HM. unfold ic_link_one. ft; apply force_fits; assumption. }
  destruct e as [e|]; [destruct e|]; first [exact Hone|exact IH].
Qed.
(** Opening with the question; the answer is the user's. *)
Lemma open_net_fits : forall sc N k k' n n' os now filters ask yes a, (N < k)%nat -> (k <= k')%nat -> (N < n)%nat -> (n <= n')%nat -> (forall w, exists b, yes w = (Ret b, w)) ->
  fits_by (used2 sc) N (same_dev (used2 sc) N) (ic_open_net k n os sc now filters ask yes a) (ic_open_net k' n' os sc now filters ask yes a).
Proof.
  intros sc N k k' n n' os now filters ask yes a HN Hk Hn Hnn Hy. pose proof (used2_counts (fstate * memdb) sc) as HU. unfold ic_open_net, ic_open_dev.
  eapply (by_bind _ _ HU); [apply opener_fits; assumption|]. intros [x e] [y e'] [H1 H2]. cbn [fst snd] in H1, H2. subst e'.
  assert (Hret : forall e0, fits_by (used2 sc) N (same_dev (used2 sc) N) (pret (x, e0)) (pret (y, e0))) by (intro e0; apply by_ret; [exact HU|split; [reflexivity|exact H2]]).
  assert (Hyes : fits (used2 sc) N yes yes).
  { intros w r w' H. destruct (Hy w) as [b Hb]. rewrite Hb in H. injection H as <- <-. split; [apply HU|]. exists b. split; [exact Hb|reflexivity]. }
  destruct e as [e|]; [destruct e|]; try apply Hret. destruct ask; [|apply Hret].
  eapply (by_bind _ _ HU); [exact Hyes|]. intros b b' <-. destruct b; [|apply Hret].
  eapply (by_bind _ _ HU); [apply net_link_fits; eassumption|]. intros e1 e1' <-. apply Hret.
Qed.
(** A command over an opened device. *)
Lemma then_fits : forall W (U : nat -> W -> W -> Prop) N (open open' : prog W (option (bdev W) * option error)) accept refusal sub sub', counts U ->
  fits_by U N (same_dev U N) open open' -> (forall d d', bdev_fits U N d d' -> fits U N (sub d) (sub' d')) ->
  fits U N (ic_then (ic_init open accept refusal) sub) (ic_then (ic_init open' accept refusal) sub').
Proof.
  intros W U N open open' accept refusal sub sub' HU Ho Hs. unfold ic_then, ic_init.
  apply (by_bind _ _ HU N _ _ (fun x y => match x, y with inl d, inl d' => bdev_fits U N d d' | inr e, inr e' => e = e' | _, _ => False end)).
  - eapply (by_bind _ _ HU); [exact Ho|]. intros [x e] [y e'] [H1 H2]. cbn [fst snd] in H1, H2. subst e'. destruct e as [e|]; [apply by_ret; [exact HU|reflexivity]|].
    destruct x as [d|], y as [d'|]; try contradiction; [|apply by_panic; exact HU]. rewrite (proj1 H2). destruct (accept (dev_lookup (bd_info d'))); apply by_ret; auto.
  - intros [d|e] [d'|e'] H; try contradiction; [exact (Hs _ _ H)|subst e'; apply ft_ret; exact HU].
Qed.

(** ** The modem's own link database *)
Lemma retry_fits : forall sc N n nak pkt, fits (used sc) N (pw_write (retry (plm_pw sc) n nak) pkt) (pw_write (retry (plm_pw sc) n nak) pkt).
Proof.
  intros sc N n nak pkt st r st' H. unfold retry in *. cbn [pw_write] in *. split; [exact (retry_used _ _ _ _ _ _ _ _ H)|].
  destruct r; [eexists; split; [exact H|reflexivity]|exact H|]. destruct (retry_fuel _ _ _ _ _ _ _ H).
Qed.
Lemma refresh_fits : forall sc retries k k' links err, (k <= k')%nat ->
  fits (used sc) k (refresh_loop k (plm_pw sc) retries links err) (refresh_loop k' (plm_pw sc) retries links err).
Proof.
  intros sc retries. pose proof (used_counts sc) as HU. induction k as [|k IH]; intros k' links err Hk.
  - destruct err as [e|]; cbn [refresh_loop]; [destruct k'; cbn [refresh_loop]; apply ft_ret; exact HU|]. intros w r w' H. injection H as <- <-. split; apply HU.
  - destruct k' as [|k']; [lia|]. destruct err as [e|]; cbn [refresh_loop]; [apply ft_ret; exact HU|]. cbn [plm_pw pw_read].
    assert (Hread : forall st r st', plm_read_packet sc st = (r, st') -> used sc O st st' /\ r <> NoFuel /\ forall p e, r = Ret (Some p, e) -> used sc 1 st st').
    { intros st r st' H. unfold plm_read_packet in H. destruct (receive sc QPkt st) as [x st1] eqn:E. apply receive_used in E. destruct x; injection H as <- <-.
      - split; [apply (U_le _ _ HU O 1); [lia|exact E]|]. split; [discriminate|]. intros p0 e H. exact E.
      - split; [exact E|]. split; [discriminate|]. intros p e H. discriminate H.
      - split; [exact E|]. split; [discriminate|]. intros p e H. discriminate H. }
    apply bind_more; [exact HU| |].
    { intros st r st' H. destruct (Hread _ _ _ H) as (H1 & H2 & _). split; [exact H1|]. destruct r; [eexists; split; [exact H|reflexivity]|exact H|congruence]. }
    intros st [pkt err1] st1 H. destruct err1 as [e|]; [left; apply ft_ret; exact HU|]. destruct pkt as [p|]; [|left; apply ft_panic; exact HU].
    right. destruct (Hread _ _ _ H) as (_ & _ & H1). split; [exact (H1 _ _ eq_refl)|]. replace (S k - 1)%nat with k by lia.
    destruct (p_cmd p =? pc_AllLinkRecordResp); [|apply IH; lia]. destruct (link_unmarshal link_zero (p_payload p)) as [l [e|]]; [apply ft_ret; exact HU|].
    apply ft_bind; [exact HU|apply retry_fits|]. intros [x e]. apply IH. lia.
Qed.
Lemma pdb_links_fits : forall sc N n n' now, (N < n)%nat -> (n <= n')%nat ->
  fits (@used2 plmdb sc) N (pdb_links n (plm_pw sc) now) (pdb_links n' (plm_pw sc) now).
Proof.
  intros sc N n n' now Hn Hnn. pose proof (used2_counts plmdb sc) as HU.
  assert (Hget : fits (@used2 plmdb sc) N (pfst pget) (pfst pget)) by (intros w r w' H; injection H as <- <-; split; [apply used_counts|]; eexists; split; reflexivity).
  assert (Hput : forall x, fits (@used2 plmdb sc) N (pfst (pput x)) (pfst (pput x))) by (intros x w r w' H; injection H as <- <-; split; [apply used_counts|]; eexists; split; reflexivity).
  unfold pdb_links, pdb_refresh. ft; auto; apply psnd_fits; [apply retry_fits|]. apply (ft_le _ _ (used_counts sc) N n); [lia|]. apply refresh_fits. exact Hnn.
Qed.
Lemma on_modem_fits : forall S sc N A (p p' : prog (plmdb * plm) A), fits (@used2 plmdb sc) N p p' -> fits (@used2 S sc) N (on_modem_db p) (on_modem_db p').
Proof.
  intros S sc N A p p' Hp. unfold on_modem_db. apply psnd_fits. intros st r st' H. destruct (p (modem_db st, st)) as [o [db st1]] eqn:E. injection H as <- <-.
  destruct (Hp _ _ _ E) as [H1 H2]. split; [exact H1|]. destruct o; [|rewrite H2; reflexivity|exact H2]. destruct H2 as (a' & H2 & ->). rewrite H2. eexists. split; reflexivity.
Qed.
Lemma devices_fits : forall S sc N n n' now, (N < n)%nat -> (n <= n')%nat -> fits (@used2 S sc) N (modem_devices n sc now) (modem_devices n' sc now).
Proof.
  intros S sc N n n' now Hn Hnn. apply (on_modem_fits S sc N _ (pdb_iterate n (plm_pw sc) now) (pdb_iterate n' (plm_pw sc) now)). pose proof (used2_counts plmdb sc) as HU.
  unfold pdb_iterate. apply ft_bind; [exact HU|apply pdb_links_fits; assumption|]. intros [x [e|]]; apply ft_ret; exact HU.
Qed.
Lemma walk_fits : forall sc N k k' n n' os now filters, (N < k)%nat -> (k <= k')%nat -> (N < n)%nat -> (n <= n')%nat ->
  fits (used2 sc) N (walk_network k n os sc now filters) (walk_network k' n' os sc now filters).
Proof.
  intros sc N k k' n n' os now filters HN Hk Hn Hnn. pose proof (used2_counts (fstate * memdb) sc) as HU. unfold walk_network, iwalk.
  apply ft_bind; [exact HU|apply devices_fits; assumption|]. intros [addrs [e|]]; [apply ft_ret; exact HU|]. apply ft_bind; [exact HU| |intro; apply ft_ret; exact HU].
  induction addrs as [|a addrs IH]; cbn [walk_all]; [apply ft_ret; exact HU|]. apply ft_bind; [exact HU| |intro l1; apply ft_bind; [exact HU|exact IH|intro; apply ft_ret; exact HU]].
  unfold walk_one. eapply (by_bind _ _ HU); [apply opener_fits; assumption|]. intros [x e] [y e'] [H1 H2]. cbn [fst snd] in H1, H2. subst e'.
  destruct e as [e|]; [apply ft_ret; exact HU|]. destruct x as [d|], y as [d'|]; try contradiction; [|apply ft_panic; exact HU].
  apply ft_bind; [exact HU|apply ft_device_links; assumption|]. intros [ls e1]. apply ft_ret; exact HU.
Qed.

(** ** Out of packets before out of fuel *)
Lemma never_used : forall P sc st st' k, at_most P sc st -> (P < k)%nat -> ~ used sc k st st'.
Proof. intros P sc st st' k Hm Hk (d & _ & H). specialize (Hm d). unfold held in *. lia. Qed.
Lemma fits_ends : forall S sc P A (p p' : prog (S * plm) A) s st, at_most P sc st -> fits (used2 sc) (P + 1) p p' -> fst (p (s, st)) <> NoFuel /\ p' (s, st) = p (s, st).
Proof.
  intros S sc P A p p' s st Hm Hp. destruct (p (s, st)) as [o w'] eqn:E. destruct (Hp _ _ _ E) as [_ H2]. cbn [fst]. destruct o as [a| |].
  - destruct H2 as (x & H2 & <-). split; [discriminate|exact H2].
  - split; [discriminate|exact H2].
  - destruct (never_used P sc st (snd w') (P + 1) Hm ltac:(lia) H2).
Qed.
