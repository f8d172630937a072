From Coq Require Import ZArith List Bool Lia ZifyBool ZifyNat.
From Verif Require Import GoBase GoLemmas Address AddressProofs Message MessageSpec MessageProofs PlmPacket PlmReader PlmReaderSpec
  PlmReaderProofs CodecProofs Plm PlmSpec.
Import ListNotations.
Open Scope Z_scope.
Ltac Zify.zify_post_hook ::= Z.div_mod_to_equations.

(** Splits an equation between pairs without normalising the sides. *)
Ltac pair_inv H := apply pair_equal_spec in H; destruct H as [<- <-].

(** ** Bookkeeping: what leaves the queues alone *)
Lemma reader_turn_fields : forall st e,
  p_sent (reader_turn st e) = p_sent st /\ p_waits (reader_turn st e) = p_waits st /\
  p_time (reader_turn st e) = p_time st /\ p_timeout (reader_turn st e) = p_timeout st /\
  p_retries (reader_turn st e) = p_retries st /\ p_addr (reader_turn st e) = p_addr st.
Proof.
  intros st e. unfold reader_turn. destruct (p_closed st); [auto 10|].
  destruct e as [p|]; [|cbn; auto 10]. destruct (is_msg_packet p); cbn; auto 10.
Qed.

Lemma reader_turns_fields : forall es st,
  p_sent (reader_turns st es) = p_sent st /\ p_waits (reader_turns st es) = p_waits st /\
  p_time (reader_turns st es) = p_time st /\ p_timeout (reader_turns st es) = p_timeout st /\
  p_retries (reader_turns st es) = p_retries st /\ p_addr (reader_turns st es) = p_addr st.
Proof.
  unfold reader_turns. induction es as [|e es IH]; intros st; cbn [fold_left]; [auto 10|].
  destruct (IH (reader_turn st e)) as (H1 & H2 & H3 & H4 & H5 & H6).
  destruct (reader_turn_fields st e) as (G1 & G2 & G3 & G4 & G5 & G6).
  repeat split; congruence.
Qed.

Lemma set_queue_fields : forall q st l,
  p_sent (set_queue q st l) = p_sent st /\ p_waits (set_queue q st l) = p_waits st /\
  p_time (set_queue q st l) = p_time st /\ p_timeout (set_queue q st l) = p_timeout st /\
  p_retries (set_queue q st l) = p_retries st /\ p_addr (set_queue q st l) = p_addr st /\
  p_closed (set_queue q st l) = p_closed st.
Proof. intros [|] st l; cbn; auto 10. Qed.

Lemma wait_for_fields : forall es q st r st', wait_for q st es = (r, st') ->
  p_sent st' = p_sent st /\ p_waits st' = p_waits st /\ p_time st' = p_time st /\
  p_timeout st' = p_timeout st /\ p_retries st' = p_retries st /\ p_addr st' = p_addr st.
Proof.
  induction es as [|e es IH]; intros q st r st' H; cbn [wait_for] in H.
  - destruct (queue_of q st) as [|p rest].
    + destruct (p_closed st); pair_inv H; auto 10.
    + pair_inv H. unfold reader_turns. cbn [fold_left].
      destruct (set_queue_fields q st rest) as (G1 & G2 & G3 & G4 & G5 & G6 & _). auto 10.
  - destruct (queue_of q st) as [|p rest].
    + destruct (p_closed st); [pair_inv H; auto 10|].
      destruct (IH _ _ _ _ H) as (H1 & H2 & H3 & H4 & H5 & H6).
      destruct (reader_turn_fields st e) as (G1 & G2 & G3 & G4 & G5 & G6).
      repeat split; congruence.
    + pair_inv H.
      destruct (reader_turns_fields (e :: es) (set_queue q st rest)) as (H1 & H2 & H3 & H4 & H5 & H6).
      destruct (set_queue_fields q st rest) as (G1 & G2 & G3 & G4 & G5 & G6 & _). repeat split; congruence.
Qed.

Lemma receive_fields : forall sc q st r st', receive sc q st = (r, st') ->
  p_sent st' = p_sent st /\ p_waits st' = p_waits st ++ [p_timeout st] /\ p_time st' = S (p_time st) /\
  p_timeout st' = p_timeout st /\ p_retries st' = p_retries st /\ p_addr st' = p_addr st.
Proof.
  intros sc q st r st' H. unfold receive in H.
  destruct (reader_turns_fields (s_before (sc (p_time st))) st) as (G1 & G2 & G3 & G4 & G5 & G6).
  remember (log_wait (tick (reader_turns st (s_before (sc (p_time st)))))) as st1 eqn:E1.
  assert (F : p_sent st1 = p_sent st /\ p_waits st1 = p_waits st ++ [p_timeout st] /\ p_time st1 = S (p_time st) /\
    p_timeout st1 = p_timeout st /\ p_retries st1 = p_retries st /\ p_addr st1 = p_addr st).
  { subst st1. cbn. rewrite G1, G2, G3, G4, G5, G6. auto 10. }
  destruct F as (F1 & F2 & F3 & F4 & F5 & F6).
  destruct (s_late (sc (p_time st))).
  - pair_inv H.
    destruct (reader_turns_fields (s_wait (sc (p_time st))) st1) as (H1 & H2 & H3 & H4 & H5 & H6).
    repeat split; congruence.
  - destruct (wait_for_fields _ _ _ _ _ H) as (H1 & H2 & H3 & H4 & H5 & H6). repeat split; congruence.
Qed.

Lemma port_write_fields : forall sc st b e st', port_write sc st b = (e, st') ->
  p_sent st' = p_sent st ++ [b] /\ p_waits st' = p_waits st /\ p_time st' = S (p_time st) /\
  p_timeout st' = p_timeout st /\ p_retries st' = p_retries st /\ p_addr st' = p_addr st /\ e = s_werr (sc (p_time st)).
Proof.
  intros sc st b e st' H. unfold port_write in H. pair_inv H.
  destruct (reader_turns_fields (s_before (sc (p_time st))) st) as (G1 & G2 & G3 & G4 & G5 & G6).
  cbn. rewrite G1, G2, G3, G4, G5, G6. auto 10.
Qed.

(** ** C11: queues refine the lossy ten-place queue *)
Lemma is_msg_packet_network : forall p, is_msg_packet p = network_message p.
Proof. reflexivity. Qed.

Lemma fifo_bound : forall h q, fifo h q -> (length q <= 10)%nat.
Proof.
  intros h q H. induction H as [|h q p H IH Hl|h q p H IH Hl|h q p H IH].
  - cbn; lia.
  - rewrite app_length. cbn [length]. lia.
  - lia.
  - cbn [length] in IH. lia.
Qed.

Lemma fifo_offer : forall h q p, fifo h q -> fifo (h ++ [Arr p]) (offer q p).
Proof.
  intros h q p H. unfold offer, queue_cap. pose proof (fifo_bound _ _ H).
  destruct (Nat.ltb_spec (length q) 10).
  - apply fifo_kept; assumption.
  - apply fifo_lost; [assumption|lia].
Qed.

Definition live_from (closed : bool) (es : list event) : list packet := if closed then [] else live es.
Definition arr_hist (q : which) (ps : list packet) : list qact := map Arr (filter (goes_to q) ps).

Lemma turns_fifo : forall es q st h, fifo h (queue_of q st) ->
  fifo (h ++ arr_hist q (live_from (p_closed st) es)) (queue_of q (reader_turns st es)).
Proof.
  unfold reader_turns. induction es as [|e es IH]; intros q st h H; cbn [fold_left].
  - unfold live_from. destruct (p_closed st); cbn; rewrite app_nil_r; exact H.
  - unfold reader_turn at 2. unfold live_from.
    destruct (p_closed st) eqn:Ec.
    + specialize (IH q st h H). rewrite Ec in IH. exact IH.
    + destruct e as [p|].
      * cbn [live]. destruct (is_msg_packet p) eqn:Em; rewrite is_msg_packet_network in Em;
          destruct q; unfold arr_hist; cbn [filter goes_to]; rewrite Em; cbn [negb].
        -- cbn [map]. change (Arr p :: ?l) with ([Arr p] ++ l). rewrite app_assoc.
           match goal with |- fifo (?h1 ++ _) (queue_of ?q1 (fold_left _ _ ?s1)) => apply (IH q1 s1 h1) end. apply fifo_offer. exact H.
        -- match goal with |- fifo (?h1 ++ _) (queue_of ?q1 (fold_left _ _ ?s1)) => apply (IH q1 s1 h1) end. exact H.
        -- match goal with |- fifo (?h1 ++ _) (queue_of ?q1 (fold_left _ _ ?s1)) => apply (IH q1 s1 h1) end. exact H.
        -- cbn [map]. change (Arr p :: ?l) with ([Arr p] ++ l). rewrite app_assoc.
           match goal with |- fifo (?h1 ++ _) (queue_of ?q1 (fold_left _ _ ?s1)) => apply (IH q1 s1 h1) end. apply fifo_offer. exact H.
      * cbn [live]. cbn [arr_hist filter map]. rewrite app_nil_r.
        specialize (IH q (mkPlm (p_msgq st) (p_pktq st) true (p_sent st) (p_waits st) (p_time st) (p_timeout st) (p_retries st) (p_addr st)) h).
        unfold live_from in IH. cbn [p_closed] in IH. unfold arr_hist in IH. cbn [filter map] in IH. rewrite app_nil_r in IH.
        apply IH. destruct q; exact H.
Qed.

Lemma turns_closed : forall es st, p_closed (reader_turns st es) = p_closed st || existsb (fun e => match e with EvEnd => true | _ => false end) es.
Proof.
  unfold reader_turns. induction es as [|e es IH]; intros st; cbn [fold_left existsb]; [rewrite orb_false_r; reflexivity|].
  rewrite IH. unfold reader_turn. destruct (p_closed st) eqn:Ec; [rewrite Ec; reflexivity|].
  destruct e as [p|]; [|reflexivity]. destruct (is_msg_packet p); reflexivity.
Qed.

Lemma turns_app : forall es fs st, reader_turns st (es ++ fs) = reader_turns (reader_turns st es) fs.
Proof. intros es fs st. unfold reader_turns. apply fold_left_app. Qed.

Lemma live_app : forall es fs c, live_from c (es ++ fs) =
  live_from c es ++ live_from (c || existsb (fun e => match e with EvEnd => true | _ => false end) es) fs.
Proof.
  intros es fs c. unfold live_from. destruct c; [reflexivity|]. cbn [orb].
  induction es as [|e es IH]; cbn [app live existsb orb]; [reflexivity|].
  destruct e as [p|]; cbn [orb app]; [|reflexivity]. rewrite IH. reflexivity.
Qed.

Lemma arr_hist_app : forall q a b, arr_hist q (a ++ b) = arr_hist q a ++ arr_hist q b.
Proof. intros q a b. unfold arr_hist. rewrite filter_app, map_app. reflexivity. Qed.

Definition out_of (q q' : which) (r : received) : list packet :=
  match r with RPacket p => if which_eqb q q' then [p] else [] | _ => [] end.

Lemma which_eqb_spec : forall a b, which_eqb a b = true <-> a = b.
Proof. intros [|] [|]; cbn; split; congruence. Qed.

Lemma queue_set_same : forall q st l, queue_of q (set_queue q st l) = l.
Proof. intros [|] st l; reflexivity. Qed.
Lemma queue_set_other : forall q q' st l, q <> q' -> queue_of q (set_queue q' st l) = queue_of q st.
Proof. intros [|] [|] st l H; try congruence; reflexivity. Qed.

(** One blocked receive extends the history of each queue by its arrivals and, for the queue received from, the packet taken. *)
Lemma wait_for_fifo : forall es q' st r st' q h, fifo h (queue_of q st) -> wait_for q' st es = (r, st') ->
  exists h', fifo h' (queue_of q st') /\
    arrivals h' = arrivals h ++ filter (goes_to q) (live_from (p_closed st) es) /\
    takings h' = takings h ++ out_of q q' r /\
    p_closed st' = p_closed st || existsb (fun e => match e with EvEnd => true | _ => false end) es.
Proof.
  assert (Harr : forall q ps, arrivals (arr_hist q ps) = filter (goes_to q) ps /\ takings (arr_hist q ps) = []).
  { intros q ps. unfold arr_hist. induction (filter (goes_to q) ps) as [|p l IH]; cbn; [auto|].
    destruct IH as [I1 I2]. unfold arrivals, takings in *. rewrite I1, I2. auto. }
  assert (Aapp : forall a b, arrivals (a ++ b) = arrivals a ++ arrivals b) by (intros; apply flat_map_app).
  assert (Tapp : forall a b, takings (a ++ b) = takings a ++ takings b) by (intros; apply flat_map_app).
  induction es as [|e es IH]; intros q' st r st' q h Hf H; cbn [wait_for] in H;
    destruct (queue_of q' st) as [|p rest] eqn:Eq.
  - destruct (p_closed st) eqn:Ec; pair_inv H; exists h; cbn [out_of existsb]; rewrite Ec; cbn [orb];
      (split; [exact Hf|]; cbn; rewrite !app_nil_r; auto).
  - pair_inv H. unfold reader_turns. cbn [fold_left].
    assert (Hcl : p_closed (set_queue q' st rest) = p_closed st) by apply set_queue_fields.
    replace (live_from (p_closed st) []) with (@nil packet) by (unfold live_from; destruct (p_closed st); reflexivity).
    cbn [filter existsb]. rewrite app_nil_r, orb_false_r.
    destruct (which_eqb q q') eqn:E.
    + apply which_eqb_spec in E. subst q'. rewrite Eq in Hf. exists (h ++ [Out p]).
      rewrite queue_set_same. split; [apply fifo_out; exact Hf|]. rewrite Aapp, Tapp. cbn. rewrite app_nil_r.
      destruct q; cbn; auto.
    + exists h. rewrite queue_set_other by (intros ->; destruct q'; discriminate). split; [exact Hf|].
      cbn [out_of]. rewrite E, app_nil_r. auto.
  - destruct (p_closed st) eqn:Ec.
    + pair_inv H. exists h. cbn [out_of live_from filter]. rewrite !app_nil_r. rewrite Ec. auto.
    + destruct (IH q' (reader_turn st e) r st' q (h ++ arr_hist q (live_from false [e]))) as (h' & I1 & I2 & I3 & I4).
      { pose proof (turns_fifo [e] q st h Hf) as T. rewrite Ec in T. exact T. }
      { exact H. }
      exists h'. split; [exact I1|].
      destruct (Harr q (live_from false [e])) as [A1 A2].
      assert (Hc : p_closed (reader_turn st e) = match e with EvEnd => true | _ => false end).
      { pose proof (turns_closed [e] st) as T. cbn [reader_turns fold_left existsb] in T. rewrite T, Ec.
        destruct e; reflexivity. }
      split; [|split].
      * rewrite I2, Aapp, A1, Hc, <- app_assoc. f_equal.
        change (e :: es) with ([e] ++ es). rewrite live_app, filter_app.
        do 3 f_equal. cbn. destruct e; reflexivity.
      * rewrite I3, Tapp, A2, app_nil_r. reflexivity.
      * rewrite I4, Hc. cbn [existsb orb]. reflexivity.
  - pair_inv H.
    assert (Hcl : p_closed (set_queue q' st rest) = p_closed st) by apply set_queue_fields.
    assert (Hf1 : exists h1, fifo h1 (queue_of q (set_queue q' st rest)) /\ arrivals h1 = arrivals h /\ takings h1 = takings h ++ out_of q q' (RPacket p)).
    { destruct (which_eqb q q') eqn:E.
      - apply which_eqb_spec in E. subst q'. rewrite Eq in Hf. exists (h ++ [Out p]).
        rewrite queue_set_same. split; [apply fifo_out; exact Hf|]. rewrite Aapp, Tapp. cbn. rewrite app_nil_r.
        destruct q; cbn; auto.
      - exists h. rewrite queue_set_other by (intros ->; destruct q'; discriminate). split; [exact Hf|].
        cbn [out_of]. rewrite E, app_nil_r. auto. }
    destruct Hf1 as (h1 & G1 & G2 & G3).
    pose proof (turns_fifo (e :: es) q (set_queue q' st rest) h1 G1) as T. rewrite Hcl in T.
    destruct (Harr q (live_from (p_closed st) (e :: es))) as [A1 A2].
    eexists. split; [exact T|]. rewrite Aapp, Tapp, A1, A2, G2, G3, app_nil_r.
    split; [reflexivity|]. split; [reflexivity|]. rewrite turns_closed, Hcl. reflexivity.
Qed.

Definition has_end (es : list event) : bool := existsb (fun e => match e with EvEnd => true | _ => false end) es.

Lemma receive_fifo : forall sc q' st r st' q h, fifo h (queue_of q st) -> receive sc q' st = (r, st') ->
  exists h', fifo h' (queue_of q st') /\
    arrivals h' = arrivals h ++ filter (goes_to q) (live_from (p_closed st) (s_before (sc (p_time st)) ++ s_wait (sc (p_time st)))) /\
    takings h' = takings h ++ out_of q q' r /\
    p_closed st' = p_closed st || has_end (s_before (sc (p_time st)) ++ s_wait (sc (p_time st))).
Proof.
  assert (Harr : forall q ps, arrivals (arr_hist q ps) = filter (goes_to q) ps /\ takings (arr_hist q ps) = []).
  { intros q ps. unfold arr_hist. induction (filter (goes_to q) ps) as [|p l IH]; cbn; [auto|].
    destruct IH as [I1 I2]. unfold arrivals, takings in *. rewrite I1, I2. auto. }
  assert (Aapp : forall a b, arrivals (a ++ b) = arrivals a ++ arrivals b) by (intros; apply flat_map_app).
  assert (Tapp : forall a b, takings (a ++ b) = takings a ++ takings b) by (intros; apply flat_map_app).
  intros sc q' st r st' q h Hf H. unfold receive in H. cbv zeta in H.
  set (eb := s_before (sc (p_time st))) in *. set (ew := s_wait (sc (p_time st))) in *.
  set (st1 := log_wait (tick (reader_turns st eb))) in *.
  pose proof (turns_fifo eb q st h Hf) as T1.
  assert (Hq1 : queue_of q st1 = queue_of q (reader_turns st eb)) by (destruct q; reflexivity).
  assert (Hc1 : p_closed st1 = p_closed st || has_end eb) by apply turns_closed.
  destruct (Harr q (live_from (p_closed st) eb)) as [A1 A2].
  unfold has_end. rewrite existsb_app, orb_assoc, live_app, filter_app. fold (has_end eb). rewrite <- Hc1.
  destruct (s_late (sc (p_time st))).
  - pair_inv H. rewrite <- Hq1 in T1.
    pose proof (turns_fifo ew q st1 _ T1) as T2.
    destruct (Harr q (live_from (p_closed st1) ew)) as [B1 B2].
    eexists. split; [exact T2|]. rewrite !Aapp, !Tapp, A1, A2, B1, B2. cbn [out_of]. rewrite !app_nil_r, <- app_assoc.
    split; [reflexivity|]. split; [reflexivity|]. apply turns_closed.
  - rewrite <- Hq1 in T1. destruct (wait_for_fifo ew q' st1 r st' q _ T1 H) as (h' & I1 & I2 & I3 & I4).
    exists h'. rewrite Aapp, A1 in I2. rewrite Tapp, A2, app_nil_r in I3. rewrite <- app_assoc in I2. auto.
Qed.

Lemma clients_fifo : forall sc ops st rs st' q h, fifo h (queue_of q st) -> clients sc ops st = (rs, st') ->
  exists h', fifo h' (queue_of q st') /\
    arrivals h' = arrivals h ++ filter (goes_to q) (live_from (p_closed st) (events_from sc (p_time st) (length ops))) /\
    takings h' = takings h ++ got q rs.
Proof.
  intros sc ops. induction ops as [|q' ops IH]; intros st rs st' q h Hf H; cbn [clients] in H.
  - pair_inv H. exists h. cbn [events_from length]. unfold live_from. destruct (p_closed st); cbn;
      rewrite !app_nil_r; auto.
  - destruct (receive sc q' st) as [r st1] eqn:E1. destruct (clients sc ops st1) as [rs1 st2] eqn:E2.
    pair_inv H.
    destruct (receive_fifo sc q' st r st1 q h Hf E1) as (h1 & I1 & I2 & I3 & I4).
    destruct (IH st1 rs1 st2 q h1 I1 E2) as (h2 & J1 & J2 & J3).
    exists h2. split; [exact J1|].
    destruct (receive_fields _ _ _ _ _ E1) as (_ & _ & Ht & _).
    split.
    + cbn [length events_from]. rewrite J2, I2, Ht, <- app_assoc. f_equal.
      rewrite app_assoc, (live_app (_ ++ _)), (filter_app (goes_to q) (live_from _ (_ ++ _)) (live_from (_ || existsb _ (_ ++ _)) _)).
      f_equal. do 2 f_equal. exact I4.
    + rewrite J3, I3, <- app_assoc. reflexivity.
Qed.

Lemma queues_are_fifo : forall sc ops st rs st' q, fresh st -> clients sc ops st = (rs, st') ->
  exists h, fifo h (queue_of q st') /\ takings h = got q rs /\
    arrivals h = filter (goes_to q) (live (events_from sc (p_time st) (length ops))).
Proof.
  intros sc ops st rs st' q (H1 & H2 & H3) H.
  assert (Hf : fifo [] (queue_of q st)) by (destruct q; cbn; rewrite ?H1, ?H2; constructor).
  destruct (clients_fifo sc ops st rs st' q [] Hf H) as (h & I1 & I2 & I3).
  exists h. rewrite H3 in I2. auto.
Qed.

(** Consequences of the queue discipline. *)
Lemma fifo_balance : forall h q, fifo h q -> (length (arrivals h) <= 10)%nat -> arrivals h = takings h ++ q.
Proof.
  assert (Aapp : forall a b, arrivals (a ++ b) = arrivals a ++ arrivals b) by (intros; apply flat_map_app).
  assert (Tapp : forall a b, takings (a ++ b) = takings a ++ takings b) by (intros; apply flat_map_app).
  intros h q H. induction H as [|h q p H IH Hl|h q p H IH Hl|h q p H IH]; intro Hle.
  - reflexivity.
  - rewrite Aapp, app_length in Hle. rewrite Aapp, Tapp, IH by lia. cbn. rewrite app_nil_r, app_assoc. reflexivity.
  - rewrite Aapp, app_length in Hle. cbn [arrivals flat_map app length] in Hle.
    assert (E : arrivals h = takings h ++ q) by (apply IH; lia).
    rewrite E, app_length in Hle. lia.
  - rewrite Aapp, Tapp. rewrite Aapp in Hle. cbn [arrivals takings flat_map app] in *. rewrite app_nil_r in *.
    rewrite IH by exact Hle. rewrite <- app_assoc. reflexivity.
Qed.

(** ** Every packet received was queued or arrived *)
Lemma offer_all : forall (P : packet -> Prop) q p, Forall P q -> P p -> Forall P (offer q p).
Proof.
  intros P q p H1 H2. unfold offer. destruct (Nat.ltb (length q) queue_cap); [|exact H1].
  apply Forall_app. auto.
Qed.

Lemma turn_all : forall (P : packet -> Prop) st e, queues_all P st -> (forall p, e = EvPacket p -> P p) ->
  queues_all P (reader_turn st e).
Proof.
  intros P st e [H1 H2] He. unfold reader_turn. destruct (p_closed st); [split; assumption|].
  destruct e as [p|]; [|split; assumption].
  destruct (is_msg_packet p); split; cbn; auto; apply offer_all; auto.
Qed.

Lemma turns_all : forall (P : packet -> Prop) es st, queues_all P st -> (forall p, In (EvPacket p) es -> P p) ->
  queues_all P (reader_turns st es).
Proof.
  intros P es. unfold reader_turns. induction es as [|e es IH]; intros st H He; cbn [fold_left]; [exact H|].
  apply IH; [|intros p Hp; apply He; right; exact Hp].
  apply turn_all; [exact H|]. intros p ->. apply He. left. reflexivity.
Qed.

Lemma queue_all : forall (P : packet -> Prop) q st, queues_all P st -> Forall P (queue_of q st).
Proof. intros P [|] st [H1 H2]; assumption. Qed.
Lemma set_queue_all : forall (P : packet -> Prop) q st l, queues_all P st -> Forall P l -> queues_all P (set_queue q st l).
Proof. intros P [|] st l [H1 H2] H; split; cbn; assumption. Qed.

Lemma wait_for_all : forall (P : packet -> Prop) es q st r st', queues_all P st -> (forall p, In (EvPacket p) es -> P p) ->
  wait_for q st es = (r, st') -> queues_all P st' /\ (forall p, r = RPacket p -> P p).
Proof.
  intros P es. induction es as [|e es IH]; intros q st r st' H He Hw; cbn [wait_for] in Hw;
    pose proof (queue_all P q st H) as Hq; destruct (queue_of q st) as [|p rest].
  - destruct (p_closed st); pair_inv Hw; split; auto; discriminate.
  - pair_inv Hw. inversion Hq as [|? ? Hp Hr]; subst. split; [|intros p' Hp'; congruence].
    apply (turns_all P []); [apply set_queue_all; assumption|]. intros ? [].
  - destruct (p_closed st); [pair_inv Hw; split; auto; discriminate|].
    apply (IH q (reader_turn st e)); [|intros p Hp; apply He; right; exact Hp|exact Hw].
    apply turn_all; [exact H|]. intros p ->. apply He. left. reflexivity.
  - pair_inv Hw. inversion Hq as [|? ? Hp Hr]; subst. split; [|intros p' Hp'; congruence].
    apply turns_all; [apply set_queue_all; assumption|exact He].
Qed.

Lemma receive_all : forall (P : packet -> Prop) sc q st r st', sched_all P sc -> queues_all P st ->
  receive sc q st = (r, st') -> queues_all P st' /\ (forall p, r = RPacket p -> P p).
Proof.
  intros P sc q st r st' Hs H Hr. unfold receive in Hr.
  assert (H1 : queues_all P (log_wait (tick (reader_turns st (s_before (sc (p_time st))))))).
  { pose proof (turns_all P (s_before (sc (p_time st))) st H) as T.
    destruct T as [T1 T2]; [intros p Hp; apply (Hs (p_time st)); left; exact Hp|]. split; assumption. }
  destruct (s_late (sc (p_time st))).
  - pair_inv Hr. split; [|discriminate]. apply turns_all; [exact H1|].
    intros p Hp. apply (Hs (p_time st)). right. exact Hp.
  - apply (wait_for_all P (s_wait (sc (p_time st))) q _ r st' H1); [|exact Hr].
    intros p Hp. apply (Hs (p_time st)). right. exact Hp.
Qed.

Lemma port_write_all : forall (P : packet -> Prop) sc st b e st', sched_all P sc -> queues_all P st ->
  port_write sc st b = (e, st') -> queues_all P st'.
Proof.
  intros P sc st b e st' Hs H Hw. unfold port_write in Hw. pair_inv Hw.
  pose proof (turns_all P (s_before (sc (p_time st))) st H) as T.
  destruct T as [T1 T2]; [intros p Hp; apply (Hs (p_time st)); left; exact Hp|]. split; assumption.
Qed.

(** ** The port stays open *)
Lemma no_end_has : forall es, ~ In EvEnd es -> has_end es = false.
Proof.
  intros es H. unfold has_end. destruct (existsb _ es) eqn:E; [|reflexivity].
  apply existsb_exists in E. destruct E as (x & H1 & H2). destruct x; [discriminate|]. contradiction.
Qed.

Lemma turns_open : forall es st, ~ In EvEnd es -> p_closed st = false -> p_closed (reader_turns st es) = false.
Proof. intros es st H Hc. rewrite turns_closed, Hc. cbn [orb]. apply (no_end_has es H). Qed.

Lemma wait_for_open : forall es q st r st', ~ In EvEnd es -> p_closed st = false ->
  wait_for q st es = (r, st') -> p_closed st' = false /\ r <> RNil.
Proof.
  induction es as [|e es IH]; intros q st r st' He Hc Hw; cbn [wait_for] in Hw; rewrite Hc in Hw;
    destruct (queue_of q st) as [|p rest].
  - pair_inv Hw. split; [exact Hc|discriminate].
  - pair_inv Hw. split; [|discriminate].
    apply (turns_open []); [intros []|]. destruct (set_queue_fields q st rest) as (_ & _ & _ & _ & _ & _ & G). congruence.
  - apply (IH q (reader_turn st e)); [intro Hin; apply He; right; exact Hin| |exact Hw].
    apply (turns_open [e]); [|exact Hc]. intros [Hin|[]]. apply He. left. exact Hin.
  - pair_inv Hw. split; [|discriminate].
    apply turns_open; [exact He|]. destruct (set_queue_fields q st rest) as (_ & _ & _ & _ & _ & _ & G). congruence.
Qed.

Lemma receive_open : forall sc q st r st', no_end sc -> p_closed st = false ->
  receive sc q st = (r, st') -> p_closed st' = false /\ r <> RNil.
Proof.
  intros sc q st r st' Hn Hc Hr. unfold receive in Hr. destruct (Hn (p_time st)) as [N1 N2].
  assert (H1 : p_closed (log_wait (tick (reader_turns st (s_before (sc (p_time st)))))) = false).
  { cbn. apply turns_open; assumption. }
  destruct (s_late (sc (p_time st))).
  - pair_inv Hr. split; [apply turns_open; assumption|discriminate].
  - apply (wait_for_open _ _ _ _ _ N2 H1 Hr).
Qed.

Lemma port_write_open : forall sc st b e st', no_end sc -> p_closed st = false ->
  port_write sc st b = (e, st') -> p_closed st' = false.
Proof.
  intros sc st b e st' Hn Hc Hw. unfold port_write in Hw. pair_inv Hw. cbn.
  apply turns_open; [apply Hn|exact Hc].
Qed.

(** ** C12: judging replies *)
Lemma pkt_is_ack_iff : forall a, pkt_is_ack a = true <-> 0x60 <= p_cmd a /\ p_ack a = 0x06.
Proof. intros a. unfold pkt_is_ack. destruct (96 <=? p_cmd a) eqn:E; lia. Qed.
Lemma pkt_is_nak_iff : forall a, pkt_is_nak a = true <-> nak_reply a.
Proof. intros a. unfold pkt_is_nak, nak_reply. destruct (96 <=? p_cmd a) eqn:E; lia. Qed.

Lemma judge_success : forall pkt a, judge_ack pkt (Some a) = Ret (Some a, None) <-> good_ack pkt a.
Proof.
  intros pkt a. unfold judge_ack, good_ack, echoes.
  destruct (pkt_is_ack a) eqn:Ea.
  - apply pkt_is_ack_iff in Ea. destruct Ea as [Ea1 Ea2].
    assert (En : pkt_is_nak a = false).
    { destruct (pkt_is_nak a) eqn:En; [|reflexivity]. apply pkt_is_nak_iff in En. destruct En. lia. }
    rewrite En. cbn [negb andb].
    destruct (Z.eqb_spec (p_cmd a) (p_cmd pkt)) as [Ec|Ec]; cbn [negb bindo].
    + unfold pc_GetInfo, pc_GetConfig, pc_SendInsteonMsg.
      destruct (negb (p_cmd a =? 96) && negb (p_cmd a =? 115)) eqn:E1.
      * destruct (Z.eqb_spec (p_cmd a) 98) as [E62|E62].
        -- destruct (zlen (p_payload a) <? 3) eqn:El.
           ++ cbn [bindo]. split; [discriminate|]. intros (_ & _ & _ & [H|[H|[(_ & x & y & z & H)|[H _]]]]); try lia.
              rewrite H in El. rewrite !zlen_cons in El. unfold zlen in El. lia.
           ++ cbn [bindo]. destruct (bytes_eqb (skipn 3 (p_payload a)) (p_payload pkt)) eqn:Eb.
              ** apply bytes_eqb_eq in Eb. split; [|reflexivity]. intros _. repeat split; auto.
                 right. right. left. split; [lia|].
                 destruct (p_payload a) as [|x [|y [|z t]]]; unfold zlen in El; cbn [length] in El; try lia.
                 exists x, y, z. cbn [skipn] in Eb. congruence.
              ** split; [discriminate|]. intros (_ & _ & _ & [H|[H|[(_ & x & y & z & H)|[H _]]]]); try lia.
                 rewrite H in Eb. cbn [skipn] in Eb. rewrite bytes_eqb_refl in Eb. discriminate.
        -- cbn [bindo]. destruct (bytes_eqb (p_payload a) (p_payload pkt)) eqn:Eb.
           ++ apply bytes_eqb_eq in Eb. split; [|reflexivity]. intros _. repeat split; auto. right. right. right. split; [lia|exact Eb].
           ++ split; [discriminate|]. intros (_ & _ & _ & [H|[H|[(H & _)|[_ H]]]]); try lia.
              rewrite H, bytes_eqb_refl in Eb. discriminate.
      * cbn [bindo]. split; [|reflexivity]. intros _. repeat split; auto. lia.
    + split; [discriminate|]. intros (_ & _ & H & _). contradiction.
  - split.
    + destruct (pkt_is_nak a) eqn:En; cbn [negb andb].
      * destruct (negb (p_cmd a =? p_cmd pkt)); [discriminate|].
        destruct (negb (p_cmd a =? pc_GetInfo) && negb (p_cmd a =? pc_GetConfig)); [|discriminate].
        destruct (p_cmd a =? pc_SendInsteonMsg); [|discriminate].
        destruct (zlen (p_payload a) <? 3); discriminate.
      * cbn [bindo]. discriminate.
    + intros (H1 & H2 & _). assert (pkt_is_ack a = true) by (apply pkt_is_ack_iff; auto). congruence.
Qed.

Lemma judge_nak : forall pkt a, nak_reply a -> (p_cmd a = 0x62 -> (3 <= length (p_payload a))%nat) ->
  judge_ack pkt (Some a) = Ret (Some a, Some EPlmNak).
Proof.
  intros pkt a Hn Hl. pose proof Hn as Hn'. apply pkt_is_nak_iff in Hn'. unfold judge_ack. rewrite Hn'.
  cbn [negb]. rewrite andb_false_r.
  destruct (negb (p_cmd a =? p_cmd pkt)); [reflexivity|].
  destruct (negb (p_cmd a =? pc_GetInfo) && negb (p_cmd a =? pc_GetConfig)); [|reflexivity].
  destruct (Z.eqb_spec (p_cmd a) pc_SendInsteonMsg) as [E|E]; [|reflexivity].
  replace (zlen (p_payload a) <? 3) with false by (unfold zlen, pc_SendInsteonMsg in *; specialize (Hl E); lia).
  reflexivity.
Qed.

Lemma judge_shape : forall pkt a r, judge_ack pkt (Some a) = Ret r -> fst r = Some a.
Proof.
  intros pkt a r H. unfold judge_ack in H.
  match type of H with bindo ?x _ = _ => destruct x; cbn [bindo] in H; try discriminate end.
  injection H as <-. reflexivity.
Qed.

Lemma judge_panics : forall pkt a, judge_ack pkt (Some a) = Panic -> p_cmd a = 0x62 /\ (length (p_payload a) < 3)%nat.
Proof.
  intros pkt a H. unfold judge_ack in H.
  destruct (negb (pkt_is_ack a) && negb (pkt_is_nak a)); [discriminate|].
  destruct (negb (p_cmd a =? p_cmd pkt)); [discriminate|].
  destruct (negb (p_cmd a =? pc_GetInfo) && negb (p_cmd a =? pc_GetConfig)); [|discriminate].
  destruct (Z.eqb_spec (p_cmd a) pc_SendInsteonMsg) as [E|E]; [|discriminate].
  destruct (zlen (p_payload a) <? 3) eqn:El; [|discriminate]. split; [exact E|]. unfold zlen in El. lia.
Qed.

Lemma from_reader_62 : forall a, from_reader a -> p_cmd a = 0x62 -> (3 <= length (p_payload a))%nat.
Proof.
  intros a (body & Hf & Hd) Hc. rewrite Hc in Hd. pose proof (decodes_dec_fun _ _ _ _ Hd) as E. rewrite E. cbn [dec_fun].
  unfold dec_fun. cbn [Z.ltb Z.compare Pos.compare Pos.compare_cont andb Z.eqb Pos.eqb p_payload app length]. lia.
Qed.

Lemma from_reader_60 : forall a, from_reader a -> p_cmd a = 0x60 -> length (p_payload a) = 6%nat.
Proof.
  intros a (body & Hf & Hd) Hc. rewrite Hc in *. pose proof (decodes_dec_fun _ _ _ _ Hd) as E. rewrite E.
  unfold dec_fun. cbn [Z.ltb Z.compare Pos.compare Pos.compare_cont andb Z.eqb Pos.eqb p_payload].
  inversion Hf as [c b n Hn Hne Hl|]; subst. cbn in Hn. injection Hn as <-. cbn [andb Nat.sub] in Hl.
  destruct (nonempty_last body) as (front & x & ->); [lia|]. rewrite removelast_last. rewrite app_length in Hl. cbn in Hl. lia.
Qed.

(** What WritePacket did. *)
Inductive wp_case (sc : schedule) (pkt : packet) (st : plm) : outcome pw_result -> plm -> Prop :=
| wp_fail : forall e st1, port_write sc st (pkt_marshal pkt) = (Some e, st1) -> wp_case sc pkt st (Ret (None, Some e)) st1
| wp_timeout : forall st1 st2, port_write sc st (pkt_marshal pkt) = (None, st1) -> receive sc QPkt st1 = (RTimeout, st2) ->
    wp_case sc pkt st (Ret (None, Some (EWrap EPlmReadTimeout))) st2
| wp_nil : forall st1 st2, port_write sc st (pkt_marshal pkt) = (None, st1) -> receive sc QPkt st1 = (RNil, st2) ->
    wp_case sc pkt st Panic st2
| wp_reply : forall a st1 st2, port_write sc st (pkt_marshal pkt) = (None, st1) -> receive sc QPkt st1 = (RPacket a, st2) ->
    wp_case sc pkt st (judge_ack pkt (Some a)) st2.

Lemma write_packet_cases : forall sc pkt st r st', plm_write_packet sc pkt st = (r, st') -> wp_case sc pkt st r st'.
Proof.
  intros sc pkt st r st' H. unfold plm_write_packet in H.
  destruct (port_write sc st (pkt_marshal pkt)) as [[e|] st1] eqn:E1.
  - pair_inv H. apply (wp_fail _ _ _ _ _ E1).
  - unfold plm_read_packet in H. destruct (receive sc QPkt st1) as [[p| |] st2] eqn:E2; pair_inv H.
    + apply (wp_reply _ _ _ _ _ _ E1 E2).
    + apply (wp_nil _ _ _ _ _ E1 E2).
    + apply (wp_timeout _ _ _ _ _ E1 E2).
Qed.

Lemma write_packet_sends_once : forall sc pkt st r st', plm_write_packet sc pkt st = (r, st') ->
  p_sent st' = p_sent st ++ [0x02 :: p_cmd pkt :: p_payload pkt].
Proof.
  intros sc pkt st r st' H.
  destruct (write_packet_cases _ _ _ _ _ H) as [e st1 E1|st1 st2 E1 E2|st1 st2 E1 E2|a st1 st2 E1 E2];
    destruct (port_write_fields _ _ _ _ _ E1) as (F & _);
    try (destruct (receive_fields _ _ _ _ _ E2) as (G & _); rewrite G); exact F.
Qed.

Lemma write_packet_success : forall sc pkt st a st',
  plm_write_packet sc pkt st = (Ret (a, None), st') -> exists p, a = Some p /\ good_ack pkt p /\
    exists st1, port_write sc st (pkt_marshal pkt) = (None, st1) /\ receive sc QPkt st1 = (RPacket p, st').
Proof.
  intros sc pkt st a st' H. remember (Ret (a, @None error)) as r eqn:Er.
  destruct (write_packet_cases _ _ _ _ _ H) as [e st1 E1|st1 st2 E1 E2|st1 st2 E1 E2|p st1 st2 E1 E2]; try discriminate.
  pose proof (judge_shape _ _ _ Er) as Hs. cbn [fst] in Hs. subst a.
  exists p. split; [reflexivity|]. apply judge_success in Er. eauto.
Qed.

Lemma write_packet_accepts : forall sc pkt st st1 p st',
  port_write sc st (0x02 :: p_cmd pkt :: p_payload pkt) = (None, st1) -> receive sc QPkt st1 = (RPacket p, st') ->
  good_ack pkt p -> plm_write_packet sc pkt st = (Ret (Some p, None), st').
Proof.
  intros sc pkt st st1 p st' H1 H2 H3. unfold plm_write_packet, pkt_marshal. cbn [app]. rewrite H1.
  unfold plm_read_packet. rewrite H2. f_equal. apply judge_success. exact H3.
Qed.

Lemma write_packet_nak : forall sc pkt st st1 p st',
  port_write sc st (0x02 :: p_cmd pkt :: p_payload pkt) = (None, st1) -> receive sc QPkt st1 = (RPacket p, st') ->
  nak_reply p -> from_reader p -> plm_write_packet sc pkt st = (Ret (Some p, Some EPlmNak), st').
Proof.
  intros sc pkt st st1 p st' H1 H2 H3 H4. unfold plm_write_packet, pkt_marshal. cbn [app]. rewrite H1.
  unfold plm_read_packet. rewrite H2. f_equal. apply judge_nak; [exact H3|]. apply from_reader_62. exact H4.
Qed.

(** The reply judged is the oldest packet in the queue, whenever it arrived. *)
Lemma receive_head : forall sc q st p rest, s_late (sc (p_time st)) = false ->
  queue_of q (reader_turns st (s_before (sc (p_time st)))) = p :: rest ->
  exists st', receive sc q st = (RPacket p, st').
Proof.
  intros sc q st p rest Hl Hq. unfold receive. rewrite Hl.
  set (st1 := log_wait (tick (reader_turns st (s_before (sc (p_time st)))))).
  assert (Hq1 : queue_of q st1 = p :: rest) by (destruct q; exact Hq).
  destruct (s_wait (sc (p_time st))) as [|e es]; cbn [wait_for]; rewrite Hq1; eauto.
Qed.

(** ** C13: retries *)
Lemma retryable_spec : forall nak (ack : option packet) (e : option error),
  (err_is e EPlmNak && nak) || err_is e EPlmReadTimeout = true <-> again nak (Ret (ack, e)).
Proof.
  intros nak ack e. unfold again, err_is. split.
  - intro H. destruct e as [e|]; [|cbn in H; discriminate].
    exists ack, e. split; [reflexivity|]. apply orb_true_iff in H. destruct H as [H|H].
    + apply andb_true_iff in H. destruct H as [H1 H2]. apply error_eqb_eq in H1. auto.
    + apply error_eqb_eq in H. auto.
  - intros (ack' & e' & H1 & H2). injection H1 as _ ->. destruct H2 as [[-> ->]| ->]; reflexivity.
Qed.

Lemma retry_loop_log : forall W (pw : packet_writer W) n nak pkt last w l r w' l',
  retry_loop (logged pw) n nak pkt last (w, l) = (r, (w', l')) ->
  exists t, l' = l ++ t /\ Forall (fun x => fst x = pkt) t /\ (length t <= n)%nat /\
    match t with
    | [] => n = O /\ r = Ret last
    | _ => exists init lst, map snd t = init ++ [lst] /\ r = lst /\ Forall (again nak) init /\
             (again nak lst -> length t = n)
    end.
Proof.
  intros W pw n. induction n as [|n IH]; intros nak pkt last w l r w' l' H; cbn [retry_loop] in H.
  - injection H as <- <- <-. exists []. rewrite app_nil_r. repeat split; auto.
  - unfold logged in H at 1. cbn [pw_write fst snd] in H.
    destruct (pw_write pw pkt w) as [o w1] eqn:Ew. destruct o as [[ack err]| |].
    + destruct ((err_is err EPlmNak && nak) || err_is err EPlmReadTimeout) eqn:Er.
      * destruct (IH nak pkt (ack, err) w1 (l ++ [(pkt, Ret (ack, err))]) r w' l' H) as (t & H1 & H2 & H3 & H4).
        exists ((pkt, Ret (ack, err)) :: t). split; [rewrite H1, <- app_assoc; reflexivity|].
        split; [constructor; auto|]. split; [cbn [length]; lia|].
        apply (retryable_spec nak ack err) in Er.
        destruct t as [|x t].
        -- destruct H4 as [-> ->]. exists [], (Ret (ack, err)). repeat split; auto.
        -- destruct H4 as (init & lst & E & -> & Hi & Hl). exists (Ret (ack, err) :: init), lst.
           split; [cbn [map snd] in *; rewrite E; reflexivity|]. split; [reflexivity|]. split; [constructor; assumption|].
           intro Ha. cbn [length] in *. specialize (Hl Ha). lia.
      * injection H as <- <- <-. exists [(pkt, Ret (ack, err))]. split; [reflexivity|]. split; [constructor; auto|].
        split; [cbn; lia|]. exists [], (Ret (ack, err)). repeat split; auto.
        intro Ha. apply (retryable_spec nak ack err) in Ha. congruence.
    + injection H as <- <- <-. exists [(pkt, Panic)]. split; [reflexivity|]. split; [constructor; auto|].
      split; [cbn; lia|]. exists [], Panic. repeat split; auto.
      intros (a & e & Hx & _). discriminate.
    + injection H as <- <- <-. exists [(pkt, NoFuel)]. split; [reflexivity|]. split; [constructor; auto|].
      split; [cbn; lia|]. exists [], NoFuel. repeat split; auto.
      intros (a & e & Hx & _). discriminate.
Qed.

Lemma logged_write : forall W (pw : packet_writer W) pkt w l,
  pw_write (logged pw) pkt (w, l) = match pw_write pw pkt w with (r, w1) => (r, (w1, l ++ [(pkt, r)])) end.
Proof. reflexivity. Qed.

(** Logging changes nothing. *)
Lemma retry_logged_same : forall W (pw : packet_writer W) n nak pkt last w l,
  retry_loop (logged pw) n nak pkt last (w, l) =
    (fst (retry_loop pw n nak pkt last w),
     (snd (retry_loop pw n nak pkt last w), snd (snd (retry_loop (logged pw) n nak pkt last (w, l))))).
Proof.
  intros W pw n. induction n as [|n IH]; intros nak pkt last w l; cbn [retry_loop]; [reflexivity|].
  rewrite logged_write.
  destruct (pw_write pw pkt w) as [o w1]. destruct o as [[ack err]| |]; try reflexivity.
  destruct ((err_is err EPlmNak && nak) || err_is err EPlmReadTimeout); [|reflexivity].
  rewrite IH. reflexivity.
Qed.

Lemma retry_trace : forall W (pw : packet_writer W) retries nak pkt w r w' log,
  0 <= retries ->
  pw_write (retry (logged pw) retries nak) pkt (w, []) = (r, (w', log)) ->
  Forall (fun x => fst x = pkt) log /\ (Z.of_nat (length log) <= retries + 1) /\
  exists init lst, map snd log = init ++ [lst] /\ r = lst /\ Forall (again nak) init /\
    (again nak lst -> Z.of_nat (length log) = retries + 1).
Proof.
  intros W pw retries nak pkt w r w' log Hr H. unfold retry in H. cbn [pw_write] in H.
  destruct (retry_loop_log W pw _ nak pkt (None, None) w [] r w' log H) as (t & H1 & H2 & H3 & H4).
  cbn [app] in H1. subst t. destruct log as [|x log]; [destruct H4; lia|].
  destruct H4 as (init & lst & E1 & E2 & E3 & E4).
  split; [exact H2|]. split; [lia|]. exists init, lst. repeat split; auto. intro Ha. specialize (E4 Ha). lia.
Qed.

Lemma retry_same_result : forall W (pw : packet_writer W) retries nak pkt w,
  fst (pw_write (retry (logged pw) retries nak) pkt (w, [])) = fst (pw_write (retry pw retries nak) pkt w).
Proof.
  intros W pw retries nak pkt w. unfold retry. cbn [pw_write]. rewrite retry_logged_same. reflexivity.
Qed.

Lemma retry_negative : forall W (pw : packet_writer W) retries nak pkt w, retries < 0 ->
  pw_write (retry pw retries nak) pkt w = (Ret (None, None), w).
Proof.
  intros W pw retries nak pkt w H. unfold retry. cbn [pw_write].
  replace (Z.to_nat (retries + 1)) with O by lia. reflexivity.
Qed.

(** The PLM never reports the bare read time-out, so the retry loop never sees it. *)
Lemma plm_timeout_not_retried : forall sc pkt st ack e st', plm_write_packet sc pkt st = (Ret (ack, Some e), st') ->
  s_werr (sc (p_time st)) <> Some EPlmReadTimeout -> e <> EPlmReadTimeout.
Proof.
  intros sc pkt st ack e st' H Hw He. subst e. remember (Ret (ack, Some EPlmReadTimeout)) as r eqn:Er.
  destruct (write_packet_cases _ _ _ _ _ H) as [e st1 E1|st1 st2 E1 E2|st1 st2 E1 E2|p st1 st2 E1 E2]; try discriminate.
  - destruct (port_write_fields _ _ _ _ _ E1) as (_ & _ & _ & _ & _ & _ & F). injection Er as _ ->. congruence.
  - unfold judge_ack in Er.
    destruct (negb (pkt_is_ack p) && negb (pkt_is_nak p)); cbn [bindo] in Er.
    { destruct (pkt_is_nak p); discriminate. }
    destruct (negb (p_cmd p =? p_cmd pkt)); cbn [bindo] in Er.
    { destruct (pkt_is_nak p); discriminate. }
    destruct (negb (p_cmd p =? pc_GetInfo) && negb (p_cmd p =? pc_GetConfig)).
    + destruct (p_cmd p =? pc_SendInsteonMsg).
      * destruct (zlen (p_payload p) <? 3); [discriminate|]. cbn [bindo] in Er.
        destruct (pkt_is_nak p); [discriminate|]. destruct (bytes_eqb _ _); discriminate.
      * cbn [bindo] in Er. destruct (pkt_is_nak p); [discriminate|]. destruct (bytes_eqb _ _); discriminate.
    + cbn [bindo] in Er. destruct (pkt_is_nak p); discriminate.
Qed.

(** ** What the retrying writer of a PLM preserves *)
Lemma wp_fields : forall sc pkt st r st', plm_write_packet sc pkt st = (r, st') ->
  p_timeout st' = p_timeout st /\ p_retries st' = p_retries st /\ p_addr st' = p_addr st /\
  (p_waits st' = p_waits st \/ p_waits st' = p_waits st ++ [p_timeout st]).
Proof.
  intros sc pkt st r st' H.
  destruct (write_packet_cases _ _ _ _ _ H) as [e st1 E1|st1 st2 E1 E2|st1 st2 E1 E2|a st1 st2 E1 E2];
    destruct (port_write_fields _ _ _ _ _ E1) as (_ & F2 & _ & F4 & F5 & F6 & _);
    try (destruct (receive_fields _ _ _ _ _ E2) as (_ & G2 & _ & G4 & G5 & G6); rewrite G2, G4, G5, G6, F2, F4, F5, F6);
    auto.
Qed.

Lemma retry_ind : forall (P : plm -> Prop) sc n nak pkt last st r st',
  (forall s r s', P s -> plm_write_packet sc pkt s = (r, s') -> P s') ->
  P st -> retry_loop (plm_pw sc) n nak pkt last st = (r, st') -> P st'.
Proof.
  intros P sc n nak pkt. induction n as [|n IH]; intros last st r st' Hs HP H; cbn [retry_loop] in H.
  - pair_inv H. exact HP.
  - cbn [plm_pw pw_write] in H. destruct (plm_write_packet sc pkt st) as [o st1] eqn:E.
    pose proof (Hs _ _ _ HP E) as HP1.
    destruct o as [[ack err]| |]; [|pair_inv H; exact HP1|pair_inv H; exact HP1].
    destruct ((err_is err EPlmNak && nak) || err_is err EPlmReadTimeout).
    + apply (IH (ack, err) st1 r st' Hs HP1 H).
    + pair_inv H. exact HP1.
Qed.

(** A successful retried write ended with a good acknowledgement. *)
Lemma retry_success : forall (P : packet -> Prop) sc n nak pkt last st a st', sched_all P sc -> queues_all P st ->
  snd last <> None ->
  retry_loop (plm_pw sc) n nak pkt last st = (Ret (a, None), st') ->
  exists p, a = Some p /\ good_ack pkt p /\ P p.
Proof.
  intros P sc n nak pkt. induction n as [|n IH]; intros last st a st' Hs Hq Hl H; cbn [retry_loop] in H.
  - injection H as -> _. cbn [snd] in Hl. congruence.
  - cbn [plm_pw pw_write] in H. destruct (plm_write_packet sc pkt st) as [o st1] eqn:E.
    destruct o as [[ack err]| |]; try discriminate.
    destruct ((err_is err EPlmNak && nak) || err_is err EPlmReadTimeout) eqn:Er.
    + apply (IH (ack, err) st1 a st'); auto.
      * destruct (write_packet_cases _ _ _ _ _ E) as [e s1 E1|s1 s2 E1 E2|s1 s2 E1 E2|p s1 s2 E1 E2];
          pose proof (port_write_all P _ _ _ _ _ Hs Hq E1) as Q1; auto;
          apply (receive_all P _ _ _ _ _ Hs Q1 E2).
      * cbn [snd]. destruct err; [discriminate|]. cbn in Er. discriminate.
    + injection H as -> -> ->. destruct (write_packet_success _ _ _ _ _ E) as (p & -> & Hg & s1 & E1 & E2).
      exists p. split; [reflexivity|]. split; [exact Hg|].
      pose proof (port_write_all P _ _ _ _ _ Hs Hq E1) as Q1.
      apply (receive_all P _ _ _ _ _ Hs Q1 E2). reflexivity.
Qed.

Lemma retry_success0 : forall (P : packet -> Prop) sc retries nak pkt st a st', 0 <= retries -> sched_all P sc -> queues_all P st ->
  pw_write (retry (plm_pw sc) retries nak) pkt st = (Ret (a, None), st') ->
  exists p, a = Some p /\ good_ack pkt p /\ P p.
Proof.
  intros P sc retries nak pkt st a st' Hr Hs Hq H. unfold retry in H. cbn [pw_write] in H.
  destruct (Z.to_nat (retries + 1)) as [|n] eqn:En; [lia|].
  cbn [retry_loop] in H. cbn [plm_pw pw_write] in H. destruct (plm_write_packet sc pkt st) as [o st1] eqn:E.
  destruct o as [[ack err]| |]; try discriminate.
  destruct ((err_is err EPlmNak && nak) || err_is err EPlmReadTimeout) eqn:Er.
  - apply (retry_success P sc n nak pkt (ack, err) st1 a st'); auto.
    + destruct (write_packet_cases _ _ _ _ _ E) as [e s1 E1|s1 s2 E1 E2|s1 s2 E1 E2|p s1 s2 E1 E2];
        pose proof (port_write_all P _ _ _ _ _ Hs Hq E1) as Q1; auto;
        apply (receive_all P _ _ _ _ _ Hs Q1 E2).
    + cbn [snd]. destruct err; [discriminate|]. cbn in Er. discriminate.
  - injection H as -> -> ->. destruct (write_packet_success _ _ _ _ _ E) as (p & -> & Hg & s1 & E1 & E2).
    exists p. split; [reflexivity|]. split; [exact Hg|].
    pose proof (port_write_all P _ _ _ _ _ Hs Hq E1) as Q1.
    apply (receive_all P _ _ _ _ _ Hs Q1 E2). reflexivity.
Qed.

(** With the port open and only reader-made packets nothing panics. *)

Lemma write_packet_sound : forall sc pkt st r st', sched_all from_reader sc -> no_end sc -> sound st ->
  plm_write_packet sc pkt st = (r, st') -> sound st' /\ exists x, r = Ret x.
Proof.
  intros sc pkt st r st' Hs Hn [Hq Hc] H.
  destruct (write_packet_cases _ _ _ _ _ H) as [e st1 E1|st1 st2 E1 E2|st1 st2 E1 E2|p st1 st2 E1 E2];
    pose proof (port_write_all _ _ _ _ _ _ Hs Hq E1) as Q1; pose proof (port_write_open _ _ _ _ _ Hn Hc E1) as C1;
    try (destruct (receive_all _ _ _ _ _ _ Hs Q1 E2) as [Q2 Q3]; destruct (receive_open _ _ _ _ _ Hn C1 E2) as [C2 C3]).
  - split; [split; assumption|eauto].
  - split; [split; assumption|eauto].
  - congruence.
  - split; [split; assumption|]. specialize (Q3 p eq_refl).
    destruct (judge_ack pkt (Some p)) as [x| |] eqn:Ej; [eauto| |].
    + apply judge_panics in Ej. destruct Ej as [Ej1 Ej2]. pose proof (from_reader_62 p Q3 Ej1). lia.
    + unfold judge_ack in Ej.
      match type of Ej with bindo ?x _ = _ => destruct x eqn:Ex; cbn [bindo] in Ej; try discriminate end.
      destruct (negb (pkt_is_ack p) && negb (pkt_is_nak p)); [discriminate|].
      destruct (negb (p_cmd p =? p_cmd pkt)); [discriminate|].
      destruct (negb (p_cmd p =? pc_GetInfo) && negb (p_cmd p =? pc_GetConfig)); [|discriminate].
      destruct (p_cmd p =? pc_SendInsteonMsg); [|discriminate]. destruct (zlen (p_payload p) <? 3); discriminate.
Qed.

Lemma retry_sound : forall sc n nak pkt last st r st', sched_all from_reader sc -> no_end sc -> sound st ->
  retry_loop (plm_pw sc) n nak pkt last st = (r, st') -> sound st' /\ exists x, r = Ret x.
Proof.
  intros sc n nak pkt. induction n as [|n IH]; intros last st r st' Hs Hn Hst H; cbn [retry_loop] in H.
  - pair_inv H. eauto.
  - cbn [plm_pw pw_write] in H. destruct (plm_write_packet sc pkt st) as [o st1] eqn:E.
    destruct (write_packet_sound _ _ _ _ _ Hs Hn Hst E) as (Hst1 & x & ->). destruct x as [ack err].
    destruct ((err_is err EPlmNak && nak) || err_is err EPlmReadTimeout).
    + apply (IH (ack, err) st1 r st'); assumption.
    + pair_inv H. eauto.
Qed.

(** ** C14: message writes *)
Lemma await_ack_result : forall (P : packet -> Prop) fuel sc dst st m e st', sched_all P sc -> queues_all P st ->
  await_ack fuel sc dst st = (Ret (Some m, e), st') -> e = None \/ e = Some EDevNak ->
  exists p, P p /\ msg_unmarshal msg_zero (p_payload p) = (m, None) /\ m_src m = dst /\
    (e = None -> fl_ack (m_flags m) = true /\ fl_nak (m_flags m) = false) /\ (e = Some EDevNak -> fl_nak (m_flags m) = true).
Proof.
  intros P fuel. induction fuel as [|fuel IH]; intros sc dst st m e st' Hs Hq H He; cbn [await_ack] in H; [discriminate|].
  unfold plm_read in H. destruct (receive sc QMsg st) as [r st1] eqn:Er.
  destruct (receive_all _ _ _ _ _ _ Hs Hq Er) as [Q1 Q2].
  destruct r as [p| |]; try discriminate.
  destruct (msg_unmarshal msg_zero (p_payload p)) as [m1 e1] eqn:Eu.
  destruct e1 as [e1|].
  - injection H as <- <- <-. destruct (snd (msg_unmarshal msg_zero (p_payload p))) as [x|] eqn:Ex; rewrite Eu in Ex; cbn in Ex; [|discriminate].
    injection Ex as ->. assert (Hx : x = EWrap EBufferTooShort) by (apply (msg_unmarshal_err msg_zero (p_payload p)); rewrite Eu; reflexivity).
    subst x. destruct He; discriminate.
  - destruct ((m_src m1 =? dst) && (fl_ack (m_flags m1) || fl_nak (m_flags m1))) eqn:Em.
    + injection H as <- <- <-. exists p. split; [apply Q2; reflexivity|]. split; [exact Eu|].
      apply andb_true_iff in Em. destruct Em as [Em1 Em2]. split; [lia|].
      destruct (fl_nak (m_flags m1)) eqn:En.
      * split; [discriminate|auto].
      * rewrite orb_false_r in Em2. split; [auto|discriminate].
    + apply (IH sc dst st1 m e st' Hs Q1 H He).
Qed.

Lemma plm_write_result : forall (P : packet -> Prop) fuel sc msg st m e st', sched_all P sc -> queues_all P st -> 0 <= p_retries st ->
  plm_write fuel sc msg st = (Ret (Some m, e), st') -> e = None \/ e = Some EDevNak ->
  exists p, P p /\ msg_unmarshal msg_zero (p_payload p) = (m, None) /\ m_src m = m_dst msg /\
    (e = None -> fl_ack (m_flags m) = true /\ fl_nak (m_flags m) = false) /\ (e = Some EDevNak -> fl_nak (m_flags m) = true).
Proof.
  intros P fuel sc msg st m e st' Hs Hq Hr H He. unfold plm_write in H.
  destruct (pw_write (retry (plm_pw sc) (p_retries st) true) (mkPkt pc_SendInsteonMsg (skipn 3 (msg_marshal msg)) 0) st)
    as [o st1] eqn:E.
  destruct o as [[a [e1|]]| |]; try discriminate.
  apply (await_ack_result P fuel sc (m_dst msg) st1 m e st' Hs); auto.
  unfold retry in E. cbn [pw_write] in E.
  apply (retry_ind (queues_all P) sc (Z.to_nat (p_retries st + 1)) true (mkPkt pc_SendInsteonMsg (skipn 3 (msg_marshal msg)) 0) (None, None) st (Ret (a, None)) st1); auto.
  intros s r s' HP Hw.
  destruct (write_packet_cases _ _ _ _ _ Hw) as [e1 s1 E1|s1 s2 E1 E2|s1 s2 E1 E2|p s1 s2 E1 E2];
    pose proof (port_write_all P _ _ _ _ _ Hs HP E1) as Q1; auto;
    apply (receive_all P _ _ _ _ _ Hs Q1 E2).
Qed.

(** Success never comes without a message. *)
Lemma await_ack_some : forall fuel sc dst st m st', await_ack fuel sc dst st = (Ret (m, None), st') -> exists x, m = Some x.
Proof.
  induction fuel as [|fuel IH]; intros sc dst st m st' H; cbn [await_ack] in H; [discriminate|].
  destruct (plm_read sc st) as [[[[m1|] [e1|]]| |] st1]; try discriminate.
  destruct ((m_src m1 =? dst) && (fl_ack (m_flags m1) || fl_nak (m_flags m1))).
  - injection H as <- _ _. eauto.
  - apply (IH _ _ _ _ _ H).
Qed.

Lemma plm_write_some : forall fuel sc msg st m st', 0 <= p_retries st ->
  plm_write fuel sc msg st = (Ret (m, None), st') -> exists x, m = Some x.
Proof.
  intros fuel sc msg st m st' Hr H. unfold plm_write in H.
  destruct (pw_write (retry (plm_pw sc) (p_retries st) true) (mkPkt pc_SendInsteonMsg (skipn 3 (msg_marshal msg)) 0) st)
    as [[[a [e1|]]| |] st1]; try discriminate.
  apply (await_ack_some _ _ _ _ _ _ H).
Qed.

(** ** C15: a failing port *)
Lemma write_packet_port_error : forall sc pkt st e, s_werr (sc (p_time st)) = Some e ->
  exists st', plm_write_packet sc pkt st = (Ret (None, Some e), st').
Proof.
  intros sc pkt st e H. unfold plm_write_packet, port_write. rewrite H. eauto.
Qed.

Lemma write_fails_always : forall sc retries nak pkt st, 0 <= retries ->
  (forall t, exists e, s_werr (sc t) = Some e) ->
  exists a e st', pw_write (retry (plm_pw sc) retries nak) pkt st = (Ret (a, Some e), st').
Proof.
  intros sc retries nak pkt st Hr Hw. unfold retry. cbn [pw_write].
  destruct (Z.to_nat (retries + 1)) as [|n] eqn:En; [lia|]. clear En.
  assert (G : forall n st last, snd last <> None -> exists a e st', retry_loop (plm_pw sc) n nak pkt last st = (Ret (a, Some e), st')).
  { clear n st. induction n as [|n IH]; intros st last Hl; cbn [retry_loop].
    - destruct last as [a [e|]]; [eauto|cbn in Hl; congruence].
    - destruct (Hw (p_time st)) as (e & He). destruct (write_packet_port_error sc pkt st e He) as (st1 & E).
      cbn [plm_pw pw_write]. rewrite E.
      destruct ((err_is (Some e) EPlmNak && nak) || err_is (Some e) EPlmReadTimeout); [|eauto].
      apply IH. discriminate. }
  cbn [retry_loop]. destruct (Hw (p_time st)) as (e & He). destruct (write_packet_port_error sc pkt st e He) as (st1 & E).
  cbn [plm_pw pw_write]. rewrite E.
  destruct ((err_is (Some e) EPlmNak && nak) || err_is (Some e) EPlmReadTimeout); [|eauto].
  apply G. discriminate.
Qed.

(** ** C47 *)
Lemma cfg_bits : forall c, is_byte c ->
  (forall p q, In p [4; 5; 6; 7] -> In q [4; 5; 6; 7] ->
     (cfg_set_bit c p / 2 ^ q) mod 2 = (if q =? p then 1 else (c / 2 ^ q) mod 2) /\
     (cfg_clear_bit c p / 2 ^ q) mod 2 = (if q =? p then 0 else (c / 2 ^ q) mod 2)).
Proof.
  intros c Hc p q Hp Hq.
  pose proof (sweep1 (fun c => forallb (fun p => forallb (fun q =>
     ((cfg_set_bit c p / 2 ^ q) mod 2 =? (if q =? p then 1 else (c / 2 ^ q) mod 2)) &&
     ((cfg_clear_bit c p / 2 ^ q) mod 2 =? (if q =? p then 0 else (c / 2 ^ q) mod 2))) [4;5;6;7]) [4;5;6;7])
     ltac:(vm_compute; reflexivity) c Hc) as H. cbv beta in H.
  rewrite forallb_forall in H. specialize (H p Hp). rewrite forallb_forall in H. specialize (H q Hq). lia.
Qed.

Lemma cfg_accessors : forall c, is_byte c ->
  (cfg_auto_linking c = true <-> (c / 2 ^ 7) mod 2 = 1) /\ (cfg_monitor c = true <-> (c / 2 ^ 6) mod 2 = 1) /\
  (cfg_auto_led c = true <-> (c / 2 ^ 5) mod 2 = 1) /\ (cfg_deadman c = true <-> (c / 2 ^ 4) mod 2 = 1).
Proof.
  intros c Hc.
  pose proof (sweep1 (fun c => eqb (cfg_auto_linking c) ((c / 2 ^ 7) mod 2 =? 1) && eqb (cfg_monitor c) ((c / 2 ^ 6) mod 2 =? 1) &&
     eqb (cfg_auto_led c) ((c / 2 ^ 5) mod 2 =? 1) && eqb (cfg_deadman c) ((c / 2 ^ 4) mod 2 =? 1))
     ltac:(vm_compute; reflexivity) c Hc) as H. cbv beta in H. rewrite !andb_true_iff, !eqb_true_iff in H.
  destruct H as [[[H1 H2] H3] H4]. rewrite H1, H2, H3, H4. rewrite !Z.eqb_eq. tauto.
Qed.

Lemma cfg_roundtrip : forall c old rest, is_byte c ->
  cfg_unmarshal old (cfg_marshal c ++ rest) = (c / 16 * 16, None).
Proof.
  intros c old rest Hc. unfold cfg_marshal, cfg_unmarshal. cbn [app]. f_equal.
  pose proof (sweep1 (fun c => Z.land c 0xf0 =? c / 16 * 16) ltac:(vm_compute; reflexivity) c Hc) as H. cbv beta in H. lia.
Qed.

(** ** C52 *)
Lemma info_decodes : forall a2 a1 a0 c0 c1 fw rest,
  info_unmarshal ([a2; a1; a0; c0; c1; fw] ++ rest) = Ret (mkInfo (a2 * 65536 + a1 * 256 + a0) c0 c1 fw).
Proof. intros. cbn [info_unmarshal app]. rewrite addr_put3. reflexivity. Qed.

Lemma info_no_crash : forall sc st, sched_all from_reader sc -> no_end sc -> sound st -> 0 <= p_retries st ->
  exists r st', plm_info sc st = (Ret r, st') /\ sound st'.
Proof.
  intros sc st Hs Hn Hst Hr. unfold plm_info.
  destruct (pw_write (retry (plm_pw sc) (p_retries st) true) (mkPkt pc_GetInfo [] 0) st) as [o st1] eqn:E.
  pose proof E as E'. unfold retry in E'. cbn [pw_write] in E'.
  destruct (retry_sound _ _ _ _ _ _ _ _ Hs Hn Hst E') as (Hst1 & x & ->). destruct x as [a [e|]].
  - destruct a; eauto.
  - destruct (retry_success0 from_reader _ _ _ _ _ _ _ Hr Hs (proj1 Hst) E) as (p & -> & Hg & Hp).
    assert (Hc : p_cmd p = 0x60) by (destruct Hg as (_ & _ & H & _); exact H).
    pose proof (from_reader_60 p Hp Hc) as Hl.
    destruct (p_payload p) as [|a2 [|a1 [|a0 [|c0 [|c1 [|fw t]]]]]]; cbn [length] in Hl; try lia.
    cbn [info_unmarshal bindo]. eauto.
Qed.

Lemma info_correct : forall (P : packet -> Prop) sc st i st', sched_all P sc -> queues_all P st -> 0 <= p_retries st ->
  plm_info sc st = (Ret (i, None), st') ->
  exists p a2 a1 a0 c0 c1 fw rest, P p /\ p_cmd p = 0x60 /\ p_ack p = 0x06 /\
    p_payload p = [a2; a1; a0; c0; c1; fw] ++ rest /\ i = Some (mkInfo (a2 * 65536 + a1 * 256 + a0) c0 c1 fw).
Proof.
  intros P sc st i st' Hs Hq Hr H. unfold plm_info in H.
  destruct (pw_write (retry (plm_pw sc) (p_retries st) true) (mkPkt pc_GetInfo [] 0) st) as [[[a [e|]]| |] st1] eqn:E; try discriminate; try (destruct a; discriminate).
  destruct (retry_success0 P _ _ _ _ _ _ _ Hr Hs Hq E) as (p & -> & Hg & Hp).
  destruct (p_payload p) as [|a2 [|a1 [|a0 [|c0 [|c1 [|fw t]]]]]] eqn:Ep; cbn [info_unmarshal bindo] in H; try discriminate.
  injection H as <- <-. exists p, a2, a1, a0, c0, c1, fw, t. rewrite addr_put3.
  destruct Hg as (_ & Hg2 & Hg3 & _). repeat split; auto.
Qed.

Lemma address_known : forall sc st, p_addr st <> 0 -> plm_address sc st = (Ret (p_addr st), st).
Proof. intros sc st H. unfold plm_address. replace (p_addr st =? 0) with false by lia. reflexivity. Qed.

Lemma retry_keeps_addr : forall sc retries nak pkt st r st',
  pw_write (retry (plm_pw sc) retries nak) pkt st = (r, st') ->
  p_addr st' = p_addr st /\ p_timeout st' = p_timeout st /\ p_retries st' = p_retries st.
Proof.
  intros sc retries nak pkt st r st' H. unfold retry in H. cbn [pw_write] in H.
  apply (retry_ind (fun s => p_addr s = p_addr st /\ p_timeout s = p_timeout st /\ p_retries s = p_retries st)
    sc (Z.to_nat (retries + 1)) nak pkt (None, None) st r st'); auto.
  intros s r0 s' (H1 & H2 & H3) Hw. destruct (wp_fields _ _ _ _ _ Hw) as (F1 & F2 & F3 & _). repeat split; congruence.
Qed.

Lemma address_asked : forall sc st a st', plm_address sc st = (Ret a, st') ->
  p_addr st' = a /\ (a <> 0 -> plm_address sc st' = (Ret a, st')).
Proof.
  intros sc st a st' H. unfold plm_address in H.
  assert (G : p_addr st' = a).
  { destruct (Z.eqb_spec (p_addr st) 0) as [E|E].
    - destruct (plm_info sc st) as [[[[i|] [e|]]| |] st1]; try discriminate; injection H as <- <-; reflexivity.
    - injection H as <- <-. reflexivity. }
  split; [exact G|]. intro Ha. rewrite <- G. apply address_known. congruence.
Qed.

Lemma reset_waits : forall sc n nak pkt last st r st', retry_loop (plm_pw sc) n nak pkt last st = (r, st') ->
  exists k, (k <= n)%nat /\ p_waits st' = p_waits st ++ repeat (p_timeout st) k.
Proof.
  intros sc n nak pkt. induction n as [|n IH]; intros last st r st' H; cbn [retry_loop] in H.
  - pair_inv H. exists O. cbn. rewrite app_nil_r. auto.
  - cbn [plm_pw pw_write] in H. destruct (plm_write_packet sc pkt st) as [o st1] eqn:E.
    destruct (wp_fields _ _ _ _ _ E) as (F1 & _ & _ & F4).
    assert (F5 : exists j, (j <= 1)%nat /\ p_waits st1 = p_waits st ++ repeat (p_timeout st) j).
    { destruct F4 as [F4|F4]; [exists O|exists 1%nat]; rewrite F4; cbn; rewrite ?app_nil_r; auto. }
    destruct F5 as (j & Hj & F5).
    destruct o as [[ack err]| |]; [|pair_inv H; exists j; split; [lia|exact F5]|pair_inv H; exists j; split; [lia|exact F5]].
    destruct ((err_is err EPlmNak && nak) || err_is err EPlmReadTimeout).
    + destruct (IH _ _ _ _ H) as (k & Hk & Hw). exists (j + k)%nat. split; [lia|].
      rewrite Hw, F5, F1, <- app_assoc, repeat_app. reflexivity.
    + pair_inv H. exists j. split; [lia|exact F5].
Qed.

Lemma reset_timeouts : forall sc st e st', plm_reset sc st = (Ret e, st') ->
  p_timeout st' = p_timeout st /\ p_retries st' = p_retries st /\
  exists k, Z.of_nat k <= Z.max 0 (p_retries st + 1) /\ p_waits st' = p_waits st ++ repeat 20 k.
Proof.
  intros sc st e st' H. unfold plm_reset in H.
  destruct (pw_write (retry (plm_pw sc) (p_retries st) true) (mkPkt pc_Reset [] 0) (set_timeout st reset_timeout)) as [[[a e1]| |] st1] eqn:E; try discriminate.
  injection H as <- <-. cbn [p_timeout set_timeout p_retries p_waits].
  destruct (retry_keeps_addr _ _ _ _ _ _ _ E) as (_ & _ & F). unfold retry in E. cbn [pw_write] in E.
  destruct (reset_waits _ _ _ _ _ _ _ _ E) as (k & Hk & Hw). cbn [p_waits p_timeout set_timeout] in Hw.
  split; [reflexivity|]. split; [exact F|]. exists k. split; [lia|exact Hw].
Qed.

(** Configuration over the wire. *)
Lemma config_correct : forall (P : packet -> Prop) sc st c st', sched_all P sc -> queues_all P st -> 0 <= p_retries st ->
  plm_config sc st = (Ret (c, None), st') ->
  exists p rest, P p /\ p_cmd p = 0x73 /\ p_ack p = 0x06 /\ p_payload p = c :: rest.
Proof.
  intros P sc st c st' Hs Hq Hr H. unfold plm_config in H.
  destruct (pw_write (retry (plm_pw sc) (p_retries st) true) (mkPkt pc_GetConfig [] 0) st) as [[[a [e|]]| |] st1] eqn:E; try discriminate; try (destruct a; discriminate).
  destruct (retry_success0 P _ _ _ _ _ _ _ Hr Hs Hq E) as (p & -> & Hg & Hp).
  destruct Hg as (_ & Hg2 & Hg3 & _).
  destruct (p_payload p) as [|x t] eqn:Ep; cbn [cfg_unmarshal] in H; [discriminate|].
  injection H as <- <-. exists p, t. auto.
Qed.

Lemma retry_sent : forall sc n nak pkt last st r st', retry_loop (plm_pw sc) n nak pkt last st = (r, st') ->
  exists k, (k <= n)%nat /\ (n <> O -> (1 <= k)%nat) /\
    p_sent st' = p_sent st ++ repeat (0x02 :: p_cmd pkt :: p_payload pkt) k.
Proof.
  intros sc n nak pkt. induction n as [|n IH]; intros last st r st' H; cbn [retry_loop] in H.
  - pair_inv H. exists O. cbn. rewrite app_nil_r. split; [lia|]. split; [lia|reflexivity].
  - cbn [plm_pw pw_write] in H. destruct (plm_write_packet sc pkt st) as [o st1] eqn:E.
    pose proof (write_packet_sends_once _ _ _ _ _ E) as F.
    destruct o as [[ack err]| |].
    + destruct ((err_is err EPlmNak && nak) || err_is err EPlmReadTimeout).
      * destruct (IH _ _ _ _ H) as (k & Hk & _ & Hw). exists (S k). split; [lia|]. split; [lia|].
        rewrite Hw, F, <- app_assoc. reflexivity.
      * pair_inv H. exists 1%nat. split; [lia|]. split; [lia|]. exact F.
    + pair_inv H. exists 1%nat. split; [lia|]. split; [lia|]. exact F.
    + pair_inv H. exists 1%nat. split; [lia|]. split; [lia|]. exact F.
Qed.

(** ** The message loop on a queue that already holds the reply *)

Lemma quiet_receive : forall q st p rest, queue_of q st = p :: rest ->
  exists st1, receive quiet q st = (RPacket p, st1) /\ queue_of q st1 = rest.
Proof.
  intros q st p rest H. unfold receive, quiet. cbn [s_before s_wait s_late reader_turns fold_left wait_for].
  assert (Hq : queue_of q (log_wait (tick st)) = p :: rest) by (destruct q; exact H).
  rewrite Hq. eexists. split; [reflexivity|]. unfold reader_turns. cbn [fold_left]. apply queue_set_same.
Qed.

Lemma await_first_match : forall pre fuel dst st p m rest,
  p_msgq st = pre ++ p :: rest -> (length pre < fuel)%nat ->
  Forall (fun q => exists x, msg_unmarshal msg_zero (p_payload q) = (x, None) /\
     ~ (m_src x = dst /\ (fl_ack (m_flags x) = true \/ fl_nak (m_flags x) = true))) pre ->
  msg_unmarshal msg_zero (p_payload p) = (m, None) -> m_src m = dst ->
  fl_ack (m_flags m) = true \/ fl_nak (m_flags m) = true ->
  exists st', await_ack fuel quiet dst st = (Ret (Some m, if fl_nak (m_flags m) then Some EDevNak else None), st') /\ p_msgq st' = rest.
Proof.
  induction pre as [|q pre IH]; intros fuel dst st p m rest Hq Hf Hall Hm Hsrc Hk;
    (destruct fuel as [|fuel]; [cbn in Hf; lia|]); cbn [await_ack app] in *.
  - destruct (quiet_receive QMsg st p rest Hq) as (st1 & E & Hr). unfold plm_read. rewrite E, Hm.
    replace ((m_src m =? dst) && (fl_ack (m_flags m) || fl_nak (m_flags m))) with true.
    + exists st1. split; [reflexivity|exact Hr].
    + destruct Hk as [-> | ->]; rewrite ?orb_true_r, ?orb_true_l; lia.
  - destruct (quiet_receive QMsg st q (pre ++ p :: rest) Hq) as (st1 & E & Hr). unfold plm_read. rewrite E.
    inversion Hall as [|? ? Hd Hall']; subst. destruct Hd as (x & Hx & Hn). rewrite Hx.
    replace ((m_src x =? m_src m) && (fl_ack (m_flags x) || fl_nak (m_flags x))) with false.
    + apply (IH fuel (m_src m) st1 p m rest); auto. cbn [length] in Hf. lia.
    + symmetry. apply andb_false_iff. destruct (Z.eqb_spec (m_src x) (m_src m)) as [E1|E1]; [right|left; reflexivity].
      apply orb_false_iff. destruct (fl_ack (m_flags x)), (fl_nak (m_flags x)); auto; exfalso; apply Hn; auto.
Qed.

Lemma cfg_independent : forall c, is_byte c ->
  let flags x := (cfg_auto_linking x, cfg_monitor x, cfg_auto_led x, cfg_deadman x) in
  match flags c with (a, m, l, d) =>
    flags (cfg_set_auto_linking c) = (true, m, l, d) /\ flags (cfg_clear_auto_linking c) = (false, m, l, d) /\
    flags (cfg_set_monitor c) = (a, true, l, d) /\ flags (cfg_clear_monitor c) = (a, false, l, d) /\
    flags (cfg_set_auto_led c) = (a, m, true, d) /\ flags (cfg_clear_auto_led c) = (a, m, false, d) /\
    flags (cfg_set_deadman c) = (a, m, l, true) /\ flags (cfg_clear_deadman c) = (a, m, l, false)
  end.
Proof.
  intros c Hc. cbv zeta beta.
  pose (same := fun (x : Z) (a m l d : bool) =>
    eqb (cfg_auto_linking x) a && eqb (cfg_monitor x) m && eqb (cfg_auto_led x) l && eqb (cfg_deadman x) d).
  assert (S : forall x a m l d, same x a m l d = true -> (cfg_auto_linking x, cfg_monitor x, cfg_auto_led x, cfg_deadman x) = (a, m, l, d)).
  { intros x a m l d H. unfold same in H. rewrite !andb_true_iff, !eqb_true_iff in H.
    destruct H as [[[-> ->] ->] ->]. reflexivity. }
  pose proof (sweep1 (fun c =>
    let a := cfg_auto_linking c in let m := cfg_monitor c in let l := cfg_auto_led c in let d := cfg_deadman c in
    same (cfg_set_auto_linking c) true m l d && same (cfg_clear_auto_linking c) false m l d &&
    same (cfg_set_monitor c) a true l d && same (cfg_clear_monitor c) a false l d &&
    same (cfg_set_auto_led c) a m true d && same (cfg_clear_auto_led c) a m false d &&
    same (cfg_set_deadman c) a m l true && same (cfg_clear_deadman c) a m l false)
    ltac:(vm_compute; reflexivity) c Hc) as H. cbv beta zeta in H. rewrite !andb_true_iff in H.
  destruct H as [[[[[[[H1 H2] H3] H4] H5] H6] H7] H8].
  repeat split; apply S; assumption.
Qed.

Lemma set_config_bytes : forall sc c st e st', is_byte c -> 0 <= p_retries st -> plm_set_config sc c st = (Ret e, st') ->
  exists k, 1 <= Z.of_nat k <= p_retries st + 1 /\ p_sent st' = p_sent st ++ repeat [0x02; 0x6b; c / 16 * 16] k.
Proof.
  intros sc c st e st' Hc Hr H. unfold plm_set_config in H.
  destruct (pw_write (retry (plm_pw sc) (p_retries st) true) (mkPkt pc_SetConfig (cfg_marshal c) 0) st) as [[[a e1]| |] st1] eqn:E; try discriminate.
  injection H as <- <-. unfold retry in E. cbn [pw_write] in E.
  destruct (retry_sent _ _ _ _ _ _ _ _ E) as (k & H1 & H2 & H3). cbn [p_cmd p_payload] in H3.
  exists k. split; [lia|]. rewrite H3. unfold cfg_marshal, pc_SetConfig. do 4 f_equal. f_equal.
  pose proof (sweep1 (fun c => Z.land c 0xf0 =? c / 16 * 16) ltac:(vm_compute; reflexivity) c Hc) as Hs. cbv beta in Hs. lia.
Qed.

Lemma address_correct : forall (P : packet -> Prop) sc st a st', sched_all P sc -> queues_all P st -> 0 <= p_retries st ->
  p_addr st = 0 -> plm_address sc st = (Ret a, st') -> a <> 0 ->
  exists p a2 a1 a0 c0 c1 fw rest, P p /\ p_cmd p = 0x60 /\ p_ack p = 0x06 /\
    p_payload p = [a2; a1; a0; c0; c1; fw] ++ rest /\ a = a2 * 65536 + a1 * 256 + a0.
Proof.
  intros P sc st a st' Hs Hq Hr Ha H Hne. unfold plm_address in H. rewrite Ha in H. cbn [Z.eqb] in H.
  destruct (plm_info sc st) as [o st1] eqn:E.
  assert (Ht : p_addr st1 = p_addr st).
  { unfold plm_info in E.
    destruct (pw_write (retry (plm_pw sc) (p_retries st) true) (mkPkt pc_GetInfo [] 0) st) as [o1 s1] eqn:E1.
    assert (s1 = st1) by (destruct o1 as [[[x|] [y|]]| |]; congruence). subst s1.
    apply (retry_keeps_addr _ _ _ _ _ _ _ E1). }
  destruct o as [[[i|] [e|]]| |]; try discriminate; injection H as <- <-; try congruence.
  destruct (info_correct P sc st (Some i) st1 Hs Hq Hr E) as (p & a2 & a1 & a0 & c0 & c1 & fw & rest & H1 & H2 & H3 & H4 & H5).
  injection H5 as ->. exists p, a2, a1, a0, c0, c1, fw, rest. auto.
Qed.
