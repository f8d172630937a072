(** From requests to the bytes on the serial line. *)
From Coq Require Import ZArith List Bool Lia ZifyBool ZifyNat.
From Verif Require Import GoBase GoProg Address AddressProofs Command Message MessageSpec MessageProofs MsgWriter BasicDevice DeviceSpec DeviceProofs DevReqSpec
  PlmPacket Plm PlmSpec PlmProofs Query Database DatabaseProofs Link LineSpec MovesProofs IcDev IcDevSpec IcLine.
Import ListNotations.
Open Scope Z_scope.
Ltac Zify.zify_post_hook ::= Z.div_mod_to_equations.

Lemma addr3_bytes : forall a, 0 <= a < 16777216 -> exists a2 a1 a0, addr_bytes a = [a2; a1; a0] /\ addr3 a a2 a1 a0.
Proof.
  intros a Ha. exists (byte_of (a / 65536)), (byte_of (a / 256)), (byte_of a). split; [reflexivity|].
  unfold addr3, byte_of, is_byte. repeat split; lia.
Qed.
(** The frame the modem is given for a message. *)
Definition frame_of (m : message) : list Z := 0x02 :: 0x62 :: skipn 3 (msg_marshal m).
Lemma frame_of_eq : forall m, frame_of m = [0x02; 0x62] ++ addr_bytes (m_dst m) ++
  [m_flags m; (m_cmd m / 256) mod 256; m_cmd m mod 256] ++ (if fl_extended (m_flags m) then go_copy (zeros 14) (m_payload m) else []).
Proof.
  intro m. unfold frame_of, msg_marshal. unfold addr_bytes at 1. cbn [app skipn].
  rewrite command1_div, command2_mod. unfold byte_of. rewrite !Z.mod_mod by lia. reflexivity.
Qed.
Lemma go_copy_length : forall n l, List.length (go_copy (zeros n) l) = n.
Proof.
  intros n l. destruct (Nat.leb_spec (List.length l) n).
  - rewrite go_copy_zeros by assumption. unfold padded. rewrite app_length, repeat_length. lia.
  - rewrite go_copy_zeros_full by lia. rewrite firstn_length. lia.
Qed.
Lemma go_copy_front : forall l, firstn 13 (go_copy (zeros 14) l) = firstn 13 (padded 14 l).
Proof.
  intro l. destruct (Nat.leb_spec (List.length l) 14).
  - rewrite go_copy_zeros by assumption. reflexivity.
  - rewrite go_copy_zeros_full by lia. unfold padded. replace (14 - List.length l)%nat with 0%nat by lia. cbn [repeat]. rewrite app_nil_r.
    rewrite firstn_firstn. reflexivity.
Qed.

Lemma direct_frame : forall a m, 0 <= a < 16777216 -> direct_to a m -> frame_to a (frame_of m).
Proof.
  intros a m Ha [<- Hf]. rewrite frame_of_eq. destruct (addr3_bytes _ Ha) as (a2 & a1 & a0 & -> & H3).
  exists a2, a1, a0, (fl_extended (m_flags m)), (m_flags m mod 4), ((m_cmd m / 256) mod 256), (m_cmd m mod 256).
  exists (if fl_extended (m_flags m) then go_copy (zeros 14) (m_payload m) else []). split; [exact H3|].
  destruct Hf as [-> | [-> | ->]]; (split; [lia|]); (split; [|reflexivity]); try reflexivity.
  change (fl_extended 26) with true. cbn iota. apply go_copy_length.
Qed.

Lemma go_copy_padded : forall l, go_copy (zeros 14) l = firstn 14 (padded 14 l).
Proof.
  intro l. destruct (Nat.leb_spec (List.length l) 14).
  - rewrite go_copy_zeros by assumption. rewrite firstn_all2 by (unfold padded; rewrite app_length, repeat_length; lia). reflexivity.
  - rewrite go_copy_zeros_full by lia. unfold padded. replace (14 - List.length l)%nat with 0%nat by lia. cbn [repeat]. rewrite app_nil_r. reflexivity.
Qed.
Lemma nth_firstn_low : forall k n l (d : Z), (k < n)%nat -> nth k (firstn n l) d = nth k l d.
Proof. induction k as [|k IH]; intros [|n] [|x l] d H; cbn [firstn nth]; try lia; try reflexivity. apply IH. lia. Qed.
Lemma go_copy_last : forall l, nth 13 (go_copy (zeros 14) l) 0 = nth 13 l 0.
Proof.
  intro l. rewrite go_copy_padded, nth_firstn_low by lia. unfold padded. destruct (Nat.ltb_spec 13 (List.length l)).
  - apply app_nth1. assumption.
  - rewrite app_nth2 by assumption. rewrite (nth_overflow l) by assumption. apply nth_repeat.
Qed.
Lemma request_frame_of : forall i c1 c2 data m, 0 <= di_addr i < 16777216 -> is_request i c1 c2 data m -> request_frame i c1 c2 data (frame_of m).
Proof.
  intros i c1 c2 data m Ha (Hd & Hc1 & Hc2 & Hf & Hp & Hb & Hs & Hn2).
  assert (Hf' : flags_layout (m_flags m) KDirect (match data with [] => false | _ => true end) (match data with [] => 3 | _ => 2 end) (match data with [] => 3 | _ => 2 end))
    by (destruct data; exact Hf). clear Hf.
  pose proof (accessors_layout _ _ _ _ _ Hf') as (_ & _ & _ & He & _).
  pose proof (frame_of_eq m) as E. rewrite Hd, Hc1, Hc2, He in E. destruct (addr3_bytes _ Ha) as (a2 & a1 & a0 & E3 & H3).
  destruct Hf' as (_ & _ & Hf). exists a2, a1, a0, (if match data with [] => false | _ => true end then go_copy (zeros 14) (m_payload m) else []).
  split; [exact H3|]. split.
  - rewrite E, E3, Hf. cbn [kind_bits]. destruct data; reflexivity.
  - split; [intros ->; reflexivity|]. intro Hn. destruct data as [|b t]; [congruence|]. clear Hn. split; [apply go_copy_length|].
    split; [rewrite go_copy_front; exact Hb|]. split.
    + intro He2. destruct (Hs He2 ltac:(discriminate)) as [[_ Hsum] Hbyte]. unfold checked_part, msg_marshal in Hsum.
      unfold addr_bytes in Hsum. cbn [app skipn] in Hsum. rewrite He in Hsum. cbn [sum] in Hsum.
      rewrite command1_div, command2_mod, Hc1, Hc2 in Hsum. unfold byte_of in Hsum.
      replace (c1 mod 256) with c1 in Hsum by lia. replace (c2 mod 256) with c2 in Hsum by lia.
      split; [rewrite <- Hsum; f_equal; lia|]. rewrite go_copy_last. exact Hbyte.
    + intro He2. specialize (Hn2 He2). rewrite <- Hn2. cbn iota. apply go_copy_padded.
Qed.

(** ** What the modem writes *)
Lemma read_sent : forall sc st r st', plm_read sc st = (r, st') -> p_sent st' = p_sent st.
Proof.
  intros sc st r st' H. unfold plm_read in H. destruct (receive sc QMsg st) as [x st1] eqn:E. apply receive_fields in E. destruct E as (E & _).
  destruct x; [destruct (msg_unmarshal msg_zero (p_payload p))| |]; injection H as _ <-; exact E.
Qed.
Lemma await_sent : forall fuel sc dst st r st', await_ack fuel sc dst st = (r, st') -> p_sent st' = p_sent st.
Proof.
  induction fuel as [|k IH]; intros sc dst st r st' H; cbn [await_ack] in H; [injection H as _ <-; reflexivity|].
  destruct (plm_read sc st) as [x st1] eqn:E. apply read_sent in E. rewrite <- E.
  destruct x as [[[m|] [e|]]| |]; try (injection H as _ <-; reflexivity).
  destruct ((m_src m =? dst) && (fl_ack (m_flags m) || fl_nak (m_flags m))); [injection H as _ <-; reflexivity|exact (IH _ _ _ _ _ H)].
Qed.
Lemma write_sent : forall fuel sc m st r st', plm_write fuel sc m st = (r, st') ->
  exists k, Z.of_nat k <= Z.max 0 (p_retries st + 1) /\ (0 <= p_retries st -> 1 <= Z.of_nat k) /\ p_sent st' = p_sent st ++ repeat (frame_of m) k.
Proof.
  intros fuel sc m st r st' H. unfold plm_write in H. unfold retry in H. cbn [pw_write] in H.
  match type of H with context [retry_loop ?a ?b ?c ?d ?e ?f] => destruct (retry_loop a b c d e f) as [x st1] eqn:E end.
  apply retry_sent in E. destruct E as (k & E1 & E2 & E3). exists k. split; [lia|]. split; [lia|].
  change (0x02 :: p_cmd (mkPkt pc_SendInsteonMsg (skipn 3 (msg_marshal m)) 0) :: p_payload (mkPkt pc_SendInsteonMsg (skipn 3 (msg_marshal m)) 0)) with (frame_of m) in E3.
  rewrite <- E3. destruct x as [[a [e|]]| |]; try (injection H as _ <-; reflexivity). exact (await_sent _ _ _ _ _ _ H).
Qed.

Lemma line_preorder : forall a, preorder (line_only a).
Proof.
  intro a. split.
  - intro w. exists []. rewrite app_nil_r. split; [reflexivity|constructor].
  - intros x y z (f1 & E1 & F1) (f2 & E2 & F2). exists (f1 ++ f2). rewrite E2, E1, app_assoc. split; [reflexivity|]. apply Forall_app. split; assumption.
Qed.
Lemma plm_moves : forall fuel sc a, 0 <= a < 16777216 -> mw_moves (line_only a) a (plm_mw fuel sc).
Proof.
  intros fuel sc a Ha. split.
  - intros st r st' H. exists []. rewrite app_nil_r. split; [exact (read_sent _ _ _ _ H)|constructor].
  - intros m Hm st r st' H. destruct (write_sent _ _ _ _ _ _ H) as (k & _ & _ & E). exists (repeat (frame_of m) k). split; [exact E|].
    apply Forall_forall. intros f Hf. apply repeat_spec in Hf. subst f. apply direct_frame; assumption.
Qed.

(** ** Opening through the database *)
Definition line_only2 {S} (a : Z) (x y : S * plm) : Prop := line_only a (snd x) (snd y).
Lemma line2_preorder : forall S a, preorder (@line_only2 S a).
Proof. intros S a. destruct (line_preorder a) as [H1 H2]. split; unfold line_only2; [intro; apply H1|intros x y z; apply H2]. Qed.
Lemma lift_moves : forall S a (mw : mwriter plm), mw_moves (line_only a) a mw -> mw_moves (@line_only2 S a) a (lift_mw mw).
Proof.
  intros S a mw [Hr Hw]. split.
  - intros [s w] r w' H. cbn [lift_mw mw_read] in H. unfold psnd in H. cbn [snd fst] in H. destruct (mw_read mw w) as [o w1] eqn:E.
    injection H as _ <-. exact (Hr _ _ _ E).
  - intros m Hm [s w] r w' H. cbn [lift_mw mw_write] in H. unfold psnd in H. cbn [snd fst] in H. destruct (mw_write mw m w) as [o w1] eqn:E.
    injection H as _ <-. exact (Hw m Hm _ _ _ E).
Qed.

(** An opened device has the address asked for and talks to the modem directly, and opening it moved only the named device. *)
Lemma dev_open_addr : forall W fuel (mw : mwriter W) a w o i e w', dev_open fuel mw a w = (Ret (o, i, e), w') ->
  di_addr i = a /\ forall j, o = Some j -> di_addr j = a.
Proof.
  intros W fuel mw a w o i e w' H. unfold dev_open, pbind in H.
  destruct (get_engine_version mw a w) as [[[v [e1|]]| |] w1]; try discriminate.
  - injection H as <- <- _ _. split; [reflexivity|]. intros j Hj. destruct (error_eqb e1 EDevNotLinked); [injection Hj as <-; reflexivity|discriminate].
  - destruct (id_request fuel mw a w1) as [[[[fw dc] [e2|]]| |] w2]; try discriminate; injection H as <- <- _ _; (split; [reflexivity|]); intros j Hj.
    + destruct (error_eqb e2 EDevNotLinked); [injection Hj as <-; reflexivity|discriminate].
    + injection Hj as <-. reflexivity.
Qed.
Lemma put_own : forall db i db1, own_addresses db -> db_put db i = Ret db1 -> own_addresses db1.
Proof.
  intros db i db1 Ho H a j Hg. unfold db_put in H.
  destruct (dinfo_eqb (fst (db_get db (di_addr i))) i); [injection H as <-; exact (Ho _ _ Hg)|]. destruct (db_values db) as [m|] eqn:Ev; [|discriminate H].
  injection H as <-. unfold db_get, db_map in Hg. cbn [db_values] in Hg. rewrite mget_mset in Hg.
  destruct (Z.eqb_spec a (di_addr i)) as [->|Hn]; [injection Hg as <-; reflexivity|].
  apply Ho. unfold db_get, db_map. rewrite Ev. exact Hg.
Qed.
Lemma opener_line : forall fuel os sc filters a f db st r st', 0 <= a < 16777216 -> own_addresses db ->
  db_opener fuel os (plm_mw fuel sc) filters a ((f, db), st) = (r, st') ->
  line_only a st (snd st') /\ forall d e, r = Ret (Some d, e) -> di_addr (bd_info d) = a /\ bd_writer d = lift_mw (plm_mw fuel sc).
Proof.
  intros fuel os sc filters a f db st r st' Ha Hown H. unfold db_opener, filedb_open, pbind in H.
  destruct (memdb_open fuel db (plm_mw fuel sc) a [] st) as [o w1] eqn:E.
  assert (Hmain : line_only a st w1 /\ forall d db1 e, o = Ret (Some d, db1, e) -> di_addr (bd_info d) = a /\ bd_writer d = plm_mw fuel sc).
  { unfold memdb_open in E. destruct (db_get db a) as [i []] eqn:Eg.
    - injection E as <- <-. split; [apply line_preorder|]. intros d db1 e Hd. injection Hd as <- <- <-. cbn [bd_info bd_writer]. split; [exact (Hown _ _ Eg)|reflexivity].
    - unfold dev_open_filters, pbind in E. cbn [apply_filters fold_left] in E.
      pose proof (mv_dev_open plm (line_only a) fuel (plm_mw fuel sc) a (line_preorder a) (plm_moves fuel sc a Ha)) as Hmv.
      match type of E with context [dev_open ?x ?y ?z ?u] => destruct (dev_open x y z u) as [[[[dv inf] er]| |] w2] eqn:E2 end;
        try (injection E as <- <-; split; [exact (Hmv _ _ _ E2)|discriminate]).
      destruct (dev_open_addr _ _ _ _ _ _ _ _ _ E2) as [_ Hda].
      destruct er as [er|].
      + injection E as <- <-. split; [exact (Hmv _ _ _ E2)|]. intros d db1 e Hd. destruct dv as [j|]; [|discriminate Hd]. injection Hd as <- <- <-.
        split; [exact (Hda _ eq_refl)|reflexivity].
      + unfold pret, plift in E. destruct (db_put db inf) as [db1| |]; injection E as <- <-; (split; [exact (Hmv _ _ _ E2)|]); try discriminate.
        intros d db2 e Hd. destruct dv as [j|]; [|discriminate Hd]. injection Hd as <- <- <-. split; [exact (Hda _ eq_refl)|reflexivity]. }
  destruct Hmain as [H1 H2]. destruct o as [[[dv db1] er]| |]; try (injection H as <- <-; split; [exact H1|discriminate]).
  unfold pret in H. destruct (filedb_save os f db1 er) as [[f1 db2] e1]. injection H as <- <-. split; [exact H1|].
  intros d e Hd. destruct dv as [d0|]; [|discriminate Hd]. injection Hd as <- <-. destruct (H2 _ _ _ eq_refl) as [Hi Hw].
  unfold lift_bdev. cbn [bd_info bd_writer]. rewrite Hw. split; [exact Hi|reflexivity].
Qed.
Lemma ic_opener_line : forall fuel os sc filters link ask yes a f db st r st', 0 <= a < 16777216 -> own_addresses db -> ask = false \/ yes = pret false ->
  ic_open_dev (db_opener fuel os (plm_mw fuel sc) filters) link ask yes a ((f, db), st) = (r, st') ->
  line_only a st (snd st') /\ forall d e, r = Ret (Some d, e) -> di_addr (bd_info d) = a /\ bd_writer d = lift_mw (plm_mw fuel sc).
Proof.
  intros fuel os sc filters link ask yes a f db st r st' Ha Hown Hask H. unfold ic_open_dev, pbind in H.
  destruct (db_opener fuel os (plm_mw fuel sc) filters a ((f, db), st)) as [o w1] eqn:E.
  destruct (opener_line _ _ _ _ _ _ _ _ _ _ Ha Hown E) as [H1 H2].
  assert (Hx : forall x, o = Ret x -> r = Ret x \/ r = Ret (fst x, Some EDevNotLinked) -> snd x = snd x -> st' = w1 ->
    line_only a st (snd st') /\ forall d e, r = Ret (Some d, e) -> di_addr (bd_info d) = a /\ bd_writer d = lift_mw (plm_mw fuel sc)).
  { intros [dv er] Ho Hr _ ->. split; [exact H1|]. intros d e Hd. destruct Hr as [Hr|Hr]; rewrite Hr in Hd; injection Hd as Hd1 _; cbn [fst] in Hd1; subst dv; exact (H2 _ _ Ho). }
  destruct o as [[dv [er|]]| |]; try (injection H as <- <-; split; [exact H1|discriminate]).
  - assert (Hr : r = Ret (dv, Some er) /\ st' = w1).
    { unfold pret in H. destruct er; try (apply pair_equal_spec in H; destruct H as [<- <-]; auto; fail).
      destruct Hask as [-> | ->]; [|destruct ask]; apply pair_equal_spec in H; destruct H as [<- <-]; auto. }
    destruct Hr as [-> ->]. apply (Hx _ eq_refl); auto.
  - injection H as <- <-. apply (Hx _ eq_refl); auto.
Qed.

(** A command over an opened device. *)
Lemma then_line : forall W (R : W -> W -> Prop) (open : prog W (option (bdev W) * option error)) accept refusal sub w r w', preorder R ->
  (forall o w1, open w = (o, w1) -> R w w1 /\ forall d e, o = Ret (Some d, e) -> moves R (sub d)) ->
  ic_then (ic_init open accept refusal) sub w = (r, w') -> R w w'.
Proof.
  intros W R open accept refusal sub w r w' HR Hopen H. unfold ic_then, ic_init, pbind in H.
  destruct (open w) as [o w1] eqn:E. destruct (Hopen _ _ eq_refl) as [H1 H2].
  destruct o as [[dv [er|]]| |]; try (injection H as _ <-; exact H1). destruct dv as [d|]; [|injection H as _ <-; exact H1].
  destruct (accept (dev_lookup (bd_info d))); [|injection H as _ <-; exact H1]. unfold pret in H.
  eapply (proj2 HR); [exact H1|exact (H2 _ _ eq_refl _ _ _ H)].
Qed.

(** One request over the modem: the frame, one to retries+1 times, and success only with an acknowledgement from the device. *)
Lemma byte_layout : forall f, is_byte f -> exists k e l m, flags_layout f k e l m.
Proof.
  intros f Hf. unfold flags_layout, is_byte in *.
  assert (Hk : exists k, kind_bits k = f / 32).
  { assert (Hc : f / 32 = 0 \/ f / 32 = 1 \/ f / 32 = 2 \/ f / 32 = 3 \/ f / 32 = 4 \/ f / 32 = 5 \/ f / 32 = 6 \/ f / 32 = 7) by lia.
    destruct Hc as [-> |[-> |[-> |[-> |[-> |[-> |[-> | ->]]]]]]];
      [exists KDirect|exists KDirectAck|exists KCleanup|exists KCleanupAck|exists KBroadcast|exists KDirectNak|exists KAllLink|exists KCleanupNak]; reflexivity. }
  destruct Hk as [k Hk]. exists k, ((f / 16) mod 2 =? 1), ((f / 4) mod 4), (f mod 4). rewrite Hk.
  destruct (Z.eqb_spec ((f / 16) mod 2) 1); lia.
Qed.
Lemma ack_packet : forall p m a, bytes_ok (p_payload p) -> msg_unmarshal msg_zero (p_payload p) = (m, None) -> m_src m = a -> fl_ack (m_flags m) = true -> ack_from a p.
Proof.
  intros p m a Hb H Hs Hf. unfold msg_unmarshal in H.
  destruct (p_payload p) as [|s2 [|s1 [|s0 [|d2 [|d1 [|d0 [|fl [|c1 [|c2 rest]]]]]]]]] eqn:Ep; try discriminate H.
  assert (Hm : m_src m = addr_put [s2; s1; s0] /\ m_flags m = fl).
  { cbv zeta in H. destruct (fl_extended fl); [destruct (zlen _ <? 23); [discriminate H|]|]; injection H as <-; split; reflexivity. }
  destruct Hm as [Hm1 Hm2]. rewrite Hm1, addr_put3 in Hs. rewrite Hm2 in Hf.
  assert (Hbs : Forall is_byte [s2; s1; s0; d2; d1; d0; fl]).
  { clear H. unfold bytes_ok in Hb. repeat (inversion Hb as [|? ? ? Hb']; subst; clear Hb; rename Hb' into Hb; constructor; [assumption|]). constructor. }
  assert (Hfb : is_byte fl) by (rewrite Forall_forall in Hbs; apply Hbs; cbn; auto 10).
  destruct (byte_layout fl Hfb) as (k & e & l & x & Hl). exists s2, s1, s0, d2, d1, d0, fl, c1, c2, rest, k, e, l, x.
  split; [exact Ep|]. rewrite Forall_forall in Hbs. split; [unfold addr3; repeat split; try (apply Hbs; cbn; auto 10; fail); try lia; apply Hbs; cbn; auto 10|].
  split; [exact Hl|]. pose proof (accessors_layout _ _ _ _ _ Hl) as HH. rewrite <- Hf. symmetry. apply HH.
Qed.
Lemma request_line : forall S fuel sc i (s : S) st c1 c2 data r w', 0 <= di_addr i < 16777216 -> 0 <= p_retries st ->
  only_request (mkBD i (lift_mw (plm_mw fuel sc))) (s, st) c1 c2 data r -> snd r = w' ->
  fst w' = s /\ (exists frame k, request_frame i c1 c2 data frame /\ 1 <= Z.of_nat k <= p_retries st + 1 /\ p_sent (snd w') = p_sent st ++ repeat frame k) /\
  (forall t, fst r = Ret (t, None) -> all_bytes sc st -> exists p, comes_in sc st p /\ ack_from (di_addr i) p).
Proof.
  intros S fuel sc i s st c1 c2 data r w' Ha Hr (m & Hm & ->) <-. cbn [bd_info bd_writer lift_mw mw_write] in *. unfold psnd. cbn [fst snd].
  destruct (mw_write (plm_mw fuel sc) m st) as [o st1] eqn:E. cbn [plm_mw mw_write] in E.
  destruct (write_sent _ _ _ _ _ _ E) as (k & K1 & K2 & K3). specialize (K2 Hr). pose proof (request_frame_of _ _ _ _ _ Ha Hm) as Hf.
  assert (Hmain : exists frame k, request_frame i c1 c2 data frame /\ 1 <= Z.of_nat k <= p_retries st + 1 /\ p_sent st1 = p_sent st ++ repeat frame k).
  { exists (frame_of m), k. split; [exact Hf|]. split; [lia|exact K3]. }
  destruct o as [[[x|] [e|]]| |]; cbn [settled quietly fst snd]; (split; [reflexivity|]); (split; [exact Hmain|]); intros t Ht Hb; try discriminate Ht.
  assert (Hq : queues_all (comes_in sc st) st) by (split; apply Forall_forall; intros p Hp; unfold comes_in; auto).
  assert (Hs : sched_all (comes_in sc st) sc) by (intros u p Hp; right; right; exists u; exact Hp).
  destruct (plm_write_result _ _ _ _ _ _ _ _ Hs Hq Hr E (or_introl eq_refl)) as (p & Hp & Hu & Hsrc & Hack & _).
  exists p. split; [exact Hp|]. apply (ack_packet p x); auto; [rewrite Hsrc; apply Hm|apply Hack; reflexivity].
Qed.

(** The device as it is when it is in the database. *)
Lemma known_opens : forall fuel os sc filters link ask yes a f db st i, db_get db a = (i, true) -> db_dirty db = false ->
  opens (ic_open_dev (db_opener fuel os (plm_mw fuel sc) filters) link ask yes) a ((f, db), st) (mkBD i (lift_mw (plm_mw fuel sc))) ((f, db), st).
Proof.
  intros fuel os sc filters link ask yes a f db st i Hg Hd. unfold opens, ic_open_dev, db_opener, filedb_open, memdb_open, pbind. rewrite Hg. unfold pret.
  unfold filedb_save, save_db, db_needs_saving. rewrite Hd. reflexivity.
Qed.

(** An idle modem whose frame is taken, echoed and answered. *)
Lemma receive_one : forall sc q p sent waits time tmo retries addr, sc time = mkStep [] [EvPacket p] false None -> goes_to q p = true ->
  receive sc q (mkPlm [] [] false sent waits time tmo retries addr) = (RPacket p, mkPlm [] [] false sent (waits ++ [tmo]) (S time) tmo retries addr).
Proof.
  intros sc q p sent waits time tmo retries addr Hs Hq. unfold receive. cbn [p_time]. rewrite Hs. cbn [s_before s_late s_wait reader_turns fold_left].
  unfold tick, log_wait. cbn [p_msgq p_pktq p_closed p_sent p_waits p_time p_timeout p_retries p_addr].
  assert (Hm : is_msg_packet p = network_message p) by reflexivity.
  destruct q; cbn [goes_to] in Hq; cbn [wait_for queue_of p_msgq p_pktq p_closed]; unfold reader_turn; cbn [p_closed]; rewrite Hm.
  - rewrite Hq. reflexivity.
  - apply negb_true_iff in Hq. rewrite Hq. reflexivity.
Qed.
Lemma write_answered : forall fuel sc m st echo reply x e, (1 <= fuel)%nat -> 0 <= p_retries st -> p_msgq st = [] -> p_pktq st = [] -> p_closed st = false ->
  sc (p_time st) = mkStep [] [] false None -> sc (S (p_time st)) = mkStep [] [EvPacket echo] false None ->
  sc (S (S (p_time st))) = mkStep [] [EvPacket reply] false None ->
  good_ack (mkPkt 0x62 (skipn 3 (msg_marshal m)) 0) echo -> network_message reply = true ->
  msg_unmarshal msg_zero (p_payload reply) = (x, None) -> m_src x = m_dst m -> fl_ack (m_flags x) = e -> fl_nak (m_flags x) = negb e ->
  exists st', plm_write fuel sc m st = (Ret (Some x, if e then None else Some EDevNak), st') /\ p_sent st' = p_sent st ++ [frame_of m].
Proof.
  intros fuel sc m st echo reply x e Hfu Hr Hq1 Hq2 Hc S0 S1 S2 Hecho Hnet Hu Hsrc Hack Hnak.
  destruct fuel as [|fuel]; [lia|]. destruct st as [q1 q2 cl sent waits time tmo retries addr]. cbn [p_msgq p_pktq p_closed p_time p_retries p_sent] in *. subst q1 q2 cl.
  assert (Hcmd : goes_to QPkt echo = true).
  { destruct Hecho as (_ & _ & (H2 & _)). cbn [p_cmd] in H2. unfold goes_to, network_message. rewrite H2. reflexivity. }
  unfold plm_write. cbn [p_retries]. unfold retry. cbn [pw_write]. replace (Z.to_nat (retries + 1)) with (S (Z.to_nat retries)) by lia. cbn [retry_loop].
  cbn [plm_pw pw_write].
  assert (Hw : plm_write_packet sc (mkPkt pc_SendInsteonMsg (skipn 3 (msg_marshal m)) 0) (mkPlm [] [] false sent waits time tmo retries addr) =
    (Ret (Some echo, None), mkPlm [] [] false (sent ++ [frame_of m]) (waits ++ [tmo]) (S (S time)) tmo retries addr)).
  { eapply write_packet_accepts; [| |exact Hecho].
    - unfold port_write. cbn [p_time]. rewrite S0. cbn [s_werr s_before reader_turns fold_left]. reflexivity.
    - unfold tick, log_sent. cbn [p_msgq p_pktq p_closed p_sent p_waits p_time p_timeout p_retries p_addr]. apply (receive_one sc QPkt echo); assumption. }
  rewrite Hw. cbn [err_is andb orb]. cbn [await_ack]. unfold plm_read.
  rewrite (receive_one sc QMsg reply) by assumption. rewrite Hu. rewrite Hsrc, Z.eqb_refl, Hack, Hnak.
  destruct e; cbn [orb andb negb]; eexists; split; reflexivity.
Qed.
