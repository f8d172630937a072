(** Properties C24, C25 and C43: writing to one device, and asking it what it is. *)
From Coq Require Import ZArith List Bool Lia ZifyBool ZifyNat.
From Verif Require Import GoBase GoLemmas GoProg Command Message MessageSpec MessageProofs PlmPacket Plm PlmSpec PlmProofs MsgWriter FiltersSpec FiltersProofs BasicDevice Query DeviceSpec DeviceProofs Props_Filters Props_Plm.
Import ListNotations.
Open Scope Z_scope.
Ltac Zify.zify_post_hook ::= Z.div_mod_to_equations.

(** * C24.  Every payload of 1 to 13 bytes, and every one of 14 bytes that leaves the last one free (zero), goes out with a valid
    checksum, over every transport. *)
Theorem C24_checksum_partial : forall W (mw : mwriter W) info m w,
  di_engine info = 2 -> (0 < length (m_payload m) < 14)%nat \/ (length (m_payload m) = 14%nat /\ nth 13 (m_payload m) 0 = 0) ->
  exists m', mw_write (bd_mw info mw) m w = mw_write mw m' w /\ checksum_valid m' /\ m_cmd m' = m_cmd m /\
    firstn 13 (m_payload m') = firstn 13 (padded 14 (m_payload m)).
Proof.
  intros W mw info m w He Hl. exists (outgoing info m). split; [reflexivity|].
  assert (Hl' : (0 < length (m_payload m) <= 14)%nat) by lia.
  destruct (outgoing_sum info m He Hl') as [H1 H2].
  assert (H0 : nth 13 (padded 14 (m_payload m)) 0 = 0).
  { destruct Hl as [Hl|[Hl Hz]]; [|rewrite padded_full by exact Hl; exact Hz].
    rewrite (padded_snoc 13) by lia. rewrite app_nth2 by (rewrite padded_length by lia; lia). rewrite padded_length by lia. reflexivity. }
  rewrite H0 in H2. split; [split; [exact H1|exact H2]|].
  destruct (outgoing_checksummed info m He Hl') as (body & x & E & Eb & Ho). rewrite Ho. cbn [m_cmd m_payload]. split; [reflexivity|].
  rewrite E. rewrite !firstn_app, Eb. cbn [Nat.sub firstn]. reflexivity.
Qed.
(** Exactly which payloads up to 14 bytes go out with a valid checksum: those whose 14th byte is zero or missing. *)
Theorem C24_valid_exactly : forall info m, di_engine info = 2 -> (0 < length (m_payload m) <= 14)%nat -> bytes_ok (m_payload m) ->
  (checksum_valid (outgoing info m) <-> nth 13 (m_payload m) 0 = 0).
Proof.
  intros info m He Hl Hb. destruct (outgoing_sum info m He Hl) as [H1 H2].
  assert (Hn : nth 13 (padded 14 (m_payload m)) 0 = nth 13 (m_payload m) 0).
  { unfold padded. destruct (Nat.eq_dec (length (m_payload m)) 14) as [E|E].
    - rewrite E. cbn [Nat.sub repeat]. rewrite app_nil_r. reflexivity.
    - rewrite app_nth2 by lia. rewrite nth_repeat. rewrite nth_overflow by lia. reflexivity. }
  rewrite Hn in H2.
  assert (Hx : is_byte (nth 13 (m_payload m) 0)).
  { destruct (nth_in_or_default 13 (m_payload m) 0) as [H|H]; [|rewrite H; unfold is_byte; lia].
    unfold bytes_ok in Hb. rewrite Forall_forall in Hb. apply Hb. exact H. }
  unfold is_byte in Hx. set (x := nth 13 (m_payload m) 0) in *. split.
  - intros [_ H]. rewrite H in H2. lia.
  - intro H. split; [exact H1|]. rewrite H2, H. reflexivity.
Qed.
Example C24_valid_exactly_case : let info := mkDI 0x010203 1 1 1 2 in
  checksum_valid (outgoing info (mkMsg 0 0 0 0x012e00 [1;2;3;4;5;6;7;8;9;10;11;12;13;0])) /\ ~ checksum_valid (outgoing info (mkMsg 0 0 0 0x012e00 [1;2;3;4;5;6;7;8;9;10;11;12;13;14])).
Proof. cbv zeta. split; [split; vm_compute; reflexivity|]. intros [_ H]. vm_compute in H. discriminate H. Qed.
(** The full claim fails for a payload with a nonzero 14th byte ... *)
Theorem C24_full_payload_refuted : exists info m, di_engine info = 2 /\ length (m_payload m) = 14%nat /\ bytes_ok (m_payload m) /\
  ~ checksum_valid (outgoing info m).
Proof.
  exists (mkDI 0x010203 1 1 1 2), (mkMsg 0 0 0 0x012e00 [0;1;2;3;4;5;6;7;8;9;10;11;12;13]).
  split; [reflexivity|]. split; [reflexivity|]. split; [repeat constructor; vm_compute; intuition congruence|].
  intros [_ H]. vm_compute in H. discriminate H.
Qed.
(** ... in particular when the same message is written a second time, because the first write left its checksum in it. *)
Theorem C24_second_write_refuted : exists info m, checksum_valid (outgoing info m) /\ ~ checksum_valid (outgoing info (outgoing info m)).
Proof.
  exists (mkDI 0x010203 1 1 1 2), (mkMsg 0 0 0 0x012e00 [1;2]). split; [split; reflexivity|]. intros [_ H]. vm_compute in H. discriminate H.
Qed.
(** Messages without payload are not extended and carry no checksum. *)
Theorem C24_no_payload : forall info m, m_payload m = [] -> length (checked_part (outgoing info m)) = 2%nat.
Proof.
  intros info m H. unfold outgoing, with_checksum. rewrite H. cbn [m_payload]. change (0 <? zlen []) with false. cbn iota.
  destruct (di_engine info =? ver_I2Cs); reflexivity.
Qed.
Example C24_ex : checked_part (outgoing (mkDI 0x010203 1 1 1 2) (mkMsg 0 0 0 0x012f00 [0;2;15;255;8;226;1;17;34;51;0;0;0])) =
  [0x2f; 0; 0;2;15;255;8;226;1;17;34;51;0;0;0; 0x70].
Proof. reflexivity. Qed.
Print Assumptions C24_checksum_partial.
Print Assumptions C24_valid_exactly.
Print Assumptions C24_full_payload_refuted.
Print Assumptions C24_second_write_refuted.
Print Assumptions C24_no_payload.

(** * C25.  Whatever the caller's message says, it goes to the device's address as a direct message, extended exactly when it carries a
    payload, with the caller's command and (but for the checksum) the caller's data. *)
Theorem C25_addressed : forall W (mw : mwriter W) info m w,
  exists m' hops, mw_write (bd_mw info mw) m w = mw_write mw m' w /\ m_dst m' = di_addr info /\ m_cmd m' = m_cmd m /\ m_src m' = m_src m /\
    flags_layout (m_flags m') KDirect (match m_payload m with [] => false | _ => true end) hops hops /\ 2 <= hops /\
    (di_engine info <> 2 -> m_payload m' = m_payload m) /\
    ((length (m_payload m) <= 13)%nat -> firstn (length (m_payload m)) (m_payload m') = m_payload m) /\
    (m_payload m = [] -> m_payload m' = []).
Proof.
  intros W mw info m w. exists (outgoing info m).
  exists (match m_payload m with [] => 3 | _ => 2 end). split; [reflexivity|].
  unfold outgoing. destruct (m_payload m) as [|b p] eqn:Ep.
  - change (0 <? zlen []) with false. cbn iota. unfold with_checksum. cbn [m_payload]. change (0 <? zlen []) with false. cbn iota.
    destruct (di_engine info =? ver_I2Cs); cbn [m_dst m_cmd m_src m_flags m_payload length firstn];
      (repeat split; vm_compute; congruence).
  - assert (Hz : 0 <? zlen (b :: p) = true) by (rewrite zlen_cons; pose proof (zlen_nonneg _ p); lia). rewrite Hz.
    destruct (di_engine info =? ver_I2Cs) eqn:Ee.
    + unfold with_checksum. cbn [m_payload m_src m_dst m_flags m_cmd]. rewrite Hz. cbn [m_payload m_src m_dst m_flags m_cmd].
      split; [reflexivity|]. split; [reflexivity|]. split; [reflexivity|]. split; [repeat split; vm_compute; congruence|].
      split; [lia|]. split; [unfold ver_I2Cs in Ee; lia|]. split; [|discriminate].
      intro Hl. replace (zlen (b :: p) <? 14) with true by (unfold zlen; lia).
      rewrite go_copy_zeros by lia. rewrite (padded_snoc 13) by lia. rewrite set_checksum_snoc.
      rewrite firstn_app. rewrite (padded_length 13) by lia. replace (length (b :: p) - 13)%nat with O by lia. cbn [firstn].
      rewrite app_nil_r. change (firstn (length (b :: p)) (padded 13 (b :: p)) = b :: p). apply firstn_padded. exact Hl.
    + cbn [m_payload m_src m_dst m_flags m_cmd].
      split; [reflexivity|]. split; [reflexivity|]. split; [reflexivity|]. split; [repeat split; vm_compute; congruence|].
      split; [lia|]. split; [reflexivity|]. split; [|discriminate]. intros _. apply firstn_all.
Qed.
(** Reads through the handle are reads of the transport. *)
Theorem C25_reads : forall W (mw : mwriter W) info, mw_read (bd_mw info mw) = mw_read mw.
Proof. reflexivity. Qed.
(** Sending a command is exactly one write, and the returned command is that of the acknowledgement. *)
Theorem C25_returned_command : forall W (mw : mwriter W) info cmd payload w c e w' log,
  bd_send info (mlogged mw) cmd payload (w, []) = (Ret (c, e), (w', log)) ->
  exists m' a, log = [MW m' (Ret (a, e))] /\ m_dst m' = di_addr info /\ m_cmd m' = cmd /\
    (fl_extended (m_flags m') = true <-> payload <> []) /\ (e = None -> exists x, a = Some x /\ c = m_cmd x).
Proof.
  intros W mw info cmd payload w c e w' log H. unfold bd_send, bd_write, pbind in H.
  destruct (C25_addressed W mw info (mkMsg 0 0 0 cmd payload) w) as (m1 & hops & Hw & Hd & Hc & _ & Hf & Hh & _).
  rewrite mlogged_write in H. destruct (mw_write mw (outgoing info (mkMsg 0 0 0 cmd payload)) w) as [r w1] eqn:Ew.
  assert (Hx : m_dst (outgoing info (mkMsg 0 0 0 cmd payload)) = di_addr info /\ m_cmd (outgoing info (mkMsg 0 0 0 cmd payload)) = cmd /\
    (fl_extended (m_flags (outgoing info (mkMsg 0 0 0 cmd payload))) = true <-> payload <> [])).
  { clear. unfold outgoing, with_checksum. cbn [m_payload m_cmd m_src]. destruct payload as [|b p].
    - change (0 <? zlen []) with false. cbn iota. destruct (di_engine info =? ver_I2Cs); repeat split; try (vm_compute; congruence); intro; congruence.
    - assert (Hz : 0 <? zlen (b :: p) = true) by (rewrite zlen_cons; pose proof (zlen_nonneg _ p); lia). cbn [m_payload]. rewrite Hz.
      destruct (di_engine info =? ver_I2Cs); cbn [m_payload m_dst m_cmd m_flags]; repeat split; intros; congruence. }
  exists (outgoing info (mkMsg 0 0 0 cmd payload)).
  destruct r as [[a [e1|]]| |]; try discriminate.
  - apply pair_equal_spec in H. destruct H as [H1 H2]. injection H1 as <- <-. apply pair_equal_spec in H2. destruct H2 as [<- <-].
    exists a. cbn [app]. split; [reflexivity|]. destruct Hx as (X1 & X2 & X3). repeat split; auto; try apply X3; discriminate.
  - destruct a as [x|]; [|discriminate]. apply pair_equal_spec in H. destruct H as [H1 H2]. injection H1 as <- <-.
    apply pair_equal_spec in H2. destruct H2 as [<- <-]. exists (Some x). cbn [app]. split; [reflexivity|].
    destruct Hx as (X1 & X2 & X3). repeat split; auto; try apply X3. intros _. exists x. auto.
Qed.
(** It crashes only if the transport does, or reports success without an acknowledgement. *)
Theorem C25_crash_only_without_ack : forall W (mw : mwriter W) info cmd payload w w',
  bd_send info mw cmd payload w = (Panic, w') -> exists m', mw_write mw m' w = (Panic, w') \/ mw_write mw m' w = (Ret (None, None), w').
Proof.
  intros W mw info cmd payload w w' H. unfold bd_send, bd_write, pbind in H. exists (outgoing info (mkMsg 0 0 0 cmd payload)).
  destruct (mw_write mw _ w) as [[[[a|] [e|]]| |] w1]; try discriminate; injection H as <-; auto.
Qed.
Example C25_crash_only_case : exists w', bd_send (mkDI 0x010203 1 1 1 1) script_mw 0x1142 [] [(None, None)] = (Panic, w').
Proof. eexists. vm_compute. reflexivity. Qed.
Theorem C25_modem_no_crash : forall fuel sc info cmd payload st, sched_all from_reader sc -> no_end sc -> port_never_naks sc -> sound st -> 0 <= p_retries st ->
  fst (bd_send info (plm_mw fuel sc) cmd payload st) <> Panic.
Proof.
  intros fuel sc info cmd payload st Hs Hn Hp Hst Hr. unfold bd_send, bd_write, pbind. cbn [plm_mw mw_write].
  destruct (plm_write fuel sc _ st) as [r st1] eqn:E.
  destruct (plm_write_sound _ _ _ _ _ _ Hs Hn Hp Hst Hr E) as (_ & H1 & H2 & H3).
  destruct r as [[[a|] [e|]]| |]; try congruence; discriminate.
Qed.
(** The modem acknowledges, the device answers. *)
Example C25_modem_no_crash_case : let sc := steps [mkStep [] [] false None; mkStep [] [EvPacket (ex_ack12 6)] false None;
    mkStep [] [EvPacket (mkPkt 0x50 [4;5;6;1;2;3;0x2f;0x11;0xff] 0)] false (Some (EIO 5))] in
  sched_all from_reader sc /\ no_end sc /\ port_never_naks sc /\ sound ex_plm /\ 0 <= p_retries ex_plm.
Proof.
  cbv zeta. split; [|split; [|split; [|split; [split; [split; constructor|reflexivity]|cbn; lia]]]].
  - intros [|[|[|t]]] p H; cbn in H; repeat match goal with H : _ \/ _ |- _ => destruct H as [H|H] end;
      try contradiction; try (destruct t; contradiction); injection H as <-.
    + apply ex_ack12_from_reader.
    + exists [4;5;6;1;2;3;0x2f;0x11;0xff]. split; [apply (PlmReaderSpec.rx_plain false 0x50 _ 11); [reflexivity|lia|reflexivity]|apply PlmReaderSpec.dec_unsolicited; cbn; lia].
  - intros [|[|[|t]]]; cbn; split; intro H; repeat match goal with H : _ \/ _ |- _ => destruct H as [H|H] end; try contradiction; try discriminate H; destruct t; contradiction.
  - intros [|[|[|[|t]]]]; cbn; discriminate.
Qed.
Example C25_ex : exists w' m', bd_send (mkDI 0x010203 1 1 1 1) (mlogged script_mw) 0x1142 [7] ([(Some (ex_m 5 9), None)], []) = (Ret (0x1109, None), (w', [MW m' (Ret (Some (ex_m 5 9), None))])) /\
  m' = mkMsg 0 0x010203 0x1a 0x1142 [7].
Proof. eexists _, _. split; vm_compute; reflexivity. Qed.
Print Assumptions C25_addressed.
Print Assumptions C25_reads.
Print Assumptions C25_returned_command.
Print Assumptions C25_crash_only_without_ack.
Print Assumptions C25_modem_no_crash.

(** * C43.  The engine version. *)
Definition asks (q : message) (dst c1 : Z) : Prop :=
  m_dst q = dst /\ (m_cmd q / 256) mod 256 = c1 /\ m_cmd q mod 256 = 0 /\ m_payload q = [] /\ exists l h, flags_layout (m_flags q) KDirect false l h.
Lemma asks_query : forall dst c1, is_byte c1 -> asks (mkMsg 0 dst fl_StandardDirectMessage (c1 * 256) []) dst c1.
Proof.
  intros dst c1 H. unfold asks, is_byte in *. cbn [m_dst m_cmd m_payload m_flags]. split; [reflexivity|]. split; [lia|]. split; [lia|].
  split; [reflexivity|]. exists 2, 2. repeat split; vm_compute; congruence.
Qed.
Theorem C43_engine_version : forall W (mw : mwriter W) dst w v e w' log,
  get_engine_version (mlogged mw) dst (w, []) = (Ret (v, e), (w', log)) ->
  exists q a err, log = [MW q (Ret (a, err))] /\ asks q dst 0x0d /\
    (e = None -> exists m, a = Some m /\ err = None /\ v = m_cmd m mod 256) /\
    (e = Some EDevNotLinked <-> err = Some EDevNotLinked \/ (err = Some EDevNak /\ exists m, a = Some m /\ m_cmd m mod 256 = 0xff)) /\
    (e = Some EDevNotLinked -> err = Some EDevNak -> v = 2) /\ (e = None <-> err = None).
Proof.
  intros W mw dst w v e w' log H. unfold get_engine_version, pbind in H. rewrite mlogged_write in H.
  set (q := mkMsg 0 dst fl_StandardDirectMessage c_GetEngineVersion []) in *. exists q.
  destruct (mw_write mw q w) as [r w1]. destruct r as [[a [e1|]]| |]; try discriminate.
  - exists a, (Some e1).
    assert (Hq : asks q dst 0x0d) by (apply (asks_query dst 0x0d); unfold is_byte; lia).
    destruct (error_eqb e1 EDevNak) eqn:Ee.
    + apply error_eqb_eq in Ee. subst e1. destruct a as [m|]; [|discriminate]. rewrite command2_mod in H.
      destruct (m_cmd m mod 256 =? 0xff) eqn:Ex; apply pair_equal_spec in H; destruct H as [H1 H2]; injection H1 as <- <-;
        apply pair_equal_spec in H2; destruct H2 as [<- <-]; (split; [reflexivity|]); (split; [exact Hq|]); (split; [discriminate|]).
      * split; [|split; [reflexivity|split; discriminate]]. split; [|reflexivity]. intros _. right. split; [reflexivity|]. exists m. split; [reflexivity|lia].
      * split; [|split; [discriminate|split; discriminate]]. split; [discriminate|]. intros [H|[_ (m' & H & H')]]; [discriminate|]. injection H as <-. lia.
    + apply pair_equal_spec in H. destruct H as [H1 H2]. injection H1 as <- <-. apply pair_equal_spec in H2. destruct H2 as [<- <-].
      split; [reflexivity|]. split; [exact Hq|]. split; [discriminate|]. apply error_eqb_neq in Ee.
      split; [|split; [congruence|split; discriminate]]. split; [intro H; left; exact H|]. intros [H|[H _]]; [exact H|congruence].
  - exists a, None. destruct a as [m|]; [|discriminate]. apply pair_equal_spec in H. destruct H as [H1 H2]. injection H1 as <- <-.
    apply pair_equal_spec in H2. destruct H2 as [<- <-]. split; [reflexivity|]. split; [apply (asks_query dst 0x0d); unfold is_byte; lia|].
    split; [intros _; exists m; split; [reflexivity|]; split; [reflexivity|apply command2_mod]|].
    split; [|split; [discriminate|split; auto]]. split; [discriminate|]. intros [H|[H _]]; discriminate.
Qed.
Example C43_engine_version_case : exists w' log, get_engine_version (mlogged script_mw) 0x111111 ([(Some (mkMsg 0x111111 0 0x2b 0x0d01 []), None)], []) = (Ret (1, None), (w', log)).
Proof. do 2 eexists. vm_compute. reflexivity. Qed.

(** Opening a device asks exactly these two questions and stops at the first announcement read; the information reported is what that
    announcement carries.  It is the queried device's as long as no announcement of another device arrives while waiting. *)
Theorem C43_open_partial : forall W (mw : mwriter W) fuel dst w dev info w' log,
  dev_open fuel (mlogged mw) dst (w, []) = (Ret (dev, info, None), (w', log)) ->
  exists q1 a1 q2 a2 pre ann,
    log = MW q1 (Ret (Some a1, None)) :: MW q2 (Ret (a2, None)) :: map (fun x => MR (Ret (Some x, None))) (pre ++ [ann]) /\
    asks q1 dst 0x0d /\ asks q2 dst 0x10 /\ Forall (fun x => ~ is_announcement x) pre /\ is_announcement ann /\
    dev = Some info /\ di_addr info = dst /\ di_engine info = m_cmd a1 mod 256 /\
    announces ann (di_dc0 info) (di_dc1 info) (di_fw info) /\
    ((forall x, In x (pre ++ [ann]) -> is_announcement x -> m_src x = dst) -> m_src ann = dst).
Proof.
  intros W mw fuel dst w dev info w' log H. unfold dev_open in H. unfold pbind at 1 in H.
  destruct (get_engine_version (mlogged mw) dst (w, [])) as [[[v [e|]]| |] [w1 log1]] eqn:Eg; try discriminate.
  destruct (C43_engine_version W mw dst w v None w1 log1 Eg) as (q1 & a & err & Hlog & Hq1 & Hv & _).
  destruct (Hv eq_refl) as (a1 & -> & -> & ->). clear Hv.
  unfold id_request, pbind in H. rewrite mlogged_write in H.
  set (q2 := mkMsg 0 dst fl_StandardDirectMessage c_IDRequest []) in *.
  destruct (mw_write mw q2 w1) as [[[a2 [e|]]| |] w2]; try discriminate.
  set (p := or_matcher _) in H. unfold pret, ppanic in H.
  match type of H with context [read_match ?a ?b ?c ?d] => destruct (read_match a b c d) as [[[ann [e|]]| |] [w3 log3]] eqn:Er end; try discriminate.
  destruct (read_match_log _ _ _ _ _ _ _ _ _ _ Er) as (pre & Hlog3 & Hpre & Hann).
  destruct (Hann eq_refl) as (ann' & -> & Hm). clear Hann. unfold pret in H. cbn [fst snd] in H. subst p.
  apply pair_equal_spec in H. destruct H as [H1 H2]. injection H1 as <- <-. apply pair_equal_spec in H2. destruct H2 as [<- <-].
  exists q1, a1, q2, a2, pre, ann'. rewrite Hlog3, Hlog. cbn [app].
  split; [rewrite map_app; reflexivity|]. split; [exact Hq1|]. split; [apply (asks_query dst 0x10); unfold is_byte; lia|].
  apply announcement_matcher in Hm.
  split; [eapply Forall_impl; [|exact Hpre]; intros x Hx Hy; apply announcement_matcher in Hy; cbv beta in Hx; congruence|].
  split; [exact Hm|]. split; [reflexivity|]. split; [reflexivity|]. split; [reflexivity|]. split; [apply announces_fields|].
  intro Hs. apply Hs; [apply in_or_app; right; left; reflexivity|exact Hm].
Qed.
(** The category and firmware of another device are reported when its set button is pressed at the wrong moment. *)
Theorem C43_foreign_announcement_refuted : exists dst foreign own w' info,
  is_announcement foreign /\ is_announcement own /\ m_src foreign <> dst /\ m_src own = dst /\
  dev_open 5 script_mw dst [(Some (mkMsg dst 0 0x2b 0x0d02 []), None); (Some (mkMsg dst 0 0x2b 0x1000 []), None); (Some foreign, None); (Some own, None)] = (Ret (Some info, info, None), w') /\
  announces foreign (di_dc0 info) (di_dc1 info) (di_fw info) /\ ~ announces own (di_dc0 info) (di_dc1 info) (di_fw info).
Proof.
  exists 0x111111, (mkMsg 0x222222 0x020a45 0x8b 0x080100 []), (mkMsg 0x111111 0x010b46 0x8b 0x080100 []). eexists _, _.
  split; [left; reflexivity|]. split; [left; reflexivity|]. split; [discriminate|]. split; [reflexivity|].
  split; [vm_compute; reflexivity|]. split; [repeat split; vm_compute; congruence|].
  intros (_ & _ & _ & H). vm_compute in H. discriminate H.
Qed.
(** A handle is returned exactly on success and for a device that is not linked; the address is always the queried one. *)
Theorem C43_handle : forall W (mw : mwriter W) fuel dst w dev info e w',
  dev_open fuel mw dst w = (Ret (dev, info, e), w') ->
  di_addr info = dst /\ (dev = Some info <-> e = None \/ e = Some EDevNotLinked) /\ (dev = None \/ dev = Some info).
Proof.
  intros W mw fuel dst w dev info e w' H. unfold dev_open in H. unfold pbind at 1 in H.
  destruct (get_engine_version mw dst w) as [[[v [e1|]]| |] w1]; try discriminate.
  - unfold pret in H. apply pair_equal_spec in H. destruct H as [H1 H2]. injection H1 as <- <- <-. split; [reflexivity|].
    destruct (error_eqb e1 EDevNotLinked) eqn:E; [apply error_eqb_eq in E; subst e1|apply error_eqb_neq in E].
    + split; [split; auto|auto].
    + split; [split; [discriminate|intros [H|H]; congruence]|auto].
  - unfold pbind in H. destruct (id_request fuel mw dst w1) as [[[[fw dc] [e1|]]| |] w2]; try discriminate.
    + unfold pret in H. apply pair_equal_spec in H. destruct H as [H1 H2]. injection H1 as <- <- <-. split; [reflexivity|].
      destruct (error_eqb e1 EDevNotLinked) eqn:E; [apply error_eqb_eq in E; subst e1|apply error_eqb_neq in E].
      * split; [split; auto|auto].
      * split; [split; [discriminate|intros [H|H]; congruence]|auto].
    + unfold pret in H. apply pair_equal_spec in H. destruct H as [H1 H2]. injection H1 as <- <- <-. split; [reflexivity|]. split; [split; auto|auto].
Qed.
Example C43_handle_case : exists w', dev_open 5 script_mw 0x111111 [(None, Some EDevReadTimeout)] = (Ret (None, mkDI 0x111111 0 0 0 0, Some EDevReadTimeout), w').
Proof. eexists. vm_compute. reflexivity. Qed.
(** Over an open modem (whose port does not make up NAK errors of its own) neither asking for the version nor sending a command
    ever crashes. *)
Theorem C43_modem_no_crash : forall fuel sc dst st, sched_all from_reader sc -> no_end sc -> port_never_naks sc -> sound st -> 0 <= p_retries st ->
  fst (get_engine_version (plm_mw fuel sc) dst st) <> Panic.
Proof.
  intros fuel sc dst st Hs Hn Hp Hst Hr. unfold get_engine_version, pbind. cbn [plm_mw mw_write].
  destruct (plm_write fuel sc _ st) as [r st1] eqn:E.
  destruct (plm_write_sound _ _ _ _ _ _ Hs Hn Hp Hst Hr E) as (_ & H1 & H2 & H3).
  destruct r as [[[a|] [e|]]| |]; try congruence; try discriminate.
  - destruct (error_eqb e EDevNak); [|discriminate]. destruct (command2 (m_cmd a) =? 0xff); discriminate.
  - destruct (error_eqb e EDevNak) eqn:Ee; [|discriminate]. apply error_eqb_eq in Ee. congruence.
Qed.
Example C43_ex : exists w', dev_open 5 script_mw 0x111111
  [(Some (mkMsg 0x111111 0 0x2b 0x0d02 []), None); (Some (mkMsg 0x111111 0 0x2b 0x1000 []), None); (Some (ex_m 3 3), None); (Some (mkMsg 0x111111 0x010b46 0x8b 0x080100 []), None)]
  = (Ret (Some (mkDI 0x111111 1 0x0b 0x46 2), mkDI 0x111111 1 0x0b 0x46 2, None), w').
Proof. eexists. vm_compute. reflexivity. Qed.
Example C43_ex_not_linked : exists w', dev_open 5 script_mw 0x111111 [(Some (mkMsg 0x111111 0 0xab 0x0dff []), Some EDevNak)]
  = (Ret (Some (mkDI 0x111111 0 0 0 2), mkDI 0x111111 0 0 0 2, Some EDevNotLinked), w').
Proof. eexists. vm_compute. reflexivity. Qed.
Print Assumptions C43_engine_version.
Print Assumptions C43_open_partial.
Print Assumptions C43_foreign_announcement_refuted.
Print Assumptions C43_handle.
Print Assumptions C43_modem_no_crash.
