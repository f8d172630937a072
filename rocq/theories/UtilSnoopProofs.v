(** Proofs about util.Snoop and the monitor command. *)
From Coq Require Import ZArith List Bool Lia ZifyBool ZifyNat.
From Verif Require Import GoBase GoLemmas GoProg Command Message MessageSpec MessageProofs CodecProofs MsgWriter Filters FiltersSpec FiltersProofs
  Link LinkSpec LinkProofs BasicDevice DevLinkdb DevLinkdbSpec DevLinkdbProofs Lights Plm PlmPacket PlmReader PlmReaderSpec PlmSpec PlmProofs UtilSnoop UtilSnoopSpec.
Import ListNotations.
Open Scope Z_scope.
Ltac Zify.zify_post_hook ::= Z.div_mod_to_equations.

(** ** One line *)
Lemma match_ack_spec : forall a p, well p -> match_ack a p = (m_dst p =? m_src a) && no_reply p.
Proof.
  intros a p ((_ & _ & Hf & _) & _). unfold match_ack, not_matcher, ack_matcher, dst_matcher. cbn [and_matcher].
  assert (E : fl_ack (m_flags p) || fl_nak (m_flags p) = negb (no_reply p)).
  { unfold no_reply.
    pose proof (sweep1 (fun f => eqb (fl_ack f || fl_nak f) (negb match (f / 32) mod 8 with 1 | 3 | 5 | 7 => false | _ => true end))
      ltac:(vm_compute; reflexivity) _ Hf) as H. cbv beta in H. apply eqb_prop in H. exact H. }
  rewrite E, negb_involutive. destruct (no_reply p), (m_dst p =? m_src a); reflexivity.
Qed.

Lemma lookup_acked : forall h c a, Forall well h -> cinv 10 h c ->
  exists r, cache_lookup (fun x => match_ack a (snd x)) c = Ret r /\ option_map snd r = acked h a.
Proof.
  intros h c a Hh Hc. destruct (cinv_lookup 10 h c (match_ack a) Hc) as (r & H1 & H2). exists r. split; [exact H1|].
  rewrite H2. unfold acked. apply find_ext_in. intros x Hx. apply match_ack_spec.
  apply in_rev, lastn_In in Hx. rewrite Forall_forall in Hh. apply Hh, Hx.
Qed.

Lemma three_bytes : forall x, 0 <= x < 2 ^ 24 ->
  is_byte (x / 65536) /\ is_byte ((x / 256) mod 256) /\ is_byte (x mod 256) /\
  x = x / 65536 * 65536 + (x / 256) mod 256 * 256 + x mod 256.
Proof. intros x H. change (2 ^ 24) with 16777216 in H. unfold is_byte. lia. Qed.

Lemma masked_command : forall c, 0 <= c < 2 ^ 24 -> Z.land c 0xffff00 = c / 65536 * 65536 + (c / 256) mod 256 * 256.
Proof. intros c H. rewrite land_ffff00. change (2 ^ 24) with 16777216 in H. lia. Qed.
Lemma report_command : forall d, is_byte d -> Z.lor 0x0c0000 (Z.shiftl d 8) = 12 * 65536 + d * 256.
Proof.
  intros d Hd. pose proof (sweep1 (fun d => Z.lor 0x0c0000 (Z.shiftl d 8) =? 12 * 65536 + d * 256) ltac:(vm_compute; reflexivity) d Hd) as H.
  cbv beta in H. lia.
Qed.

Lemma route_ok : forall m k ext l h, well m -> flags_layout (m_flags m) k ext l h -> route_shown k ext m (snoop_route m).
Proof.
  intros m k ext l h ((_ & Hd & _) & _) HL. destruct (accessors_layout _ _ _ _ _ HL) as (_ & _ & _ & He & _ & Ht & _).
  unfold snoop_route. rewrite Ht, He. unfold route_shown.
  destruct k; cbn [kind_bits]; try reflexivity.
  unfold mt_AllLinkBroadcast, mt_Broadcast. cbn [Z.mul Z.eqb Pos.mul Pos.eqb].
  destruct (three_bytes _ Hd) as (B2 & B1 & B0 & Ex). exists (m_dst m / 65536), ((m_dst m / 256) mod 256), (m_dst m mod 256).
  repeat apply conj; try (unfold is_byte in *; lia).
  rewrite !Z.shiftr_div_pow2 by lia. change (2 ^ 16) with 65536. change (2 ^ 8) with 256. unfold byte_of, is_byte in *. f_equal; lia.
Qed.

Lemma what_ok : forall h m k ext l x prev, well m -> flags_layout (m_flags m) k ext l x ->
  (is_ack_kind k = true -> prev = acked h m) -> what_shown h k m (snoop_what prev m).
Proof.
  intros h m k ext l x prev ((_ & Hd & _) & Hc) HL Hp. destruct (accessors_layout _ _ _ _ _ HL) as (_ & _ & _ & He & _ & Ht & Ha & _).
  destruct (three_bytes _ Hd) as (D2 & D1 & D0 & Ed). destruct (three_bytes _ Hc) as (C2 & C1 & C0 & Ec).
  exists (m_cmd m / 65536), ((m_cmd m / 256) mod 256), (m_cmd m mod 256), (m_dst m / 65536), ((m_dst m / 256) mod 256), (m_dst m mod 256).
  do 6 (split; [assumption|]). split; [exact Ec|]. split; [exact Ed|].
  unfold snoop_what. rewrite Ha, Ht.
  assert (E0 : byte_of (m_dst m) = m_dst m mod 256) by reflexivity.
  assert (E1 : byte_of (Z.shiftr (m_dst m) 8) = (m_dst m / 256) mod 256) by (rewrite Z.shiftr_div_pow2 by lia; reflexivity).
  assert (E2 : Z.lor 0x0c0000 (Z.shiftl (Z.shiftr (m_dst m) 16) 8) = 12 * 65536 + m_dst m / 65536 * 256).
  { rewrite Z.shiftr_div_pow2 by lia. apply report_command. exact D2. }
  destruct k; cbn [is_ack_kind kind_bits]; unfold mt_AllLinkBroadcast, mt_AllLinkCleanup; cbn [Z.mul Z.eqb Pos.mul Pos.eqb]; try reflexivity.
  - rewrite (Hp eq_refl), command1_arith, command2_arith. reflexivity.
  - rewrite (masked_command _ Hc), command2_arith. reflexivity.
  - rewrite (Hp eq_refl), command1_arith, command2_arith. reflexivity.
  - rewrite E0, E1, E2, (masked_command _ Hc), command2_arith. unfold cmd_matches. rewrite !command1_arith.
    change ((c_AllLinkSuccessReport / 256) mod 256) with 6. rewrite Z.eqb_sym. reflexivity.
Qed.

Lemma short_or_long : forall (b : list Z), zlen b <? 14 = negb (14 <=? length b)%nat.
Proof. intro b. unfold zlen. destruct (14 <=? length b)%nat eqn:E; cbn [negb]; lia. Qed.

Lemma link_payload_ok : forall b, bytes_ok b -> shown_or_raw b (link_readable b) (link_shown b) (sn_decoded b PyLink (lr_unmarshal linkreq_zero b)).
Proof.
  intros b Hb.
  assert (Hlow : (length b < 5)%nat -> ~ link_readable b).
  { intros Hl (x & t & rest & -> & [[_ H]|[_ H]]); cbn [length] in Hl; lia. }
  destruct b as [|x [|t [|hi [|lo [|n rest]]]]];
    try (right; split; [apply Hlow; cbn; lia|eexists; reflexivity]). clear Hlow.
  unfold bytes_ok in Hb. rewrite Forall_forall in Hb.
  assert (Hhi : is_byte hi) by (apply Hb; cbn; tauto). assert (Hlo : is_byte lo) by (apply Hb; cbn; tauto).
  assert (Hrest : bytes_ok rest) by (apply Forall_forall; intros y Hy; apply Hb; do 5 right; exact Hy).
  cbn [lr_unmarshal]. rewrite (unmarshal_mem hi lo Hhi Hlo).
  assert (Ehi : (hi * 256 + lo) / 256 = hi) by (unfold is_byte in *; lia).
  assert (Elo : (hi * 256 + lo) mod 256 = lo) by (unfold is_byte in *; lia).
  assert (Hrec : forall num l, link_unmarshal link_zero rest = (l, None) ->
    link_shown (x :: t :: hi :: lo :: n :: rest) (PyLink (mkLR t (hi * 256 + lo) num (Some l)))).
  { intros num l El. destruct (link_reencode link_zero rest l Hrest El) as [Hw Hm].
    exists (mkLR t (hi * 256 + lo) num (Some l)), x, n, rest. cbn [lr_type lr_mem lr_link app]. rewrite Ehi, Elo.
    split; [reflexivity|]. split; [reflexivity|]. right. exists l, (skipn 8 rest). split; [reflexivity|].
    rewrite <- (record_bytes_marshal l Hw), Hm, firstn_skipn. reflexivity. }
  pose proof (link_unmarshal_ok_iff link_zero rest) as Hr.
  destruct (t =? 0x00) eqn:E0.
  - left. split; [exists x, t, (hi :: lo :: n :: rest); split; [reflexivity|]; left; cbn [length]; lia|].
    cbn [lr_link linkreq_zero sn_decoded]. exists (mkLR t (hi * 256 + lo) n None), x, n, rest. cbn [lr_type lr_mem lr_link app]. rewrite Ehi, Elo.
    split; [reflexivity|]. split; [reflexivity|]. left. split; [lia|reflexivity].
  - assert (Hk : forall num, t = 1 \/ t = 2 ->
      shown_or_raw (x :: t :: hi :: lo :: n :: rest) (link_readable (x :: t :: hi :: lo :: n :: rest)) (link_shown (x :: t :: hi :: lo :: n :: rest))
        (sn_decoded (x :: t :: hi :: lo :: n :: rest) PyLink (let (l1, e) := link_unmarshal link_zero rest in (mkLR t (hi * 256 + lo) num (Some l1), e)))).
    { intros num Ht. destruct (link_unmarshal link_zero rest) as [l [e|]] eqn:El; cbn [snd] in Hr.
      - right. split; [|eexists; reflexivity]. intros (x0 & t0 & r0 & E & [[-> _]|[_ H]]).
        + injection E as _ E _. lia.
        + injection E as _ _ <-. cbn [length] in H. assert (Some e = None) by (apply Hr; lia). discriminate.
      - left. split; [|apply Hrec; reflexivity]. exists x, t, (hi :: lo :: n :: rest). split; [reflexivity|]. right. split; [exact Ht|].
        cbn [length]. assert (8 <= length rest)%nat by (apply Hr; reflexivity). lia. }
    destruct (t =? 0x01) eqn:E1; [apply Hk; lia|]. destruct (t =? 0x02) eqn:E2; [apply Hk; lia|].
    right. split; [|eexists; reflexivity]. intros (x0 & t0 & r0 & E & H). injection E as _ E _. lia.
Qed.

Lemma payload_ok : forall db m k ext l x, well m -> flags_layout (m_flags m) k ext l x -> payload_shown db ext m (snoop_payload db m).
Proof.
  intros db m k ext l x ((_ & _ & _ & Hb) & _) HL. destruct (accessors_layout _ _ _ _ _ HL) as (_ & _ & _ & He & _).
  unfold snoop_payload. rewrite He. unfold payload_shown. destruct ext; [|reflexivity].
  unfold cmd_matches. rewrite !command1_arith.
  change ((c_ProductDataResp / 256) mod 256) with 3. change ((c_ReadWriteALDB / 256) mod 256) with 0x2f. change ((c_ExtendedGetSet / 256) mod 256) with 0x2e.
  set (c1 := (m_cmd m / 256) mod 256).
  destruct (c1 =? 3) eqn:E3.
  { apply Z.eqb_eq in E3. rewrite E3. unfold pd_unmarshal. rewrite short_or_long. unfold shown_or_raw.
    destruct (14 <=? length (m_payload m))%nat eqn:El; cbn [negb].
    - left. split; [lia|]. cbn [sn_decoded]. f_equal.
      destruct (m_payload m) as [|y0 [|y1 [|y2 [|y3 [|y4 [|y5 t]]]]]]; cbn [length] in El; try lia. reflexivity.
    - right. split; [lia|]. eexists. reflexivity. }
  destruct (c1 =? 0x2f) eqn:E4.
  { apply Z.eqb_eq in E4. rewrite E4. apply link_payload_ok. exact Hb. }
  destruct (c1 =? 0x2e) eqn:E5.
  { apply Z.eqb_eq in E5. rewrite E5. unfold domain_of. destruct db as [get|]; [|reflexivity].
    destruct (get (m_src m)) as [info [|]]; cbn [fst snd]; [|reflexivity].
    unfold shown_or_raw, dc_unmarshal, sc_unmarshal. rewrite short_or_long.
    destruct (di_dc0 info =? 1) eqn:D1; [apply Z.eqb_eq in D1; rewrite D1|destruct (di_dc0 info =? 2) eqn:D2; [apply Z.eqb_eq in D2; rewrite D2|]].
    - destruct (14 <=? length (m_payload m))%nat eqn:El; cbn [negb]; [left|right]; (split; [lia|]); [reflexivity|eexists; reflexivity].
    - destruct (14 <=? length (m_payload m))%nat eqn:El; cbn [negb]; [left|right]; (split; [lia|]); [reflexivity|eexists; reflexivity].
    - destruct (di_dc0 info) as [|p|p]; try reflexivity. destruct p as [p|[p|p|]|]; try reflexivity; discriminate. }
  destruct c1 as [|p|p]; try reflexivity.
  repeat (destruct p as [p|p|]; try reflexivity; try discriminate).
Qed.

Lemma shows_ok : forall db h m prev, well m -> (fl_ack (m_flags m) = true -> prev = acked h m) ->
  shows db h m (mkLine (snoop_route m) (fl_max_ttl (m_flags m)) (fl_ttl (m_flags m)) (snoop_what prev m) (snoop_payload db m)).
Proof.
  intros db h m prev Hw Hp. assert (Hf : is_byte (m_flags m)) by apply Hw.
  pose proof (layout_exists _ Hf) as HL.
  destruct (accessors_layout _ _ _ _ _ HL) as (_ & Hl & Hm & _ & _ & _ & Ha & _).
  eexists; eexists. cbn [sn_left sn_max sn_rt sn_wh sn_py]. rewrite Hl, Hm.
  split; [exact HL|]. split; [eapply route_ok; eauto|]. split; [eapply what_ok; eauto; rewrite Ha in Hp; exact Hp|eapply payload_ok; eauto].
Qed.

(** ** The filter over an arbitrary message writer *)
Lemma passed_well : forall log, Forall ev_well log -> Forall well (passed log).
Proof.
  intros log H. induction H as [|e log He Hl IH]; [constructor|]. cbn [passed flat_map]. apply Forall_app. split; [|exact IH].
  destruct e as [[[[m|] err]| |]|m [[[a|] err]| |]]; cbn [went_by ev_well] in *;
    solve [constructor|constructor; [tauto|constructor]].
Qed.

Lemma print_ok : forall W db m h ls c (w : W), cinv 10 h c ->
  exists l, snoop_print db m (ls, (c, w)) = (Ret tt, (ls ++ [l], (c, w))) /\ (Forall well h -> well m -> shows db h m l) /\
    (Forall well h -> fl_ack (m_flags m) = true -> forall p, acked h m = Some p -> sn_wh l = WhAck (m_cmd p)).
Proof.
  intros W db m h ls c w Hc. unfold snoop_print, pbind, psnd, pfst, pget, plift, pput. cbn [fst snd].
  destruct (fl_ack (m_flags m)) eqn:Ea.
  - destruct (cinv_lookup 10 h c (match_ack m) Hc) as (r & H1 & H2). rewrite H1. eexists. split; [reflexivity|].
    assert (H3 : Forall well h -> option_map snd r = acked h m).
    { intro Hh. destruct (lookup_acked h c m Hh Hc) as (r' & H3 & H4). rewrite H1 in H3. injection H3 as ->. exact H4. }
    split.
    + intros Hh Hm. apply shows_ok; [exact Hm|]. intros _. apply H3. exact Hh.
    + intros Hh _ p Hp. cbn [sn_wh]. unfold snoop_what. rewrite Ea, (H3 Hh), Hp. reflexivity.
  - eexists. split; [reflexivity|]. split; [|discriminate]. intros Hh Hm. apply shows_ok; [exact Hm|congruence].
Qed.

Ltac rew_print Hp H := match type of Hp with _ = ?rhs => match type of H with context [snoop_print ?a ?b ?s] =>
  replace (snoop_print a b s) with rhs in H by (symmetry; exact Hp) end end.
Ltac rew_print_goal Hp := match type of Hp with _ = ?rhs => match goal with |- context [snoop_print ?a ?b ?s] =>
  replace (snoop_print a b s) with rhs by (symmetry; exact Hp) end end.
Definition adds_lines (db : option (Z -> dinfo * bool)) (h : list message) (e : mev) (new : list sn_line) : Prop :=
  forall log ls, display db (h ++ went_by e) log ls -> display db h (e :: log) (new ++ ls).

Ltac fin4 := split; [reflexivity|]; split; [reflexivity|]; split; [assumption|]; split; [rewrite ?app_nil_r, <- ?app_assoc; reflexivity|].
Lemma snoop_op : forall W (mw : mwriter W) db o ls c w log x ls' c' w' log', cinv 10 (passed log) c ->
  do_op (snoop_filter db (mlogged mw)) o (ls, (c, (w, log))) = (Ret x, (ls', (c', (w', log')))) ->
  exists e new, do_op (mlogged mw) o (w, log) = (Ret x, (w', log')) /\ log' = log ++ [e] /\ cinv 10 (passed log') c' /\
    ls' = ls ++ new /\ (Forall well (passed log) -> ev_well e -> adds_lines db (passed log) e new).
Proof.
  intros W mw db o ls c w log x ls' c' w' log' Hc H.
  destruct o as [|m]; cbn [do_op snoop_filter mw_read mw_write] in *.
  - unfold snoop_read in H. unfold pbind at 1 in H. unfold psnd in H at 1. cbn [fst snd] in H.
    destruct (cache_op W mw 10 DoRead c w log [] ltac:(lia) Hc) as (e & r & w1 & H1 & He & H2). cbn [do_op] in *.
    rewrite mlogged_read in H1. rewrite mlogged_read.
    destruct (mw_read mw w) as [r0 w0] eqn:Er. apply pair_equal_spec in H1. destruct H1 as [-> H1].
    apply pair_equal_spec in H1. destruct H1 as [-> H1]. apply app_inv_head in H1. injection H1 as <-.
    destruct r as [[msg err]| |]; [|destruct H2 as (c1 & H2); rewrite H2 in H; discriminate|destruct H2 as (c1 & H2); rewrite H2 in H; discriminate].
    destruct H2 as (c1 & H2 & H3). rewrite H2 in H. cbn [fst snd] in H. cbn [app] in H3.
    destruct err as [er|].
    + inversion H; subst. exists (MR (Ret (msg, Some er))), []. fin4.
      intros _ _ lg l2 Hd. cbn [app]. apply dp_read_error. destruct msg; exact Hd.
    + destruct msg as [m|]; [|discriminate].
      unfold pbind in H. destruct (print_ok _ db m _ ls c1 (w1, log ++ [MR (Ret (Some m, None))]) H3) as (l & Hp & Hs & _). rew_print Hp H.
      inversion H; subst. exists (MR (Ret (Some m, None))), [l]. fin4.
      intros Hh Hm lg l2 Hd. cbn [app]. apply dp_read; [|exact Hd].
      rewrite passed_app in Hs. apply Hs; [|exact Hm]. apply Forall_app. split; [exact Hh|]. cbn. auto.
  - unfold snoop_write in H. unfold pbind at 1 in H.
    destruct (print_ok _ db m _ ls c (w, log) Hc) as (l & Hp & Hs & _). rew_print Hp H. unfold pbind at 1 in H. unfold psnd in H at 1. cbn [fst snd] in H.
    destruct (cache_op W mw 10 (DoWrite m) c w log [] ltac:(lia) Hc) as (e & r & w1 & H1 & He & H2). cbn [do_op] in *.
    rewrite mlogged_write in H1. rewrite mlogged_write.
    destruct (mw_write mw m w) as [r0 w0] eqn:Er. apply pair_equal_spec in H1. destruct H1 as [-> H1].
    apply pair_equal_spec in H1. destruct H1 as [-> H1]. apply app_inv_head in H1. injection H1 as <-.
    destruct r as [[msg err]| |]; [|destruct H2 as (c1 & H2); rewrite H2 in H; discriminate|destruct H2 as (c1 & H2); rewrite H2 in H; discriminate].
    destruct H2 as (c1 & H2 & H3). rewrite H2 in H. cbn [fst snd] in H. cbn [app] in H3.
    destruct msg as [a|].
    + unfold pbind in H. destruct (print_ok _ db a _ (ls ++ [l]) c1 (w1, log ++ [MW m (Ret (Some a, err))]) H3) as (l2 & Hp2 & Hs2 & _). rew_print Hp2 H.
      inversion H; subst. exists (MW m (Ret (Some a, err))), [l; l2]. fin4.
      intros Hh Hm lg l3 Hd. cbn [ev_well] in Hm. cbn [app]. apply dp_write_ack; [tauto| |exact Hd].
      rewrite passed_app in Hs2. apply Hs2; [|tauto]. apply Forall_app. split; [exact Hh|]. cbn. constructor; [tauto|constructor].
    + inversion H; subst. exists (MW m (Ret (None, err))), [l]. fin4.
      intros Hh Hm lg l3 Hd. cbn [ev_well] in Hm. cbn [app]. apply dp_write; [tauto|exact Hd].
Qed.

Lemma display_ext : forall db es h new, (forall log ls, display db (h ++ passed es) log ls -> display db h (es ++ log) (new ++ ls)) -> display db h es new.
Proof.
  intros db es h new H. specialize (H [] [] (dp_nil db _)). rewrite !app_nil_r in H. exact H.
Qed.

Lemma snoop_ops : forall W (mw : mwriter W) db ops ls c w log rs ls' c' w' log', cinv 10 (passed log) c ->
  do_ops (snoop_filter db (mlogged mw)) ops (ls, (c, (w, log))) = (Ret rs, (ls', (c', (w', log')))) ->
  do_ops (mlogged mw) ops (w, log) = (Ret rs, (w', log')) /\ cinv 10 (passed log') c' /\
  exists t new, log' = log ++ t /\ ls' = ls ++ new /\
    (Forall well (passed log) -> Forall ev_well t -> display db (passed log) t new).
Proof.
  intros W mw db ops. induction ops as [|o ops IH]; intros ls c w log rs ls' c' w' log' Hc H; cbn [do_ops] in *.
  - inversion H; subst. split; [reflexivity|]. split; [exact Hc|]. exists [], []. rewrite !app_nil_r. split; [reflexivity|]. split; [reflexivity|].
    intros _ _. constructor.
  - unfold pbind in H. unfold pbind.
    destruct (do_op (snoop_filter db (mlogged mw)) o (ls, (c, (w, log)))) as [[x| |] [ls1 [c1 [w1 log1]]]] eqn:E; try discriminate.
    destruct (snoop_op W mw db o ls c w log x ls1 c1 w1 log1 Hc E) as (e & new & H1 & -> & Hc1 & -> & Hd). rewrite H1.
    destruct (do_ops (snoop_filter db (mlogged mw)) ops (ls ++ new, (c1, (w1, log ++ [e])))) as [[rs1| |] [ls2 [c2 [w2 log2]]]] eqn:E2; try discriminate.
    destruct (IH _ _ _ _ _ _ _ _ _ Hc1 E2) as (H2 & Hc2 & t & new2 & -> & -> & Hd2). rewrite H2.
    inversion H; subst. split; [reflexivity|]. split; [exact Hc2|]. exists (e :: t), (new ++ new2).
    split; [rewrite <- app_assoc; reflexivity|]. split; [rewrite <- app_assoc; reflexivity|].
    intros Hh Ht. apply Forall_cons_iff in Ht. destruct Ht as [He1 He2]. apply (Hd Hh He1). specialize (Hd2 ltac:(rewrite passed_app; apply Forall_app; split; [exact Hh|];
      apply passed_well; constructor; [assumption|constructor]) He2).
    rewrite passed_app in Hd2. cbn [passed flat_map] in Hd2. rewrite app_nil_r in Hd2. exact Hd2.
Qed.

(** It does not crash as long as the writer below returns and gives a message or an error for every read. *)
Lemma snoop_op_returns : forall W (mw : mwriter W) db o ls c w log, returns mw -> informative mw -> cinv 10 (passed log) c ->
  exists x s, do_op (snoop_filter db (mlogged mw)) o (ls, (c, (w, log))) = (Ret x, s).
Proof.
  intros W mw db o ls c w log [Hr1 Hr2] Hi Hc. destruct o as [|m]; cbn [do_op snoop_filter mw_read mw_write].
  - unfold snoop_read. unfold pbind at 1, psnd. cbn [fst snd].
    destruct (cache_op W mw 10 DoRead c w log [] ltac:(lia) Hc) as (e & r & w1 & H1 & He & H2). cbn [do_op] in *.
    rewrite mlogged_read in H1. destruct (Hr1 w) as (x & w2 & Ex). rewrite Ex in H1. apply pair_equal_spec in H1. destruct H1 as [<- H1].
    destruct H2 as (c1 & H2 & H3). rewrite H2. destruct x as [[m|] [er|]]; cbn [fst snd]; try (do 2 eexists; reflexivity).
    + unfold pbind. destruct (print_ok _ db m _ ls c1 (w1, log ++ [e]) H3) as (l & Hp & _). rew_print_goal Hp. do 2 eexists. reflexivity.
    + exfalso. exact (Hi _ _ Ex).
  - unfold snoop_write. unfold pbind at 1. destruct (print_ok _ db m _ ls c (w, log) Hc) as (l & Hp & _). rew_print_goal Hp.
    unfold pbind at 1, psnd. cbn [fst snd].
    destruct (cache_op W mw 10 (DoWrite m) c w log [] ltac:(lia) Hc) as (e & r & w1 & H1 & He & H2). cbn [do_op] in *.
    rewrite mlogged_write in H1. destruct (Hr2 m w) as (x & w2 & Ex). rewrite Ex in H1. apply pair_equal_spec in H1. destruct H1 as [<- H1].
    destruct H2 as (c1 & H2 & H3). rewrite H2. destruct x as [[a|] er]; cbn [fst snd]; [|do 2 eexists; reflexivity].
    unfold pbind. destruct (print_ok _ db a _ (ls ++ [l]) c1 (w1, log ++ [e]) H3) as (l2 & Hp2 & _). rew_print_goal Hp2. do 2 eexists. reflexivity.
Qed.

Lemma snoop_ops_return : forall W (mw : mwriter W) db ops ls c w log, returns mw -> informative mw -> cinv 10 (passed log) c ->
  exists rs s, do_ops (snoop_filter db (mlogged mw)) ops (ls, (c, (w, log))) = (Ret rs, s).
Proof.
  intros W mw db ops. induction ops as [|o ops IH]; intros ls c w log Hr Hi Hc; cbn [do_ops]; [do 2 eexists; reflexivity|].
  unfold pbind. destruct (snoop_op_returns W mw db o ls c w log Hr Hi Hc) as (x & [ls1 [c1 [w1 log1]]] & E). rewrite E.
  destruct (snoop_op W mw db o ls c w log x ls1 c1 w1 log1 Hc E) as (e & new & _ & -> & Hc1 & _ & _).
  destruct (IH ls1 c1 w1 (log ++ [e]) Hr Hi Hc1) as (rs & s & E2). rewrite E2. do 2 eexists. reflexivity.
Qed.

(** The acknowledgement of a command that was just written is shown with that command. *)
Lemma snoop_write_ack : forall W (mw : mwriter W) db m a err ls c w log w1, cinv 10 (passed log) c -> Forall well (passed log) -> well m ->
  mw_write mw m w = (Ret (Some a, err), w1) -> no_reply m = true -> m_src a = m_dst m -> fl_ack (m_flags a) = true ->
  exists l1 l2 c1, snoop_write db (mlogged mw) m (ls, (c, (w, log))) = (Ret (Some a, err), (ls ++ [l1; l2], (c1, (w1, log ++ [MW m (Ret (Some a, err))])))) /\
    sn_wh l2 = WhAck (m_cmd m).
Proof.
  intros W mw db m a err ls c w log w1 Hc Hh Hm Ew Hn Hs Ha. unfold snoop_write. unfold pbind at 1.
  destruct (print_ok _ db m _ ls c (w, log) Hc) as (l & Hp & _). rew_print_goal Hp.
  unfold pbind at 1, psnd. cbn [fst snd].
  destruct (cache_op W mw 10 (DoWrite m) c w log [] ltac:(lia) Hc) as (e & r & w2 & H1 & He & H2). cbn [do_op] in *.
  rewrite mlogged_write, Ew in H1. apply pair_equal_spec in H1. destruct H1 as [<- H1]. apply pair_equal_spec in H1. destruct H1 as [<- H1].
  apply app_inv_head in H1. injection H1 as <-.
  destruct H2 as (c1 & H2 & H3). rewrite H2. cbn [fst snd]. unfold pbind. cbn [app] in H3.
  destruct (print_ok _ db a _ (ls ++ [l]) c1 (w1, log ++ [MW m (Ret (Some a, err))]) H3) as (l2 & Hp2 & _ & Hw). rew_print_goal Hp2.
  exists l, l2, c1. split; [rewrite <- app_assoc; reflexivity|].
  rewrite passed_app in Hw. cbn [passed flat_map went_by] in Hw. rewrite app_nil_r in Hw. apply Hw; [|exact Ha|].
  - apply Forall_app. split; [exact Hh|]. constructor; [exact Hm|constructor].
  - unfold acked. change 10%nat with (S 9). rewrite lastn_snoc, rev_app_distr. cbn [rev app find]. rewrite Hs, Z.eqb_refl, Hn. reflexivity.
Qed.

(** ** The monitor *)
Lemma monitor_loop_log : forall W (mw : mwriter W) db fuel ls c w log r ls' c' w' log', cinv 10 (passed log) c ->
  monitor_loop fuel (snoop_filter db (mlogged mw)) (ls, (c, (w, log))) = (r, (ls', (c', (w', log')))) ->
  exists t last new, log' = log ++ t ++ last /\ Forall goes_on t /\ ls' = ls ++ new /\
    (Forall well (passed log) -> Forall ev_well t -> display db (passed log) t new) /\
    match r with
    | Ret x => exists e a, x = Some e /\ last = [MR (Ret (a, Some e))] /\ errors_is e EInsteonReadTimeout = false
    | Panic => last = [MR (Ret (None, None))] \/ last = [MR Panic]
    | NoFuel => (last = [] /\ length t = fuel) \/ last = [MR NoFuel]
    end.
Proof.
  intros W mw db fuel. induction fuel as [|fuel IH]; intros ls c w log r ls' c' w' log' Hc H.
  - inversion H; subst. exists [], [], []. rewrite !app_nil_r. repeat apply conj; auto. intros. constructor.
  - cbn [monitor_loop] in H. unfold pbind at 1 in H.
    destruct (mw_read (snoop_filter db (mlogged mw)) (ls, (c, (w, log)))) as [o [ls1 [c1 [w1 log1]]]] eqn:E.
    destruct o as [[a err]| |].
    + destruct (snoop_op W mw db DoRead ls c w log (a, err) ls1 c1 w1 log1 Hc E) as (e & new & H1 & -> & Hc1 & -> & Hd).
      assert (He : e = MR (Ret (a, err))).
      { cbn [do_op] in H1. rewrite mlogged_read in H1. destruct (mw_read mw w) as [r0 w0]. apply pair_equal_spec in H1. destruct H1 as [-> H1].
        apply pair_equal_spec in H1. destruct H1 as [_ H1]. apply app_inv_head in H1. injection H1 as <-. reflexivity. }
      assert (Hgo : goes_on e -> monitor_loop fuel (snoop_filter db (mlogged mw)) (ls ++ new, (c1, (w1, log ++ [e]))) = (r, (ls', (c', (w', log')))) ->
        exists t last new0, log' = log ++ t ++ last /\ Forall goes_on t /\ ls' = ls ++ new0 /\
        (Forall well (passed log) -> Forall ev_well t -> display db (passed log) t new0) /\
        match r with
        | Ret x => exists e0 a0, x = Some e0 /\ last = [MR (Ret (a0, Some e0))] /\ errors_is e0 EInsteonReadTimeout = false
        | Panic => last = [MR (Ret (None, None))] \/ last = [MR Panic]
        | NoFuel => (last = [] /\ length t = S fuel) \/ last = [MR NoFuel]
        end).
      { intros Hg H0. destruct (IH _ _ _ _ _ _ _ _ _ Hc1 H0) as (t & last & new2 & -> & Ht & -> & Hd2 & Hr).
        exists (e :: t), last, (new ++ new2). split; [rewrite <- app_assoc; reflexivity|]. split; [constructor; assumption|].
        split; [rewrite <- app_assoc; reflexivity|]. split.
        - intros Hh Hw. apply Forall_cons_iff in Hw. destruct Hw as [He1 He2]. apply (Hd Hh He1).
          specialize (Hd2 ltac:(rewrite passed_app; apply Forall_app; split; [exact Hh|]; apply passed_well; constructor; [assumption|constructor]) He2).
          rewrite passed_app in Hd2. cbn [passed flat_map] in Hd2. rewrite app_nil_r in Hd2. exact Hd2.
        - destruct r; try exact Hr. destruct Hr as [[-> Hl]|Hr]; [left; split; [reflexivity|cbn; lia]|right; exact Hr]. }
      destruct err as [er|].
      * destruct (errors_is er EInsteonReadTimeout) eqn:Ee.
        -- apply Hgo; [|exact H]. exists a. right. exists er. auto.
        -- inversion H; subst. exists [], [MR (Ret (a, Some er))], new. 
           assert (Hnew : new = []).
           { clear -E. cbn [snoop_filter mw_read] in E. unfold snoop_read, pbind at 1, psnd in E. cbn [fst snd] in E.
             destruct (mw_read (cache_filter (mlogged mw)) (c, (w, log))) as [[[a0 [e0|]]| |] s0]; try discriminate.
             - inversion E; subst. destruct new; [reflexivity|]. exfalso.
               match goal with HH : _ = _ ++ _ :: _ |- _ => apply (f_equal (@length sn_line)) in HH; rewrite app_length in HH; cbn in HH; lia end.
             - destruct a0; [|discriminate]. unfold pbind in E. destruct (snoop_print db m (ls, s0)) as [[| |] s1]; discriminate. }
           subst new. rewrite !app_nil_r in *. repeat apply conj; auto; [intros; constructor|]. eauto.
      * apply Hgo; [|exact H]. exists a. auto.
    + inversion H; subst. cbn [snoop_filter mw_read] in E. unfold snoop_read, pbind at 1, psnd in E. cbn [fst snd] in E.
      destruct (cache_op W mw 10 DoRead c w log [] ltac:(lia) Hc) as (e & r & w2 & H1 & He & H2). cbn [do_op] in *.
      rewrite mlogged_read in H1. destruct (mw_read mw w) as [r0 w0] eqn:Er. apply pair_equal_spec in H1. destruct H1 as [-> H1].
      apply pair_equal_spec in H1. destruct H1 as [-> H1]. apply app_inv_head in H1. injection H1 as <-.
      destruct r as [[msg err]| |].
      * destruct H2 as (c2 & H2 & H3). rewrite H2 in E. cbn [fst snd] in E. destruct err as [er|]; [discriminate|]. destruct msg as [m|].
        -- exfalso. unfold pbind in E. cbn [app] in H3. destruct (print_ok _ db m _ ls c2 (w2, log ++ [MR (Ret (Some m, None))]) H3) as (l & Hp & _). rew_print Hp E. discriminate.
        -- inversion E; subst. exists [], [MR (Ret (None, None))], []. rewrite !app_nil_r. repeat apply conj; auto. intros. constructor.
      * destruct H2 as (c2 & H2). rewrite H2 in E. inversion E; subst. exists [], [MR Panic], []. rewrite !app_nil_r. repeat apply conj; auto. intros. constructor.
      * destruct H2 as (c2 & H2). rewrite H2 in E. discriminate.
    + inversion H; subst. cbn [snoop_filter mw_read] in E. unfold snoop_read, pbind at 1, psnd in E. cbn [fst snd] in E.
      destruct (cache_op W mw 10 DoRead c w log [] ltac:(lia) Hc) as (e & r & w2 & H1 & He & H2). cbn [do_op] in *.
      rewrite mlogged_read in H1. destruct (mw_read mw w) as [r0 w0] eqn:Er. apply pair_equal_spec in H1. destruct H1 as [-> H1].
      apply pair_equal_spec in H1. destruct H1 as [-> H1]. apply app_inv_head in H1. injection H1 as <-.
      destruct r as [[msg err]| |].
      * destruct H2 as (c2 & H2 & H3). rewrite H2 in E. cbn [fst snd] in E. destruct err as [er|]; [discriminate|]. destruct msg as [m|]; [|discriminate].
        exfalso. unfold pbind in E. cbn [app] in H3. destruct (print_ok _ db m _ ls c2 (w2, log ++ [MR (Ret (Some m, None))]) H3) as (l & Hp & _). rew_print Hp E. discriminate.
      * destruct H2 as (c2 & H2). rewrite H2 in E. discriminate.
      * destruct H2 as (c2 & H2). rewrite H2 in E. inversion E; subst. exists [], [MR NoFuel], []. rewrite !app_nil_r. repeat apply conj; auto. intros. constructor.
Qed.

(** ** The monitor over the modem *)
Lemma monitor_runs : forall W (mw : mwriter W) (I : W -> Prop) db fuel ls c w h,
  (forall w, I w -> exists a e w1, mw_read mw w = (Ret (a, e), w1) /\ I w1 /\
    ((exists m, a = Some m /\ e = None) \/ exists x, e = Some x /\ errors_is x EInsteonReadTimeout = true)) ->
  I w -> cinv 10 h c -> exists s, monitor_loop fuel (snoop_filter db mw) (ls, (c, w)) = (NoFuel, s).
Proof.
  intros W mw I db fuel. induction fuel as [|fuel IH]; intros ls c w h HI Hw Hc; [eexists; reflexivity|].
  cbn [monitor_loop snoop_filter mw_read]. unfold pbind at 1, snoop_read. unfold pbind at 1, psnd. cbn [fst snd cache_filter mw_read].
  destruct (HI w Hw) as (a & e & w1 & Hr & Hw1 & Ho).
  unfold cache_read. unfold pbind at 1, psnd at 1. cbn [fst snd]. rewrite Hr. unfold pbind, pfst, pget, plift, pput. cbn [fst snd].
  destruct (cinv_push_opt 10 h c a ltac:(lia) Hc) as (c1 & Hp & Hc1). rewrite Hp. cbn [fst snd pret].
  destruct Ho as [(m & -> & ->)|(x & -> & Hx)].
  - destruct (print_ok _ db m _ ls c1 w1 Hc1) as (l & Hl & _). unfold pret.
    match type of Hl with _ = ?rhs => match goal with |- context [snoop_print ?p ?q ?s] => replace (snoop_print p q s) with rhs by (symmetry; exact Hl) end end.
    apply (IH _ _ _ _ HI Hw1 Hc1).
  - unfold pret. rewrite Hx. apply (IH _ _ _ _ HI Hw1 Hc1).
Qed.

Definition msgq_net (st : plm) : Prop := Forall (fun p => network_message p = true) (p_msgq st).
Lemma offer_net : forall q p, Forall (fun p => network_message p = true) q -> network_message p = true -> Forall (fun p => network_message p = true) (offer q p).
Proof. intros q p H1 H2. apply (offer_all (fun p => network_message p = true)); assumption. Qed.
Lemma turn_net : forall st e, msgq_net st -> msgq_net (reader_turn st e).
Proof.
  intros st e H. unfold reader_turn. destruct (p_closed st); [exact H|]. destruct e as [p|]; [|exact H].
  destruct (is_msg_packet p) eqn:E; [|exact H]. unfold msgq_net. cbn [p_msgq]. apply offer_net; [exact H|exact E].
Qed.
Lemma turns_net : forall es st, msgq_net st -> msgq_net (reader_turns st es).
Proof. unfold reader_turns. induction es as [|e es IH]; intros st H; cbn [fold_left]; [exact H|]. apply IH, turn_net, H. Qed.
Lemma wait_for_net : forall es q st r st', msgq_net st -> wait_for q st es = (r, st') ->
  msgq_net st' /\ (forall p, q = QMsg -> r = RPacket p -> network_message p = true).
Proof.
  induction es as [|e es IH]; intros q st r st' H Hw; cbn [wait_for] in Hw; destruct (queue_of q st) as [|p rest] eqn:Eq.
  - destruct (p_closed st); pair_inv Hw; split; auto; discriminate.
  - pair_inv Hw. cbn. destruct q; cbn in *.
    + unfold msgq_net in *. rewrite Eq in H. inversion H; subst. split; [assumption|]. intros p' _ E. congruence.
    + split; [exact H|discriminate].
  - destruct (p_closed st); [pair_inv Hw; split; auto; discriminate|]. apply (IH q (reader_turn st e)); [apply turn_net, H|exact Hw].
  - pair_inv Hw. destruct q; cbn [set_queue queue_of] in *.
    + unfold msgq_net in H. rewrite Eq in H. inversion H; subst. split; [apply turns_net; assumption|]. intros p' _ E. congruence.
    + split; [apply turns_net; exact H|discriminate].
Qed.
Lemma receive_net : forall sc q st r st', msgq_net st -> receive sc q st = (r, st') ->
  msgq_net st' /\ (forall p, q = QMsg -> r = RPacket p -> network_message p = true).
Proof.
  intros sc q st r st' H Hr. unfold receive in Hr.
  assert (H1 : msgq_net (log_wait (tick (reader_turns st (s_before (sc (p_time st))))))) by apply (turns_net _ _ H).
  destruct (s_late (sc (p_time st))); [pair_inv Hr; split; [apply turns_net, H1|discriminate]|].
  apply (wait_for_net _ _ _ _ _ H1 Hr).
Qed.
Lemma write_packet_net : forall sc pkt st r st', msgq_net st -> plm_write_packet sc pkt st = (r, st') -> msgq_net st'.
Proof.
  intros sc pkt st r st' H Hw.
  assert (Hp : forall e st1, port_write sc st (pkt_marshal pkt) = (e, st1) -> msgq_net st1).
  { intros e st1 E. unfold port_write in E. pair_inv E. apply (turns_net _ _ H). }
  destruct (write_packet_cases _ _ _ _ _ Hw) as [e st1 E1|st1 st2 E1 E2|st1 st2 E1 E2|p st1 st2 E1 E2]; pose proof (Hp _ _ E1);
    try (apply (receive_net _ _ _ _ _ ltac:(eassumption) E2)); assumption.
Qed.

Lemma bit4 : forall f, fl_extended f = ((f / 16) mod 2 =? 1).
Proof.
  intro f. unfold fl_extended.
  assert (E : Z.land f 16 = Z.land (f mod 32) 16).
  { change 32 with (2 ^ 5). rewrite <- Z.land_ones by lia. rewrite <- Z.land_assoc. reflexivity. }
  rewrite E. replace ((f / 16) mod 2) with ((f mod 32) / 16 mod 2) by lia.
  pose proof (sweep_range (fun x => eqb (Z.land x 16 =? 16) ((x / 16) mod 2 =? 1)) 32 ltac:(vm_compute; reflexivity) (f mod 32) ltac:(lia)) as H.
  cbv beta in H. apply eqb_prop in H. exact H.
Qed.

Lemma network_decodes : forall p, from_reader p -> honest p -> network_message p = true -> snd (msg_unmarshal msg_zero (p_payload p)) = None.
Proof.
  intros p (body & Hf & Hd) Hh Hn. unfold network_message in Hn.
  assert (Hb : p_payload p = body) by (inversion Hd; subst; cbn [p_payload p_cmd] in *; try reflexivity; lia).
  rewrite Hb. unfold honest in Hh. rewrite Hb in Hh. clear Hd Hb.
  assert (Hlen : (p_cmd p = 0x50 /\ length body = 9%nat) \/ (p_cmd p = 0x51 /\ length body = 23%nat)).
  { inversion Hf as [c b n Hs Hne Hl|]; subst; [|exfalso; lia].
    destruct (p_cmd p =? 0x50) eqn:E.
    - apply Z.eqb_eq in E. left. split; [exact E|]. rewrite E in *. vm_compute in Hs. injection Hs as <-. cbn in Hl. exact Hl.
    - assert (E1 : p_cmd p = 0x51) by lia. right. split; [exact E1|]. rewrite E1 in *. vm_compute in Hs. injection Hs as <-. cbn in Hl. exact Hl. }
  destruct body as [|b0 [|b1 [|b2 [|b3 [|b4 [|b5 [|b6 [|b7 [|b8 t]]]]]]]]]; cbn [length] in Hlen; try lia.
  unfold msg_unmarshal. rewrite bit4. cbn [nth] in Hh.
  destruct Hlen as [[Hc Hl]|[Hc Hl]].
  - specialize (Hh Hc). replace ((b6 / 16) mod 2 =? 1) with false by lia. reflexivity.
  - destruct ((b6 / 16) mod 2 =? 1); [|reflexivity]. cbn [snd]. unfold zlen. cbn [length]. 
    match goal with |- context [?a <? ?b] => replace (a <? b) with false by lia end. reflexivity.
Qed.

Definition mon_ok (sc : schedule) (st : plm) : Prop := queues_all (fun p => from_reader p /\ honest p) st /\ p_closed st = false /\ msgq_net st.
Lemma sched_weaken : forall (P Q : packet -> Prop) sc, (forall p, P p -> Q p) -> sched_all P sc -> sched_all Q sc.
Proof. intros P Q sc H Hs t p Hp. apply H, (Hs t), Hp. Qed.
Lemma queues_weaken : forall (P Q : packet -> Prop) st, (forall p, P p -> Q p) -> queues_all P st -> queues_all Q st.
Proof. intros P Q st H [H1 H2]. split; eapply Forall_impl; eauto. Qed.

Lemma retry_mon : forall sc retries nak pkt st r st', sched_all (fun p => from_reader p /\ honest p) sc -> no_end sc -> mon_ok sc st ->
  pw_write (retry (plm_pw sc) retries nak) pkt st = (r, st') -> mon_ok sc st' /\ exists x, r = Ret x.
Proof.
  intros sc retries nak pkt st r st' Hs Hn (Hq & Ho & Hm) H. unfold retry in H. cbn [pw_write] in H.
  destruct (retry_sound sc (Z.to_nat (retries + 1)) nak pkt (None, None) st r st') as ([_ Ho'] & Hx); auto.
  { eapply sched_weaken; [|exact Hs]. intros p [Hp _]. exact Hp. }
  { split; [|exact Ho]. eapply queues_weaken; [|exact Hq]. intros p [Hp _]. exact Hp. }
  split; [|exact Hx]. split; [|split; [exact Ho'|]].
  - apply (retry_ind (queues_all (fun p => from_reader p /\ honest p)) sc (Z.to_nat (retries + 1)) nak pkt (None, None) st r st'); auto.
    intros s r0 s' HP Hw.
    destruct (write_packet_cases _ _ _ _ _ Hw) as [e st1 E1|st1 st2 E1 E2|st1 st2 E1 E2|p st1 st2 E1 E2]; pose proof (port_write_all _ _ _ _ _ _ Hs HP E1);
      try (apply (receive_all _ _ _ _ _ _ Hs ltac:(eassumption) E2)); assumption.
  - apply (retry_ind msgq_net sc (Z.to_nat (retries + 1)) nak pkt (None, None) st r st'); auto.
    intros s r0 s' HP Hw. apply (write_packet_net _ _ _ _ _ HP Hw).
Qed.

Lemma config_mon : forall sc st, sched_all (fun p => from_reader p /\ honest p) sc -> no_end sc -> mon_ok sc st -> 0 <= p_retries st ->
  exists r st', plm_config sc st = (Ret r, st') /\ mon_ok sc st'.
Proof.
  intros sc st Hs Hn Hm Hr. unfold plm_config.
  destruct (pw_write (retry (plm_pw sc) (p_retries st) true) (mkPkt pc_GetConfig [] 0) st) as [o st1] eqn:E.
  destruct (retry_mon _ _ _ _ _ _ _ Hs Hn Hm E) as (Hm1 & x & ->). destruct x as [a [e|]]; [destruct a; eauto|].
  destruct (retry_success0 _ _ _ _ _ _ _ _ Hr Hs (proj1 Hm) E) as (p & -> & _). eauto.
Qed.
Lemma set_config_mon : forall sc c st, sched_all (fun p => from_reader p /\ honest p) sc -> no_end sc -> mon_ok sc st ->
  exists r st', plm_set_config sc c st = (Ret r, st') /\ mon_ok sc st'.
Proof.
  intros sc c st Hs Hn Hm. unfold plm_set_config.
  destruct (pw_write (retry (plm_pw sc) (p_retries st) true) (mkPkt pc_SetConfig (cfg_marshal c) 0) st) as [o st1] eqn:E.
  destruct (retry_mon _ _ _ _ _ _ _ Hs Hn Hm E) as (Hm1 & x & ->). destruct x as [a e]. eauto.
Qed.
Lemma read_mon : forall sc st, sched_all (fun p => from_reader p /\ honest p) sc -> no_end sc -> mon_ok sc st ->
  exists a e st', plm_read sc st = (Ret (a, e), st') /\ mon_ok sc st' /\
    ((exists m, a = Some m /\ e = None) \/ exists x, e = Some x /\ errors_is x EInsteonReadTimeout = true).
Proof.
  intros sc st Hs Hn (Hq & Ho & Hm). unfold plm_read. destruct (receive sc QMsg st) as [r st1] eqn:E.
  destruct (receive_all _ _ _ _ _ _ Hs Hq E) as [Q1 Q2]. destruct (receive_open _ _ _ _ _ Hn Ho E) as [O1 O2]. destruct (receive_net _ _ _ _ _ Hm E) as [N1 N2].
  destruct r as [p| |].
  - destruct (Q2 p eq_refl) as [P1 P2]. pose proof (network_decodes p P1 P2 (N2 p eq_refl eq_refl)) as Hd.
    destruct (msg_unmarshal msg_zero (p_payload p)) as [m e]. cbn [snd] in Hd. subst e.
    do 3 eexists. split; [reflexivity|]. split; [repeat split; try assumption; apply Q1|]. left. eauto.
  - congruence.
  - do 3 eexists. split; [reflexivity|]. split; [repeat split; try assumption; apply Q1|]. right. eexists. split; [reflexivity|]. reflexivity.
Qed.

Lemma monitor_plm : forall k fuel db sc st, sched_all (fun p => from_reader p /\ honest p) sc -> no_end sc -> mon_ok sc st -> 0 <= p_retries st ->
  exists s, monitor fuel db (plm_config sc) (plm_set_config sc) (plm_mw k sc) ([], (snoop_cache, st)) = (NoFuel, s) \/
    exists e, monitor fuel db (plm_config sc) (plm_set_config sc) (plm_mw k sc) ([], (snoop_cache, st)) = (Ret (Some e), s) /\ fst s = [] /\
      ((exists c st1, plm_config sc st = (Ret (c, Some e), st1)) \/
       exists c st1 st2, plm_config sc st = (Ret (c, None), st1) /\ plm_set_config sc (cfg_set_monitor c) st1 = (Ret (Some e), st2)).
Proof.
  intros k fuel db sc st Hs Hn Hm Hr.
  destruct (config_mon sc st Hs Hn Hm Hr) as ([c e] & st1 & E1 & Hm1). destruct e as [e|].
  - exists ([], (snoop_cache, st1)). right. exists e. split; [|split; [reflexivity|left; eauto]].
    unfold monitor, pbind, psnd. cbn [fst snd]. rewrite E1. reflexivity.
  - destruct (set_config_mon sc (cfg_set_monitor c) st1 Hs Hn Hm1) as (e & st2 & E2 & Hm2). destruct e as [e|].
    + exists ([], (snoop_cache, st2)). right. exists e. split; [|split; [reflexivity|right; eauto]].
      unfold monitor, pbind, psnd. cbn [fst snd]. rewrite E1. cbn [fst snd]. rewrite E2. reflexivity.
    + destruct (monitor_runs plm (plm_mw k sc) (mon_ok sc) db fuel [] snoop_cache st2 []) as (s & E3).
      * intros w Hw. apply read_mon; assumption.
      * exact Hm2.
      * apply dup_cache_inv.
      * exists s. left. unfold monitor, pbind, psnd. cbn [fst snd]. rewrite E1. cbn [fst snd]. rewrite E2. exact E3.
Qed.

(** Setting the monitor bit. *)
Lemma set_monitor_bits : forall c c', is_byte c -> is_byte c' -> (forall j, 0 <= j <= 7 -> (c' / 2 ^ j) mod 2 = if j =? 6 then 1 else (c / 2 ^ j) mod 2) ->
  cfg_set_monitor c = c'.
Proof.
  intros c c' Hc Hc' H.
  pose proof (sweep1 (fun c => cfg_set_monitor c =? c - 64 * ((c / 64) mod 2) + 64) ltac:(vm_compute; reflexivity) c Hc) as E. cbv beta in E.
  pose proof (H 0 ltac:(lia)) as H0. pose proof (H 1 ltac:(lia)) as H1. pose proof (H 2 ltac:(lia)) as H2. pose proof (H 3 ltac:(lia)) as H3.
  pose proof (H 4 ltac:(lia)) as H4. pose proof (H 5 ltac:(lia)) as H5. pose proof (H 6 ltac:(lia)) as H6. pose proof (H 7 ltac:(lia)) as H7.
  cbn [Z.eqb Pos.eqb] in *. change (2 ^ 0) with 1 in *. change (2 ^ 1) with 2 in *. change (2 ^ 2) with 4 in *. change (2 ^ 3) with 8 in *.
  change (2 ^ 4) with 16 in *. change (2 ^ 5) with 32 in *. change (2 ^ 6) with 64 in *. change (2 ^ 7) with 128 in *. unfold is_byte in *.
  clear H. assert (X : forall z, 0 <= z < 256 -> z = z / 1 mod 2 + 2 * (z / 2 mod 2) + 4 * (z / 4 mod 2) + 8 * (z / 8 mod 2) + 16 * (z / 16 mod 2) + 32 * (z / 32 mod 2) + 64 * (z / 64 mod 2) + 128 * (z / 128 mod 2)).
  { intros z Hz. lia. }
  rewrite (X c') by exact Hc'. rewrite H0, H1, H2, H3, H4, H5, H6, H7. rewrite (Z.eqb_eq _ _) in E. rewrite E. rewrite (X c) at 1 by exact Hc. lia.
Qed.
