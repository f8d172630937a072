(** C03, C05, C25, C43, C52, C54, C60, C62: functions beside the main paths - product data, the reasons of refusals, the named flags,
    the modem's information as bytes, a group given as a word, the pause in linking mode, short texts. *)
From Coq Require Import ZArith List Bool String Lia ZifyBool ZifyNat.
From Verif Require Import GoBase GoLemmas GoText GoProg Address AddressSpec AddressProofs Command CodecProofs Message MessageSpec MessageProofs
  GoJson JsonProofs PlmPacket Plm MsgWriter FiltersSpec FiltersProofs BasicDevice DevReqSpec DevReqProofs DeviceProofs Timing TimingSpec LinkSpec LinkProofs Link LinkText
  Display DisplaySpec DisplayProofs DisplayProofs2 IcDevProofs EditLineSpec EditLineProofs IcVarsSpec Props_Filters.
Import ListNotations.
Open Scope string_scope.
Open Scope list_scope.
Open Scope Z_scope.
Ltac Zify.zify_post_hook ::= Z.div_mod_to_equations.

(** * C43.  Product data. *)
(** What is taken for the response: any message whose first command byte is 3. *)
Definition product_response (m : message) : Prop := (m_cmd m / 256) mod 256 = 3.
Lemma product_matcher : forall m, cmd_matcher c_ProductDataResp m = true <-> product_response m.
Proof. intro m. unfold cmd_matcher, product_response. rewrite cmd_matches_iff. change ((c_ProductDataResp / 256) mod 256) with 3. lia. Qed.

(** The product data reported: the device was asked once, the first response was taken, and the key and the category are the bytes at
    their places in it. *)
Theorem C43_product_data : forall W (mw : mwriter W) fuel info w pd w' log,
  bd_product_data fuel info (mlogged mw) (w, []) = (Ret (Some pd, None), (w', log)) ->
  exists q a pre m k0 k1 k2 c0 c1 b0 rest,
    log = MW q (Ret (a, None)) :: map (fun x => MR (Ret (Some x, None))) (pre ++ [m]) /\
    is_request info 3 0 [] q /\ Forall (fun x => ~ product_response x) pre /\ product_response m /\
    m_payload m = b0 :: k0 :: k1 :: k2 :: c0 :: c1 :: rest /\ (8 <= List.length rest)%nat /\ pd = ([k0; k1; k2], [c0; c1]).
Proof.
  intros W mw fuel info w pd w' log H. unfold bd_product_data, bd_write, pbind in H. rewrite mlogged_write in H.
  assert (Hq := outgoing_is_request info c_ProductDataReq [] ltac:(left; cbn; lia)).
  change (command1 c_ProductDataReq) with 3 in Hq. change (command2 c_ProductDataReq) with 0 in Hq.
  destruct (mw_write mw (outgoing info (mkMsg 0 0 0 c_ProductDataReq [])) w) as [[[a [e|]]| |] w1]; try discriminate.
  rewrite read_match_bd in H.
  destruct (read_match fuel (mlogged mw) (cmd_matcher c_ProductDataResp) _) as [[[r e]| |] [w2 l2]] eqn:E in H; try discriminate.
  destruct (read_match_log _ _ _ _ _ _ _ _ _ _ E) as (pre & El & Hp & Hm).
  destruct e as [e|]; [discriminate|]. destruct (Hm eq_refl) as (m & -> & Hx).
  unfold pd_unmarshal in H. destruct (zlen (m_payload m) <? 14) eqn:Ez; [discriminate|].
  unfold pret in H. injection H as H1 H2 H3. subst w2 l2.
  destruct (m_payload m) as [|b0 [|k0 [|k1 [|k2 [|c0 [|c1 rest]]]]]] eqn:Ep; try (cbn in Ez; discriminate).
  exists (outgoing info (mkMsg 0 0 0 c_ProductDataReq [])), a, pre, m, k0, k1, k2, c0, c1, b0, rest.
  split; [rewrite El, map_app; reflexivity|]. split; [exact Hq|].
  split. { eapply Forall_impl; [|exact Hp]. cbv beta. intros x Hf Hr. apply product_matcher in Hr. congruence. }
  split; [apply product_matcher; exact Hx|]. split; [exact Ep|]. split; [unfold zlen in Ez; cbn [List.length] in Ez; lia|].
  rewrite <- H1. reflexivity.
Qed.
Lemma read_match_script : forall p pre x rest fuel, Forall (fun y => p y = false) pre -> p x = true -> (List.length pre < fuel)%nat ->
  read_match fuel script_mw p (map (fun y => (Some y, None)) pre ++ (Some x, None) :: rest) = (Ret (Some x, None), rest).
Proof.
  intros p pre x rest fuel H Hx. revert fuel. induction H as [|y pre Hy H IH]; intros [|fuel] Hf; cbn [List.length] in Hf; try lia;
    cbn [read_match map app]; unfold pbind; cbn [script_mw mw_read].
  - rewrite Hx. reflexivity.
  - rewrite Hy. apply IH. lia.
Qed.
(** And conversely: a device that acknowledges and then, after any other messages, responds with fourteen bytes or more has its key and
    category reported; a shorter response is an error. *)
Theorem C43_product_data_reported : forall info a pre m rest fuel b0 k0 k1 k2 c0 c1 more,
  Forall (fun x => ~ product_response x) pre -> product_response m -> (List.length pre < fuel)%nat ->
  m_payload m = b0 :: k0 :: k1 :: k2 :: c0 :: c1 :: more ->
  bd_product_data fuel info script_mw ((a, None) :: map (fun x => (Some x, None)) pre ++ (Some m, None) :: rest) =
    (Ret (if (8 <=? List.length more)%nat then (Some ([k0; k1; k2], [c0; c1]), None)
          else (Some ([0; 0; 0], [0; 0]), Some (EWrap EBufferTooShort))), rest).
Proof.
  intros info a pre m rest fuel b0 k0 k1 k2 c0 c1 more Hp Hm Hf Ep. unfold bd_product_data, bd_write, pbind. cbn [script_mw mw_write].
  rewrite read_match_bd. change (mkMW _ _) with script_mw. rewrite read_match_script; [|..|exact Hf].
  - unfold pd_unmarshal. rewrite Ep. unfold zlen. cbn [List.length].
    destruct (8 <=? List.length more)%nat eqn:E; destruct (Z.of_nat _ <? 14) eqn:E2; try lia; reflexivity.
  - eapply Forall_impl; [|exact Hp]. cbv beta. intros x Hx. destruct (cmd_matcher c_ProductDataResp x) eqn:E; [|reflexivity].
    apply product_matcher in E. contradiction.
  - apply product_matcher. exact Hm.
Qed.
Definition ex_product : message := mkMsg 0x111111 0x222222 0x1b 0x010300 [0; 1; 2; 3; 4; 5; 255; 0; 0; 0; 0; 0; 0; 0].
Example C43_product_data_case : exists w' log,
  bd_product_data 5 (mkDI 0x111111 0 0 0 2) (mlogged script_mw)
    ([(Some ex_write, None); (Some ex_write, None); (Some ex_product, None)], []) = (Ret (Some ([1; 2; 3], [4; 5]), None), (w', log)).
Proof. eexists _, _. vm_compute. reflexivity. Qed.
Example C43_product_data_reported_case : ~ product_response ex_write /\ product_response ex_product /\
  bd_product_data 5 (mkDI 0x111111 0 0 0 2) script_mw [(Some ex_write, None); (Some ex_write, None); (Some ex_product, None); (None, None)] =
    (Ret (Some ([1; 2; 3], [4; 5]), None), [(None, None)]).
Proof. unfold product_response. split; [vm_compute; discriminate|]. split; vm_compute; reflexivity. Qed.
(** The response is not checked to be the device's own: another device's response is reported as this device's. *)
Theorem C43_foreign_product_data_refuted : exists info a m pd,
  m_src m <> di_addr info /\ bd_product_data 5 info script_mw [(Some a, None); (Some m, None)] = (Ret (Some pd, None), []).
Proof. exists (mkDI 0x333333 0 0 0 2), ex_write, ex_product. eexists. split; [vm_compute; discriminate|vm_compute; reflexivity]. Qed.

(** Product data as bytes: sent in an extended message (filled up to fourteen bytes, whatever follows) they come back ... *)
Theorem C43_product_encoding : forall k0 k1 k2 c0 c1 fill old, 7 <= zlen fill ->
  pd_unmarshal old (pd_marshal ([k0; k1; k2], [c0; c1]) ++ fill) = (([k0; k1; k2], [c0; c1]), None) /\
  pd_marshal ([k0; k1; k2], [c0; c1]) = [0; k0; k1; k2; c0; c1; 255].
Proof.
  intros k0 k1 k2 c0 c1 fill old Hf. split; [|reflexivity].
  change (pd_marshal ([k0; k1; k2], [c0; c1])) with [0; k0; k1; k2; c0; c1; 255]. unfold pd_unmarshal, zlen in *. cbn [app List.length].
  destruct (Z.of_nat _ <? 14) eqn:E; [lia|]. reflexivity.
Qed.
(** ... but the bytes alone are refused by the reader of the same type. *)
Theorem C43_product_encoding_refuted : exists pd old, List.length (fst pd) = 3%nat /\ List.length (snd pd) = 2%nat /\
  pd_unmarshal old (pd_marshal pd) = (old, Some (EWrap EBufferTooShort)).
Proof. exists ([1; 2; 3], [4; 5]), ([0; 0; 0], [0; 0]). repeat split. Qed.
Example C43_product_encoding_case : 7 <= zlen (zeros 7) /\
  pd_unmarshal ([0; 0; 0], [0; 0]) (pd_marshal ([1; 2; 3], [4; 5]) ++ zeros 7) = (([1; 2; 3], [4; 5]), None).
Proof. split; [vm_compute; discriminate|reflexivity]. Qed.

(** * C25.  The reasons of refusals. *)
(** The second command byte of a refusal and its meaning: for devices of all engines, for those with checksums, for those without. *)
Definition reasons : list (Z * error) := [(0xfe, EDevNoLoadDetected); (0xff, EDevNotLinked)].
Definition reasons_checksum : list (Z * error) := [(0xfb, EDevIllegalValue); (0xfc, EPreNak); (0xfd, EDevIncorrectChecksum)].
Definition reasons_plain : list (Z * error) := [(0xfd, EUnknownCommand)].
Definition reason (checksums : bool) (code : Z) (e : error) : Prop :=
  let known := (if checksums then reasons_checksum else reasons_plain) ++ reasons in
  In (code, e) known \/ (~ In code (map fst known) /\ e = EDevUnexpectedResponse).
Theorem C25_nak_reasons : forall info m e,
  err_lookup info m (Some EDevNak) = Some e <-> reason (di_engine info =? 2) (m_cmd m mod 256) e.
Proof.
  intros info m e. unfold err_lookup, reason. change (err_is (Some EDevNak) EDevNak) with true.
  assert (Hc : Z.land (command2 (m_cmd m)) 255 = m_cmd m mod 256).
  { rewrite command2_mod. change 255 with (Z.ones 8). rewrite Z.land_ones by lia. change (2 ^ 8) with 256. apply Z.mod_mod. lia. }
  cbv zeta. rewrite Hc. clear Hc.
  unfold ver_I2Cs. generalize (m_cmd m mod 256). intro c. destruct (di_engine info =? 2); cbn [reasons_checksum reasons_plain reasons app In map fst];
  repeat match goal with |- context [if ?c =? ?k then _ else _] => destruct (Z.eqb_spec c k); [subst c|] end; (split; [intro H; injection H as <-|]);
  try (left; auto 10; fail); try (right; split; [lia|reflexivity]); (intros [H|[H ->]]; [|try reflexivity; exfalso; apply H; auto 10]);
  repeat (destruct H as [H|H]; [first [discriminate H|inversion H; subst; try reflexivity; exfalso; congruence]|]); contradiction.
Qed.

(** Any other error, or none, is left as it is. *)
Theorem C25_nak_reasons_only : forall info m err, err <> Some EDevNak -> err_lookup info m err = err.
Proof.
  intros info m [e|] H; [|reflexivity]. unfold err_lookup, err_is. destruct (error_eqb e EDevNak) eqn:E; [|reflexivity].
  apply error_eqb_eq in E. subst e. congruence.
Qed.
(** Sending a command never consults this table: the reason a device gives for refusing is not what the caller is told. *)
Theorem C25_reason_lost_refuted : exists info m e, reason (di_engine info =? 2) (m_cmd m mod 256) e /\
  bd_send info script_mw 0x1100 [] [(Some m, Some EDevNak)] = (Ret (0, Some EDevNak), []) /\ e <> EDevNak.
Proof.
  exists (mkDI 0x111111 0 0 0 2), (mkMsg 0x111111 0x222222 0xab 0x11fd []), EDevIncorrectChecksum.
  split; [left; cbn; tauto|]. split; [reflexivity|discriminate].
Qed.
Example C25_nak_reasons_case :
  err_lookup (mkDI 0x111111 0 0 0 2) (mkMsg 0x111111 0x222222 0xab 0x11fd []) (Some EDevNak) = Some EDevIncorrectChecksum /\
  err_lookup (mkDI 0x111111 0 0 0 1) (mkMsg 0x111111 0x222222 0xab 0x11fd []) (Some EDevNak) = Some EUnknownCommand /\
  Some EDevReadTimeout <> Some EDevNak /\ err_lookup (mkDI 0x111111 0 0 0 1) ex_product (Some EDevReadTimeout) = Some EDevReadTimeout.
Proof. repeat split; try reflexivity. discriminate. Qed.

(** * C03.  The named flags: what each name says, with two hops of at most two. *)
Definition named_flags : list (Z * (kind * bool)) :=
  [(fl_StandardBroadcast, (KBroadcast, false)); (fl_StandardAllLinkBroadcast, (KAllLink, false));
   (fl_StandardDirectMessage, (KDirect, false)); (fl_StandardDirectAck, (KDirectAck, false)); (fl_StandardDirectNak, (KDirectNak, false));
   (fl_ExtendedDirectMessage, (KDirect, true)); (fl_ExtendedDirectAck, (KDirectAck, true)); (fl_ExtendedDirectNak, (KDirectNak, true))].
Theorem C03_named_flags : Forall (fun x => flags_layout (fst x) (fst (snd x)) (snd (snd x)) 2 2) named_flags.
Proof. repeat constructor; vm_compute; congruence. Qed.

(** * C05.  Records made from a group and an address: in use, in the role named, with no data. *)
Theorem C05_made_links : forall g a b2 b1 b0, is_byte b2 -> is_byte b1 -> is_byte b0 -> a = 65536 * b2 + 256 * b1 + b0 -> is_byte g ->
  link_marshal (controller_link g a) = [0xc2; g; b2; b1; b0; 0; 0; 0] /\
  link_marshal (responder_link g a) = [0x82; g; b2; b1; b0; 0; 0; 0].
Proof.
  intros g a b2 b1 b0 H2 H1 H0 -> Hg. pose proof (addr_bytes_put b2 b1 b0 H2 H1 H0) as E. unfold addr_put in E. cbn [go_copy] in E.
  replace (65536 * b2 + 256 * b1 + b0) with (b2 * 65536 + b1 * 256 + b0) by lia.
  unfold link_marshal, controller_link, responder_link. cbn [l_flags l_group l_addr l_d0 l_d1 l_d2]. rewrite E. split; reflexivity.
Qed.
Example C05_made_links_case : link_marshal (controller_link 5 0x1a2b3c) = [0xc2; 5; 0x1a; 0x2b; 0x3c; 0; 0; 0].
Proof. reflexivity. Qed.

(** * C52.  The modem's information as bytes. *)
Theorem C52_info_round_trip : forall i rest, 0 <= i_addr i < 2 ^ 24 -> info_unmarshal (info_marshal i ++ rest) = Ret i.
Proof.
  intros [a c0 c1 fw] rest H. unfold info_marshal, info_unmarshal. cbn [i_addr i_dc0 i_dc1 i_fw] in *. pose proof (addr_put_bytes a H) as E.
  destruct (addr_bytes a) as [|x [|y [|z [|u t]]]] eqn:Eb; try (exfalso; revert Eb; unfold addr_bytes; discriminate).
  cbn [app]. rewrite E. reflexivity.
Qed.
Theorem C52_info_bytes : forall a2 a1 a0 c0 c1 fw i, is_byte a2 -> is_byte a1 -> is_byte a0 ->
  info_unmarshal [a2; a1; a0; c0; c1; fw] = Ret i -> info_marshal i = [a2; a1; a0; c0; c1; fw].
Proof.
  intros a2 a1 a0 c0 c1 fw i H2 H1 H0 H. cbn [info_unmarshal] in H. injection H as <-. unfold info_marshal. cbn [i_addr i_dc0 i_dc1 i_fw].
  rewrite addr_bytes_put by assumption. reflexivity.
Qed.
Example C52_info_round_trip_case : info_marshal (mkInfo 0x1a2b3c 3 0x15 0x9b) = [0x1a; 0x2b; 0x3c; 3; 0x15; 0x9b] /\
  info_unmarshal (info_marshal (mkInfo 0x1a2b3c 3 0x15 0x9b) ++ [6]) = Ret (mkInfo 0x1a2b3c 3 0x15 0x9b).
Proof. split; reflexivity. Qed.

(** * C54.  A group given as a word. *)
(** What is taken: blanks, then decimal digits that make a number below 256; anything may follow them. *)
Definition group_taken (t : list Z) (v : Z) : Prop :=
  exists sp ds vs rest, t = sp ++ ds ++ rest /\ Forall blank sp /\ Forall2 dec_digit ds vs /\ ds <> [] /\
    (forall c r, rest = c :: r -> ~ exists n, dec_digit c n) /\ v = decimal_value 0 vs /\ v < 256.
Lemma dec_digits_run : forall ds vs rest acc n, Forall2 dec_digit ds vs -> (forall c r, rest = c :: r -> ~ exists k, dec_digit c k) ->
  take_digits dec_val 10 None acc n (ds ++ rest) = (decimal_value acc vs, (n + List.length ds)%nat, rest).
Proof.
  induction ds as [|d ds IH]; intros vs rest acc n Hf Hr; inversion Hf as [|d' v ds' vs' Hd Hds]; subst.
  - cbn [app List.length decimal_value]. rewrite Nat.add_0_r. destruct rest as [|c r]; [reflexivity|].
    cbn [take_digits]. destruct (dec_val c) as [k|] eqn:E; [|reflexivity].
    exfalso. apply (Hr c r eq_refl). exists k. apply EditLineProofs.dec_val_digit. exact E.
  - cbn [app take_digits]. apply EditLineProofs.dec_val_digit in Hd. rewrite Hd. rewrite (IH vs') by auto.
    cbn [List.length decimal_value]. replace (acc * 10 + v) with (10 * acc + v) by lia.
    replace (S n + List.length ds)%nat with (n + S (List.length ds))%nat by lia. reflexivity.
Qed.
Lemma dec_digits_stop : forall s acc n v m rest, take_digits dec_val 10 None acc n s = (v, m, rest) ->
  forall c r, rest = c :: r -> ~ exists k, dec_digit c k.
Proof.
  induction s as [|x s IH]; intros acc n v m rest H c r Hc; cbn [take_digits] in H.
  - injection H as _ _ <-. discriminate.
  - destruct (dec_val x) as [d|] eqn:E; [eapply IH; eassumption|]. injection H as _ _ <-. injection Hc as <- <-.
    intros [k Hk]. apply EditLineProofs.dec_val_digit in Hk. congruence.
Qed.
Lemma scan_dec8_text : forall t v, (exists r, scan_dec8 t = Some (v, r)) <-> group_taken t v.
Proof.
  intros t v. unfold scan_dec8, group_taken. split.
  - intros [r H]. destruct (skip_space t) as [s1|] eqn:Es; [|discriminate].
    destruct (skip_space_spec _ _ Es) as [sp [-> [Hsp _]]].
    destruct (take_digits dec_val 10 None 0 0 s1) as [[v' n] rest] eqn:E. pose proof (dec_digits_stop _ _ _ _ _ _ E) as Hr.
    destruct (dec_digits_spec _ _ _ _ _ _ E) as (ds & vs & -> & Hf & -> & ->).
    destruct ds as [|d ds]; [discriminate|]. cbn [Nat.add List.length Nat.eqb] in H.
    destruct (decimal_value 0 vs <? 256) eqn:El; [|discriminate]. injection H as <- <-.
    exists sp, (d :: ds), vs, rest. repeat split; auto; [discriminate|lia].
  - intros (sp & ds & vs & rest & -> & Hsp & Hf & Hne & Hr & -> & Hv). exists rest.
    rewrite skip_space_blanks by exact Hsp.
    destruct ds as [|d ds]; [congruence|].
    assert (Hss : skip_space ((d :: ds) ++ rest) = Some ((d :: ds) ++ rest)).
    { cbn [app skip_space]. inversion Hf as [|? v0 ? ? Hd _]; subst.
      replace (d =? ch_nl) with false by (unfold ch_nl; destruct Hd; lia).
      replace (is_space d) with false by (unfold is_space, wide_space; destruct Hd; lia). reflexivity. }
    rewrite Hss, (dec_digits_run _ vs) by auto.
    cbn [List.length Nat.add Nat.eqb]. replace (decimal_value 0 vs <? 256) with true by lia. reflexivity.
Qed.
Theorem C54_group : forall g t v, group_set g t = (v, None) <-> group_taken t v.
Proof.
  intros g t v. rewrite <- scan_dec8_text. unfold group_set. destruct (scan_dec8 t) as [[x r]|].
  - split; [intro H; injection H as <-; eauto|intros [r' H]; injection H as <- <-; reflexivity].
  - split; [discriminate|intros [r' H]; discriminate].
Qed.
(** Anything else is an error and leaves the group alone. *)
Theorem C54_group_otherwise : forall g t, (forall v, ~ group_taken t v) -> exists e, group_set g t = (g, Some e).
Proof.
  intros g t H. unfold group_set. destruct (scan_dec8 t) as [[x r]|] eqn:E; [|eauto]. exfalso. apply (H x). apply scan_dec8_text. eauto.
Qed.
Theorem C54_group_garbage_refuted : exists g t, ~ Forall (fun c => exists v, dec_digit c v) t /\ group_set g t = (12, None).
Proof.
  exists 0, (zs "12.34"). split; [|reflexivity]. intro H. cbn in H. do 2 apply Forall_inv_tail in H. apply Forall_inv in H.
  destruct H as (v & Hv & E). lia.
Qed.
Example C54_group_case : group_set 1 (zs " 255") = (255, None) /\ group_set 1 (zs "007") = (7, None) /\
  (exists e, group_set 1 (zs "256") = (1, Some e)) /\ (exists e, group_set 1 (zs "-1") = (1, Some e)) /\ (forall v, ~ group_taken (zs "256") v).
Proof.
  split; [reflexivity|]. split; [reflexivity|]. split; [eexists; reflexivity|]. split; [eexists; reflexivity|].
  intros v H. apply (proj2 (C54_group 1 _ _)) in H. discriminate.
Qed.

(** * C60.  The pause in linking mode is half a second more than a message of fourteen bytes with three hops needs. *)
Theorem C60_linking_mode_pause : exists d, cycles_60hz (14 * 4) d /\ linking_mode_wait_time = d + 500000000.
Proof. exists 933333333. split; [unfold cycles_60hz; lia|reflexivity]. Qed.

(** * C62.  Short texts. *)
(** A packet in one word or two: the text of [String] tells the command and how the packet ended, nothing of the payload. *)
Lemma pkt_string_text : forall p e, packet_ok p -> ending_of p e -> pkt_string p = Ret (plm_name (p_cmd p) ++ ending_text e).
Proof.
  intros p e (Hc & _) He. unfold pkt_string. rewrite (plm_name_ret _ Hc). destruct (ending_exists p) as (e' & He' & E).
  rewrite (ending_unique _ _ _ He He'). rewrite <- E. unfold pkt_is_ack, pkt_is_nak. destruct (0x60 <=? p_cmd p); reflexivity.
Qed.
Theorem C62_packet_short : forall p q, packet_ok p -> packet_ok q ->
  (pkt_string p = pkt_string q <-> p_cmd p = p_cmd q /\ forall e, ending_of p e <-> ending_of q e).
Proof.
  intros p q Hp Hq. destruct (ending_exists p) as (e & He & _). destruct (ending_exists q) as (f & Hf & _).
  rewrite (pkt_string_text p e Hp He), (pkt_string_text q f Hq Hf). split.
  - intro H. injection H as H. apply plm_name_cut in H; [|apply Hp|apply Hq]. destruct H as [Hc H]. split; [exact Hc|].
    assert (e = f) by (destruct e, f; try reflexivity; discriminate H). subst f. intro x. split; intro Hx.
    + rewrite (ending_unique _ _ _ Hx He). exact Hf.
    + rewrite (ending_unique _ _ _ Hx Hf). exact He.
  - intros [Hc H]. apply H in He. rewrite (ending_unique _ _ _ Hf He), Hc. reflexivity.
Qed.
Example C62_packet_short_case : packet_ok (mkPkt 0x6b [0x40] 0x06) /\ pkt_string (mkPkt 0x6b [0x40] 0x06) = Ret (zs "Set Config ACK") /\
  pkt_string (mkPkt 0x6b [0x40] 0x15) = Ret (zs "Set Config NAK").
Proof. split; [repeat split; try (vm_compute; congruence); repeat constructor; vm_compute; congruence|]. split; vm_compute; reflexivity. Qed.

(** The description of a device tells its address, category, firmware and engine. *)
Lemma ev_cut : forall a b x y, ev_string a ++ zs " Device (" ++ x = ev_string b ++ zs " Device (" ++ y -> ev_string a = ev_string b /\ x = y.
Proof.
  intros a b x y H. unfold ev_string in *.
  destruct (a =? 0), (b =? 0), (a =? 1), (b =? 1), (a =? 2), (b =? 2); cbn in *; try discriminate H; injection H as H; auto.
Qed.
Lemma ev_inj : forall a b, 0 <= a <= 2 -> 0 <= b <= 2 -> ev_string a = ev_string b -> a = b.
Proof.
  intros a b Ha Hb H. unfold ev_string in H.
  destruct (a =? 0) eqn:A0, (b =? 0) eqn:B0, (a =? 1) eqn:A1, (b =? 1) eqn:B1, (a =? 2) eqn:A2, (b =? 2) eqn:B2; cbn in H; try discriminate H; lia.
Qed.
Theorem C62_description : forall i j, word24 (di_addr i) -> word24 (di_addr j) -> is_byte (di_dc0 i) -> is_byte (di_dc0 j) ->
  is_byte (di_dc1 i) -> is_byte (di_dc1 j) -> 0 <= di_engine i <= 2 -> 0 <= di_engine j <= 2 -> basic_dump i = basic_dump j -> i = j.
Proof.
  intros [a d0 d1 f e] [a' d0' d1' f' e']. cbn [di_addr di_dc0 di_dc1 di_fw di_engine]. intros Ha Ha' Hd Hd' Hd1 Hd1' He He' H.
  unfold basic_dump, basic_string, devcat_string, fw_string in H. cbn [di_addr di_dc0 di_dc1 di_fw di_engine] in H. apply app_inv_head in H.
  repeat rewrite <- app_assoc in H. apply ev_cut in H. destruct H as [Hev H]. apply ev_inj in Hev; [|assumption..]. subst e'.
  apply addr_string_cut in H; [|assumption..]. destruct H as [-> H]. do 3 apply app_inv_head in H.
  apply fmt_02x_cut in H; [|assumption..]. destruct H as [-> H]. apply app_inv_head in H.
  apply fmt_02x_cut in H; [|assumption..]. destruct H as [-> H]. do 2 apply app_inv_head in H.
  apply num_cut in H; [|unfold is_num, is_dec, ch_nl; lia]. destruct H as [-> _]. reflexivity.
Qed.
Example C62_description_case : basic_dump (mkDI 0x1a2b3c 1 0x20 0x45 2) =
  zs "        Device: I2Cs Device (1a.2b.3c)" ++ [10] ++ zs "      Category: 01.20" ++ [10] ++ zs "      Firmware: 69" ++ [10] ++
  zs "Engine Version: I2Cs" ++ [10].
Proof. vm_compute. reflexivity. Qed.

(** Each setter of a record's flags does to its bit what its name says and nothing to the others. *)
Definition sets_only (f : Z -> Z) (p v : Z) : Prop := forall x, is_byte x -> is_byte (f x) /\ forall n, 0 <= n < 8 -> bit n (f x) = if n =? p then v else bit n x.
Theorem C05_named_setters :
  sets_only rcf_set_in_use 7 1 /\ sets_only rcf_set_available 7 0 /\ sets_only rcf_set_controller 6 1 /\ sets_only rcf_set_responder 6 0 /\
  sets_only rcf_clear_last_record 1 1 /\ sets_only rcf_set_last_record 1 0.
Proof.
  assert (A : forall p, 0 <= p < 8 -> sets_only (fun x => rcf_set_bit x p) p 1).
  { intros p Hp x Hx. split; [apply (rcf_bit_ops x 0 p); lia || assumption|]. intros n Hn. apply (rcf_bit_ops x n p); assumption. }
  assert (B : forall p, 0 <= p < 8 -> sets_only (fun x => rcf_clear_bit x p) p 0).
  { intros p Hp x Hx. split; [apply (rcf_bit_ops x 0 p); lia || assumption|]. intros n Hn. apply (rcf_bit_ops x n p); assumption. }
  repeat split; try (apply A; lia || assumption); try (apply B; lia || assumption).
Qed.
Example C05_named_setters_case : rcf_set_in_use 0x42 = 0xc2 /\ rcf_set_available 0xc2 = 0x42 /\ rcf_set_last_record 0xe2 = 0xe0.
Proof. repeat split. Qed.

Print Assumptions C43_product_data.
Print Assumptions C43_product_data_reported.
Print Assumptions C43_foreign_product_data_refuted.
Print Assumptions C43_product_encoding.
Print Assumptions C43_product_encoding_refuted.
Print Assumptions C25_nak_reasons.
Print Assumptions C25_nak_reasons_only.
Print Assumptions C25_reason_lost_refuted.
Print Assumptions C03_named_flags.
Print Assumptions C05_made_links.
Print Assumptions C05_named_setters.
Print Assumptions C52_info_round_trip.
Print Assumptions C52_info_bytes.
Print Assumptions C54_group.
Print Assumptions C54_group_otherwise.
Print Assumptions C54_group_garbage_refuted.
Print Assumptions C60_linking_mode_pause.
Print Assumptions C62_packet_short.
Print Assumptions C62_description.
