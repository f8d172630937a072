(** Lemmas about encodings in the shape the property files state them. *)
From Coq Require Import ZArith List Bool Lia ZifyBool ZifyNat.
From Verif Require Import GoBase GoLemmas GoText Address AddressSpec AddressProofs Command Message MessageSpec MessageProofs
  Link LinkText LinkSpec LinkProofs PlmPacket PlmReader PlmReaderSpec PlmReaderProofs.
Import ListNotations.
Open Scope Z_scope.
Ltac Zify.zify_post_hook ::= Z.div_mod_to_equations.

Lemma nth_is_byte : forall l n, bytes_ok l -> is_byte (nth n l 0).
Proof.
  intros l n H. revert n. induction H as [|x l Hx H IH]; intros [|n]; cbn [nth]; auto; unfold is_byte; lia.
Qed.

Lemma need_spec : forall data, bytes_ok data -> need data = if (nth 6 data 0 / 16) mod 2 =? 1 then 23%nat else 9%nat.
Proof. intros data H. unfold need. rewrite extended_bit by (apply nth_is_byte; exact H). reflexivity. Qed.

Lemma msg_decode_ok_iff : forall old data, bytes_ok data ->
  (snd (msg_unmarshal old data) = None <->
   (9 <= length data)%nat /\ ((nth 6 data 0 / 16) mod 2 = 1 -> (23 <= length data)%nat)).
Proof.
  intros old data H. rewrite msg_unmarshal_ok_iff, need_spec by exact H.
  destruct (Z.eqb_spec ((nth 6 data 0 / 16) mod 2) 1) as [E|E]; split; intros [H1 H2]; split; auto; try lia; intros; contradiction.
Qed.

Lemma msg_decode_error : forall old data e, snd (msg_unmarshal old data) = Some e -> errors_is e EBufferTooShort = true.
Proof. intros old data e H. rewrite (msg_unmarshal_err _ _ _ H). reflexivity. Qed.

Lemma msg_reencode_spec : forall old data m, bytes_ok data -> msg_unmarshal old data = (m, None) ->
  msg_marshal m = firstn (if (nth 6 data 0 / 16) mod 2 =? 1 then 23 else 9) data.
Proof. intros old data m H1 H2. rewrite <- need_spec by exact H1. apply (msg_reencode old); assumption. Qed.

Lemma zeros_repeat : forall n, zeros n = repeat 0 n.
Proof. reflexivity. Qed.

Lemma msg_encode_layout : forall m, msg_wf m ->
  msg_layout (m_src m) (m_dst m) (m_flags m) ((m_cmd m / 256) mod 256) (m_cmd m mod 256)
    (if (m_flags m / 16) mod 2 =? 1 then firstn 14 (m_payload m) ++ repeat 0 (14 - length (m_payload m)) else [])
    (msg_marshal m).
Proof.
  intros m H. pose proof (msg_marshal_layout m H) as HL.
  rewrite extended_bit in HL by apply H. exact HL.
Qed.

Lemma msg_roundtrip_spec : forall m, msg_wf m -> exists m', msg_unmarshal msg_zero (msg_marshal m) = (m', None) /\
  m_src m' = m_src m /\ m_dst m' = m_dst m /\ m_flags m' = m_flags m /\
  command1 (m_cmd m') = command1 (m_cmd m) /\ command2 (m_cmd m') = command2 (m_cmd m) /\
  m_payload m' = (if (m_flags m / 16) mod 2 =? 1 then firstn 14 (m_payload m) ++ repeat 0 (14 - length (m_payload m)) else []).
Proof.
  intros m H. eexists. split; [apply msg_roundtrip; exact H|].
  cbn [m_src m_dst m_flags m_cmd m_payload]. rewrite !command1_arith, !command2_arith.
  destruct (cmd_from_parts (m_flags m) ((m_cmd m / 256) mod 256) (m_cmd m mod 256)) as [H1 H2];
    [apply H|unfold is_byte; lia|unfold is_byte; lia|].
  rewrite H1, H2, extended_bit by apply H. repeat split; reflexivity.
Qed.

Lemma msg_roundtrip_command : forall m k ext l h, msg_wf m -> flags_layout (m_flags m) k ext l h ->
  m_cmd m = class_of k ext * 65536 + m_cmd m mod 65536 ->
  m_cmd (fst (msg_unmarshal msg_zero (msg_marshal m))) = m_cmd m.
Proof.
  intros m k ext l h H HL Hc. rewrite msg_roundtrip by exact H. cbn [fst m_cmd].
  rewrite (cmd_from_layout _ _ _ _ _ _ _ HL) by (unfold is_byte; lia).
  pose proof (class_of_range k ext). lia.
Qed.

Lemma ack_nak_exclusive : forall f, is_byte f -> fl_ack f && fl_nak f = false.
Proof.
  intros f H. destruct (accessors_layout _ _ _ _ _ (layout_exists f H)) as (_ & _ & _ & _ & _ & _ & Ha & Hn & _).
  rewrite Ha, Hn. destruct (kind_of_bits (f / 32)); reflexivity.
Qed.

(** ** Duplicates *)
Lemma layout_byte : forall f k e l m, flags_layout f k e l m -> is_byte f.
Proof. intros f k e l m H. apply (accessors_layout _ _ _ _ _ H). Qed.

Lemma layout_mod4 : forall f k e l m, flags_layout f k e l m -> f mod 4 = m.
Proof.
  intros f k e l m (H1 & H2 & ->). destruct e; lia.
Qed.

Lemma duplicate_iff_layout : forall m o k1 k2 e1 e2 l1 l2 h1 h2,
  flags_layout (m_flags m) k1 e1 l1 h1 -> flags_layout (m_flags o) k2 e2 l2 h2 ->
  (msg_duplicate m o = true <->
   m_src m = m_src o /\ m_dst m = m_dst o /\ m_cmd m = m_cmd o /\ h1 = h2 /\ m_payload m = m_payload o).
Proof.
  intros m o k1 k2 e1 e2 l1 l2 h1 h2 H1 H2.
  rewrite msg_duplicate_iff by (eapply layout_byte; eassumption).
  rewrite (layout_mod4 _ _ _ _ _ H1), (layout_mod4 _ _ _ _ _ H2). tauto.
Qed.

Lemma retransmission_duplicate : forall m o, same_but_hops_left m o -> msg_duplicate m o = true.
Proof.
  intros m o (H1 & H2 & H3 & H4 & k & e & l1 & l2 & h & H5 & H6).
  apply (duplicate_iff_layout m o _ _ _ _ _ _ _ _ H5 H6). auto.
Qed.

Lemma duplicate_iff_same_kind : forall m o k1 k2 e1 e2 l1 l2 h1 h2,
  flags_layout (m_flags m) k1 e1 l1 h1 -> flags_layout (m_flags o) k2 e2 l2 h2 -> k1 = k2 -> e1 = e2 ->
  (msg_duplicate m o = true <-> same_but_hops_left m o).
Proof.
  intros m o k1 k2 e1 e2 l1 l2 h1 h2 H1 H2 <- <-. split; [|apply retransmission_duplicate].
  intro H. apply (duplicate_iff_layout m o _ _ _ _ _ _ _ _ H1 H2) in H.
  destruct H as (A & B & C & D & E). subst h2. repeat split; auto. exists k1, e1, l1, l2, h1. auto.
Qed.

Lemma duplicate_ignores_kind : exists m o, msg_duplicate m o = true /\ ~ same_but_hops_left m o /\
  fl_ack (m_flags m) = false /\ fl_ack (m_flags o) = true.
Proof.
  exists (mkMsg 1 2 0x0a 0x1000 []), (mkMsg 1 2 0x2a 0x1000 []). split; [reflexivity|].
  split; [|split; reflexivity].
  intros (_ & _ & _ & _ & k & e & l1 & l2 & h & (H1 & H2 & H3) & (H4 & H5 & H6)). cbn [m_flags] in *.
  destruct k, e; cbn [kind_bits] in *; lia.
Qed.

(** ** Links *)
Lemma link_roundtrip : forall old l, link_wf l -> link_unmarshal old (link_marshal l) = (l, None).
Proof.
  intros old l H. rewrite <- (app_nil_r (link_marshal l)). apply link_unmarshal_layout, link_marshal_layout, H.
Qed.

Lemma rcf_accessors_bits : forall f, is_byte f ->
  (rcf_in_use f = true <-> bit 7 f = 1) /\ (rcf_available f = true <-> bit 7 f = 0) /\
  (rcf_controller f = true <-> bit 6 f = 1) /\ (rcf_responder f = true <-> bit 6 f = 0) /\
  (rcf_last_record f = true <-> bit 1 f = 0).
Proof.
  intros f H. destruct (rcf_accessors f H) as (H1 & H2 & H3 & H4 & H5).
  rewrite H1, H2, H3, H4, H5. unfold bitb.
  destruct (bit_range 7 f) as [E7|E7], (bit_range 6 f) as [E6|E6], (bit_range 1 f) as [E1|E1];
    rewrite E7, E6, E1; cbn; repeat split; intros; congruence.
Qed.

Lemma equal_ignores_availability : exists a b, link_wf a /\ link_wf b /\ link_equal a b = true /\
  rcf_available (l_flags a) <> rcf_available (l_flags b).
Proof.
  exists (mkLink 0xe2 1 0x010203 0 0 0), (mkLink 0x62 1 0x010203 0 0 0).
  repeat split; try (cbn; lia).
Qed.

Lemma text_loses_flags : exists links, Forall link_wf links /\
  text_to_links (links_to_text links true) <> (links, None).
Proof.
  exists [mkLink 0xa2 1 0x010203 0 0 0]. split.
  - constructor; [|constructor]. repeat split; cbn; lia.
  - vm_compute. discriminate.
Qed.

Lemma plain_expressible : forall l, link_wf l -> l_flags l mod 64 = 2 -> expressible l = l.
Proof.
  intros [f g a d0 d1 d2] (H & _) E. unfold expressible, bit, is_byte in *. cbn [l_flags l_group l_addr l_d0 l_d1 l_d2] in *.
  f_equal. change (2 ^ 7) with 128. change (2 ^ 6) with 64. lia.
Qed.

Lemma text_roundtrip_plain : forall links heading, Forall link_wf links ->
  Forall (fun l => l_flags l mod 64 = 2) links ->
  text_to_links (links_to_text links heading) = (links, None).
Proof.
  intros links heading H1 H2. rewrite text_roundtrip by exact H1. f_equal.
  induction H1 as [|l ls Hl H1 IH]; cbn [map]; [reflexivity|].
  inversion H2 as [|? ? Hp Hps]; subst. rewrite plain_expressible, IH by assumption. reflexivity.
Qed.

Lemma made_links_plain : forall g a, is_byte g -> 0 <= a < 2 ^ 24 ->
  (link_wf (controller_link g a) /\ l_flags (controller_link g a) mod 64 = 2) /\
  (link_wf (responder_link g a) /\ l_flags (responder_link g a) mod 64 = 2).
Proof.
  intros g a Hg Ha. unfold controller_link, responder_link, link_wf. cbn [l_flags l_group l_addr l_d0 l_d1 l_d2].
  repeat split; try apply Hg; try apply Ha; try (vm_compute; congruence).
Qed.

(** ** Packets *)
Definition dec_fun (host : bool) (cmd : Z) (body : list Z) : packet :=
  if cmd <? 0x60 then mkPkt cmd body 0
  else if host && (cmd <=? 0x64) then mkPkt cmd (if cmd =? 0x62 then [0; 0; 0] ++ body else body) 0
  else mkPkt cmd (if cmd =? 0x62 then [0; 0; 0] ++ removelast body else removelast body) (last body 0).

Lemma decodes_dec_fun : forall host cmd body p, decodes host cmd body p -> p = dec_fun host cmd body.
Proof.
  intros host cmd body p H. unfold dec_fun.
  destruct H as [cmd body Hc|cmd front ack H1 H2 H3|front ack H1|cmd body H1 H2 H3|body H1].
  - replace (cmd <? 96) with true by lia. reflexivity.
  - replace (cmd <? 96) with false by lia. replace (cmd =? 98) with false by lia.
    rewrite removelast_last, last_last.
    destruct H3 as [->|H3]; [reflexivity|]. replace (cmd <=? 100) with false by lia.
    rewrite andb_false_r. reflexivity.
  - subst host. rewrite removelast_last, last_last. reflexivity.
  - subst host. replace (cmd <? 96) with false by lia. replace (cmd =? 98) with false by lia.
    replace (cmd <=? 100) with true by lia. reflexivity.
  - subst host. reflexivity.
Qed.

Lemma decodes_fun : forall host cmd body p q, decodes host cmd body p -> decodes host cmd body q -> p = q.
Proof. intros host cmd body p q H1 H2. rewrite (decodes_dec_fun _ _ _ _ H1), (decodes_dec_fun _ _ _ _ H2). reflexivity. Qed.

Lemma pkt_decode_as : forall host cmd body p, rx_frame host cmd body -> decodes host cmd body p ->
  pkt_unmarshal pkt_zero (frame_bytes cmd body) = Ret (p, None).
Proof.
  intros host cmd body p H1 H2. destruct (frame_decodes _ _ _ H1) as (q & Hq & Hd).
  rewrite Hq, (decodes_fun _ _ _ _ _ H2 Hd). reflexivity.
Qed.

Lemma pkt_echo : forall cmd payload a x n, frame_size cmd = Some n -> 0x60 <= cmd -> cmd <> 0x62 ->
  (length payload + 3)%nat = n ->
  pkt_unmarshal pkt_zero (pkt_marshal (mkPkt cmd payload x) ++ [a]) = Ret (mkPkt cmd payload a, None).
Proof.
  intros cmd payload a x n Hn H1 H2 Hl. apply (pkt_decode_as false cmd (payload ++ [a])).
  - apply (rx_plain _ _ _ n Hn H2). rewrite app_length. cbn [length andb]. lia.
  - apply dec_reply; auto.
Qed.

Lemma pkt_message_echo : forall d2 d1 d0 f c1 c2 data a x, is_byte f ->
  length data = (if (f / 16) mod 2 =? 1 then 14%nat else 0%nat) ->
  pkt_unmarshal pkt_zero (pkt_marshal (mkPkt 0x62 ([d2; d1; d0; f; c1; c2] ++ data) x) ++ [a]) =
    Ret (mkPkt 0x62 ([0; 0; 0; d2; d1; d0; f; c1; c2] ++ data) a, None).
Proof.
  intros d2 d1 d0 f c1 c2 data a x Hf Hl.
  apply (pkt_decode_as false 0x62 ([d2; d1; d0; f; c1; c2] ++ data ++ [a])).
  - apply rx_message; auto.
  - apply (dec_echo false ([d2; d1; d0; f; c1; c2] ++ data) a). reflexivity.
Qed.

Lemma pkt_unsolicited : forall cmd body n, frame_size cmd = Some n -> cmd < 0x60 ->
  (length body + 2)%nat = n ->
  pkt_unmarshal pkt_zero (frame_bytes cmd body) = Ret (mkPkt cmd body 0, None).
Proof.
  intros cmd body n Hn H1 Hl. apply (pkt_decode_as false).
  - apply (rx_plain _ _ _ n Hn); [lia|]. cbn [andb]. lia.
  - apply dec_unsolicited. exact H1.
Qed.

Lemma pkt_ack_nak : forall cmd payload a, 0x60 <= cmd ->
  (pkt_is_ack (mkPkt cmd payload a) = true <-> a = 0x06) /\
  (pkt_is_nak (mkPkt cmd payload a) = true <-> a = 0x15).
Proof.
  intros cmd payload a H. unfold pkt_is_ack, pkt_is_nak. cbn [p_cmd p_ack].
  replace (96 <=? cmd) with true by lia. lia.
Qed.

(** ** Command words *)
Lemma cmd_decompose : forall f c1 c2, is_byte f -> is_byte c1 -> is_byte c2 ->
  command1 (cmd_from f c1 c2) = c1 /\ command2 (cmd_from f c1 c2) = c2.
Proof. intros f c1 c2. rewrite command1_arith, command2_arith. apply cmd_from_parts. Qed.

Lemma sub_command_parts : forall c s, 0 <= c < 2 ^ 24 ->
  command0 (sub_command c s) = command0 c /\ command1 (sub_command c s) = command1 c /\
  command2 (sub_command c s) = s mod 256 /\ 0 <= sub_command c s < 2 ^ 24.
Proof.
  intros c s H. change (2 ^ 24) with 16777216 in *.
  rewrite !command0_arith, !command1_arith, !command2_arith, !sub_command_arith. lia.
Qed.

Lemma cmd_matches_iff : forall a b, cmd_matches a b = true <-> (a / 256) mod 256 = (b / 256) mod 256.
Proof. intros a b. unfold cmd_matches. rewrite !command1_arith. apply Z.eqb_eq. Qed.

Lemma cmd_word_inj : forall a b, 0 <= a < 2 ^ 24 -> 0 <= b < 2 ^ 24 ->
  command0 a = command0 b -> command1 a = command1 b -> command2 a = command2 b -> a = b.
Proof.
  intros a b. change (2 ^ 24) with 16777216. rewrite !command0_arith, !command1_arith, !command2_arith. lia.
Qed.
