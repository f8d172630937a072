(** Properties C01-C07, C46: texts and encodings. *)
From Coq Require Import ZArith List Bool Lia ZifyBool ZifyNat.
From Verif Require Import GoBase GoLemmas GoText Address AddressSpec AddressProofs Command Message MessageSpec MessageProofs
  Link LinkText LinkSpec LinkProofs PlmPacket PlmReader PlmReaderSpec PlmReaderProofs CodecProofs.
Import ListNotations.
Open Scope Z_scope.

(** * C01 address texts *)
Theorem C01_rendering_parses : forall old a t, addr_rendering a t -> addr_unmarshal_text old t = (a, None).
Proof. exact addr_rendering_parses. Qed.
Example C01_rendering_parses_case : addr_rendering 0xabc0ef [65; 98; 67; 48; 101; 70].
Proof.
  exists 65, 98, 67, 48, 101, 70, 10, 11, 12, 0, 14, 15.
  split; [apply (hd_upp 10); lia|]. split; [apply (hd_low 11); lia|]. split; [apply (hd_upp 12); lia|]. split; [apply (hd_dec 0); lia|].
  split; [apply (hd_low 14); lia|]. split; [apply (hd_upp 15); lia|]. split; [reflexivity|right; reflexivity].
Qed.
Theorem C01_print_is_rendering : forall a, 0 <= a < 2 ^ 24 -> addr_rendering a (addr_string a).
Proof. exact addr_string_rendering. Qed.
Theorem C01_print_parse : forall old a, 0 <= a < 2 ^ 24 -> addr_unmarshal_text old (addr_string a) = (a, None).
Proof. intros old a H. apply addr_rendering_parses, addr_string_rendering, H. Qed.
Theorem C01_accepted_exactly : forall old t a, addr_unmarshal_text old t = (a, None) <-> addr_accepts t a.
Proof. exact addr_accept_iff. Qed.
Theorem C01_rejected_untouched : forall old t a e,
  addr_unmarshal_text old t = (a, Some e) -> a = old /\ e = EAddrFormat.
Proof. exact addr_reject. Qed.
Theorem C01_wire_roundtrip : forall a, 0 <= a < 2 ^ 24 -> addr_put (addr_bytes a) = a.
Proof. exact addr_put_bytes. Qed.
(** A dotted text of six characters is taken for the undotted form: "10.2.3" is refused although
    "10.2.03" (seven characters) is accepted. *)
Theorem C01_short_dotted_refuted : exists t, length t = 6%nat /\ dotted t 0x10 2 3 /\
  addr_unmarshal_text 7 t = (7, Some EAddrFormat) /\
  addr_unmarshal_text 7 [49; 48; 46; 50; 46; 48; 51] = (0x100203, None).
Proof.
  exists [49; 48; 46; 50; 46; 51]. split; [reflexivity|]. split; [|split; vm_compute; reflexivity].
  apply addr_scan_dotted. vm_compute. reflexivity.
Qed.

Example C01_ex : addr_string 0xabcdef = [97; 98; 46; 99; 100; 46; 101; 102] /\
  addr_unmarshal_text 0 [65; 66; 99; 68; 69; 102] = (0xabcdef, None) /\
  addr_unmarshal_text 5 [122] = (5, Some EAddrFormat).
Proof. vm_compute. auto. Qed.
(** Blanks beyond ASCII are skipped before a number, and six characters that are not six bytes are not taken as three pairs. *)
Example C01_ex_wide : addr_unmarshal_text 7 [0xa0; 49; 46; 0x3000; 50; 46; 51] = (0x010203, None) /\
  snd (addr_unmarshal_text 7 [49; 49; 50; 50; 51; 0xe9]) <> None.
Proof. split; [reflexivity|vm_compute; discriminate]. Qed.

Print Assumptions C01_rendering_parses.
Print Assumptions C01_print_is_rendering.
Print Assumptions C01_print_parse.
Print Assumptions C01_accepted_exactly.
Print Assumptions C01_rejected_untouched.
Print Assumptions C01_wire_roundtrip.
Print Assumptions C01_short_dotted_refuted.

(** * C02 message codec *)
Theorem C02_decode_ok_iff : forall old data, bytes_ok data ->
  (snd (msg_unmarshal old data) = None <->
   (9 <= length data)%nat /\ ((nth 6 data 0 / 16) mod 2 = 1 -> (23 <= length data)%nat)).
Proof. exact msg_decode_ok_iff. Qed.
Theorem C02_decode_error : forall old data e, snd (msg_unmarshal old data) = Some e -> errors_is e EBufferTooShort = true.
Proof. exact msg_decode_error. Qed.
Theorem C02_reencode : forall old data m, bytes_ok data -> msg_unmarshal old data = (m, None) ->
  msg_marshal m = firstn (if (nth 6 data 0 / 16) mod 2 =? 1 then 23 else 9) data.
Proof. exact msg_reencode_spec. Qed.
Example C02_reencode_case : let data := [1; 2; 3; 4; 5; 6; 0x2b; 0x11; 0xff; 99] in
  bytes_ok data /\ msg_unmarshal msg_zero data = (mkMsg 0x010203 0x040506 0x2b 0x11ff [], None).
Proof. split; [repeat constructor; unfold is_byte; lia|reflexivity]. Qed.
Theorem C02_encode_layout : forall m, msg_wf m ->
  msg_layout (m_src m) (m_dst m) (m_flags m) ((m_cmd m / 256) mod 256) (m_cmd m mod 256)
    (if (m_flags m / 16) mod 2 =? 1 then firstn 14 (m_payload m) ++ repeat 0 (14 - length (m_payload m)) else [])
    (msg_marshal m).
Proof. exact msg_encode_layout. Qed.
Theorem C02_roundtrip : forall m, msg_wf m -> exists m', msg_unmarshal msg_zero (msg_marshal m) = (m', None) /\
  m_src m' = m_src m /\ m_dst m' = m_dst m /\ m_flags m' = m_flags m /\
  command1 (m_cmd m') = command1 (m_cmd m) /\ command2 (m_cmd m') = command2 (m_cmd m) /\
  m_payload m' = (if (m_flags m / 16) mod 2 =? 1 then firstn 14 (m_payload m) ++ repeat 0 (14 - length (m_payload m)) else []).
Proof. exact msg_roundtrip_spec. Qed.
(** The command word comes back whole when its class is the one that belongs to the flags. *)
Theorem C02_roundtrip_command : forall m k ext l h, msg_wf m -> flags_layout (m_flags m) k ext l h ->
  m_cmd m = class_of k ext * 65536 + m_cmd m mod 65536 ->
  m_cmd (fst (msg_unmarshal msg_zero (msg_marshal m))) = m_cmd m.
Proof. exact msg_roundtrip_command. Qed.
(** Decoding a standard message into a reused variable keeps that variable's old payload. *)
Theorem C02_reused_receiver_refuted : exists old data m, msg_unmarshal old data = (m, None) /\
  fl_extended (m_flags m) = false /\ m_payload m <> [].
Proof. exists (mkMsg 0 0 0x1a 0 [1]), [1;2;3;4;5;6;0x0a;8;9]. eexists. split; [vm_compute; reflexivity|].
  split; [reflexivity|discriminate]. Qed.

Example C02_ex : let m := mkMsg 0x010203 0x0a0b0c 0x1a 0x012e00 [1; 2] in msg_wf m /\
  msg_marshal m = [1;2;3;10;11;12;0x1a;0x2e;0;1;2;0;0;0;0;0;0;0;0;0;0;0;0] /\
  flags_layout (m_flags m) KDirect true 2 2 /\ m_cmd m = class_of KDirect true * 65536 + m_cmd m mod 65536.
Proof.
  cbv zeta. split.
  - repeat split; try (unfold is_byte; cbn; lia). repeat constructor; unfold is_byte; lia.
  - repeat split; try (vm_compute; reflexivity); lia.
Qed.
Print Assumptions C02_decode_ok_iff.
Print Assumptions C02_decode_error.
Print Assumptions C02_reencode.
Print Assumptions C02_encode_layout.
Print Assumptions C02_roundtrip.
Print Assumptions C02_roundtrip_command.
Print Assumptions C02_reused_receiver_refuted.

(** * C03 flags *)
Theorem C03_accessors : forall f k e l m, flags_layout f k e l m ->
  is_byte f /\ fl_ttl f = l /\ fl_max_ttl f = m /\ fl_extended f = e /\ fl_standard f = negb e /\
  fl_type f = 32 * kind_bits k /\ fl_ack f = is_ack_kind k /\ fl_nak f = is_nak_kind k /\
  mt_is_broadcast (fl_type f) = is_broadcast_kind k /\ mt_is_alllink (fl_type f) = is_alllink_kind k /\
  mt_is_direct (fl_type f) = negb (is_broadcast_kind k).
Proof. exact accessors_layout. Qed.
Theorem C03_every_byte_has_a_layout : forall f, is_byte f -> exists k e l m, flags_layout f k e l m.
Proof. intros f H. do 4 eexists. apply layout_exists. exact H. Qed.
Theorem C03_build : forall k e l m, 0 <= l <= 3 -> 0 <= m <= 3 ->
  flags_layout (fl_make (32 * kind_bits k) e l m) k e l m.
Proof. exact fl_make_layout. Qed.
Theorem C03_build_refuses : forall t e l m, 3 < l \/ 3 < m -> fl_make t e l m = 0.
Proof. exact fl_make_invalid. Qed.
Theorem C03_set_ttl : forall f k e l m t, flags_layout f k e l m -> is_byte t ->
  flags_layout (fl_set_ttl f t) k e (t mod 4) m.
Proof. exact set_ttl_layout. Qed.
Theorem C03_set_max_ttl : forall f k e l m t, flags_layout f k e l m -> is_byte t ->
  flags_layout (fl_set_max_ttl f t) k e l (t mod 4).
Proof. exact set_max_ttl_layout. Qed.
Theorem C03_ack_nak_exclusive : forall f, is_byte f -> fl_ack f && fl_nak f = false.
Proof. exact ack_nak_exclusive. Qed.
Example C03_ex : flags_layout 0xaa KDirectNak false 2 2 /\ fl_nak 0xaa = true /\ fl_ack 0xaa = false /\
  fl_make (32 * kind_bits KDirectAck) true 1 3 = 0x37.
Proof. repeat split; try lia; reflexivity. Qed.
Print Assumptions C03_accessors.
Print Assumptions C03_every_byte_has_a_layout.
Print Assumptions C03_build.
Print Assumptions C03_build_refuses.
Print Assumptions C03_set_ttl.
Print Assumptions C03_set_max_ttl.
Print Assumptions C03_ack_nak_exclusive.

(** * C04 duplicates.  Full statement: duplicates iff equal but for the hops-left counter.  False: the kind bits of the
    flags are not compared, so an acknowledgement is a duplicate of the request it repeats. *)
Theorem C04_retransmission_is_duplicate : forall m o, same_but_hops_left m o -> msg_duplicate m o = true.
Proof. exact retransmission_duplicate. Qed.
(** Missing for the full claim: the kinds are assumed to agree. *)
Theorem C04_duplicate_iff_partial : forall m o k1 k2 e1 e2 l1 l2 h1 h2,
  flags_layout (m_flags m) k1 e1 l1 h1 -> flags_layout (m_flags o) k2 e2 l2 h2 -> k1 = k2 -> e1 = e2 ->
  (msg_duplicate m o = true <-> same_but_hops_left m o).
Proof. exact duplicate_iff_same_kind. Qed.
Example C04_duplicate_iff_case : let m := mkMsg 1 2 0xcf 0x0c1100 [] in let o := mkMsg 1 2 0xc7 0x0c1100 [] in
  flags_layout (m_flags m) KAllLink false 3 3 /\ flags_layout (m_flags o) KAllLink false 1 3 /\ msg_duplicate m o = true /\
  msg_duplicate m (mkMsg 1 3 0xc7 0x0c1100 []) = false.
Proof. cbv zeta. unfold flags_layout. cbn. repeat split; lia. Qed.
Theorem C04_duplicate_exactly : forall m o k1 k2 e1 e2 l1 l2 h1 h2,
  flags_layout (m_flags m) k1 e1 l1 h1 -> flags_layout (m_flags o) k2 e2 l2 h2 ->
  (msg_duplicate m o = true <->
   m_src m = m_src o /\ m_dst m = m_dst o /\ m_cmd m = m_cmd o /\ h1 = h2 /\ m_payload m = m_payload o).
Proof. exact duplicate_iff_layout. Qed.
Theorem C04_duplicate_refuted : exists m o, msg_duplicate m o = true /\ ~ same_but_hops_left m o /\
  fl_ack (m_flags m) = false /\ fl_ack (m_flags o) = true.
Proof. exact duplicate_ignores_kind. Qed.
Example C04_ex : same_but_hops_left (mkMsg 1 2 0x2a 0x1000 []) (mkMsg 1 2 0x26 0x1000 []).
Proof. repeat split. exists KDirectAck, false, 2, 1, 2. split; repeat split; lia. Qed.
Print Assumptions C04_retransmission_is_duplicate.
Print Assumptions C04_duplicate_iff_partial.
Print Assumptions C04_duplicate_exactly.
Print Assumptions C04_duplicate_refuted.

(** * C05 link records on the wire *)
Theorem C05_encode_layout : forall l, link_wf l -> link_layout l (link_marshal l).
Proof. exact link_marshal_layout. Qed.
Theorem C05_decode : forall old l b rest, link_layout l b -> link_unmarshal old (b ++ rest) = (l, None).
Proof. exact link_unmarshal_layout. Qed.
Theorem C05_roundtrip : forall old l, link_wf l -> link_unmarshal old (link_marshal l) = (l, None).
Proof. exact link_roundtrip. Qed.
Theorem C05_decode_ok_iff : forall old b, snd (link_unmarshal old b) = None <-> (8 <= length b)%nat.
Proof. exact link_unmarshal_ok_iff. Qed.
Theorem C05_reencode : forall old b l, bytes_ok b -> link_unmarshal old b = (l, None) ->
  link_wf l /\ link_marshal l = firstn 8 b.
Proof. exact link_reencode. Qed.
Example C05_reencode_case : let b := [0xa2; 1; 0x11; 0x22; 0x33; 255; 28; 1; 77] in
  bytes_ok b /\ link_unmarshal link_zero b = (mkLink 0xa2 1 0x112233 255 28 1, None).
Proof. split; [repeat constructor; unfold is_byte; lia|reflexivity]. Qed.
Theorem C05_equal_iff : forall a b, link_wf a -> link_wf b -> (link_equal a b = true <-> same_link a b).
Proof. exact link_equal_iff. Qed.
Example C05_equal_iff_case : let a := mkLink 0xe2 1 0x112233 1 2 3 in let b := mkLink 0x62 1 0x112233 4 5 6 in
  link_wf a /\ link_wf b /\ same_link a b /\ ~ same_link a (mkLink 0xa2 1 0x112233 1 2 3).
Proof.
  cbv zeta. split; [|split; [|split]]; try (unfold link_wf, is_byte; cbn; lia).
  - repeat split.
  - intros [H _]. discriminate H.
Qed.
Theorem C05_flag_accessors : forall f, is_byte f ->
  (rcf_in_use f = true <-> bit 7 f = 1) /\ (rcf_available f = true <-> bit 7 f = 0) /\
  (rcf_controller f = true <-> bit 6 f = 1) /\ (rcf_responder f = true <-> bit 6 f = 0) /\
  (rcf_last_record f = true <-> bit 1 f = 0).
Proof. exact rcf_accessors_bits. Qed.
Theorem C05_flag_setters : forall f n p, is_byte f -> 0 <= n < 8 -> 0 <= p < 8 ->
  bit n (rcf_set_bit f p) = (if n =? p then 1 else bit n f) /\
  bit n (rcf_clear_bit f p) = (if n =? p then 0 else bit n f) /\
  is_byte (rcf_set_bit f p) /\ is_byte (rcf_clear_bit f p).
Proof. exact rcf_bit_ops. Qed.
(** The comment on Equal promises that availability is compared too; it is not. *)
Theorem C05_equal_availability_refuted : exists a b, link_wf a /\ link_wf b /\ link_equal a b = true /\
  rcf_available (l_flags a) <> rcf_available (l_flags b).
Proof. exact equal_ignores_availability. Qed.
Example C05_ex : link_wf (mkLink 0xe2 1 0x010203 4 5 6) /\
  link_marshal (mkLink 0xe2 1 0x010203 4 5 6) = [0xe2; 1; 1; 2; 3; 4; 5; 6].
Proof. split; [repeat split; cbn; lia|vm_compute; reflexivity]. Qed.
Print Assumptions C05_encode_layout.
Print Assumptions C05_decode.
Print Assumptions C05_roundtrip.
Print Assumptions C05_decode_ok_iff.
Print Assumptions C05_reencode.
Print Assumptions C05_equal_iff.
Print Assumptions C05_flag_accessors.
Print Assumptions C05_flag_setters.
Print Assumptions C05_equal_availability_refuted.

(** * C06 editing a link database as text.  Full statement: every list survives; false because only the availability
    and role bits of the flags are rendered. *)
Theorem C06_text_refuted : exists links, Forall link_wf links /\
  text_to_links (links_to_text links true) <> (links, None).
Proof. exact text_loses_flags. Qed.
(** Missing for the full claim: flag bits other than 7 and 6 are normalised. *)
Theorem C06_text_roundtrip_partial : forall links heading, Forall link_wf links ->
  text_to_links (links_to_text links heading) = (map expressible links, None).
Proof. exact text_roundtrip. Qed.
(** Exact for records whose other flag bits are just the "not last" bit, such as all records made by ControllerLink and
    ResponderLink. *)
Theorem C06_text_roundtrip_plain : forall links heading, Forall link_wf links ->
  Forall (fun l => l_flags l mod 64 = 2) links ->
  text_to_links (links_to_text links heading) = (links, None).
Proof. exact text_roundtrip_plain. Qed.
Theorem C06_made_links_are_plain : forall g a, is_byte g -> 0 <= a < 2 ^ 24 ->
  (link_wf (controller_link g a) /\ l_flags (controller_link g a) mod 64 = 2) /\
  (link_wf (responder_link g a) /\ l_flags (responder_link g a) mod 64 = 2).
Proof. exact made_links_plain. Qed.
Example C06_ex : let l := mkLink 0xc2 7 0x0a0b0c 1 2 0xff in
  text_to_links (links_to_text [l; responder_link 1 5] true) = ([l; responder_link 1 5], None).
Proof. vm_compute. reflexivity. Qed.
Print Assumptions C06_text_refuted.
Print Assumptions C06_text_roundtrip_partial.
Print Assumptions C06_text_roundtrip_plain.
Print Assumptions C06_made_links_are_plain.

(** * C07 modem packets *)
Theorem C07_echo_decodes : forall cmd payload a x n, frame_size cmd = Some n -> 0x60 <= cmd -> cmd <> 0x62 ->
  (length payload + 3)%nat = n ->
  pkt_unmarshal pkt_zero (pkt_marshal (mkPkt cmd payload x) ++ [a]) = Ret (mkPkt cmd payload a, None).
Proof. exact pkt_echo. Qed.
Theorem C07_message_echo_decodes : forall d2 d1 d0 f c1 c2 data a x, is_byte f ->
  length data = (if (f / 16) mod 2 =? 1 then 14%nat else 0%nat) ->
  pkt_unmarshal pkt_zero (pkt_marshal (mkPkt 0x62 ([d2; d1; d0; f; c1; c2] ++ data) x) ++ [a]) =
    Ret (mkPkt 0x62 ([0; 0; 0; d2; d1; d0; f; c1; c2] ++ data) a, None).
Proof. exact pkt_message_echo. Qed.
Example C07_message_echo_decodes_case : is_byte 0x1f /\ length [1; 2; 3; 4; 5; 6; 7; 8; 9; 10; 11; 12; 13; 14] = (if (0x1f / 16) mod 2 =? 1 then 14%nat else 0%nat) /\
  pkt_unmarshal pkt_zero [2; 0x62; 0x11; 0x22; 0x33; 0x0f; 0x11; 0xff; 0x06] = Ret (mkPkt 0x62 [0; 0; 0; 0x11; 0x22; 0x33; 0x0f; 0x11; 0xff] 0x06, None).
Proof. repeat split; unfold is_byte; lia. Qed.
Theorem C07_unsolicited_decodes : forall cmd body n, frame_size cmd = Some n -> cmd < 0x60 ->
  (length body + 2)%nat = n ->
  pkt_unmarshal pkt_zero (frame_bytes cmd body) = Ret (mkPkt cmd body 0, None).
Proof. exact pkt_unsolicited. Qed.
Example C07_unsolicited_decodes_case : frame_size 0x54 = Some 3%nat /\ 0x54 < 0x60 /\ (length [0x02] + 2)%nat = 3%nat /\
  pkt_unmarshal pkt_zero (frame_bytes 0x54 [0x02]) = Ret (mkPkt 0x54 [0x02] 0, None).
Proof. repeat split. Qed.
Theorem C07_ack_nak : forall cmd payload a, 0x60 <= cmd ->
  (pkt_is_ack (mkPkt cmd payload a) = true <-> a = 0x06) /\
  (pkt_is_nak (mkPkt cmd payload a) = true <-> a = 0x15).
Proof. exact pkt_ack_nak. Qed.
Example C07_ex : pkt_unmarshal pkt_zero (pkt_marshal (mkPkt 0x6b [0x40] 0) ++ [0x06]) = Ret (mkPkt 0x6b [0x40] 0x06, None).
Proof. vm_compute. reflexivity. Qed.
Print Assumptions C07_echo_decodes.
Print Assumptions C07_message_echo_decodes.
Print Assumptions C07_unsolicited_decodes.
Print Assumptions C07_ack_nak.

(** * C46 command words *)
Theorem C46_compose : forall f k e l m c1 c2, flags_layout f k e l m -> is_byte c1 -> is_byte c2 ->
  cmd_from f c1 c2 = class_of k e * 65536 + c1 * 256 + c2.
Proof. exact cmd_from_layout. Qed.
Example C46_compose_case : flags_layout 0xcb KAllLink false 2 3 /\ cmd_from 0xcb 0x11 0x00 = 0x0c1100.
Proof. unfold flags_layout. cbn. repeat split; lia. Qed.
Theorem C46_decompose : forall f c1 c2, is_byte f -> is_byte c1 -> is_byte c2 ->
  command1 (cmd_from f c1 c2) = c1 /\ command2 (cmd_from f c1 c2) = c2.
Proof. exact cmd_decompose. Qed.
Theorem C46_sub_command : forall c s, 0 <= c < 2 ^ 24 ->
  command0 (sub_command c s) = command0 c /\ command1 (sub_command c s) = command1 c /\
  command2 (sub_command c s) = s mod 256 /\ 0 <= sub_command c s < 2 ^ 24.
Proof. exact sub_command_parts. Qed.
Example C46_sub_command_case : 0 <= 0x0c1100 < 2 ^ 24 /\ sub_command 0x0c1100 300 = 0x0c112c.
Proof. repeat split; lia. Qed.
Theorem C46_matches : forall a b, cmd_matches a b = true <-> (a / 256) mod 256 = (b / 256) mod 256.
Proof. exact cmd_matches_iff. Qed.
Theorem C46_word_determined : forall a b, 0 <= a < 2 ^ 24 -> 0 <= b < 2 ^ 24 ->
  command0 a = command0 b -> command1 a = command1 b -> command2 a = command2 b -> a = b.
Proof. exact cmd_word_inj. Qed.
Example C46_ex : cmd_from 0x1a 0x2e 0x00 = 0x012e00 /\ sub_command c_LightOn (-1) = 0x0011ff /\ c_LightOn = 0x001100.
Proof. vm_compute. auto. Qed.
Print Assumptions C46_compose.
Print Assumptions C46_decompose.
Print Assumptions C46_sub_command.
Print Assumptions C46_matches.
Print Assumptions C46_word_determined.
