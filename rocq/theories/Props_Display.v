(** C61, C62: what displayed texts tell. *)
From Coq Require Import ZArith List Bool Lia String Permutation Sorted ZifyBool ZifyNat.
From Verif Require Import GoBase GoLemmas GoText GoJson Command Message MessageSpec MessageProofs Address AddressProofs Link LinkText PlmPacket Plm
  DevLinkdb BasicDevice Thermostat Display DisplaySpec DisplayProofs DisplayProofs2.
Import ListNotations.
Open Scope Z_scope.
Ltac Zify.zify_post_hook ::= Z.div_mod_to_equations.

(** * C61: a displayed message identifies the message *)

(** Two command words are displayed alike exactly when they are equal or the two generations of one ramp command. *)
Theorem C61_command_text : forall c d, word24 c -> word24 d -> (cmd_string c = cmd_string d <-> named_alike c d).
Proof. exact cmd_string_alike. Qed.

(** Two messages are displayed alike exactly when they agree in everything the reader is promised. *)
Theorem C61_message_text : forall m o, msg_ok m -> msg_ok o -> (msg_string m = msg_string o <-> shown_alike m o).
Proof. exact msg_string_alike. Qed.

(** So the text of a message taken off the wire gives back the bytes, unless it is an all-link broadcast or a ramp command is named. *)
Theorem C61_wire_text : forall src dst f c1 c2 data b src' dst' f' c1' c2' data' b',
  msg_layout src dst f c1 c2 data b -> msg_layout src' dst' f' c1' c2' data' b' ->
  msg_string (fst (msg_unmarshal msg_zero b)) = msg_string (fst (msg_unmarshal msg_zero b')) ->
  ~ all_link_flags f -> (ack_flags f \/ ext_flags f \/ ~ In c1 [0x2e; 0x2f; 0x34; 0x35]) ->
  b = b'.
Proof.
  intros src dst f c1 c2 data b src' dst' f' c1' c2' data' b' L L' H NA NR.
  pose proof (msg_unmarshal_layout msg_zero src dst f c1 c2 data b [] L) as U. pose proof (msg_unmarshal_layout msg_zero _ _ _ _ _ _ b' [] L') as U'.
  rewrite app_nil_r in U, U'. rewrite U, U' in H. clear U U'. cbn [fst] in H.
  unfold msg_layout in *.
  destruct L as (s2 & s1 & s0 & d2 & d1 & d0 & S2 & S1 & S0 & D2 & D1 & D0 & F & C1 & C2 & Dt & Es & Ed & Ll & ->).
  destruct L' as (s2' & s1' & s0' & d2' & d1' & d0' & S2' & S1' & S0' & D2' & D1' & D0' & F' & C1' & C2' & Dt' & Es' & Ed' & Ll' & ->).
  rewrite (cmd_from_layout _ _ _ _ _ _ _ (layout_exists f F) C1 C2) in H.
  rewrite (cmd_from_layout _ _ _ _ _ _ _ (layout_exists f' F') C1' C2') in H.
  assert (K : forall k e, 0 <= class_of k e <= 12) by (intros [] []; cbn; lia).
  pose proof (K (kind_of_bits (f / 32)) ((f / 16) mod 2 =? 1)) as K1. pose proof (K (kind_of_bits (f' / 32)) ((f' / 16) mod 2 =? 1)) as K2.
  assert (X1 : ext_flags f -> class_of (kind_of_bits (f / 32)) ((f / 16) mod 2 =? 1) = 1).
  { unfold ext_flags. intro E. replace ((f / 16) mod 2 =? 1) with true by lia. reflexivity. }
  assert (P1 : ((f / 16) mod 2 =? 1) = false -> data = []) by (intro E; rewrite E in Ll; destruct data; [reflexivity|discriminate]).
  assert (P2 : ((f' / 16) mod 2 =? 1) = false -> data' = []) by (intro E; rewrite E in Ll'; destruct data'; [reflexivity|discriminate]).
  apply msg_string_alike in H.
  2:{ unfold msg_ok, word24, is_byte in *; cbn [m_src m_dst m_flags m_cmd m_payload]. destruct ((f / 16) mod 2 =? 1) eqn:E; [|rewrite ?P1 in * by reflexivity]; (repeat split; [lia..|]); auto; constructor. }
  2:{ unfold msg_ok, word24, is_byte in *; cbn [m_src m_dst m_flags m_cmd m_payload]. destruct ((f' / 16) mod 2 =? 1) eqn:E; [|rewrite ?P2 in * by reflexivity]; (repeat split; [lia..|]); auto; constructor. }
  unfold shown_alike in H. cbn [m_src m_dst m_flags m_cmd m_payload] in H. destruct H as (Hf & Hs & _ & Hd & Ha & Hn & Hp). subst f'.
  specialize (Hd NA).
  assert (Q : data = data').
  { destruct ((f / 16) mod 2 =? 1) eqn:E; [|rewrite P1, P2 by reflexivity; reflexivity]. apply Hp. unfold ext_flags. lia. }
  assert (W : c1 = c1' /\ c2 = c2').
  { unfold is_byte in *. destruct (Z.eq_dec (f / 32) 1) as [A|A]; [specialize (Ha ltac:(left; exact A)); lia|].
    destruct (Z.eq_dec (f / 32) 3) as [B|B]; [specialize (Ha ltac:(right; exact B)); lia|].
    specialize (Hn ltac:(intros [?|?]; contradiction)). destruct NR as [[?|?]|NR]; [contradiction..|].
    unfold named_alike, ramp_twins, is_byte in Hn.
    destruct Hn as [Hn|Hn]; [lia|]. exfalso.
    destruct NR as [NR|NR].
    - rewrite (X1 NR) in *. destruct Hn as [(r & ? & ?)|(r & ? & ?)]; lia.
    - cbn [In] in NR. destruct Hn as [(r & ? & ?)|(r & ? & ?)]; lia. }
  destruct W as [-> ->]. unfold is_byte in *. subst data'.
  assert (s2 = s2' /\ s1 = s1' /\ s0 = s0' /\ d2 = d2' /\ d1 = d1' /\ d0 = d0') as (-> & -> & -> & -> & -> & ->) by lia. reflexivity.
Qed.

(** In general it does not: two different frames can read alike. *)
Theorem C61_text_unique_refuted : exists b b' m m',
  b <> b' /\ bytes_ok b /\ bytes_ok b' /\ msg_unmarshal msg_zero b = (m, None) /\ msg_unmarshal msg_zero b' = (m', None) /\ msg_string m = msg_string m'.
Proof.
  exists [1; 2; 3; 4; 5; 6; 0x0a; 0x2e; 0x25], [1; 2; 3; 4; 5; 6; 0x0a; 0x34; 0x25]. eexists. eexists.
  split; [discriminate|]. split; [repeat constructor; unfold is_byte; lia|]. split; [repeat constructor; unfold is_byte; lia|].
  split; [vm_compute; reflexivity|]. split; [vm_compute; reflexivity|]. vm_compute. reflexivity.
Qed.

Example C61_ex :
  msg_string (mkMsg 0x010203 0x040506 0x0a 0x0011ff []) = zs "SD     2:2 01.02.03 -> 04.05.06 Light On(255)" /\
  msg_string (mkMsg 0x010203 0x040506 0x1a 0x012f00 [1; 0xab]) = zs "ED     2:2 01.02.03 -> 04.05.06 Read/Write ALDB [01 ab]" /\
  msg_string (mkMsg 0x010203 0x000005 0xcb 0x0c1100 []) = zs "SA     3:2 01.02.03 -> ff.ff.ff All-link recall Group(5)" /\
  msg_string (mkMsg 0x010203 0x0a0b2d 0x8b 0x0801ff []) = zs "SB     3:2 01.02.03 -> ff.ff.ff DevCat 0a.0b Firmware 45 Set-button Pressed (responder)(255)" /\
  msg_string (mkMsg 0x010203 0x040506 0x2b 0x001180 []) = zs "SD Ack 3:2 01.02.03 -> 04.05.06 17.128".
Proof. vm_compute. repeat split. Qed.
(** A frame that the hypotheses of [C61_wire_text] speak of. *)
Example C61_wire_text_case : msg_layout 0x010203 0x040506 0x0f 0x11 0xff [] [1; 2; 3; 4; 5; 6; 0x0f; 0x11; 0xff] /\ ~ all_link_flags 0x0f /\ ~ In 0x11 [0x2e; 0x2f; 0x34; 0x35].
Proof.
  split; [|split; [vm_compute; discriminate|cbn; intuition discriminate]].
  exists 1, 2, 3, 4, 5, 6. unfold is_byte, bytes_ok. repeat apply conj; try lia; try reflexivity; constructor.
Qed.
Print Assumptions C61_command_text.
Print Assumptions C61_message_text.
Print Assumptions C61_wire_text.
Print Assumptions C61_text_unique_refuted.

(** * C62: the other texts and the listings *)

(** Modem commands print their documented names, no code crashes, and different codes print differently. *)
Theorem C62_modem_names : forall i, is_byte i ->
  (forall n, In (i, n) modem_names -> plm_cmd_string i = Ret (zs n)) /\
  ((forall n, ~ In (i, n) modem_names) -> plm_cmd_string i = Ret (zs "Command(" ++ fmt_d_byte i ++ zs ")")) /\
  forall j, is_byte j -> plm_cmd_string i = plm_cmd_string j -> i = j.
Proof.
  intros i Hi. split; [apply plm_documented|]. split; [apply plm_undocumented, Hi|].
  intros j Hj H. rewrite (plm_name_ret i Hi), (plm_name_ret j Hj) in H. inversion H as [K].
  apply (plm_name_cut i j [] [] Hi Hj). congruence.
Qed.

(** Thermostat modes and fan speeds print their documented names and no value crashes. *)
Theorem C62_thermostat_names : forall i,
  (forall n, In (i, n) mode_names -> tmode_string i = Ret (zs n)) /\
  (forall n, In (i, n) speed_names -> fan_speed_string i = Ret (zs n)) /\
  (9 <= i -> tmode_string i = Ret (zs "ThermostatMode(" ++ fmt_int i ++ zs ")")) /\
  (i < 0 \/ 4 <= i -> fan_speed_string i = Ret (zs "FanSpeed(" ++ fmt_int i ++ zs ")")) /\
  unit_string i = Ret (if i =? 0 then [194; 176; 70] else if i =? 1 then [194; 176; 67] else zs "Unit(" ++ fmt_int i ++ zs ")").
Proof.
  intro i. split; [apply tmode_documented|]. split; [apply speed_documented|]. unfold tmode_string, fan_speed_string, unit_string.
  split; [intro H; replace (9 <=? i) with true by lia; reflexivity|].
  split; [intro H; replace ((i <? 0) || (4 <=? i)) with true by lia; reflexivity|].
  destruct ((i <? 0) || (2 <=? i)) eqn:E.
  - replace (i =? 0) with false by lia. replace (i =? 1) with false by lia. reflexivity.
  - assert (i = 0 \/ i = 1) as [-> | ->] by lia; vm_compute; reflexivity.
Qed.

(** The readable form of a packet tells its command, its payload and how it was answered, and nothing else. *)
Theorem C62_packet_text : forall p q, packet_ok p -> packet_ok q ->
  (pkt_format_v p = pkt_format_v q <-> p_cmd p = p_cmd q /\ p_payload p = p_payload q /\ forall e, ending_of p e <-> ending_of q e).
Proof. exact pkt_v_alike. Qed.

(** The hexadecimal form is not the received bytes: it shows an answer byte that an unsolicited packet does not have. *)
Theorem C62_packet_hex_refuted : exists frame p,
  pkt_unmarshal pkt_zero (0x02 :: frame) = Ret (p, None) /\ pkt_format_x p <> hex_join [] frame.
Proof. exists [0x54; 0x02]. eexists. split; [vm_compute; reflexivity|]. vm_compute. discriminate. Qed.

(** Modem settings show the four setting bits; equipment states the four low bits. *)
Theorem C62_config_text : forall a b, is_byte a -> is_byte b -> (cfg_string a = cfg_string b <-> a / 16 = b / 16).
Proof. exact cfg_alike. Qed.
Theorem C62_equipment_text : forall a b, is_byte a -> is_byte b -> (es_string a = es_string b <-> a mod 16 = b mod 16).
Proof. exact es_alike. Qed.

(** The text of a link record tells everything but the six low flag bits; that of a request everything but the number of an unknown type. *)
Theorem C62_record_text : forall a b, link_ok a -> link_ok b -> (link_string a = link_string b <-> record_alike a b).
Proof. exact link_string_alike. Qed.
Theorem C62_request_text : forall a b, request_ok a -> request_ok b -> (lr_string a = lr_string b <-> request_alike a b).
Proof. exact lr_string_alike. Qed.

(** A device prints the address it was made with ... *)
Theorem C62_device_text : forall i j, word24 (di_addr i) -> word24 (di_addr j) ->
  switch_string i = switch_string j \/ dimmer_string i = dimmer_string j \/ basic_string i = basic_string j -> di_addr i = di_addr j.
Proof.
  intros i j Hi Hj [H|[H|H]].
  - unfold switch_string in H. apply app_inv_head, app_inv_tail in H. apply addr_string_inj; assumption.
  - unfold dimmer_string in H. apply app_inv_head, app_inv_tail in H. apply addr_string_inj; assumption.
  - unfold basic_string in H. rewrite !app_assoc in H. apply app_cut_r in H; [|reflexivity]. destruct H as [H _].
    apply app_cut_r in H; [|reflexivity]. destruct H as [_ H]. apply addr_string_inj; assumption.
Qed.
(** ... but no thermostat does: they all print the address 00.00.00. *)
Theorem C62_thermostat_text : forall d, therm_string (new_thermostat d) = zs "Thermostat (00.00.00)".
Proof. intro d. vm_compute. reflexivity. Qed.
Theorem C62_thermostat_address_refuted : exists d e, word24 (di_addr d) /\ word24 (di_addr e) /\ di_addr d <> di_addr e /\
  therm_string (new_thermostat d) = therm_string (new_thermostat e).
Proof.
  exists (mkDI 0x010203 5 1 1 2), (mkDI 0x040506 5 1 1 2). unfold word24. cbn [di_addr]. split; [lia|]. split; [lia|]. split; [lia|]. reflexivity.
Qed.

(** A dump gives back the database: records, order and all eight bytes of each. *)
Theorem C62_dump : forall a b, Forall link_ok a -> Forall link_ok b -> dump_links a = dump_links b -> a = b.
Proof. exact dump_inj. Qed.

(** A printed listing is sorted by address, as a number, then by group ... *)
Theorem C62_listing_order : forall l out, Forall link_ok l -> print_links l out ->
  exists q, Permutation l q /\ out = print_template q /\ forall i j a b, (i < j)%nat -> nth_error q i = Some a -> nth_error q j = Some b -> ~ listed_before b a.
Proof.
  intros l out Hl (q & P & S & ->). exists q. split; [exact P|]. split; [reflexivity|].
  assert (Hq : Forall link_ok q) by (rewrite <- P; exact Hl). clear P Hl.
  induction S as [|x q S IH F]; intros i j a b Hij Hi Hj; [destruct i; discriminate|].
  inversion Hq as [|? ? Hx Hq']; subst. destruct j as [|j]; [lia|]. cbn [nth_error] in Hj. destruct i as [|i].
  - injection Hi as <-. rewrite Forall_forall in F, Hq'. apply nth_error_In in Hj. specialize (F _ Hj). intro X.
    apply less_listed in X; [congruence|auto..].
  - cbn [nth_error] in Hi. exact (IH Hq' i j a b ltac:(lia) Hi Hj).
Qed.
(** ... a listing always exists, and it tells exactly which records there are, up to order and low flag bits ... *)
Theorem C62_listing_exists : forall l, Forall link_ok l -> exists out, print_links l out.
Proof. exact print_exists. Qed.
Theorem C62_listing_contents : forall a b out, Forall link_ok a -> Forall link_ok b -> print_links a out -> print_links b out ->
  exists b', Permutation b b' /\ Forall2 record_alike a b'.
Proof. exact print_contents. Qed.
(** ... and when no two records share address and group, the order of the database makes no difference to it. *)
Theorem C62_listing_stable : forall a b t u, Forall link_ok a -> NoDup (map (fun l => (l_addr l, l_group l)) a) -> Permutation a b ->
  print_links a t -> print_links b u -> t = u.
Proof. exact print_order_irrelevant. Qed.
(** When two do, one database can have two listings. *)
Theorem C62_listing_ambiguous_refuted : exists l t u, Forall link_ok l /\ print_links l t /\ print_links l u /\ t <> u.
Proof.
  set (a := mkLink 0xe2 1 0x010203 0 0 0). set (b := mkLink 0xa2 1 0x010203 3 28 1).
  exists [a; b], (print_template [a; b]), (print_template [b; a]).
  assert (K : Forall link_ok [a; b]) by (repeat constructor; cbn; unfold is_byte, word24; lia).
  split; [exact K|]. split; [|split].
  - exists [a; b]. split; [apply Permutation_refl|]. split; [repeat constructor|reflexivity].
  - exists [b; a]. split; [apply perm_swap|]. split; [repeat constructor|reflexivity].
  - vm_compute. discriminate.
Qed.

Example C62_ex :
  plm_cmd_string 0x6f = Ret (zs "Manage All Link Record") /\ tmode_string 200 = Ret (zs "ThermostatMode(200)") /\
  pkt_format_v (mkPkt 0x6b [0x40] 0x06) = Ret (zs "Set Config 40 ACK") /\ cfg_string 0x50 = zs ".M.D" /\
  es_string 0x05 = zs "cooling,programmable output available" /\
  link_string (mkLink 0xe2 1 0x0a0b0c 3 28 1) = zs "UC 1 0a.0b.0c 0x03 0x1c 0x01" /\
  lr_string (mkLR 2 0x0ff7 8 (Some (mkLink 0xa2 12 0x0a0b0c 0 0 0))) = zs "Link Write 0f.f7 8 UR 12 0a.0b.0c 0x00 0x00 0x00" /\
  basic_string (mkDI 0x0a0b0c 1 2 3 2) = zs "I2Cs Device (0a.0b.0c)" /\
  dump_links [mkLink 0xe2 1 0x0a0b0c 3 28 1] = unlines [zs "links"; zs "- [0xe2, 0x01, 0x0a, 0x0b, 0x0c, 0x03, 0x1c, 0x01]"].
Proof. vm_compute. repeat split. Qed.
Example C62_ex_listing :
  print_links [mkLink 0xe2 1 0x0a0b0c 3 28 1; mkLink 0xa2 12 0x09ffff 0 0 0]
    (unlines [zs "Link Database:"; zs "    Flags Group Address    Data"; zs "    UR       12 09.ff.ff   00 00 00"; zs "    UC        1 0a.0b.0c   03 1c 01"]).
Proof.
  exists [mkLink 0xa2 12 0x09ffff 0 0 0; mkLink 0xe2 1 0x0a0b0c 3 28 1]. split; [apply perm_swap|]. split; [repeat constructor|vm_compute; reflexivity].
Qed.
(** Two databases with the same records in another order. *)
Example C62_listing_stable_case : let a := [mkLink 0xe2 1 0x0a0b0c 3 28 1; mkLink 0xa2 12 0x09ffff 0 0 0] in let b := [mkLink 0xa2 12 0x09ffff 0 0 0; mkLink 0xe2 1 0x0a0b0c 3 28 1] in
  Forall link_ok a /\ NoDup (map (fun l => (l_addr l, l_group l)) a) /\ Permutation a b /\ exists t, print_links a t /\ print_links b t.
Proof.
  intros a b. assert (Ha : Forall link_ok a) by (repeat constructor; vm_compute; (discriminate || reflexivity)).
  assert (Hb : Forall link_ok b) by (repeat constructor; vm_compute; (discriminate || reflexivity)).
  assert (Hn : NoDup (map (fun l => (l_addr l, l_group l)) a)) by (repeat constructor; cbn; intuition discriminate).
  assert (Hp : Permutation a b) by apply perm_swap.
  split; [exact Ha|]. split; [exact Hn|]. split; [exact Hp|].
  destruct (C62_listing_exists a Ha) as [t Ht]. destruct (C62_listing_exists b Hb) as [u Hu].
  exists t. split; [exact Ht|]. rewrite (C62_listing_stable a b t u Ha Hn Hp Ht Hu). exact Hu.
Qed.
Print Assumptions C62_modem_names.
Print Assumptions C62_thermostat_names.
Print Assumptions C62_packet_text.
Print Assumptions C62_packet_hex_refuted.
Print Assumptions C62_config_text.
Print Assumptions C62_equipment_text.
Print Assumptions C62_record_text.
Print Assumptions C62_request_text.
Print Assumptions C62_device_text.
Print Assumptions C62_thermostat_text.
Print Assumptions C62_thermostat_address_refuted.
Print Assumptions C62_dump.
Print Assumptions C62_listing_order.
Print Assumptions C62_listing_exists.
Print Assumptions C62_listing_contents.
Print Assumptions C62_listing_stable.
Print Assumptions C62_listing_ambiguous_refuted.
