(** C86: which value stands under which word in the texts of the library and the tools. *)
From Coq Require Import ZArith List Bool String Lia ZifyBool ZifyNat Permutation Sorting.Sorted.
From Verif Require Import GoBase GoLemmas GoText GoJson GoProg Command Message MessageSpec MessageProofs Address Link LinkText LinkSpec LinkProofs PlmPacket Plm DevLinkdb MsgWriter BasicDevice Lights Thermostat
  Query Display DisplaySpec DisplayProofs DisplayProofs2 Props_Display IcDev IcDevSpec IcDevProofs Props_IcDev Props_IcReport UtilLink Database Report SnoopTextSpec Props_SnoopText Props_FileText TextsSpec.
Import ListNotations.
Open Scope string_scope.
Open Scope list_scope.
Open Scope Z_scope.
Ltac Zify.zify_post_hook ::= Z.div_mod_to_equations.

(* ------------------------------------------------------------------ layouts *)
Lemma says_app : forall i t j u, says i t -> says j u -> says (i ++ j) (t ++ u).
Proof. intros i t j u Hi Hj. induction Hi; cbn [app]; rewrite <- ?app_assoc; try constructor; assumption. Qed.
Lemma says_end : forall i t, says i (t ++ []) -> says i t.
Proof. intros i t. rewrite app_nil_r. exact (fun x => x). Qed.
Lemma says_unlines : forall is ts, Forall2 says is ts -> says (lines is) (unlines ts).
Proof.
  intros is ts Hs. unfold lines, unlines. induction Hs as [|i t is ts Hi _ IH]; [constructor|]. cbn [flat_map]. apply says_app; [|exact IH].
  apply says_app; [exact Hi|]. apply (YN [] []). constructor.
Qed.
Lemma number_int : forall n, number (fmt_int n) n.
Proof. exact fmt_int_signed. Qed.
Lemma number_byte : forall b, is_byte b -> number (fmt_d_byte b) b.
Proof. intros b Hb. left. split; [unfold is_byte in Hb; lia|apply decimal_fmt; exact Hb]. Qed.
Lemma land_on : forall n x, 0 <= n -> (Z.land x (2 ^ n) =? 2 ^ n) = on n x.
Proof.
  intros n x Hn. unfold on. rewrite <- (Z.testbit_spec' x n Hn).
  assert (E : Z.land x (2 ^ n) = if Z.testbit x n then 2 ^ n else 0).
  { apply Z.bits_inj'. intros k Hk. rewrite Z.land_spec, Z.pow2_bits_eqb by lia. destruct (Z.eqb_spec n k) as [<-|N].
    - rewrite andb_true_r. destruct (Z.testbit x n); [rewrite Z.pow2_bits_true by lia; reflexivity|rewrite Z.bits_0; reflexivity].
    - rewrite andb_false_r. destruct (Z.testbit x n); [rewrite Z.pow2_bits_false by lia; reflexivity|rewrite Z.bits_0; reflexivity]. }
  rewrite E. pose proof (Z.pow_pos_nonneg 2 n ltac:(lia) Hn). destruct (Z.testbit x n); cbn [Z.b2z]; [rewrite Z.eqb_refl; reflexivity|]. destruct (Z.eqb_spec 0 (2 ^ n)); [lia|reflexivity].
Qed.
Ltac byte := assumption || (unfold is_byte, word24, byte_of in *; lia).
Ltac piece :=
  first [ exact Y0
        | apply YN
        | refine (YL _ _ _ _)
        | refine (YA _ _ _ _ (dotted_addr _ _) _); [byte|]
        | refine (YH _ _ _ _ (hex2_fmt _ _) _); [byte|]
        | refine (YD _ _ _ _ (number_byte _ _) _); [byte|]
        | refine (YD _ _ _ _ (number_int _) _)
        | refine (YT _ _ _ _) ].
Ltac say := apply says_end; repeat rewrite <- app_assoc; cbn [app]; repeat piece.

(* ------------------------------------------------------------------ commands and messages *)
Lemma lookup_none : forall t c, lookup_name c t = None -> ~ In c (map fst t).
Proof.
  induction t as [|[k n] t IH]; intros c E; [intros []|]. cbn [lookup_name fst map] in *. intros [I|I].
  - rewrite I, Z.eqb_refl in E. discriminate.
  - destruct (k =? c); [discriminate|]. exact (IH c E I).
Qed.
Theorem C86_command : forall c, word24 c -> exists r, command_says r c /\ says r (cmd_string c).
Proof.
  intros c Hc. unfold command_says, cmd_string. destruct (lookup_name c cmd_strings) as [n|] eqn:E1.
  { exists [T n]. split; [|say]. left. exists n. split; [apply lookup_name_in; exact E1|reflexivity]. }
  destruct (command_parts c Hc) as (P0 & P1 & P2 & P3). rewrite P0, P1, P2, P3.
  replace (c - c mod 256) with (c / 256 * 256) by lia. apply lookup_none in E1. unfold word24 in Hc. destruct (lookup_name (c / 256 * 256) cmd_strings) as [n|] eqn:E2.
  - exists [T n; L "("; D (c mod 256); L ")"]. split; [|say]. right; left. split; [exact E1|]. exists n. split; [apply lookup_name_in; exact E2|reflexivity].
  - eexists. split; [right; right; split; [exact E1|split; [apply lookup_none; exact E2|reflexivity]]|]. say.
Qed.
Lemma says_spaced : forall l, bytes_ok l -> says (spaced l) (hex_join (zs " ") l).
Proof.
  intros l Hl. induction Hl as [|b l Hb Hl IH]; [constructor|]. destruct l as [|c l].
  - change (hex_join (zs " ") [b]) with (fmt_02x b). say.
  - change (hex_join (zs " ") (b :: c :: l)) with (fmt_02x b ++ zs " " ++ hex_join (zs " ") (c :: l)). change (spaced (b :: c :: l)) with (H b :: L " " :: spaced (c :: l)).
    apply YH; [apply hex2_fmt; exact Hb|]. apply YL. exact IH.
Qed.
Lemma layout_exists : forall f, is_byte f -> exists k e l m, flags_layout f k e l m.
Proof.
  intros f Hf. unfold is_byte in Hf. unfold flags_layout.
  assert (K : exists k, kind_bits k = f / 32).
  { assert (C : f / 32 = 0 \/ f / 32 = 1 \/ f / 32 = 2 \/ f / 32 = 3 \/ f / 32 = 4 \/ f / 32 = 5 \/ f / 32 = 6 \/ f / 32 = 7) by lia.
    destruct C as [->|[->|[->|[->|[->|[->|[->| ->]]]]]]];
    [exists KDirect|exists KDirectAck|exists KCleanup|exists KCleanupAck|exists KBroadcast|exists KDirectNak|exists KAllLink|exists KCleanupNak]; reflexivity. }
  destruct K as [k K]. exists k, (f / 16 mod 2 =? 1), (f / 4 mod 4), (f mod 4). rewrite K. destruct (Z.eqb_spec (f / 16 mod 2) 1); lia.
Qed.
Theorem C86_message : forall m, msg_ok m -> exists r, message_says m r /\ says r (msg_string m).
Proof.
  intros m (Hs & Hd & Hf & Hc & Hp). destruct (layout_exists _ Hf) as (k & e & l & x & Lay).
  destruct (accessors_layout _ _ _ _ _ Lay) as (_ & El & Em & Ee & _ & Et & Ea & _).
  assert (Hl : is_byte l /\ is_byte x) by (destruct Lay as (L1 & L2 & _); unfold is_byte; lia). destruct Hl as [Hl Hx].
  destruct (command_parts _ Hc) as (_ & P1 & P2 & _).
  assert (C : exists c, (if is_ack_kind k then c = [D (m_cmd m / 256 mod 256); L "."; D (m_cmd m mod 256)] else command_says c (m_cmd m)) /\
    says c (if is_ack_kind k then fmt_d_byte (command1 (m_cmd m)) ++ zs "." ++ fmt_d_byte (command2 (m_cmd m)) else cmd_string (m_cmd m))).
  { destruct (is_ack_kind k); [|destruct (C86_command _ Hc) as (r & R1 & R2); exists r; split; assumption].
    eexists. split; [reflexivity|]. rewrite P1, P2. say. }
  destruct C as (c & C1 & C2). eexists. split; [exists k, e, l, x, c; split; [exact Lay|split; [exact C1|reflexivity]]|].
  unfold msg_string, fl_string. cbv zeta. rewrite El, Em, Ee, Et, Ea. unfold word24 in Hd. rewrite <- !app_assoc.
  assert (S : says [L (if e then "E" else "S"); L (kind_word k); L " "; D x; L ":"; D l; L " "; A (m_src m); L " -> "]
     ((if e then zs "E" else zs "S") ++ pad_right 5 (mt_string (32 * kind_bits k)) ++ zs " " ++ fmt_d_byte x ++ zs ":" ++ fmt_d_byte l ++ zs " " ++ addr_string (m_src m) ++ zs " -> ")).
  { destruct e, k; cbn [kind_word kind_bits]; say. }
  assert (G : says (match k with KAllLink => [L " Group("; D (m_dst m mod 256); L ")"] | _ => [] end)
     (if 32 * kind_bits k =? mt_AllLinkBroadcast then zs " Group(" ++ fmt_d_byte (byte_of (m_dst m)) ++ zs ")" else [])).
  { destruct k; try exact Y0. cbn -[zs fmt_d_byte]. say. }
  assert (E : says (if e then [L " ["] ++ spaced (m_payload m) ++ [L "]"] else []) (if e then zs " [" ++ hex_join (zs " ") (m_payload m) ++ zs "]" else [])).
  { destruct e; [|exact Y0]. apply says_app; [say|]. apply says_app; [apply says_spaced; exact Hp|say]. }
  assert (D : says (target k (m_dst m))
    (if 32 * kind_bits k =? mt_AllLinkBroadcast then zs "ff.ff.ff"
     else if 32 * kind_bits k =? mt_Broadcast then
      zs "ff.ff.ff DevCat " ++ Display.devcat_string (byte_of (m_dst m / 65536)) (byte_of (m_dst m / 256)) ++ zs " Firmware " ++ fw_string (byte_of (m_dst m))
     else if 32 * kind_bits k =? mt_AllLinkCleanup then addr_string (m_dst m) ++ zs " Cleanup"
     else addr_string (m_dst m))).
  { unfold Display.devcat_string, fw_string. destruct k; cbn -[zs fmt_d_byte addr_string fmt_02x fmt_int byte_of Z.div Z.modulo]; try solve [say].
    replace (byte_of (m_dst m / 65536)) with (m_dst m / 65536) by (unfold byte_of; lia). unfold byte_of. say. }
  pose proof (says_app _ _ _ _ S (says_app _ _ _ _ D (says_app _ _ _ _ (says_end [L " "] (zs " ") (YL _ _ _ Y0)) (says_app _ _ _ _ C2 (says_app _ _ _ _ G E))))) as Z.
  rewrite <- !app_assoc in Z. rewrite <- ?app_assoc. exact Z.
Qed.

(* ------------------------------------------------------------------ packets and settings of the modem *)
Lemma modem_name_says : forall c, is_byte c -> exists r n, packet_name c r /\ plm_cmd_string c = Ret n /\ says r n.
Proof.
  intros c Hc. destruct (C62_modem_names c Hc) as (N1 & N2 & _). unfold packet_name.
  destruct (in_dec Z.eq_dec c (map fst modem_names)) as [I|I].
  - apply in_map_iff in I. destruct I as ([k n] & E & I). cbn [fst] in E. subst k. exists [L n], (zs n).
    split; [left; exists n; auto|]. split; [apply N1; exact I|say].
  - assert (J : forall n, ~ In (c, n) modem_names) by (intros n J; apply I; apply in_map_iff; exists (c, n); auto).
    eexists _, _. split; [right; split; [exact J|reflexivity]|]. split; [apply N2; exact J|say].
Qed.
(** A packet in its readable form: name, bytes, outcome; in its short form the bytes are left out; in hexadecimal: command, bytes, and the outcome
    byte. *)
Theorem C86_packet : forall p, packet_ok p -> exists n e t u, packet_name (p_cmd p) n /\ ending_of p e /\
  pkt_format_v p = Ret t /\ says (n ++ each_after_blank (p_payload p) ++ ending_word e) t /\
  pkt_string p = Ret u /\ says (n ++ ending_word e) u /\
  says ([H (p_cmd p)] ++ map H (p_payload p) ++ [H (p_ack p)]) (pkt_format_x p).
Proof.
  intros p (Hc & Hp & Ha). destruct (modem_name_says _ Hc) as (r & n & N & E & S). destruct (ending_exists p) as (e & En & Et).
  assert (W : says (ending_word e) (ending_text e)) by (destruct e; cbn [ending_word ending_text]; [say|say|exact Y0]).
  exists r, e. unfold pkt_format_v, pkt_string. rewrite E. do 2 eexists. split; [exact N|]. split; [exact En|]. split; [reflexivity|]. split; [|split; [reflexivity|split]].
  - rewrite sp_hex_join, Et. apply says_app; [exact S|]. apply says_app; [|exact W]. unfold sp_hex, each_after_blank. clear - Hp.
    induction Hp as [|b l Hb _ IH]; [exact Y0|]. cbn [flat_map]. apply says_app; [say|exact IH].
  - apply says_app; [exact S|]. destruct (0x60 <=? p_cmd p) eqn:C; [rewrite Et; exact W|].
    destruct e; cbn [ending_of] in En; try lia. exact Y0.
  - unfold pkt_format_x. apply YH; [apply hex2_fmt; exact Hc|]. apply says_app; [|say]. clear - Hp.
    induction Hp as [|b l Hb Hl IH]; [exact Y0|]. cbn [map]. destruct l as [|c l]; [say|].
    change (hex_join [] (b :: c :: l)) with (fmt_02x b ++ hex_join [] (c :: l)). apply YH; [apply hex2_fmt; exact Hb|exact IH].
Qed.
Theorem C86_config : forall c, says (config_items c) (cfg_string c).
Proof.
  intro c. unfold cfg_string, config_items, cfg_auto_linking, cfg_monitor, cfg_auto_led, cfg_deadman.
  change 0x80 with (2 ^ 7). change 0x40 with (2 ^ 6). change 0x20 with (2 ^ 5). change 0x10 with (2 ^ 4). rewrite !land_on by lia.
  destruct (on 7 c), (on 6 c), (on 5 c), (on 4 c); say.
Qed.
Theorem C86_modem : forall i, word24 (i_addr i) -> is_byte (i_dc0 i) -> is_byte (i_dc1 i) -> is_byte (i_fw i) -> says (modem_items i) (plm_info_string i).
Proof. intros i Ha H0 H1 Hf. unfold plm_info_string, modem_items, Display.devcat_string. say. Qed.

(* ------------------------------------------------------------------ records *)
Lemma use_says : forall f, is_byte f -> rcf_string f = zs (use_word f).
Proof.
  intros f Hf. destruct (rcf_accessors f Hf) as (H1 & _ & H3 & _). unfold rcf_string. rewrite H1, H3. unfold use_word, on, bitb, bit. change (2 ^ 7) with 128. change (2 ^ 6) with 64.
  destruct (f / 128 mod 2 =? 1), (f / 64 mod 2 =? 1); reflexivity.
Qed.
Lemma record_says : forall l, link_ok l -> says (record_items l) (link_string l).
Proof. intros l (Hf & Hg & Ha & H0 & H1 & H2). unfold link_string, record_items. rewrite use_says by exact Hf. say. Qed.
Theorem C86_record : forall l, link_ok l -> says (record_items l) (link_string l) /\
  (forall c, is_byte c -> says (H c :: L " " :: record_items l) (mrr_string c l)) /\
  (forall m g, is_byte m -> is_byte g -> says [H m; L " "; D g] (alr_string m g)).
Proof.
  intros l Hl. split; [apply record_says; exact Hl|]. split.
  - intros c Hc. unfold mrr_string. apply YH; [apply hex2_fmt; exact Hc|]. apply YL. apply record_says; exact Hl.
  - intros m g Hm Hg. unfold alr_string. say.
Qed.
Theorem C86_request : forall r, request_ok r -> says (request_items r) (lr_string r).
Proof.
  intros r (Ht & Hm & Hl). unfold lr_string, request_items, mem_string.
  assert (W : lrt_string (lr_type r) = zs (request_word (lr_type r))).
  { unfold lrt_string, request_word. destruct (Z.eqb_spec (lr_type r) 0) as [->|N0]; [reflexivity|]. destruct (Z.eqb_spec (lr_type r) 1) as [->|N1]; [reflexivity|].
    destruct (Z.eqb_spec (lr_type r) 2) as [->|N2]; [reflexivity|]. destruct (lr_type r) as [|[[q|q|]|[q|q|]|]|q]; try reflexivity; try lia; destruct q; try reflexivity; lia. }
  rewrite W. replace (byte_of (lr_mem r / 256)) with (lr_mem r / 256) by (unfold byte_of; lia).
  replace (byte_of (Z.land (lr_mem r) 255)) with (lr_mem r mod 256) by (change 255 with (Z.ones 8); rewrite Z.land_ones by lia; unfold byte_of; change (2 ^ 8) with 256; lia).
  rewrite <- !app_assoc.
  assert (E : says (match lr_link r with None => [] | Some l => L " " :: record_items l end) (match lr_link r with None => [] | Some l => zs " " ++ link_string l end)).
  { destruct (lr_link r) as [l|]; [|exact Y0]. apply YL. apply record_says; exact Hl. }
  cbn [app]. do 6 piece. refine (YD _ _ _ _ (number_int _) _). exact E.
Qed.
Lemma row_says : forall l, link_ok l ->
  says (row l) (pad_right 5 (rcf_string (l_flags l)) ++ zs " " ++ pad_left 5 (fmt_d_byte (l_group l)) ++ zs " " ++
    pad_left 8 (addr_string (l_addr l)) ++ zs "   " ++ fmt_02x (l_d0 l) ++ zs " " ++ fmt_02x (l_d1 l) ++ zs " " ++ fmt_02x (l_d2 l)).
Proof.
  intros l (Hf & Hg & Ha & H0 & H1 & H2). unfold row. rewrite use_says by exact Hf.
  assert (P : pad_right 5 (zs (use_word (l_flags l))) = zs (use_word (l_flags l)) ++ zs "   ") by (unfold use_word; destruct (on 7 _), (on 6 _); reflexivity).
  rewrite P. change (pad_left 8 (addr_string (l_addr l))) with (addr_string (l_addr l)). unfold pad_left. rewrite <- !app_assoc. do 3 piece.
  refine (YR _ _ _ _ _ (decimal_fmt _ Hg) _). say.
Qed.
Lemma rows_say : forall (f : link -> list item) (g : link -> list Z) ls, (forall l, link_ok l -> says (f l) (g l)) -> Forall link_ok ls -> Forall2 says (map f ls) (map g ls).
Proof. intros f g ls Hfg Hl. induction Hl; cbn [map]; constructor; auto. Qed.
(** The listing has the records in the order of their addresses and groups, each value in its column. *)
Theorem C86_listing : forall ls out, Forall link_ok ls -> print_links ls out -> exists q, Permutation ls q /\
  (forall i j a b, (i < j)%nat -> nth_error q i = Some a -> nth_error q j = Some b -> ~ listed_before b a) /\ says (listing q) out.
Proof.
  intros ls out Hl Hp. destruct (C62_listing_order ls out Hl Hp) as (q & Pq & -> & So). exists q. split; [exact Pq|]. split; [exact So|].
  assert (Hq : Forall link_ok q) by (apply Forall_forall; intros x Hx; rewrite Forall_forall in Hl; apply Hl; eapply Permutation_in; [apply Permutation_sym; exact Pq|exact Hx]).
  assert (R : Forall2 says (map (fun l => L "    " :: row l) q) (map print_line q)).
  { apply rows_say; [|exact Hq]. intros l Ol. apply (YL "    "). apply row_says. exact Ol. }
  unfold print_template, listing. destruct q as [|x q]; apply says_unlines.
  - constructor; [say|]. constructor; [say|constructor].
  - constructor; [say|]. constructor; [say|exact R].
Qed.
Theorem C86_edited : forall ls heading, Forall link_ok ls -> says (edited heading ls) (links_to_text ls heading).
Proof.
  intros ls heading Hl. unfold edited, links_to_text. apply says_unlines. apply Forall2_app.
  - destruct heading; [|constructor]. unfold text_heading. cbn [map]. repeat (constructor; [say|]). constructor.
  - apply rows_say; [|exact Hl]. exact row_says.
Qed.
Theorem C86_dump : forall ls, Forall link_ok ls -> says (dumped ls) (dump_links ls).
Proof.
  intros ls Hl. unfold dumped, dump_links. destruct ls as [|x ls]; apply says_unlines; [constructor; [say|constructor]|]. constructor; [say|].
  apply rows_say; [|exact Hl]. intros l (Hf & Hg & Ha & H0 & H1 & H2). unfold dump_line, link_marshal. unfold word24 in Ha.
  assert (E : addr_bytes (l_addr l) = [l_addr l / 65536; l_addr l / 256 mod 256; l_addr l mod 256]).
  { unfold addr_bytes, byte_of. rewrite (Z.mod_small (l_addr l / 65536)) by lia. reflexivity. }
  rewrite E. cbn [map app join]. say.
Qed.

(* ------------------------------------------------------------------ devices *)
Lemma engine_says : forall e, ev_string e = zs (engine_word e).
Proof.
  intro e. unfold ev_string, engine_word. destruct (Z.eqb_spec e 0) as [->|N0]; [reflexivity|]. destruct (Z.eqb_spec e 1) as [->|N1]; [reflexivity|].
  destruct (Z.eqb_spec e 2) as [->|N2]; [reflexivity|]. destruct e as [|[[q|q|]|[q|q|]|]|q]; try reflexivity; try lia; destruct q; try reflexivity; lia.
Qed.
Lemma name_says : forall i, word24 (di_addr i) -> exists r, device_name i r /\ says r (kind_string i).
Proof.
  intros i Ha. unfold device_name, a_dimmer, a_thermostat, kind_string, dev_lookup.
  destruct (Z.eqb_spec (di_dc0 i) 1) as [E1|E1]; [eexists; split; [left; split; [exact E1|reflexivity]|unfold dimmer_string; say]|].
  destruct (Z.eqb_spec (di_dc0 i) 2) as [E2|E2].
  { destruct (di_dc1 i =? 8); (eexists; split; [right; left; split; [exact E2|reflexivity]|unfold switch_string; say]). }
  destruct (Z.eqb_spec (di_dc0 i) 5) as [E5|E5].
  { eexists. split; [right; right; left; split; [exact E5|reflexivity]|]. rewrite C62_thermostat_text. say. }
  eexists. split; [right; right; right; repeat (split; [assumption|]); reflexivity|]. unfold basic_string. rewrite engine_says. say.
Qed.
Lemma info_says : forall i n name, is_byte (di_dc0 i) -> is_byte (di_dc1 i) -> says n name ->
  Forall2 says (info_lines n i) [zs "       Device: " ++ name; zs "       Engine: " ++ ev_string (di_engine i);
    zs "     Category: " ++ Display.devcat_string (di_dc0 i) (di_dc1 i); zs "     Firmware: " ++ fw_string (di_fw i)].
Proof.
  intros i n name H0 H1 Hn. unfold info_lines, Display.devcat_string, fw_string. rewrite engine_says.
  constructor; [apply YL; exact Hn|]. repeat (constructor; [say|]). constructor.
Qed.
(** device info prints the device, its engine, its category and its firmware, and then the listing of its records. *)
Theorem C86_device_info : forall W (open : Z -> prog W (option (bdev W) * option error)) links a w d w1 ls w2 out,
  opens open a w d w1 -> links d w1 = (Ret (ls, None), w2) ->
  let i := bd_info d in word24 (di_addr i) -> is_byte (di_dc0 i) -> is_byte (di_dc1 i) -> Forall link_ok ls ->
  exists s, ic_device open links a DInfo w = (Ret (s, None), w2) /\
    (terminal s out -> exists n q, device_name i n /\ Permutation ls q /\ says (lines (info_lines n i) ++ listing q) out).
Proof.
  intros W open links a w d w1 ls w2 out Ho Hl i Ha H0 H1 Hls. destruct (name_says i Ha) as (n & N & S). eexists. split.
  - unfold ic_device. rewrite (then_accepted _ _ _ _ _ _ _ _ _ Ho) by reflexivity. cbn [device_sub]. unfold print_dev_info, pbind. rewrite Hl. reflexivity.
  - cbn [terminal sh_links sh_text]. intros (out' & P & ->). destruct (C86_listing ls out' Hls P) as (q & Q1 & _ & Q3). exists n, q.
    split; [exact N|]. split; [exact Q1|]. apply says_app; [|exact Q3]. apply says_unlines. rewrite app_nil_r. apply info_says; assumption.
Qed.
(** switch config prints the same and the X10 address, house code first. *)
Theorem C86_switch_config : forall W (open : Z -> prog W (option (bdev W) * option error)) fuel links a w d w1 c w2 ls w3 out,
  opens open a w d w1 -> let i := bd_info d in a_switch i -> switch_config fuel i (bd_writer d) w1 = (Ret (c, None), w2) -> links d w2 = (Ret (ls, None), w3) ->
  word24 (di_addr i) -> is_byte (di_dc0 i) -> is_byte (di_dc1 i) -> is_byte (sc_house c) -> is_byte (sc_unit c) -> Forall link_ok ls ->
  exists s, ic_switch fuel open links a SConfig w = (Ret (s, None), w3) /\
    (terminal s out -> exists q, Permutation ls q /\
       says (lines (info_lines [L "Switch ("; A (di_addr i); L ")"] i ++ [[L "  X10 Address: "; H (sc_house c); L "."; H (sc_unit c)]]) ++ listing q) out).
Proof.
  intros W open fuel links a w d w1 c w2 ls w3 out Ho i Hsw Hc Hl Ha H0 H1 Hh Hu Hls. eexists. split.
  - unfold ic_switch. rewrite (then_accepted _ _ _ _ _ _ _ _ _ Ho) by (apply lookup_switch; exact Hsw). cbn [switch_sub]. unfold sw_assign, sw_start, sw_Switch, on_receiver. fold i.
    unfold sw_config_cmd, print_dev_info, pbind. rewrite Hc, Hl. reflexivity.
  - cbn [terminal sh_links sh_text]. intros (out' & P & ->). destruct (C86_listing ls out' Hls P) as (q & Q1 & _ & Q3). exists q.
    split; [exact Q1|]. apply says_app; [|exact Q3]. apply says_unlines. apply Forall2_app.
    + apply info_says; [assumption|assumption|]. unfold switch_string. say.
    + change (match zs "  X10 Address: " ++ fmt_02x (sc_house c) ++ zs "." ++ fmt_02x (sc_unit c) with [] => [] | _ => [zs "  X10 Address: " ++ fmt_02x (sc_house c) ++ zs "." ++ fmt_02x (sc_unit c)] end)
        with [zs "  X10 Address: " ++ fmt_02x (sc_house c) ++ zs "." ++ fmt_02x (sc_unit c)]. constructor; [say|constructor].
Qed.
Lemma truth_says : forall b, bool_string b = zs (if b then "true" else "false").
Proof. intros []; reflexivity. Qed.
Lemma flags_say : forall lf, Forall2 says (flag_lines lf)
  [ zs "          Program Lock: " ++ bool_string (lf_program_lock lf); zs "             LED on Tx: " ++ bool_string (lf_tx_led lf)
  ; zs "            Resume Dim: " ++ bool_string (lf_resume_dim lf); zs "                LED On: " ++ bool_string (lf_led lf)
  ; zs "         Load Sense On: " ++ bool_string (lf_load_sense lf); zs "              DB Delta: " ++ fmt_int (lf_db_delta lf)
  ; zs "                   SNR: " ++ fmt_int (lf_snr lf); zs "           X10 Enabled: " ++ bool_string (lf_x10_enabled lf)
  ; zs "        Blink on Error: " ++ bool_string (lf_error_blink lf); zs "Cleanup Report Enabled: " ++ bool_string (lf_cleanup_report lf) ].
Proof.
  intro lf. unfold flag_lines, truth, lf_program_lock, lf_tx_led, lf_resume_dim, lf_led, lf_load_sense, lf_db_delta, lf_snr, lf_x10_enabled, lf_error_blink, lf_cleanup_report, lf_byte.
  change 0x20 with (2 ^ 5). change 0x10 with (2 ^ 4). change 0x04 with (2 ^ 2). change 0x02 with (2 ^ 1). change 0x01 with (2 ^ 0).
  rewrite !land_on by lia. rewrite !truth_says. repeat (constructor; [say|]). constructor.
Qed.
(** dimmer config prints the configuration and the operating flags, each bit under its name. *)
Theorem C86_dimmer_config : forall W (open : Z -> prog W (option (bdev W) * option error)) fuel a w d w1 c w2 lf w3,
  opens open a w d w1 -> a_dimmer (bd_info d) -> dimmer_config fuel (bd_info d) (bd_writer d) w1 = (Ret (c, None), w2) ->
  switch_operating_flags (bd_info d) (bd_writer d) w2 = (Ret (lf, None), w3) -> is_byte (dc_house c) -> is_byte (dc_unit c) ->
  exists t, ic_dimmer fuel open a MConfig w = (Ret (text_shown t, None), w3) /\ says (lines (dimmer_lines c ++ flag_lines lf)) t.
Proof.
  intros W open fuel a w d w1 c w2 lf w3 Ho Hd Hc Hf Hh Hu. eexists. split.
  - unfold ic_dimmer. rewrite (then_accepted _ _ _ _ _ _ _ _ _ Ho) by (apply lookup_dimmer; exact Hd). cbn [dimmer_sub]. unfold dim_config_cmd, pbind. rewrite Hc, Hf. reflexivity.
  - unfold lines. rewrite flat_map_app. apply says_app; apply says_unlines; [|apply flags_say]. unfold dimmer_lines. repeat (constructor; [say|]). constructor.
Qed.
Lemma state_says : forall s, says (state_items s) (es_string s).
Proof.
  intro s. unfold es_string, state_items, es_cool, es_heat, es_output_available, es_output_state.
  pose proof (land_on 0 s ltac:(lia)) as E0. pose proof (land_on 1 s ltac:(lia)) as E1. pose proof (land_on 2 s ltac:(lia)) as E2. pose proof (land_on 3 s ltac:(lia)) as E3.
  change (2 ^ 0) with 1 in E0. change (2 ^ 1) with 2 in E1. change (2 ^ 2) with 4 in E2. change (2 ^ 3) with 8 in E3. rewrite E0, E1, E2, E3.
  destruct (on 0 s), (on 1 s), (on 2 s), (on 3 s); cbn [app commas join]; try exact Y0; say.
Qed.
Lemma unit_says : forall u, says (unit_item u) (name_of (unit_string u)).
Proof.
  intro u. destruct (C62_thermostat_names u) as (_ & _ & _ & _ & ->). cbn [name_of]. unfold unit_item.
  destruct (Z.eqb_spec u 0) as [->|N0]; [say|]. destruct (Z.eqb_spec u 1) as [->|N1]; [say|].
  assert (S : says [L "Unit("; D u; L ")"] (zs "Unit(" ++ fmt_int u ++ zs ")")) by say. destruct u as [|[q|q|]|q]; try exact S; lia.
Qed.
Lemma mode_says : forall m, 0 <= m -> exists r, mode_item m r /\ says r (name_of (tmode_string m)).
Proof.
  intros m Hm. destruct (C62_thermostat_names m) as (N & _ & B & _). unfold mode_item. destruct (Z_lt_dec m 9) as [C|C].
  - assert (K : In m (map fst mode_names)).
    { assert (X : m = 0 \/ m = 1 \/ m = 2 \/ m = 3 \/ m = 4 \/ m = 5 \/ m = 6 \/ m = 7 \/ m = 8) by lia. cbn. intuition. }
    apply in_map_iff in K. destruct K as ([k n] & E & I). cbn [fst] in E. subst k. exists [L n]. split; [left; exists n; auto|]. rewrite (N n I). cbn [name_of]. say.
  - eexists. split; [right; split; [lia|reflexivity]|]. rewrite B by lia. cbn [name_of]. say.
Qed.
(** thermostat status prints the readings, with the unit beside the two temperatures. *)
Theorem C86_thermostat : forall W (open : Z -> prog W (option (bdev W) * option error)) fuel a w d w1 w2 s w3,
  opens open a w d w1 -> a_thermostat (bd_info d) -> therm_set_unit (bd_info d) (bd_writer d) u_Fahrenheit w1 = (Ret None, w2) ->
  therm_status fuel (bd_info d) (bd_writer d) w2 = (Ret (s, None), w3) -> 0 <= ts_mode s ->
  exists mode t, ic_thermostat fuel open a TStatus w = (Ret (text_shown t, None), w3) /\ mode_item (ts_mode s) mode /\ says (lines (status_lines s mode)) t.
Proof.
  intros W open fuel a w d w1 w2 s w3 Ho Ht Hu Hs Hm. destruct (mode_says _ Hm) as (r & R1 & R2). exists r. eexists. split; [|split; [exact R1|]].
  - unfold ic_thermostat. rewrite (then_accepted _ _ _ _ _ _ _ _ _ Ho) by (apply lookup_thermostat; exact Ht). cbn [therm_sub]. unfold therm_status_cmd, pbind. rewrite Hu, Hs. reflexivity.
  - apply says_unlines. unfold status_lines. pose proof (unit_says (ts_unit s)) as U. pose proof (state_says (ts_state s)) as St.
    constructor; [cbn [app]; apply YL; apply YD; [apply number_int|]; apply YL; exact U|].
    constructor; [say|]. constructor; [cbn [app]; apply YL; apply YD; [apply number_int|]; apply YL; exact U|]. constructor; [say|].
    constructor; [apply YL; exact R2|]. constructor; [apply YL; exact St|constructor].
Qed.
(** plm info prints the address, the category, the firmware and the settings of the modem, and then the listing of its records. *)
Theorem C86_modem_info : forall W get_info get_config links (w : W) i w1 c w2 ls w3 out,
  get_info w = (Ret (Some i, None), w1) -> get_config w1 = (Ret (c, None), w2) -> links w2 = (Ret (ls, None), w3) ->
  word24 (i_addr i) -> is_byte (i_dc0 i) -> is_byte (i_dc1 i) -> Forall link_ok ls ->
  exists s, plm_info_cmd get_info get_config links w = (Ret (s, None), w3) /\
    (terminal s out -> exists q, Permutation ls q /\ says (lines (modem_lines i c) ++ listing q) out).
Proof.
  intros W get_info get_config links w i w1 c w2 ls w3 out Hi Hc Hl Ha H0 H1 Hls. eexists. split.
  - unfold plm_info_cmd, pbind. rewrite Hi, Hc, Hl. reflexivity.
  - cbn [terminal sh_links sh_text]. intros (out' & P & ->). destruct (C86_listing ls out' Hls P) as (q & Q1 & _ & Q3). exists q. split; [exact Q1|]. apply says_app; [|exact Q3].
    unfold modem_lines. unfold unlines. rewrite <- !flat_map_app. apply says_unlines.
    constructor; [say|]. constructor; [say|]. constructor; [say|]. constructor; [say|]. constructor; [apply YL; apply C86_config|constructor].
Qed.

(* ------------------------------------------------------------------ a layout leaves nothing open *)
Lemma digits_snoc : forall base t n, digits base t n -> 0 < base -> 0 <= n < base ^ Z.of_nat (List.length t) /\
  (t = [] /\ n = 0 \/ exists u m d, t = u ++ [nth (Z.to_nat d) (zs "0123456789abcdef") 0] /\ digits base u m /\ 0 <= d < base /\ n = base * m + d).
Proof.
  intros base t n Hd Hb. induction Hd as [|t n d Ht IH Hd]; [split; [cbn; lia|left; auto]|]. destruct IH as [IH1 _]. split.
  - rewrite app_length. cbn [List.length]. replace (Z.of_nat (List.length t + 1)) with (Z.succ (Z.of_nat (List.length t))) by lia. rewrite Z.pow_succ_r by lia. nia.
  - right. exists t, n, d. auto.
Qed.
Lemma digits_one : forall base t u n, 0 < base -> List.length t = List.length u -> digits base t n -> digits base u n -> t = u.
Proof.
  intros base t u n Hb Hl Ht. revert u Hl. induction Ht as [|t n d Ht IH Hd]; intros u Hl Hu; [destruct u; [reflexivity|discriminate]|].
  destruct (digits_snoc _ _ _ Hu Hb) as [_ [[-> _]|(v & m & e & -> & Hv & He & E)]]; [rewrite app_length in Hl; cbn in Hl; lia|].
  rewrite !app_length in Hl. cbn [List.length] in Hl. destruct (Z.div_mod_unique base n m d e (or_introl Hd) (or_introl He) E) as [<- <-]. f_equal. apply IH; [lia|exact Hv].
Qed.
Lemma lead_digit : forall t n, digits 10 t n -> t <> [] -> nth 0 t 0 <> 48 -> 10 ^ (Z.of_nat (List.length t) - 1) <= n.
Proof.
  intros t n Ht. induction Ht as [|t n d Ht IH Hd]; [congruence|]. intros _ N. rewrite app_length. cbn [List.length].
  replace (Z.of_nat (List.length t + 1) - 1) with (Z.of_nat (List.length t)) by lia. destruct t as [|x t].
  - cbn [app nth] in N. rewrite dec_char_digit in N by lia. destruct (digits_snoc _ _ _ Ht ltac:(lia)) as [P _]. cbn [List.length] in *. change (10 ^ Z.of_nat 0) with 1 in *. lia.
  - cbn [app nth] in N, IH. specialize (IH ltac:(discriminate) N). cbn [List.length] in *.
    replace (Z.of_nat (S (List.length t)) - 1) with (Z.of_nat (List.length t)) in IH by lia.
    replace (Z.of_nat (S (List.length t))) with (Z.succ (Z.of_nat (List.length t))) by lia. rewrite Z.pow_succ_r by lia. lia.
Qed.
Lemma decimal_one : forall t u n, decimal t n -> decimal u n -> t = u.
Proof.
  assert (LE : forall t u n, decimal t n -> decimal u n -> (List.length t <= List.length u)%nat).
  { intros t u n (Dt & Nt & Zt) (Du & Nu & Zu). destruct (Nat.le_gt_cases (List.length t) (List.length u)) as [C|C]; [exact C|exfalso].
    destruct u as [|y u]; [congruence|]. cbn [List.length] in C. assert (N : nth 0 t 0 <> 48) by (intro E; specialize (Zt E); lia).
    pose proof (lead_digit _ _ Dt Nt N) as Lo. destruct (digits_snoc _ _ _ Du ltac:(lia)) as [[_ Hi] _].
    assert (10 ^ Z.of_nat (List.length (y :: u)) <= 10 ^ (Z.of_nat (List.length t) - 1)) by (apply Z.pow_le_mono_r; cbn [List.length]; lia). lia. }
  intros t u n Ht Hu. apply (digits_one 10 t u n); [lia| |apply Ht|apply Hu]. pose proof (LE _ _ _ Ht Hu). pose proof (LE _ _ _ Hu Ht). lia.
Qed.
Lemma hex2_one : forall t u n, hex2 t n -> hex2 u n -> t = u.
Proof. intros t u n [Dt Lt] [Du Lu]. apply (digits_one 16 t u n); [lia|congruence|exact Dt|exact Du]. Qed.
Lemma hex2_range : forall t n, hex2 t n -> 0 <= n < 256.
Proof. intros t n [Dt Lt]. destruct (digits_snoc _ _ _ Dt ltac:(lia)) as [R _]. rewrite Lt in R. exact R. Qed.
Lemma dotted_one : forall t u n, dotted t n -> dotted u n -> t = u.
Proof.
  intros t u n (x & y & z & i & j & k & -> & Hx & Hy & Hz & ->) (x' & y' & z' & i' & j' & k' & -> & Hx' & Hy' & Hz' & E).
  pose proof (hex2_range _ _ Hx). pose proof (hex2_range _ _ Hy). pose proof (hex2_range _ _ Hz). pose proof (hex2_range _ _ Hx'). pose proof (hex2_range _ _ Hy'). pose proof (hex2_range _ _ Hz').
  assert (i = i' /\ j = j' /\ k = k') as (<- & <- & <-) by lia. rewrite (hex2_one _ _ _ Hx Hx'), (hex2_one _ _ _ Hy Hy'), (hex2_one _ _ _ Hz Hz'). reflexivity.
Qed.
Lemma number_one : forall t u n, number t n -> number u n -> t = u.
Proof.
  intros t u n [[H1 H2]|(H1 & v & -> & H2)] [[H3 H4]|(H3 & x & -> & H4)]; try lia; [exact (decimal_one _ _ _ H2 H4)|]. rewrite (decimal_one _ _ _ H2 H4). reflexivity.
Qed.
(** A layout leaves nothing open: two texts with the same layout are the same. *)
Theorem C86_layout_exact : forall r t u, says r t -> says r u -> t = u.
Proof.
  intros r t u Ht. revert u. induction Ht as [|s r t _ IH|b x r t Hx _ IH|n x r t Hx _ IH|w n x r t Hx _ IH|a x r t Hx _ IH|r t _ IH|x r t _ IH]; intros u Hu; inversion Hu; subst.
  - reflexivity.
  - f_equal. apply IH. assumption.
  - f_equal; [eapply hex2_one; eassumption|apply IH; assumption].
  - f_equal; [eapply number_one; eassumption|apply IH; assumption].
  - match goal with Q : decimal ?y n |- _ => assert (x = y) by (eapply decimal_one; eassumption) end. subst. do 2 f_equal. apply IH. assumption.
  - f_equal; [eapply dotted_one; eassumption|apply IH; assumption].
  - f_equal. apply IH. assumption.
  - f_equal. apply IH. assumption.
Qed.

(* ------------------------------------------------------------------ cases *)
(** A direct message to a dimmer, an acknowledgement, a broadcast, and an extended message. *)
Example C86_ex :
  msg_ok (mkMsg 0x010203 0x0a0b0c 0x0f 0x11ff []) /\
  msg_string (mkMsg 0x010203 0x0a0b0c 0x0b 0x11ff []) = zs "SD     3:2 01.02.03 -> 0a.0b.0c Light On(255)" /\
  msg_string (mkMsg 0x010203 0x0a0b0c 0x2e 0x11ff []) = zs "SD Ack 2:3 01.02.03 -> 0a.0b.0c 17.255" /\
  msg_string (mkMsg 0x010203 0x012041 0x8b 0x080100 []) = zs "SB     3:2 01.02.03 -> ff.ff.ff DevCat 01.20 Firmware 65 Set-button Pressed (responder)" /\
  msg_string (mkMsg 0x010203 0x0a0b0c 0x1b 0x012f00 [1; 255]) = zs "ED     3:2 01.02.03 -> 0a.0b.0c Read/Write ALDB [01 ff]" /\
  pkt_format_v (mkPkt 0x6f [0x41; 0x02] 0x15) = Ret (zs "Manage All Link Record 41 02 NAK") /\ pkt_format_x (mkPkt 0x6f [0x41; 0x02] 0x15) = zs "6f410215" /\
  cfg_string 0x50 = zs ".M.D" /\ lr_string (mkLR 2 0x0ff7 8 (Some (mkLink 0xa2 12 0x0a0b0c 1 2 3))) = zs "Link Write 0f.f7 8 UR 12 0a.0b.0c 0x01 0x02 0x03" /\
  links_to_text [mkLink 0xe2 7 0x0a0b0c 1 2 255] false = unlines [zs "UC        7 0a.0b.0c   01 02 ff"] /\
  dump_links [mkLink 0xe2 7 0x0a0b0c 1 2 255] = unlines [zs "links"; zs "- [0xe2, 0x07, 0x0a, 0x0b, 0x0c, 0x01, 0x02, 0xff]"].
Proof. split; [unfold msg_ok, word24, is_byte; cbn; repeat split; try lia; constructor|]. vm_compute. repeat split. Qed.
Definition ex_rec86 : link := mkLink 0xe2 7 0x0a0b0c 1 2 255.
Lemma ex_rec86_ok : Forall link_ok [ex_rec86].
Proof. repeat constructor; cbn; lia. Qed.
Definition ex_after86 : list (list Z) := [zs "Link Database:"; zs "    Flags Group Address    Data"; zs "    UC        7 0a.0b.0c   01 02 ff"].
Lemma ex_listing86 : forall q, Permutation [ex_rec86] q -> says (listing q) (unlines ex_after86).
Proof.
  intros q P. apply Permutation_length_1_inv in P. subst q. destruct (C62_listing_exists _ ex_rec86_ok) as [out P].
  destruct (C86_listing _ _ ex_rec86_ok P) as (q & Q & _ & S). apply Permutation_length_1_inv in Q. subst q.
  assert (E : out = unlines ex_after86); [|rewrite <- E; exact S].
  destruct P as (s & Ps & _ & ->). apply Permutation_length_1_inv in Ps. subst s. vm_compute. reflexivity.
Qed.
(** What device info, dimmer config, switch config, thermostat status and plm info show in a concrete case, by the theorems. *)
Example C86_device_info_case : exists s, ic_device (ex_at_once ex_dimmer) (fun _ => pret ([ex_rec86], None)) 0x010203 DInfo [] = (Ret (s, None), []) /\
  forall out, terminal s out ->
    out = unlines ([zs "       Device: Dimmer (01.02.03)"; zs "       Engine: I2Cs"; zs "     Category: 01.20"; zs "     Firmware: 65"] ++ ex_after86).
Proof.
  pose proof (fun out => C86_device_info _ (ex_at_once ex_dimmer) (fun _ => pret ([ex_rec86], None)) 0x010203 [] ex_dimmer [] [ex_rec86] [] out eq_refl eq_refl
    ltac:(unfold word24; cbn; lia) ltac:(unfold is_byte; cbn; lia) ltac:(unfold is_byte; cbn; lia) ex_rec86_ok) as K.
  destruct (K []) as (s & E & _). exists s. split; [exact E|]. intros out Ht. destruct (K out) as (s' & E' & G). assert (s' = s) by congruence. subst s'.
  destruct (G Ht) as (n & q & N & P & S). destruct N as [[_ ->]|[[N _]|[[N _]|(N & _)]]]; [|discriminate N|discriminate N|exfalso; apply N; reflexivity].
  set (i := bd_info ex_dimmer) in *. set (told := unlines [zs "       Device: " ++ dimmer_string i; zs "       Engine: " ++ ev_string (di_engine i);
    zs "     Category: " ++ Display.devcat_string (di_dc0 i) (di_dc1 i); zs "     Firmware: " ++ fw_string (di_fw i)]).
  assert (X : says (lines (info_lines [L "Dimmer ("; A (di_addr i); L ")"] i)) told).
  { apply says_unlines, info_says; [unfold is_byte; cbn; lia|unfold is_byte; cbn; lia|]. unfold dimmer_string. assert (word24 (di_addr i)) by (unfold word24; cbn; lia). say. }
  pose proof (C86_layout_exact _ _ _ S (says_app _ _ _ _ X (ex_listing86 q P))) as ->. vm_compute. reflexivity.
Qed.
Example C86_dimmer_config_case : exists t w3, ic_dimmer 5 (ex_at_once ex_dimmer) 0x010203 MConfig ex_config = (Ret (text_shown t, None), w3) /\
  says (lines (dimmer_lines (mkDC 3 4 31 255 40) ++ flag_lines [1; 2; 3; 4; 5])) t /\
  t = unlines [zs "           X10 Address: 03.04"; zs "          Default Ramp: 31"; zs "         Default Level: 255"; zs "                   SNR: 40";
    zs "          Program Lock: true"; zs "             LED on Tx: false"; zs "            Resume Dim: false"; zs "                LED On: false";
    zs "         Load Sense On: false"; zs "              DB Delta: 2"; zs "                   SNR: 3"; zs "           X10 Enabled: false";
    zs "        Blink on Error: false"; zs "Cleanup Report Enabled: true"].
Proof.
  destruct C64_dimmer_config_case as (c & w2 & lf & w3 & s & E1 & E2 & Hh & Hu & _ & -> & ->).
  destruct (C86_dimmer_config _ (ex_at_once ex_dimmer) 5 0x010203 ex_config ex_dimmer _ _ _ _ w3 eq_refl eq_refl E1 E2 Hh Hu) as (t & T1 & T2).
  exists t, w3. split; [exact T1|]. split; [exact T2|]. clear - T1. assert (F := f_equal fst T1). vm_compute in F. injection F as <-. vm_compute. reflexivity.
Qed.
Definition ex_swconf86 : list mresult := [ex_ack 0x2e00; (Some (mkMsg 0x010203 0x0a0b0c 0x1b 0x012e00 [1; 0; 0; 0; 3; 4; 31; 255; 40; 0; 0; 0; 0; 0]), None)].
Example C86_switch_config_case : exists s w3, ic_switch 5 (ex_at_once ex_switch) (fun _ => pret ([ex_rec86], None)) 0x010203 SConfig ex_swconf86 = (Ret (s, None), w3) /\
  sh_text s = unlines [zs "       Device: Switch (01.02.03)"; zs "       Engine: I2Cs"; zs "     Category: 02.2a"; zs "     Firmware: 65"; zs "  X10 Address: 03.04"] /\
  forall out, terminal s out -> exists q, Permutation [ex_rec86] q /\
    says (lines (info_lines [L "Switch ("; A 0x010203; L ")"] (bd_info ex_switch) ++ [[L "  X10 Address: "; H 3; L "."; H 4]]) ++ listing q) out.
Proof.
  destruct (switch_config 5 (bd_info ex_switch) (bd_writer ex_switch) ex_swconf86) as [r w2] eqn:E. pose proof E as E'. vm_compute in E'. injection E' as <- <-.
  pose proof (fun out => C86_switch_config _ (ex_at_once ex_switch) 5 (fun _ => pret ([ex_rec86], None)) 0x010203 ex_swconf86 ex_switch ex_swconf86 _ _ [ex_rec86] _ out eq_refl
    ltac:(split; [reflexivity|discriminate]) E eq_refl ltac:(unfold word24; cbn; lia) ltac:(unfold is_byte; cbn; lia) ltac:(unfold is_byte; cbn; lia) ltac:(unfold is_byte; cbn; lia) ltac:(unfold is_byte; cbn; lia) ex_rec86_ok) as K.
  destruct (K []) as (s & E1 & _). eexists s, _. split; [exact E1|]. split; [assert (F := f_equal fst E1); vm_compute in F; injection F as <-; vm_compute; reflexivity|].
  intros out Ht. destruct (K out) as (s' & E2 & G). assert (s' = s) by congruence. subst s'. exact (G Ht).
Qed.
Example C86_modem_info_case : exists s, plm_info_cmd (W := unit) (pret (Some (mkInfo 0x112233 3 0x15 0x9b), None)) (pret (0x48, None)) (pret ([ex_rec86], None)) tt = (Ret (s, None), tt) /\
  sh_text s = unlines [zs "PLM Info"; zs "      Address: 11.22.33"; zs "     Category: 03 Sub-Category: 15"; zs "     Firmware: 155"; zs "       Config: .M.."] /\
  forall out, terminal s out -> exists q, Permutation [ex_rec86] q /\ says (lines (modem_lines (mkInfo 0x112233 3 0x15 0x9b) 0x48) ++ listing q) out.
Proof.
  pose proof (fun out => C86_modem_info unit (pret (Some (mkInfo 0x112233 3 0x15 0x9b), None)) (pret (0x48, None)) (pret ([ex_rec86], None)) tt _ tt _ tt _ tt out eq_refl eq_refl eq_refl
    ltac:(unfold word24; cbn; lia) ltac:(unfold is_byte; cbn; lia) ltac:(unfold is_byte; cbn; lia) ex_rec86_ok) as K.
  destruct (K []) as (s & E1 & _). exists s. split; [exact E1|]. split; [assert (F := f_equal fst E1); vm_compute in F; injection F as <-; vm_compute; reflexivity|].
  intros out Ht. destruct (K out) as (s' & E2 & G). assert (s' = s) by congruence. subst s'. exact (G Ht).
Qed.
Definition ex_therm86 : list mresult :=
  [ex_ack 0x2e00; ex_ack 141; ex_ack 4; ex_ack 144; ex_ack 45;
   ex_ack 0; (Some (mkMsg 0x010203 9 0x1a 0x2e00 [0;0;0;200;1;2;3;4;5;0;0;0;8;0]), None);
   ex_ack 0; (Some (mkMsg 0x010203 9 0x1a 0x2e00 [0;0;1;200;1;2;3;4;5;0;0;0;8;0]), None); ex_ack 1; ex_ack 2].
Example C86_thermostat_case : exists mode t w3, ic_thermostat 5 (ex_at_once ex_thermostat) 0x010203 TStatus ex_therm86 = (Ret (text_shown t, None), w3) /\
  mode_item 1 mode /\ says (lines (status_lines (mkTS 70 45 72 2 1 1 2) mode)) t /\
  t = unlines [zs "Temperature: 70 " ++ [194; 176; 67]; zs "   Humidity: 45%"; zs "   Setpoint: 72 " ++ [194; 176; 67]; zs "   Deadband: 2"; zs "       Mode: Heat Mode"; zs "      State: heating"].
Proof.
  destruct (therm_set_unit (bd_info ex_thermostat) (bd_writer ex_thermostat) u_Fahrenheit ex_therm86) as [r w2] eqn:E1. pose proof E1 as E1'. vm_compute in E1'. injection E1' as <- <-.
  match type of E1 with _ = (_, ?w) => destruct (therm_status 5 (bd_info ex_thermostat) (bd_writer ex_thermostat) w) as [r w3] eqn:E2 end. pose proof E2 as E2'. vm_compute in E2'. injection E2' as <- <-.
  destruct (C86_thermostat _ (ex_at_once ex_thermostat) 5 0x010203 ex_therm86 ex_thermostat _ _ _ _ eq_refl eq_refl E1 E2 ltac:(cbn; lia)) as (mode & t & T1 & T2 & T3).
  eexists mode, t, _. split; [exact T1|]. split; [exact T2|]. split; [exact T3|]. assert (F := f_equal fst T1). vm_compute in F. injection F as <-. vm_compute. reflexivity.
Qed.
Print Assumptions C86_layout_exact.
Print Assumptions C86_command.
Print Assumptions C86_message.
Print Assumptions C86_packet.
Print Assumptions C86_config.
Print Assumptions C86_modem.
Print Assumptions C86_record.
Print Assumptions C86_request.
Print Assumptions C86_listing.
Print Assumptions C86_edited.
Print Assumptions C86_dump.
Print Assumptions C86_device_info.
Print Assumptions C86_switch_config.
Print Assumptions C86_dimmer_config.
Print Assumptions C86_thermostat.
Print Assumptions C86_modem_info.
