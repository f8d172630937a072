(** Property C73: the texts of the modem and of what is sent to it. *)
From Coq Require Import ZArith List Bool Lia ZifyBool ZifyNat String.
From Verif Require Import GoBase GoLemmas GoProg GoText GoJson Message Address AddressSpec Link LinkSpec LinkText Plm PlmPacket PlmReader PlmReaderSpec PlmLinkdb PlmSpec PlmProofs Display DisplaySpec DisplayProofs DisplayProofs2 IcDev IcDevProofs Report ReportSpec Props_Plm.
Import ListNotations.
Open Scope Z_scope.
Ltac Zify.zify_post_hook ::= Z.div_mod_to_equations.

Lemma dotted_addr : forall a2 a1 a0, is_byte a2 -> is_byte a1 -> is_byte a0 -> addr_string (a2 * 65536 + a1 * 256 + a0) = dotted a2 a1 a0.
Proof.
  intros a2 a1 a0 H2 H1 H0. unfold is_byte in *. unfold addr_string, dotted, byte_of.
  replace ((a2 * 65536 + a1 * 256 + a0) / 65536 mod 256) with a2 by lia. replace ((a2 * 65536 + a1 * 256 + a0) / 256 mod 256) with a1 by lia.
  replace ((a2 * 65536 + a1 * 256 + a0) mod 256) with a0 by lia. reflexivity.
Qed.

Lemma info_bytes : forall sc st r st', 0 <= p_retries st -> plm_info sc st = (r, st') ->
  exists k, 1 <= Z.of_nat k <= p_retries st + 1 /\ p_sent st' = p_sent st ++ repeat [0x02; 0x60] k.
Proof.
  intros sc st r st' Hr H. unfold plm_info in H.
  destruct (pw_write (retry (plm_pw sc) (p_retries st) true) (mkPkt pc_GetInfo [] 0) st) as [o st1] eqn:E.
  assert (st1 = st') by (destruct o as [[[x|] [y|]]| |]; congruence). subst st1.
  unfold retry in E. cbn [pw_write] in E. destruct (retry_sent _ _ _ _ _ _ _ _ E) as (k & H1 & H2 & H3). cbn [p_cmd p_payload] in H3.
  exists k. split; [lia|exact H3].
Qed.

(** A modem shows its address, asking for it only when it is not known; when the question fails it shows the zero address. *)
Theorem C73_modem_text : forall sc st,
  sched_all from_reader sc -> sched_all (fun p => bytes_ok (p_payload p)) sc -> no_end sc ->
  queues_all from_reader st -> queues_all (fun p => bytes_ok (p_payload p)) st -> p_closed st = false -> 0 <= p_retries st ->
  exists s st', plm_string sc st = (Ret s, st') /\
    (if p_addr st =? 0 then
       (exists k, 1 <= Z.of_nat k <= p_retries st + 1 /\ p_sent st' = p_sent st ++ repeat [0x02; 0x60] k) /\
       ((exists p a2 a1 a0 rest, p_cmd p = 0x60 /\ p_ack p = 0x06 /\ p_payload p = a2 :: a1 :: a0 :: rest /\ s = zs "PLM (" ++ dotted a2 a1 a0 ++ zs ")" /\
           p_addr st' = a2 * 65536 + a1 * 256 + a0) \/
        (exists i e st1, plm_info sc st = (Ret (i, Some e), st1) /\ s = zs "PLM (00.00.00)"))
     else st' = st /\ s = zs "PLM (" ++ dotted (p_addr st / 65536 mod 256) (p_addr st / 256 mod 256) (p_addr st mod 256) ++ zs ")").
Proof.
  intros sc st Hf Hb Hn Hq Hqb Hc Hr. unfold plm_string, plm_address. destruct (Z.eqb_spec (p_addr st) 0) as [Z0|Z0].
  2:{ do 2 eexists. split; [reflexivity|]. split; reflexivity. }
  destruct (info_no_crash sc st Hf Hn (conj Hq Hc) Hr) as ([i e] & st1 & E & _). pose proof (info_bytes _ _ _ _ Hr E) as K.
  assert (Ha : p_addr st1 = p_addr st).
  { pose proof E as E'. unfold plm_info in E'.
    destruct (pw_write (retry (plm_pw sc) (p_retries st) true) (mkPkt pc_GetInfo [] 0) st) as [o1 s1] eqn:E1.
    assert (s1 = st1) by (destruct o1 as [[[x|] [y|]]| |]; congruence). subst s1. apply (retry_keeps_addr _ _ _ _ _ _ _ E1). }
  destruct e as [e|].
  - rewrite E. exists (zs "PLM (00.00.00)"), st1. split; [destruct i; rewrite Ha, Z0; reflexivity|]. split; [exact K|]. right. exists i, e, st1. split; reflexivity || assumption.
  - destruct (info_correct _ _ _ _ _ Hb Hqb Hr E) as (p & a2 & a1 & a0 & c0 & c1 & fw & rest & Hp & P1 & P2 & P3 & P4). subst i. rewrite E. cbn [i_addr].
    cbv beta in Hp. rewrite P3 in Hp. inversion Hp as [|? ? B2 Hp1]; subst. inversion Hp1 as [|? ? B1 Hp2]; subst. inversion Hp2 as [|? ? B0 _]; subst.
    rewrite dotted_addr by assumption. do 2 eexists. split; [reflexivity|]. split; [exact K|]. left.
    exists p, a2, a1, a0. eexists. split; [exact P1|]. split; [exact P2|]. split; [exact P3|]. split; [reflexivity|]. reflexivity.
Qed.
(** The text tells which modem. *)
Theorem C73_modem_told : forall sc sc' st st' s t t', word24 (p_addr st) -> word24 (p_addr st') -> p_addr st <> 0 -> p_addr st' <> 0 ->
  plm_string sc st = (Ret s, t) -> plm_string sc' st' = (Ret s, t') -> p_addr st = p_addr st'.
Proof.
  intros sc sc' st st' s t t' W W' N N' H H'. unfold plm_string in *. rewrite address_known in H, H' by assumption.
  apply (f_equal fst) in H. apply (f_equal fst) in H'. cbn [fst] in H, H'. rewrite <- H in H'.
  apply (f_equal (fun o => match o with Ret v => v | _ => [] end)) in H'. cbv beta iota in H'. apply app_inv_head, app_inv_tail in H'. symmetry. apply addr_string_inj; assumption.
Qed.

(** The description of a modem tells its address, category and version. *)
Theorem C73_info_text : forall i j, info_ok i -> info_ok j -> (plm_info_string i = plm_info_string j <-> i = j).
Proof.
  intros [a c0 c1 f] [b d0 d1 g] (A1 & A2 & A3 & A4) (B1 & B2 & B3 & B4). cbn [i_addr i_dc0 i_dc1 i_fw] in *. split; [|intros ->; reflexivity].
  unfold plm_info_string. cbn [i_addr i_dc0 i_dc1 i_fw]. intro H. apply addr_string_cut in H; [|assumption..]. destruct H as [-> H].
  apply app_inv_head in H. unfold devcat_string in H. rewrite <- !app_assoc in H. apply fmt_02x_cut in H; [|assumption..]. destruct H as [-> H].
  apply app_inv_head in H. apply fmt_02x_cut in H; [|assumption..]. destruct H as [-> H]. apply app_inv_head in H.
  apply fmt_d_byte_inj in H; [|assumption..]. subst. reflexivity.
Qed.

(** A request to change a record of the modem: the number of the operation, then the record. *)
Theorem C73_request_text : forall c d a b, is_byte c -> is_byte d -> link_ok a -> link_ok b ->
  (mrr_string c a = mrr_string d b <-> c = d /\ record_alike a b).
Proof.
  intros c d a b Hc Hd Ha Hb. unfold mrr_string. split.
  - intro H. apply fmt_02x_cut in H; [|assumption..]. destruct H as [-> H]. split; [reflexivity|]. apply app_inv_head in H. apply link_string_alike; assumption.
  - intros [-> H]. do 2 f_equal. apply link_string_alike; assumption.
Qed.
Theorem C73_linking_text : forall m n g h, is_byte m -> is_byte n -> is_byte g -> is_byte h -> (alr_string m g = alr_string n h <-> m = n /\ g = h).
Proof.
  intros m n g h Hm Hn Hg Hh. unfold alr_string. split; [|intros [-> ->]; reflexivity].
  intro H. apply fmt_02x_cut in H; [|assumption..]. destruct H as [-> H]. split; [reflexivity|]. apply app_inv_head in H. apply fmt_d_byte_inj in H; assumption.
Qed.

(** The bytes of a payload, two digits each, comma and blank between them and nowhere else. *)
Lemma payload_go_join : forall l i n, n = i + zlen l -> payload_go i n l = hex_join (zs ", ") l.
Proof.
  induction l as [|x l IH]; intros i n H; [reflexivity|]. cbn [payload_go]. rewrite hex_join_cons. f_equal.
  destruct l as [|y l].
  - replace (i <? n - 1) with false by (unfold zlen in H; cbn [List.length] in H; lia). reflexivity.
  - replace (i <? n - 1) with true by (unfold zlen in H; cbn [List.length] in H; lia). rewrite (IH (i + 1) n) by (unfold zlen in *; cbn [List.length] in *; lia).
    rewrite hex_join_cons. cbn [map List.concat]. reflexivity.
Qed.
Theorem C73_payload_text : forall l, payload_str l = joined (zs ", ") (map fmt_02x l).
Proof.
  intro l. unfold payload_str. rewrite payload_go_join by lia. unfold hex_join. generalize (map fmt_02x l). clear l.
  induction l as [|a [|b l] IH]; [reflexivity|reflexivity|]. change (joined (zs ", ") (a :: b :: l)) with (a ++ zs ", " ++ joined (zs ", ") (b :: l)).
  rewrite <- IH. reflexivity.
Qed.
Theorem C73_payload_told : forall a b, bytes_ok a -> bytes_ok b -> (payload_str a = payload_str b <-> a = b).
Proof.
  intros a b Ha Hb. split; [|intros ->; reflexivity]. unfold payload_str. rewrite !payload_go_join by lia. apply hex_join_inj; assumption.
Qed.

Example C73_ex :
  mrr_string 0x41 (mkLink 0xa2 12 0x0a0b0c 0 0 0) = zs "41 UR 12 0a.0b.0c 0x00 0x00 0x00" /\ alr_string 255 7 = zs "ff 7" /\
  payload_str [0; 0x1f; 0xff] = zs "00, 1f, ff" /\ payload_str [] = [] /\
  plm_info_string (mkInfo 0x112233 3 0x15 0x9b) = zs "11.22.33 category 03.15 version 155" /\
  (let sc := steps [mkStep [] [] false None; mkStep [] [EvPacket (mkPkt 0x60 [0x11;0x22;0x33;3;0x15;0x9b] 6)] false None] in
   fst (plm_string sc (mkPlm [] [] false [] [] 0 3 3 0)) = Ret (zs "PLM (11.22.33)")) /\
  fst (plm_string (steps []) (mkPlm [] [] false [] [] 0 3 0 0)) = Ret (zs "PLM (00.00.00)").
Proof. vm_compute. repeat split. Qed.
Definition ex_sc73 : schedule := steps [mkStep [] [] false None;
    mkStep [] [EvPacket (mkPkt 0x60 [0x11;0x22;0x33;3;0x15;0x9b] 6)] false None].
Example C73_modem_text_case : sched_all from_reader ex_sc73 /\ sched_all (fun p => bytes_ok (p_payload p)) ex_sc73 /\ no_end ex_sc73 /\
  exists st', plm_string ex_sc73 ex_plm = (Ret (zs "PLM (11.22.33)"), st') /\ p_addr st' = 0x112233 /\ p_sent st' = [[0x02; 0x60]].
Proof.
  split; [|split; [|split; [|eexists; split; [vm_compute; reflexivity|split; reflexivity]]]].
  - intros [|[|t]] p H; cbn in H; repeat match goal with H : _ \/ _ |- _ => destruct H as [H|H] end;
      try contradiction; try (destruct t; contradiction); injection H as <-.
    exists ([0x11;0x22;0x33;3;0x15;0x9b] ++ [6]). split; [apply (rx_plain false 0x60 _ 9); [reflexivity|lia|reflexivity]|].
    apply (dec_reply false 0x60 [0x11;0x22;0x33;3;0x15;0x9b] 6); [cbn; lia|cbn; lia|left; reflexivity].
  - intros [|[|t]] p H; cbn in H; repeat match goal with H : _ \/ _ |- _ => destruct H as [H|H] end;
      try contradiction; try (destruct t; contradiction); injection H as <-; cbn; repeat constructor; unfold is_byte; lia.
  - intros [|[|t]]; cbn; split; intro H; repeat match goal with H : _ \/ _ |- _ => destruct H as [H|H] end; try contradiction; try discriminate H; destruct t; contradiction.
Qed.
Example C73_modem_told_case : word24 0x112233 /\ exists t, plm_string (steps []) (mkPlm [] [] false [] [] 0 3 3 0x112233) = (Ret (zs "PLM (11.22.33)"), t).
Proof. split; [unfold word24; lia|]. eexists. vm_compute. reflexivity. Qed.
Example C73_info_text_case : info_ok (mkInfo 0x112233 3 0x15 0x9b) /\ link_ok (mkLink 0xa2 12 0x0a0b0c 0 0 0) /\ bytes_ok [0; 0x1f; 0xff].
Proof. split; [|split]; [unfold info_ok, word24, is_byte; cbn; lia|unfold link_ok, word24, is_byte; cbn; lia|repeat constructor; unfold is_byte; lia]. Qed.

Print Assumptions C73_modem_text.
Print Assumptions C73_modem_told.
Print Assumptions C73_info_text.
Print Assumptions C73_request_text.
Print Assumptions C73_linking_text.
Print Assumptions C73_payload_text.
Print Assumptions C73_payload_told.
