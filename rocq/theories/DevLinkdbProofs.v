(** Proofs about devices/linkdb.go. *)
From Coq Require Import ZArith List Bool Lia ZifyBool ZifyNat.
From Verif Require Import GoBase GoLemmas GoProg Address AddressProofs Command Message MessageSpec MessageProofs MsgWriter FiltersSpec FiltersProofs Link LinkSpec LinkProofs CodecProofs
  BasicDevice DevLinkdb DeviceSpec DeviceProofs DevLinkdbSpec.
Import ListNotations.
Open Scope Z_scope.
Ltac Zify.zify_post_hook ::= Z.div_mod_to_equations.

(** ** LinkRequest *)
Lemma record_bytes_marshal : forall l, link_wf l -> link_marshal l = record_bytes l.
Proof.
  intros l (Hf & Hg & Ha & H0 & H1 & H2). unfold link_marshal, record_bytes, addr_bytes, byte_of. cbn [app].
  change (2 ^ 24) with 16777216 in Ha. cons_lia. reflexivity.
Qed.

Lemma marshal_mem : forall x, byte_of (Z.shiftr x 8) = (x / 256) mod 256 /\ byte_of (Z.land x 0xff) = x mod 256.
Proof.
  intros x. rewrite Z.shiftr_div_pow2 by lia. change 0xff with (Z.ones 8). rewrite Z.land_ones by lia. unfold byte_of.
  change (2 ^ 8) with 256. lia.
Qed.

Lemma unmarshal_mem : forall hi lo, is_byte hi -> is_byte lo -> Z.lor (Z.shiftl hi 8) lo = hi * 256 + lo.
Proof.
  intros hi lo Hh Hl.
  assert (H := sweep2 (fun h l => Z.lor (Z.shiftl h 8) l =? h * 256 + l) ltac:(vm_compute; reflexivity) hi lo Hh Hl). lia.
Qed.

Lemma lr_marshal_write : forall x l, link_wf l ->
  lr_marshal (mkLR lt_writeLink x 0 (Some l)) = Ret ([0; 2; (x / 256) mod 256; x mod 256; 8] ++ record_bytes l ++ [0]).
Proof.
  intros x l Hl. unfold lr_marshal. cbn [lr_type lr_mem lr_link lr_num]. cbn iota. change (lt_writeLink =? lt_readLink) with false.
  change (lt_writeLink =? lt_linkResponse) with false. change (lt_writeLink =? lt_writeLink) with true. cbn iota.
  destruct (marshal_mem x) as [-> ->]. rewrite record_bytes_marshal by exact Hl. reflexivity.
Qed.

Lemma lr_unmarshal_response : forall k l tail, link_wf l -> (k < 512)%nat ->
  lr_unmarshal linkreq_zero ([0; 1; slot_address k / 256; slot_address k mod 256; 0] ++ record_bytes l ++ tail) =
  (mkLR 1 (slot_address k) 0 (Some l), None).
Proof.
  intros k l tail Hl Hk. cbn [app lr_unmarshal]. change (1 =? 0) with false. change (1 =? 1) with true. cbn iota.
  rewrite <- (record_bytes_marshal l Hl). rewrite (link_unmarshal_layout link_zero l (link_marshal l) tail (link_marshal_layout l Hl)).
  cbn [lr_num linkreq_zero].
  rewrite unmarshal_mem by (unfold is_byte, slot_address; lia). f_equal. f_equal. unfold slot_address. lia.
Qed.

(** ** Messages that reach the device *)
Definition handle (info : dinfo) (d : device) : Prop := dv_addr d = di_addr info /\ (dv_checks d = true -> di_engine info = 2).
(** What no message changes. *)
Definition same_device (d d' : device) : Prop :=
  dv_addr d' = dv_addr d /\ dv_checks d' = dv_checks d /\ dv_fate d' = dv_fate d /\ dv_noise d' = dv_noise d /\ dv_extra d' = dv_extra d.

Lemma same_device_refl : forall d, same_device d d.
Proof. intro d. unfold same_device. auto. Qed.
Lemma same_device_trans : forall a b c, same_device a b -> same_device b c -> same_device a c.
Proof. intros a b c (H1 & H2 & H3 & H4 & H5) (G1 & G2 & G3 & G4 & G5). unfold same_device. repeat split; congruence. Qed.
Lemma handle_same : forall info d d', same_device d d' -> handle info d -> handle info d'.
Proof. intros info d d' (H1 & H2 & _) [G1 G2]. unfold handle. rewrite H1, H2. auto. Qed.
Lemma quiet_same : forall d d', same_device d d' -> quiet_device d -> quiet_device d'.
Proof. intros d d' (H1 & H2 & H3 & H4 & H5) H k. rewrite H4, H5. apply H. Qed.

Lemma aldb_reaches : forall info d body, handle info d -> length body = 13%nat ->
  exists c, outgoing info (mkMsg 0 0 0 c_ReadWriteALDB (body ++ [0])) = mkMsg 0 (di_addr info) fl_ExtendedDirectMessage c_ReadWriteALDB (body ++ [c]) /\
    for_device d (mkMsg 0 (di_addr info) fl_ExtendedDirectMessage c_ReadWriteALDB (body ++ [c])) = true.
Proof.
  intros info d body [Ha Hc] Hb.
  assert (Hl : forall c, length (body ++ [c]) = 14%nat) by (intro c; rewrite app_length; cbn [length]; lia).
  assert (Hf : forall c, (dv_checks d = true -> sum (checked_part (mkMsg 0 (di_addr info) fl_ExtendedDirectMessage c_ReadWriteALDB (body ++ [c]))) mod 256 = 0) ->
    for_device d (mkMsg 0 (di_addr info) fl_ExtendedDirectMessage c_ReadWriteALDB (body ++ [c])) = true).
  { intros c H. unfold for_device. cbn [m_dst m_cmd]. rewrite Ha, Z.eqb_refl. change ((c_ReadWriteALDB / 256) mod 256 =? 0x2f) with true.
    rewrite checked_part_ext in * by apply Hl. cbn [app length andb]. rewrite Hl. cbn [Nat.eqb andb].
    destruct (dv_checks d); [|reflexivity]. cbn [negb orb]. specialize (H eq_refl). cbn [app] in H. lia. }
  destruct (Z.eq_dec (di_engine info) 2) as [E|E].
  - destruct (outgoing_checksummed info (mkMsg 0 0 0 c_ReadWriteALDB (body ++ [0])) E) as (b & x & Ep & Eb & Eo); [cbn [m_payload]; rewrite Hl; lia|].
    cbn [m_payload m_cmd m_src] in *. rewrite padded_full in Ep by apply Hl. apply app_inj_tail in Ep. destruct Ep as [<- <-].
    eexists. split; [exact Eo|]. apply Hf. intros _.
    destruct (outgoing_sum info (mkMsg 0 0 0 c_ReadWriteALDB (body ++ [0])) E) as [_ H]; [cbn [m_payload]; rewrite Hl; lia|].
    rewrite Eo in H. rewrite H. cbn [m_payload]. rewrite padded_full by apply Hl. rewrite app_nth2 by lia. rewrite Hb. reflexivity.
  - exists 0. split.
    + unfold outgoing. cbn [m_payload m_cmd m_src]. replace (0 <? zlen (body ++ [0])) with true by (unfold zlen; rewrite Hl; reflexivity).
      replace (di_engine info =? ver_I2Cs) with false by (unfold ver_I2Cs; lia). reflexivity.
    + apply Hf. intro H. specialize (Hc H). contradiction.
Qed.

Lemma dev_write_record : forall info d x l, handle info d -> link_wf l ->
  mw_write (bd_mw info dev_mw) (mkMsg 0 0 0 c_ReadWriteALDB ([0; 2; (x / 256) mod 256; x mod 256; 8] ++ record_bytes l ++ [0])) d =
  match dv_fate d (dv_count d) with
  | Some e => (Ret (None, Some e), set_out (count_up d) [])
  | None =>
      let k := (4095 - x mod 65536) / 8 in
      if (0 <=? k) && ((4095 - x mod 65536) mod 8 =? 0) && (k <? zlen (dv_slots d)) then
        (Ret (Some (mkMsg (dv_addr d) 0 0x2f c_ReadWriteALDB []), None), set_slots (set_out (count_up d) []) (list_set (dv_slots d) (Z.to_nat k) l))
      else (Ret (Some (mkMsg (dv_addr d) 0 0xaf c_ReadWriteALDB []), Some EDevNak), set_out (count_up d) [])
  end.
Proof.
  intros info d x l Hh Hl. cbn [bd_mw mw_write]. unfold bd_write.
  destruct (aldb_reaches info d ([0; 2; (x / 256) mod 256; x mod 256; 8] ++ record_bytes l) Hh eq_refl) as (c & E1 & E2).
  rewrite <- app_assoc in E1. rewrite E1. cbn [dev_mw mw_write]. unfold dev_write. destruct (dv_fate d (dv_count d)) as [e|]; [reflexivity|].
  rewrite E2. cbn [m_payload record_bytes app]. change (2 =? 2) with true. cbn iota.
  replace ((x / 256) mod 256 * 256 + x mod 256) with (x mod 65536) by lia.
  destruct l as [f g a d0 d1 d2]. destruct Hl as (_ & _ & Ha & _). cbn [l_flags l_group l_addr l_d0 l_d1 l_d2] in *. change (2 ^ 24) with 16777216 in Ha.
  replace (a / 65536 * 65536 + (a / 256) mod 256 * 256 + a mod 256) with a by lia.
  reflexivity.
Qed.

(** ** One record write *)
Lemma is_last_flag : forall l, link_wf l -> rcf_last_record (l_flags l) = is_last l.
Proof.
  intros l (Hf & _). unfold is_last. destruct (rcf_accessors_bits (l_flags l) Hf) as (_ & _ & _ & _ & H).
  destruct (rcf_last_record (l_flags l)); destruct (bit 1 (l_flags l) =? 0) eqn:E; try reflexivity.
  - assert (bit 1 (l_flags l) = 0) by (apply H; reflexivity). lia.
  - assert (bit 1 (l_flags l) = 0) by lia. apply H in H0. discriminate.
Qed.

(** What the cache should be after writing [l] at [i]. *)
Definition cache_after (links : list link) (i : nat) (l : link) : list link :=
  if is_last l then firstn i links else firstn i links ++ l :: skipn (S i) links.

Lemma write_step : forall info db d i l, handle info d -> (length (ld_links db) <= length (dv_slots d))%nat -> memory_ok (dv_slots d) -> link_wf l -> 0 <= i ->
  exists r db' d', ld_write_link (bd_mw info dev_mw) i l (db, d) = (Ret r, (db', d')) /\ same_device d d' /\
    ld_age db' = ld_age db /\ ld_index db' = ld_index db /\
    ((r = None /\ i <= zlen (ld_links db) /\ i < zlen (dv_slots d) /\ dv_slots d' = list_set (dv_slots d) (Z.to_nat i) l /\
        ld_links db' = cache_after (ld_links db) (Z.to_nat i) l) \/
     (r <> None /\ db' = db /\ dv_slots d' = dv_slots d)) /\
    (i <= zlen (ld_links db) -> i < zlen (dv_slots d) -> (r = None <-> dv_fate d (dv_count d) = None) /\ dv_count d' = S (dv_count d)).
Proof.
  intros info db d i l Hh Hm [Hlen Hwf] Hl Hi. unfold ld_write_link. unfold pbind at 1. unfold pfst at 1, pget at 1. cbn [fst snd].
  destruct (zlen (ld_links db) <? i) eqn:Ei.
  - exists (Some EDevLinkIndexOutOfRange), db, d. split; [reflexivity|]. split; [apply same_device_refl|]. split; [reflexivity|]. split; [reflexivity|].
    split; [right; split; [discriminate|auto]|lia].
  - unfold pbind at 1, plift. rewrite lr_marshal_write by exact Hl. unfold pbind at 1, psnd. cbn [snd fst].
    rewrite dev_write_record by assumption.
    assert (Hb : i <= 512) by (unfold zlen in *; lia).
    unfold base_address, record_size. change 0x0fff with 4095.
    set (k := (4095 - (4095 - i * 8) mod 65536) / 8).
    destruct (dv_fate d (dv_count d)) as [e|] eqn:Ef; cbv zeta.
    + exists (Some e), db, (set_out (count_up d) []). split; [reflexivity|]. split; [repeat split|]. split; [reflexivity|]. split; [reflexivity|].
      split; [right; split; [discriminate|auto]|]. intros _ _. split; [split; discriminate|reflexivity].
    + destruct ((0 <=? k) && ((4095 - (4095 - i * 8) mod 65536) mod 8 =? 0) && (k <? zlen (dv_slots d))) eqn:Ek.
      * assert (Hk : k = i) by lia. rewrite Hk in *. rewrite (is_last_flag l Hl).
        assert (Hdone : forall db1, ld_links db1 = cache_after (ld_links db) (Z.to_nat i) l -> ld_age db1 = ld_age db -> ld_index db1 = ld_index db ->
          exists r db' d', (Ret None, (db1, set_slots (set_out (count_up d) []) (list_set (dv_slots d) (Z.to_nat i) l))) = (Ret r, (db', d')) /\ same_device d d' /\
    ld_age db' = ld_age db /\ ld_index db' = ld_index db /\
    ((r = None /\ i <= zlen (ld_links db) /\ i < zlen (dv_slots d) /\ dv_slots d' = list_set (dv_slots d) (Z.to_nat i) l /\
              ld_links db' = cache_after (ld_links db) (Z.to_nat i) l) \/
           (r <> (None : option error) /\ db' = db /\ dv_slots d' = dv_slots d)) /\
    (i <= zlen (ld_links db) -> i < zlen (dv_slots d) -> (r = None <-> None = (None : option error)) /\ dv_count d' = S (dv_count d))).
        { intros db1 H1 H2 H3. exists None, db1, (set_slots (set_out (count_up d) []) (list_set (dv_slots d) (Z.to_nat i) l)).
          split; [reflexivity|]. split; [repeat split|]. split; [exact H2|]. split; [exact H3|]. split; [left|].
          - split; [reflexivity|]. split; [lia|]. split; [lia|]. split; [reflexivity|exact H1].
          - intros _ _. split; [split; auto|reflexivity]. }
        unfold cache_after in Hdone |- *. destruct (is_last l).
        -- destruct (i <? zlen (ld_links db)) eqn:E1.
           ++ replace (i <? 0) with false by lia. unfold pbind, pput, pfst, pret. cbn [fst snd]. apply Hdone; reflexivity.
           ++ apply Hdone; try reflexivity. rewrite firstn_all2 by (unfold zlen in *; lia). reflexivity.
        -- destruct (i =? zlen (ld_links db)) eqn:E1.
           ++ unfold pbind, pput, pfst, pret. cbn [fst snd]. apply Hdone; try reflexivity. cbn [set_ld_links ld_links].
              unfold zlen in *. rewrite firstn_all2 by lia. rewrite skipn_all2 by lia. reflexivity.
           ++ replace (i <? 0) with false by lia. unfold pbind, pput, pfst, pret. cbn [fst snd]. apply Hdone; try reflexivity.
              cbn [set_ld_links ld_links]. apply list_set_split. unfold zlen in *. lia.
      * exists (Some EDevNak), db, (set_out (count_up d) []). split; [reflexivity|]. split; [repeat split|]. split; [reflexivity|]. split; [reflexivity|].
        split; [right; split; [discriminate|auto]|]. intros H1 H2. exfalso.
        assert (i < 512) by (unfold zlen in *; lia). subst k. lia.
Qed.

(** ** Reading the records *)
Definition related (m : message) : Prop := (m_cmd m / 256) mod 256 = 0x2f.

Lemma aldb_matcher : forall m, cmd_matcher c_ReadWriteALDB m = ((m_cmd m / 256) mod 256 =? 0x2f).
Proof.
  intro m. unfold cmd_matcher, cmd_matches. rewrite (command1_div (m_cmd m)). change (command1 c_ReadWriteALDB) with 0x2f. apply Z.eqb_sym.
Qed.

Lemma read_aldb : forall info nz fuel d m t, dv_out d = nz ++ m :: t -> Forall unrelated nz -> related m -> (length nz < fuel)%nat ->
  read_match fuel (bd_mw info dev_mw) (cmd_matcher c_ReadWriteALDB) d = (Ret (Some m, None), set_out d t).
Proof.
  intros info nz. induction nz as [|x nz IH]; intros [|fuel] d m t Ho Hn Hm Hf; cbn [length] in Hf; try lia;
    cbn [read_match]; unfold pbind; cbn [bd_mw mw_read dev_mw]; unfold dev_read; rewrite Ho; cbn [app]; cbv iota beta; rewrite aldb_matcher.
  - unfold related in Hm. replace ((m_cmd m / 256) mod 256 =? 0x2f) with true by lia. reflexivity.
  - pose proof (Forall_inv Hn) as Hx. unfold unrelated in Hx. replace ((m_cmd x / 256) mod 256 =? 0x2f) with false by lia.
    rewrite (IH fuel (set_out d (nz ++ m :: t)) m t); [reflexivity|reflexivity|exact (Forall_inv_tail Hn)|exact Hm|lia].
Qed.

Lemma response_payload : forall a k l f, m_payload (response a k l f) = [0; 1; slot_address k / 256; slot_address k mod 256; 0] ++ record_bytes l ++ [0].
Proof. reflexivity. Qed.
Lemma response_related : forall a k l f, related (response a k l f).
Proof. reflexivity. Qed.

(** Repeated responses are passed over. *)
Lemma refresh_copies : forall info k l cs fuel db d t, link_wf l -> (k < 512)%nat -> Forall (fun c => Forall unrelated (fst c)) cs ->
  dv_out d = flat_map (fun c => fst c ++ [response (dv_addr d) k l (snd c)]) cs ++ t -> (length (dv_out d) < fuel)%nat ->
  exists fuel', (length t < fuel')%nat /\
    ld_refresh_loop fuel (bd_mw info dev_mw) (slot_address k) (db, d) = ld_refresh_loop fuel' (bd_mw info dev_mw) (slot_address k) (db, set_out d t).
Proof.
  intros info k l cs. induction cs as [|[nz f] cs IH]; intros fuel db d t Hl Hk Hn Ho Hf.
  - cbn [flat_map app] in Ho. exists fuel. rewrite <- Ho. split; [lia|]. destruct d; reflexivity.
  - cbn [flat_map fst snd] in Ho. rewrite <- !app_assoc in Ho. cbn [app] in Ho.
    set (t1 := flat_map (fun c => fst c ++ [response (dv_addr d) k l (snd c)]) cs ++ t) in *.
    assert (Hlen : length (dv_out d) = (length nz + S (length t1))%nat) by (rewrite Ho, app_length; reflexivity).
    destruct fuel as [|fuel]; [lia|]. 
    destruct (IH fuel db (set_out d t1) t Hl Hk (Forall_inv_tail Hn) eq_refl) as (fuel' & Hf' & E); [cbn [set_out dv_out]; lia|].
    exists fuel'. split; [exact Hf'|]. cbn [ld_refresh_loop]. unfold pbind at 1, psnd. cbn [fst snd].
    rewrite (read_aldb info nz fuel d (response (dv_addr d) k l f) t1 Ho (Forall_inv Hn) eq_refl) by lia.
    cbv iota beta. rewrite response_payload, lr_unmarshal_response by assumption. cbn [lr_mem]. rewrite Z.eqb_refl.
    rewrite E. reflexivity.
Qed.

(** The index of the cached links. *)
Definition index_ok (links : list link) (ix : list (list Z * nat)) : Prop :=
  (forall id j, index_find id ix = Some j -> exists l, nth_error links j = Some l /\ link_id l = id) /\
  (forall l, In l links -> index_find (link_id l) ix <> None).

Lemma index_ok_nil : index_ok [] [].
Proof. split; [discriminate|intros l []]. Qed.
Lemma index_ok_snoc : forall links ix l, index_ok links ix -> index_ok (links ++ [l]) ((link_id l, length links) :: ix).
Proof.
  intros links ix l [H1 H2]. split.
  - intros id j H. cbn [index_find] in H. destruct (bytes_eqb id (link_id l)) eqn:E.
    + injection H as <-. apply bytes_eqb_eq in E. exists l. rewrite nth_error_app2, Nat.sub_diag by lia. auto.
    + destruct (H1 id j H) as (x & Hx & Hi). exists x. split; [|exact Hi]. rewrite nth_error_app1; [exact Hx|]. apply nth_error_Some. congruence.
  - intros x H. cbn [index_find]. destruct (bytes_eqb (link_id x) (link_id l)) eqn:E; [discriminate|].
    apply in_app_or in H. destruct H as [H|[<-|[]]]; [apply H2; exact H|]. rewrite bytes_eqb_refl in E. discriminate.
Qed.

Lemma slot_address_inj : forall j k, slot_address j = slot_address k -> j = k.
Proof. intros j k H. unfold slot_address in H. lia. Qed.

Lemma stream_same : forall d d' slots k, same_device d d' -> stream d k slots = stream d' k slots.
Proof.
  intros d d' slots. induction slots as [|l slots IH]; intros k H; [reflexivity|].
  cbn [stream]. rewrite (IH (S k) H). unfold responses. destruct H as (E1 & E2 & E3 & E4 & E5). rewrite ?E1, ?E2, ?E3, ?E4, ?E5. reflexivity.
Qed.

Lemma refresh_stream : forall info slots k fuel last db d,
  Forall link_wf slots -> (k + length slots <= 512)%nat -> existsb is_last slots = true -> quiet_device d ->
  dv_out d = stream d k slots -> (forall j, (k <= j < 512)%nat -> last <> slot_address j) -> (length (dv_out d) < fuel)%nat ->
  index_ok (ld_links db) (ld_index db) ->
  exists ix o, ld_refresh_loop fuel (bd_mw info dev_mw) last (db, d) =
    (Ret None, (mkLdb (ld_age db) (ld_links db ++ below slots) ix, set_out d o)) /\ index_ok (ld_links db ++ below slots) ix.
Proof.
  intros info slots. induction slots as [|l slots IH]; intros k fuel last db d Hw Hk Hl Hq Ho Hlast Hf Hix; [discriminate|].
  cbn [length] in Hk. cbn [stream] in Ho. unfold responses in Ho. rewrite <- !app_assoc in Ho. cbn [app] in Ho.
  destruct (Hq k) as [Hq1 Hq2]. pose proof (Forall_inv Hw) as Hwl.
  set (t1 := flat_map (fun c => fst c ++ [response (dv_addr d) k l (snd c)]) (dv_extra d k) ++ (if is_last l then [] else stream d (S k) slots)) in *.
  assert (Hlen : length (dv_out d) = (length (dv_noise d k) + S (length t1))%nat) by (rewrite Ho, app_length; reflexivity).
  destruct fuel as [|fuel]; [lia|]. cbn [ld_refresh_loop]. unfold pbind at 1, psnd. cbn [fst snd].
  rewrite (read_aldb info (dv_noise d k) fuel d (response (dv_addr d) k l 0x1b) t1 Ho Hq1 eq_refl) by lia.
  cbv iota beta. rewrite response_payload, lr_unmarshal_response by (try exact Hwl; lia). cbn [lr_mem lr_link].
  replace (slot_address k =? last) with false; [|symmetry; apply Z.eqb_neq; intro E; apply (Hlast k); [lia|congruence]].
  cbn [below]. rewrite (is_last_flag l Hwl). cbn [existsb] in Hl. destruct (is_last l) eqn:El.
  - exists (ld_index db), t1. rewrite app_nil_r. split; [destruct db; reflexivity|exact Hix].
  - cbn [orb] in Hl. unfold pbind, pfst, pget, pput. cbn [fst snd].
    set (db1 := mkLdb (ld_age db) (ld_links db ++ [l]) ((link_id l, length (ld_links db)) :: ld_index db)).
    destruct (refresh_copies info k l (dv_extra d k) fuel db1 (set_out d t1) (stream d (S k) slots) Hwl) as (fuel' & Hf' & E);
      [lia|exact Hq2|reflexivity|cbn [set_out dv_out]; lia|].
    change (set_out (set_out d t1) (stream d (S k) slots)) with (set_out d (stream d (S k) slots)) in E.
    rewrite E.
    destruct (IH (S k) fuel' (slot_address k) db1 (set_out d (stream d (S k) slots))) as (ix & o & E1 & E2).
    + exact (Forall_inv_tail Hw).
    + lia.
    + exact Hl.
    + exact Hq.
    + cbn [set_out dv_out]. apply stream_same. unfold same_device. auto.
    + intros j Hj E1. apply slot_address_inj in E1. lia.
    + exact Hf'.
    + apply index_ok_snoc. exact Hix.
    + exists ix, o. rewrite E1. cbn [ld_age ld_links db1]. rewrite <- !app_assoc in *. cbn [app] in *. split; [reflexivity|].
      cbn [ld_links db1] in E2. rewrite <- app_assoc in E2. exact E2.
Qed.

Lemma aldb_read_request : lr_marshal (mkLR lt_readLink 0 0 None) = Ret (zeros 13 ++ [0]).
Proof. reflexivity. Qed.

Lemma dev_read_request : forall info d, handle info d ->
  mw_write (bd_mw info dev_mw) (mkMsg 0 0 0 c_ReadWriteALDB (zeros 13 ++ [0])) d =
  match dv_fate d (dv_count d) with
  | Some e => (Ret (None, Some e), set_out (count_up d) [])
  | None => (Ret (Some (mkMsg (dv_addr d) 0 0x2f c_ReadWriteALDB []), None), set_out (count_up d) (stream d 0 (dv_slots d)))
  end.
Proof.
  intros info d Hh. cbn [bd_mw mw_write]. unfold bd_write.
  destruct (aldb_reaches info d (zeros 13) Hh eq_refl) as (c & E1 & E2).
  rewrite E1. cbn [dev_mw mw_write]. unfold dev_write. destruct (dv_fate d (dv_count d)) as [e|]; [reflexivity|].
  rewrite E2. reflexivity.
Qed.

(** Refreshing an old cache from an ideal device. *)
Lemma refresh_device : forall info fuel now db d, handle info d -> memory_ok (dv_slots d) -> existsb is_last (dv_slots d) = true -> quiet_device d ->
  ld_age db + 3600 < now -> dv_fate d (dv_count d) = None -> (length (stream d 0 (dv_slots d)) < fuel)%nat ->
  exists ix o, ld_refresh fuel (bd_mw info dev_mw) now (db, d) = (Ret None, (mkLdb now (below (dv_slots d)) ix, set_out (count_up d) o)) /\
    index_ok (below (dv_slots d)) ix.
Proof.
  intros info fuel now db d Hh [Hm Hw] Hl Hq Hage Hfate Hfuel. unfold ld_refresh. unfold pbind at 1. unfold pfst at 1, pget at 1. cbn [fst snd].
  unfold ld_old, max_age. replace (ld_age db + 3600 <? now) with true by lia. cbn [negb].
  unfold pbind at 1. unfold pfst at 1, pput at 1. cbn [fst snd].
  unfold pbind at 1, plift. rewrite aldb_read_request. unfold pbind at 1, psnd. cbn [fst snd].
  rewrite dev_read_request by exact Hh. rewrite Hfate. unfold pbind at 1.
  destruct (refresh_stream info (dv_slots d) 0 fuel 0 (mkLdb (ld_age db) [] []) (set_out (count_up d) (stream d 0 (dv_slots d)))) as (ix & o & E1 & E2).
  - exact Hw.
  - lia.
  - exact Hl.
  - exact Hq.
  - cbn [set_out dv_out]. apply stream_same. unfold same_device. auto.
  - intros j Hj. unfold slot_address. lia.
  - exact Hfuel.
  - exact index_ok_nil.
  - rewrite E1. cbn [ld_age ld_links app] in *. exists ix, o. split; [reflexivity|exact E2].
Qed.

(** ** Lists of slots *)
Lemma below_app_last : forall a t rest, Forall (fun l => is_last l = false) a -> is_last t = true -> below (a ++ t :: rest) = a.
Proof.
  intros a t rest H Ht. induction H as [|l a Hl Ha IH]; cbn [app below]; [rewrite Ht; reflexivity|]. rewrite Hl, IH. reflexivity.
Qed.
Lemma below_app : forall a rest, Forall (fun l => is_last l = false) a -> below (a ++ rest) = a ++ below rest.
Proof. intros a rest H. induction H as [|l a Hl Ha IH]; cbn [app below]; [reflexivity|]. rewrite Hl, IH. reflexivity. Qed.
Lemma below_nonlast : forall s, Forall (fun l => is_last l = false) (below s).
Proof. induction s as [|l s IH]; cbn [below]; [constructor|]. destruct (is_last l) eqn:E; constructor; assumption. Qed.
Lemma below_prefix : forall s, exists rest, s = below s ++ rest /\ below rest = [].
Proof.
  induction s as [|l s (rest & E & Hr)]; cbn [below]; [exists []; auto|]. destruct (is_last l) eqn:El.
  - exists (l :: s). cbn [app below]. rewrite El. auto.
  - exists rest. cbn [app]. rewrite <- E. auto.
Qed.
Lemma list_set_app1 : forall A (a b : list A) i x, (i < length a)%nat -> list_set (a ++ b) i x = list_set a i x ++ b.
Proof.
  intros A a b. induction a as [|h a IH]; intros i x H; cbn [length] in H; [lia|].
  destruct i; cbn [app list_set]; [reflexivity|]. rewrite IH by lia. reflexivity.
Qed.
Lemma list_set_app2 : forall A (a b : list A) h x, list_set (a ++ h :: b) (length a) x = a ++ x :: b.
Proof. intros A a b h x. induction a as [|y a IH]; cbn [app length list_set]; [reflexivity|]. rewrite IH. reflexivity. Qed.
Lemma list_set_split' : forall A (l : list A) i x, (i < length l)%nat -> list_set l i x = firstn i l ++ x :: skipn (S i) l.
Proof. intros. apply list_set_split. assumption. Qed.
Lemma memory_set : forall slots i l, memory_ok slots -> link_wf l -> memory_ok (list_set slots i l).
Proof.
  intros slots i l [H1 H2] Hl. split; [rewrite list_set_length; exact H1|]. clear H1.
  revert i. induction H2 as [|h t Hh Ht IH]; intros i; cbn [list_set]; [constructor|]. destruct i; constructor; auto.
Qed.
Lemma clear_last_not_last : forall l, link_wf l -> with_flags rcf_clear_last_record l = not_last l /\ link_wf (not_last l) /\ is_last (not_last l) = false.
Proof.
  intros [f g a d0 d1 d2] (Hf & Hg & Ha & H0 & H1 & H2). unfold with_flags, not_last, is_last, link_wf.
  cbn [l_flags l_group l_addr l_d0 l_d1 l_d2] in *.
  assert (H : forallb (fun f => (rcf_clear_last_record f =? f + 2 * (1 - bit 1 f)) && (0 <=? f + 2 * (1 - bit 1 f)) && (f + 2 * (1 - bit 1 f) <? 256) &&
    (bit 1 (f + 2 * (1 - bit 1 f)) =? 1)) (map Z.of_nat (seq 0 256)) = true) by (vm_compute; reflexivity).
  rewrite forallb_forall in H. specialize (H f). unfold is_byte in *.
  assert (Hin : In f (map Z.of_nat (seq 0 256))) by (apply in_map_iff; exists (Z.to_nat f); split; [lia|apply in_seq; lia]).
  specialize (H Hin). apply andb_prop in H. destruct H as [H B4]. apply andb_prop in H. destruct H as [H B3]. apply andb_prop in H. destruct H as [B1 B2].
  split; [f_equal; lia|]. split; [repeat split; try assumption; lia|]. lia.
Qed.
Lemma terminator_wf : link_wf terminator.
Proof. unfold link_wf, is_byte. cbn. lia. Qed.
Lemma terminator_last : is_last terminator = true.
Proof. reflexivity. Qed.



Lemma mirror_mirrored : forall db d, mirror db d -> mirrored db d.
Proof.
  intros db d H. unfold mirror in H. destruct (below_prefix (dv_slots d)) as (rest & E & _). exists rest. rewrite H. split; [exact E|apply below_nonlast].
Qed.
Lemma mirrored_below : forall db d, mirrored db d -> exists more, below (dv_slots d) = ld_links db ++ more.
Proof. intros db d (rest & E & H). exists (below rest). rewrite E. apply below_app. exact H. Qed.
Lemma mirrored_length : forall db d, mirrored db d -> (length (ld_links db) <= length (dv_slots d))%nat.
Proof. intros db d (rest & E & _). rewrite E, app_length. lia. Qed.
Lemma Forall_firstn : forall A (P : A -> Prop) n l, Forall P l -> Forall P (firstn n l).
Proof. intros A P n l H. revert n. induction H; intros [|n]; cbn [firstn]; constructor; auto. Qed.
Lemma Forall_skipn : forall A (P : A -> Prop) n l, Forall P l -> Forall P (skipn n l).
Proof. intros A P n l H. revert n. induction H; intros [|n]; cbn [skipn]; auto. Qed.

(** What a successful write does to the mirror. *)
Lemma mirrored_set : forall links rest i l, Forall (fun l => is_last l = false) links -> (i <= length links)%nat -> (i < length (links ++ rest))%nat ->
  exists rest', list_set (links ++ rest) i l = cache_after links i l ++ rest' /\ Forall (fun l => is_last l = false) (cache_after links i l) /\
    (is_last l = true -> below rest' = []) /\ (is_last l = false -> rest' = if (i =? length links)%nat then tl rest else rest).
Proof.
  intros links rest i l Hn Hi Hl. rewrite list_set_split' by exact Hl. rewrite firstn_app. replace (i - length links)%nat with 0%nat by lia. rewrite firstn_O, app_nil_r.
  unfold cache_after. destruct (is_last l) eqn:El.
  - exists (l :: skipn (S i) (links ++ rest)). split; [reflexivity|]. split; [apply Forall_firstn; exact Hn|]. split; [intros _; cbn [below]; rewrite El; reflexivity|discriminate].
  - exists (if (i =? length links)%nat then tl rest else rest). split.
    + rewrite <- app_assoc. cbn [app]. f_equal. f_equal. rewrite skipn_app. destruct (Nat.eqb_spec i (length links)) as [E|E].
      * rewrite skipn_all2 by lia. cbn [app]. replace (S i - length links)%nat with 1%nat by lia. destruct rest; reflexivity.
      * f_equal. replace (S i - length links)%nat with 0%nat by lia. reflexivity.
    + split; [|split; [discriminate|reflexivity]]. apply Forall_app. split; [apply Forall_firstn; exact Hn|]. constructor; [exact El|]. apply Forall_skipn. exact Hn.
Qed.


Lemma write_step_mirror : forall info db d i l, handle info d -> mirrored db d -> memory_ok (dv_slots d) -> link_wf l -> 0 <= i ->
  exists r db' d', ld_write_link (bd_mw info dev_mw) i l (db, d) = (Ret r, (db', d')) /\ same_device d d' /\ mirrored db' d' /\ memory_ok (dv_slots d') /\
    (r = None -> dv_slots d' = list_set (dv_slots d) (Z.to_nat i) l /\ 0 <= i < zlen (dv_slots d)) /\ (r <> None -> db' = db /\ dv_slots d' = dv_slots d) /\
    (mirror db d -> (r = None -> is_last l = false -> i = zlen (below (dv_slots d)) -> fresh_after (dv_slots d)) -> mirror db' d') /\
    (r = None -> is_last l = true -> mirror db' d').
Proof.
  intros info db d i l Hh Hm Hok Hl Hi.
  destruct (write_step info db d i l Hh (mirrored_length db d Hm) Hok Hl Hi) as (r & db' & d' & E & Hs & Ha & Hx & Hr & _).
  exists r, db', d'. split; [exact E|]. split; [exact Hs|]. destruct Hr as [(Er & H1 & H2 & H3 & H4)|(Er & Edb & Eslots)].
  - destruct Hm as (rest & Es & Hn).
    destruct (mirrored_set (ld_links db) rest (Z.to_nat i) l Hn) as (rest' & E1 & E2 & E3 & E4); [unfold zlen in *; lia|rewrite <- Es; unfold zlen in *; lia|].
    rewrite <- Es in E1.
    split; [exists rest'; rewrite H3, H4; auto|]. split; [rewrite H3; apply memory_set; assumption|]. split; [auto|]. split; [congruence|]. split.
    + intros Hmir Hf. unfold mirror in *. rewrite H3, H4, E1, below_app by exact E2. symmetry. rewrite <- app_nil_r. f_equal.
      assert (Hrest : below rest = []).
      { rewrite Es, below_app in Hmir by exact Hn. rewrite <- (app_nil_r (ld_links db)) in Hmir at 1. apply app_inv_head in Hmir. auto. }
      destruct (is_last l) eqn:El; [apply E3; reflexivity|]. rewrite E4 by reflexivity.
      destruct (Nat.eqb_spec (Z.to_nat i) (length (ld_links db))) as [Ei|Ei]; [|exact Hrest].
      specialize (Hf Er eq_refl). rewrite <- Hmir in Hf. specialize (Hf ltac:(unfold zlen; lia)). unfold fresh_after in Hf. rewrite <- Hmir, Es in Hf.
      rewrite skipn_app, skipn_all2 in Hf by lia. cbn [app] in Hf. replace (S (length (ld_links db)) - length (ld_links db))%nat with 1%nat in Hf by lia.
      destruct rest; [reflexivity|exact Hf].
    + intros _ El. unfold mirror. rewrite H3, H4, E1, below_app by exact E2. rewrite E3 by exact El. symmetry. apply app_nil_r.
  - subst db'. unfold mirror, mirrored. rewrite Eslots. split; [exact Hm|]. split; [exact Hok|]. split; [congruence|]. split; [auto|]. split; [auto|congruence].
Qed.


Lemma run_writes_mirror : forall info h db d, handle info d -> mirrored db d -> memory_ok (dv_slots d) -> Forall (fun x => 0 <= fst x /\ link_wf (snd x)) h ->
  exists rs db' d', run_writes info h (db, d) = (Ret rs, (db', d')) /\ length rs = length h /\ mirrored db' d' /\ memory_ok (dv_slots d') /\ same_device d d' /\
    (mirror db d -> careful info h (db, d) -> mirror db' d').
Proof.
  intros info h. induction h as [|[i l] h IH]; intros db d Hh Hm Hok Hf.
  - exists [], db, d. repeat (split; auto using same_device_refl). 
  - destruct (Forall_inv Hf) as [Hi Hl]. cbn [fst snd] in Hi, Hl.
    destruct (write_step_mirror info db d i l Hh Hm Hok Hl Hi) as (r & db1 & d1 & E & Hs & Hm1 & Hok1 & _ & _ & Hmir & _).
    destruct (IH db1 d1 (handle_same _ _ _ Hs Hh) Hm1 Hok1 (Forall_inv_tail Hf)) as (rs & db2 & d2 & E2 & Hlen & Hm2 & Hok2 & Hs2 & Hmir2).
    exists (r :: rs), db2, d2. cbn [run_writes]. rewrite E, E2. split; [reflexivity|]. split; [cbn [length]; lia|]. split; [exact Hm2|]. split; [exact Hok2|].
    split; [eapply same_device_trans; eassumption|]. intros H [Hc1 Hc2]. cbn [snd] in Hc1. rewrite E in Hc2. cbn [snd] in Hc2.
    apply Hmir2; [|exact Hc2]. apply Hmir; [exact H|]. intros _. exact Hc1.
Qed.

(** Blank memory and only plain records: every history is careful. *)
Lemma blank_below : forall s, Forall (fun l => is_last l = true) s -> below s = [].
Proof. intros s H. destruct H as [|l s Hl _]; [reflexivity|]. cbn [below]. rewrite Hl. reflexivity. Qed.
Lemma skipn_plus : forall A (l : list A) a b, skipn a (skipn b l) = skipn (b + a) l.
Proof. intros A l a b. revert l. induction b as [|b IH]; intros l; [reflexivity|]. destruct l; [cbn [skipn Nat.add]; destruct a; reflexivity|]. apply IH. Qed.

Lemma careful_blank : forall info h db d, handle info d -> mirror db d -> memory_ok (dv_slots d) -> blank_above (dv_slots d) ->
  Forall (fun x => 0 <= fst x /\ link_wf (snd x) /\ is_last (snd x) = false) h -> careful info h (db, d).
Proof.
  intros info h. induction h as [|[i l] h IH]; intros db d Hh Hm Hok Hb Hf; [exact I|].
  cbn [careful snd]. destruct (Forall_inv Hf) as (Hi & Hl & Hn). cbn [fst snd] in Hi, Hl, Hn.
  assert (Hfresh : fresh_after (dv_slots d)).
  { unfold fresh_after. apply blank_below. rewrite <- Nat.add_1_r, <- skipn_plus. apply Forall_skipn. exact Hb. }
  split; [auto|].
  destruct (write_step_mirror info db d i l Hh (mirror_mirrored _ _ Hm) Hok Hl Hi) as (r & db1 & d1 & E & Hs & Hm1 & Hok1 & Hsucc & Hfail & Hmir & _).
  rewrite E. cbn [snd].
  assert (Hmir1 : mirror db1 d1) by (apply Hmir; auto).
  apply IH; auto; [exact (handle_same _ _ _ Hs Hh)| |exact (Forall_inv_tail Hf)].
  destruct r as [e|]; [destruct (Hfail ltac:(discriminate)) as [_ ->]; exact Hb|].
  destruct (Hsucc eq_refl) as [Es Hil].
  (* the records before the mark grow by at most one *)
  unfold blank_above in *. destruct (mirror_mirrored _ _ Hm) as (rest & Er & Hnl).
  assert (Hrest : skipn (length (below (dv_slots d))) (dv_slots d) = rest).
  { unfold mirror in Hm. rewrite <- Hm. rewrite Er at 1. rewrite skipn_app, skipn_all, Nat.sub_diag. reflexivity. }
  rewrite Hrest in Hb.
  destruct (write_step info db d i l Hh (mirrored_length _ _ (mirror_mirrored _ _ Hm)) Hok Hl Hi) as (r' & db1' & d1' & E' & _ & _ & _ & Hr & _).
  rewrite E in E'. injection E' as <- <- <-. destruct Hr as [(_ & H1 & H2 & H3 & H4)|(H & _)]; [|congruence].
  destruct (mirrored_set (ld_links db) rest (Z.to_nat i) l Hnl) as (rest' & E1 & E2 & _ & E4); [unfold zlen in *; lia|rewrite <- Er; unfold zlen in *; lia|].
  rewrite <- Er, <- Es in E1. unfold mirror in Hmir1. rewrite <- Hmir1, H4, E1. rewrite skipn_app, skipn_all, Nat.sub_diag. cbn [app skipn].
  rewrite E4 by exact Hn. destruct (Z.to_nat i =? length (ld_links db))%nat; [|exact Hb]. destruct Hb; [constructor|assumption].
Qed.

(** ** Writing a whole list *)
Lemma write_loop_step : forall info ls i db d, handle info d -> mirrored db d -> memory_ok (dv_slots d) -> Forall link_wf ls -> (i <= length (ld_links db))%nat ->
  exists r db' d', ld_write_loop (bd_mw info dev_mw) (Z.of_nat i) ls (db, d) = (Ret r, (db', d')) /\ same_device d d' /\ mirrored db' d' /\ memory_ok (dv_slots d') /\
    ld_index db' = ld_index db /\ length (dv_slots d') = length (dv_slots d) /\
    (r = None -> ld_links db' = firstn i (ld_links db) ++ map not_last ls ++ skipn (i + length ls) (ld_links db) /\ (dv_count d' = dv_count d + length ls)%nat /\
       (i + length ls <= length (dv_slots d))%nat \/ ls = []) /\
    ((i + length ls <= length (dv_slots d))%nat -> (forall n, (dv_count d <= n < dv_count d + length ls)%nat -> dv_fate d n = None) -> r = None).
Proof.
  intros info ls. induction ls as [|l ls IH]; intros i db d Hh Hm Hok Hf Hi.
  - exists None, db, d. cbn [ld_write_loop map app length]. repeat (split; auto using same_device_refl).
  - pose proof (Forall_inv Hf) as Hl. destruct (clear_last_not_last l Hl) as (Ec & Hwf & Hnl).
    cbn [ld_write_loop]. rewrite Ec.
    destruct (write_step_mirror info db d (Z.of_nat i) (not_last l) Hh Hm Hok Hwf ltac:(lia)) as (r & db1 & d1 & E & Hs & Hm1 & Hok1 & Hsucc & Hfail & _ & _).
    destruct (write_step info db d (Z.of_nat i) (not_last l) Hh (mirrored_length _ _ Hm) Hok Hwf ltac:(lia)) as (r' & db1' & d1' & E' & _ & _ & Hix & Hr & Hcount).
    rewrite E in E'. injection E' as <- <- <-.
    unfold pbind at 1. rewrite E. destruct r as [e|].
    + destruct (Hfail ltac:(discriminate)) as [-> Eslots]. exists (Some e), db, d1. split; [reflexivity|]. split; [exact Hs|]. split; [exact Hm1|]. split; [exact Hok1|].
      split; [reflexivity|]. split; [rewrite Eslots; reflexivity|]. split; [discriminate|]. cbn [length]. intros Hroom Hfate. exfalso.
      destruct (Hcount ltac:(unfold zlen; lia) ltac:(unfold zlen; lia)) as [[_ H] _]. rewrite Hfate in H by lia. discriminate (H eq_refl).
    + destruct Hr as [(_ & H1 & H2 & H3 & H4)|(H & _)]; [|congruence]. rewrite Nat2Z.id in *. unfold cache_after in H4. rewrite Hnl in H4.
      assert (Hlen1 : (S i <= length (ld_links db1))%nat) by (rewrite H4, app_length, firstn_length; cbn [length]; lia).
      assert (Hlens : length (dv_slots d1) = length (dv_slots d)) by (rewrite H3, list_set_length; reflexivity).
      destruct (Hcount H1 H2) as [_ Hc].
      destruct (IH (S i) db1 d1 (handle_same _ _ _ Hs Hh) Hm1 Hok1 (Forall_inv_tail Hf) Hlen1) as (r2 & db2 & d2 & E2 & Hs2 & Hm2 & Hok2 & Hix2 & Hl2 & Hs3 & Hf3).
      replace (Z.of_nat (S i)) with (Z.of_nat i + 1) in E2 by lia. rewrite E2. exists r2, db2, d2.
      split; [reflexivity|]. split; [eapply same_device_trans; eassumption|]. split; [exact Hm2|]. split; [exact Hok2|]. split; [congruence|]. split; [congruence|]. split.
      * intro Hr2. left. specialize (Hs3 Hr2).
        assert (H : ld_links db2 = firstn (S i) (ld_links db1) ++ map not_last ls ++ skipn (S i + length ls) (ld_links db1) /\ dv_count d2 = (dv_count d1 + length ls)%nat).
        { destruct Hs3 as [(A & B & _)|A]; [auto|]. subst ls. cbn [ld_write_loop] in E2. unfold pret in E2. injection E2 as <- <- <-.
          cbn [map app length]. rewrite !Nat.add_0_r. split; [symmetry; apply firstn_skipn|reflexivity]. }
        destruct H as [Ha Hb]. cbn [map length]. split; [|split; [lia|]].
        -- rewrite Ha, H4. rewrite firstn_app, firstn_firstn, firstn_length. replace (Nat.min (S i) i) with i by lia. replace (S i - Nat.min i (length (ld_links db)))%nat with 1%nat by lia.
           cbn [firstn]. rewrite <- app_assoc. cbn [app]. f_equal. f_equal. f_equal.
           rewrite skipn_app, firstn_length. replace (Nat.min i (length (ld_links db))) with i by lia.
           rewrite (skipn_all2 (firstn i (ld_links db))) by (rewrite firstn_length; lia). replace (S i + length ls - i)%nat with (S (length ls)) by lia. cbn [app]. rewrite skipn_cons.
           rewrite skipn_plus. f_equal. lia.
        -- destruct Hs3 as [(_ & _ & C)|C]; [lia|]. subst ls. cbn [length]. unfold zlen in H2. lia.
      * intros Hroom Hfate. cbn [length] in Hroom, Hfate. apply Hf3; [lia|]. intros n Hn. destruct Hs as (_ & _ & Ef & _). rewrite Ef. apply Hfate. lia.
Qed.

Lemma write_links_step : forall info now ls db d, handle info d -> mirrored db d -> memory_ok (dv_slots d) -> Forall link_wf ls ->
  exists r db' d', ld_write_links (bd_mw info dev_mw) now ls (db, d) = (Ret r, (db', d')) /\ same_device d d' /\ mirrored db' d' /\ memory_ok (dv_slots d') /\
    (r = None -> ld_links db' = map not_last ls ++ skipn (length ls) (ld_links db) /\ below (dv_slots d') = ld_links db' /\ existsb is_last (dv_slots d') = true /\ ld_age db' = now) /\
    ((length ls < length (dv_slots d))%nat -> (length (ld_links db) < length (dv_slots d))%nat ->
       (forall n, (dv_count d <= n <= dv_count d + length ls)%nat -> dv_fate d n = None) -> r = None).
Proof.
  intros info now ls db d Hh Hm Hok Hf. unfold ld_write_links.
  destruct (write_loop_step info ls 0 db d Hh Hm Hok Hf ltac:(lia)) as (r & db1 & d1 & E & Hs & Hm1 & Hok1 & Hix & Hlens & Hsucc & Hfate).
  unfold pbind at 1. change (Z.of_nat 0) with 0 in E. rewrite E. destruct r as [e|].
  { exists (Some e), db1, d1. split; [reflexivity|]. split; [exact Hs|]. split; [exact Hm1|]. split; [exact Hok1|]. split; [discriminate|].
    intros H1 H2 H3. assert (Some e = None) as X by (apply Hfate; [lia|intros n Hn; apply H3; lia]). discriminate. }
  assert (Hlinks : ld_links db1 = map not_last ls ++ skipn (length ls) (ld_links db) /\ dv_count d1 = (dv_count d + length ls)%nat).
  { destruct (Hsucc eq_refl) as [(A & B & _)|A]; [split; [exact A|exact B]|]. subst ls. cbn [ld_write_loop] in E. unfold pret in E. injection E as <- <-. split; [reflexivity|cbn [length]; lia]. }
  destruct Hlinks as [Hlinks Hcount1].
  unfold pbind at 1. unfold pfst at 1, pget at 1. cbn [fst snd].
  destruct (write_step_mirror info db1 d1 (zlen (ld_links db1)) terminator (handle_same _ _ _ Hs Hh) Hm1 Hok1 terminator_wf ltac:(unfold zlen; lia))
    as (r2 & db2 & d2 & E2 & Hs2 & Hm2 & Hok2 & Hsucc2 & Hfail2 & _ & Hlast2).
  destruct (write_step info db1 d1 (zlen (ld_links db1)) terminator (handle_same _ _ _ Hs Hh) (mirrored_length _ _ Hm1) Hok1 terminator_wf ltac:(unfold zlen; lia))
    as (r' & db' & d' & E' & _ & _ & _ & Hr & Hcount).
  rewrite E2 in E'. injection E' as <- <- <-.
  unfold pbind at 1. rewrite E2. destruct r2 as [e|].
  - destruct (Hfail2 ltac:(discriminate)) as [-> Es]. exists (Some e), db1, d2. split; [reflexivity|]. split; [eapply same_device_trans; eassumption|]. split; [exact Hm2|]. split; [exact Hok2|].
    split; [discriminate|]. intros H1 H2 H3. exfalso.
    assert (Hlen : (length (ld_links db1) < length (dv_slots d1))%nat) by (rewrite Hlinks, app_length, map_length, skipn_length; lia).
    destruct (Hcount ltac:(lia) ltac:(unfold zlen; lia)) as [[_ H] _].
    assert (X : dv_fate d1 (dv_count d1) = None) by (destruct Hs as (_ & _ & Ef & _); rewrite Ef; apply H3; lia). discriminate (H X).
  - destruct Hr as [(_ & H1 & H2 & H3 & H4)|(H & _)]; [|congruence].
    unfold pbind, pfst, pget, pput, pret. cbn [fst snd]. exists None, (set_ld_age db2 now), d2. split; [reflexivity|]. split; [eapply same_device_trans; eassumption|].
    assert (El : ld_links db2 = ld_links db1) by (rewrite H4; unfold cache_after; rewrite terminator_last; apply firstn_all2; unfold zlen; lia).
    split; [exact Hm2|]. split; [exact Hok2|]. split; [|auto]. intros _. cbn [set_ld_age ld_links ld_age]. split; [congruence|]. split; [symmetry; apply Hlast2; reflexivity|].
    split; [|reflexivity]. apply existsb_exists. exists terminator. split; [|exact terminator_last]. rewrite H3.
    apply (nth_error_In _ (Z.to_nat (zlen (ld_links db1)))). apply nth_error_list_set_eq. unfold zlen in *. lia.
Qed.

(** ** UpdateLinks *)
Definition known (links : list link) (l : link) : bool := existsb (fun r => link_equal r l) links.

Lemma update_match_keeps : forall W (mw : mwriter W) todo kept db w, index_ok (ld_links db) (ld_index db) ->
  (forall l r, In l todo -> In r (ld_links db) -> link_id r = link_id l -> l_flags r = l_flags l) ->
  ld_update_match mw kept todo (db, w) = (Ret (rev kept ++ filter (fun l => negb (known (ld_links db) l)) todo, None), (db, w)).
Proof.
  intros W mw todo. induction todo as [|l todo IH]; intros kept db w Hix Hsame.
  - cbn [ld_update_match filter]. rewrite app_nil_r. reflexivity.
  - cbn [ld_update_match filter]. unfold pbind at 1. unfold pfst at 1, pget at 1. cbn [fst snd].
    destruct Hix as [Hi1 Hi2].
    destruct (index_find (link_id l) (ld_index db)) as [j|] eqn:Ej.
    + destruct (Hi1 _ _ Ej) as (r & Hr & Hid). rewrite Hr. rewrite (Hsame l r (or_introl eq_refl) (nth_error_In _ _ Hr) Hid), Z.eqb_refl.
      cbn [negb]. unfold pbind, pret. cbn [fst snd].
      assert (Hk : known (ld_links db) l = true).
      { apply existsb_exists. exists r. split; [exact (nth_error_In _ _ Hr)|]. unfold link_equal. rewrite Hid. apply bytes_eqb_refl. }
      rewrite Hk. cbn [negb]. apply IH; [split; assumption|]. intros x y Hx. apply Hsame. right. exact Hx.
    + assert (Hk : known (ld_links db) l = false).
      { destruct (known (ld_links db) l) eqn:Ek; [|reflexivity]. exfalso. apply existsb_exists in Ek. destruct Ek as (r & Hr & He).
        unfold link_equal in He. apply bytes_eqb_eq in He. apply (Hi2 r Hr). rewrite He. exact Ej. }
      rewrite Hk. cbn [negb]. rewrite IH; [|split; assumption|intros x y Hx; apply Hsame; right; exact Hx].
      cbn [rev]. rewrite <- app_assoc. reflexivity.
Qed.

Lemma available_free : forall l, link_wf l -> rcf_available (l_flags l) = is_free l.
Proof.
  intros l (Hf & _). unfold is_free. destruct (rcf_accessors_bits (l_flags l) Hf) as (_ & H & _).
  destruct (rcf_available (l_flags l)); destruct (bit 7 (l_flags l) =? 0) eqn:E; try reflexivity.
  - assert (bit 7 (l_flags l) = 0) by (apply H; reflexivity). lia.
  - assert (bit 7 (l_flags l) = 0) by lia. apply H in H0. discriminate.
Qed.

Lemma mirrored_wf : forall db d, mirrored db d -> memory_ok (dv_slots d) -> Forall link_wf (ld_links db).
Proof. intros db d (rest & E & _) [_ H]. rewrite E in H. apply Forall_app in H. apply H. Qed.

(** The invariant while records below the mark are replaced: the memory above stays. *)
Definition over (rest : list link) (db : linkdb) (d : device) : Prop :=
  dv_slots d = ld_links db ++ rest /\ Forall (fun l => is_last l = false) (ld_links db).
Lemma over_mirrored : forall rest db d, over rest db d -> mirrored db d.
Proof. intros rest db d [H1 H2]. exists rest. auto. Qed.

Lemma write_step_over : forall info rest db d i l, handle info d -> over rest db d -> memory_ok (dv_slots d) -> link_wf l -> is_last l = false -> (i < length (ld_links db))%nat ->
  exists r db' d', ld_write_link (bd_mw info dev_mw) (Z.of_nat i) l (db, d) = (Ret r, (db', d')) /\ same_device d d' /\ over rest db' d' /\ memory_ok (dv_slots d') /\
    length (ld_links db') = length (ld_links db) /\
    (r = None -> ld_links db' = firstn i (ld_links db) ++ l :: skipn (S i) (ld_links db)) /\
    ((forall n, dv_fate d n = None) -> r = None) /\ (forall k, k <> i -> nth_error (ld_links db') k = nth_error (ld_links db) k).
Proof.
  intros info rest db d i l Hh Ho Hok Hl Hn Hi.
  destruct (write_step info db d (Z.of_nat i) l Hh (mirrored_length _ _ (over_mirrored _ _ _ Ho)) Hok Hl ltac:(lia)) as (r & db' & d' & E & Hs & _ & _ & Hr & Hc).
  exists r, db', d'. split; [exact E|]. split; [exact Hs|]. destruct Ho as [Es Hnl]. rewrite Nat2Z.id in Hr.
  assert (Hroom : Z.of_nat i < zlen (dv_slots d)) by (rewrite Es; unfold zlen; rewrite app_length; lia).
  destruct Hr as [(Er & H1 & H2 & H3 & H4)|(Er & Edb & Eslots)].
  - destruct (mirrored_set (ld_links db) rest i l Hnl) as (rest' & E1 & E2 & _ & E4); [lia|rewrite app_length; lia|].
    rewrite <- Es in E1. specialize (E4 Hn). replace (i =? length (ld_links db))%nat with false in E4 by (symmetry; apply Nat.eqb_neq; lia).
    split; [split; [rewrite H3, H4, <- E4; exact E1|rewrite H4; exact E2]|]. split; [rewrite H3; apply memory_set; assumption|].
    unfold cache_after in H4. rewrite Hn in H4. split; [|split; [auto|split; [auto|]]].
    + rewrite H4, app_length, firstn_length. cbn [length]. rewrite skipn_length. lia.
    + intros k Hk. rewrite H4, <- list_set_split' by lia. apply nth_error_list_set_neq. auto.
  - subst db'. rewrite Eslots. split; [split; [rewrite Eslots; exact Es|exact Hnl]|]. split; [exact Hok|]. split; [reflexivity|]. split; [congruence|]. split; [|auto].
    intro Hf. apply (Hc ltac:(unfold zlen; lia) Hroom). apply Hf.
Qed.

Lemma update_fill_step : forall info rest n i links db d, handle info d -> over rest db d -> memory_ok (dv_slots d) -> Forall link_wf links -> (i + n = length (ld_links db))%nat ->
  exists left r db' d', ld_update_fill (bd_mw info dev_mw) n (Z.of_nat i) links (db, d) = (Ret (left, r), (db', d')) /\ same_device d d' /\ over rest db' d' /\
    memory_ok (dv_slots d') /\
    (r = None -> ld_links db' = firstn i (ld_links db) ++ fst (place (skipn i (ld_links db)) links) /\ left = snd (place (skipn i (ld_links db)) links)) /\
    ((forall n, dv_fate d n = None) -> r = None) /\ length (ld_links db') = length (ld_links db) /\ Forall link_wf left /\
    (forall k x, nth_error (ld_links db) k = Some x -> is_free x = false -> nth_error (ld_links db') k = Some x).
Proof.
  intros info rest n. induction n as [|n IH]; intros i links db d Hh Ho Hok Hl Hi.
  - exists links, None, db, d. cbn [ld_update_fill]. split; [reflexivity|]. split; [apply same_device_refl|]. split; [exact Ho|]. split; [exact Hok|]. split; [|auto].
    intros _. rewrite skipn_all2 by lia. cbn [place fst snd]. rewrite app_nil_r, firstn_all2 by lia. auto.
  - cbn [ld_update_fill]. unfold pbind at 1. unfold pfst at 1, pget at 1. cbn [fst snd].
    destruct (nth_error (ld_links db) i) as [x|] eqn:Ex; [|apply nth_error_None in Ex; lia].
    unfold pbind at 1, plift. rewrite (go_index_in _ (ld_links db) (Z.of_nat i) x) by (try lia; rewrite Nat2Z.id; exact Ex).
    assert (Hsk : skipn i (ld_links db) = x :: skipn (S i) (ld_links db)).
    { clear - Ex. revert i Ex. induction (ld_links db) as [|h t IHt]; intros [|i] Ex; try discriminate; [injection Ex as ->; reflexivity|]. apply IHt in Ex. exact Ex. }
    assert (Hfirst : firstn i (ld_links db) ++ [x] = firstn (S i) (ld_links db)).
    { clear - Ex. revert i Ex. induction (ld_links db) as [|h t IHt]; intros [|i] Ex; try discriminate; [injection Ex as ->; reflexivity|].
      apply IHt in Ex. cbn [firstn app]. f_equal. exact Ex. }
    destruct links as [|l links].
    + exists [], None, db, d. split; [reflexivity|]. split; [apply same_device_refl|]. split; [exact Ho|]. split; [exact Hok|]. split; [|auto].
      intros _. rewrite Hsk. cbn [place fst snd]. rewrite <- Hsk, firstn_skipn. auto.
    + assert (Hwx : link_wf x) by (pose proof (mirrored_wf _ _ (over_mirrored _ _ _ Ho) Hok) as Hw; rewrite Forall_forall in Hw; apply Hw; exact (nth_error_In _ _ Ex)).
      rewrite (available_free x Hwx). rewrite Hsk. cbn [place]. destruct (is_free x) eqn:Efree.
      * destruct (clear_last_not_last l (Forall_inv Hl)) as (Ec & Hwl & Hnl). rewrite Ec.
        destruct (write_step_over info rest db d i (not_last l) Hh Ho Hok Hwl Hnl ltac:(lia)) as (r & db1 & d1 & E & Hs & Ho1 & Hok1 & Hlen & Hsucc & Hfate & Hoth).
        assert (Hkeep : forall k y, nth_error (ld_links db) k = Some y -> is_free y = false -> nth_error (ld_links db1) k = Some y)
          by (intros k y Hy Hfy; destruct (Nat.eq_dec k i) as [->|Hki]; [congruence|rewrite Hoth by exact Hki; exact Hy]).
        unfold pbind at 1. rewrite E. destruct r as [e|].
        -- eexists _, (Some e), db1, d1. split; [reflexivity|]. split; [exact Hs|]. split; [exact Ho1|]. split; [exact Hok1|]. split; [discriminate|]. split; [exact Hfate|].
           split; [exact Hlen|]. split; [constructor; [exact Hwl|exact (Forall_inv_tail Hl)]|exact Hkeep].
        -- specialize (Hsucc eq_refl).
           destruct (IH (S i) links db1 d1 (handle_same _ _ _ Hs Hh) Ho1 Hok1 (Forall_inv_tail Hl) ltac:(lia)) as (left & r2 & db2 & d2 & E2 & Hs2 & Ho2 & Hok2 & Hsucc2 & Hfate2 & Hlen2 & Hwf2 & Hkeep2).
           replace (Z.of_nat (S i)) with (Z.of_nat i + 1) in E2 by lia. exists left, r2, db2, d2. split; [exact E2|]. split; [eapply same_device_trans; eassumption|].
           split; [exact Ho2|]. split; [exact Hok2|]. split.
           ++ intro H. destruct (Hsucc2 H) as [A B].
              assert (C : skipn (S i) (ld_links db1) = skipn (S i) (ld_links db)).
              { rewrite Hsucc. rewrite skipn_app, firstn_length. replace (S i - Nat.min i (length (ld_links db)))%nat with 1%nat by lia.
                rewrite skipn_all2 by (rewrite firstn_length; lia). reflexivity. }
              rewrite C in A, B. destruct (place (skipn (S i) (ld_links db)) links) as [pa pb]. cbn [fst snd] in *. split; [|exact B].
              rewrite A. rewrite Hsucc at 1. rewrite firstn_app, firstn_firstn, firstn_length.
              replace (Nat.min (S i) i) with i by lia. replace (S i - Nat.min i (length (ld_links db)))%nat with 1%nat by lia.
              cbn [firstn]. rewrite <- app_assoc. reflexivity.
           ++ split; [|split; [congruence|split; [exact Hwf2|intros k y Hy Hfy; apply Hkeep2; [apply Hkeep|]; assumption]]].
              intro H. apply Hfate2. destruct Hs as (_ & _ & Ef & _). rewrite Ef. exact H.
      * destruct (IH (S i) (l :: links) db d Hh Ho Hok Hl ltac:(lia)) as (left & r2 & db2 & d2 & E2 & Hs2 & Ho2 & Hok2 & Hsucc2 & Hfate2 & Hlen2 & Hwf2 & Hkeep2).
        replace (Z.of_nat (S i)) with (Z.of_nat i + 1) in E2 by lia. exists left, r2, db2, d2. split; [exact E2|]. split; [exact Hs2|].
        split; [exact Ho2|]. split; [exact Hok2|]. split; [|auto].
        intro H. destruct (Hsucc2 H) as [A B]. destruct (place (skipn (S i) (ld_links db)) (l :: links)) as [pa pb]. cbn [fst snd] in *. split; [|exact B].
        rewrite A, <- Hfirst, <- app_assoc. reflexivity.
Qed.

Lemma update_append_late : forall info links i err db d, handle info d -> mirrored db d -> memory_ok (dv_slots d) -> Forall link_wf links -> zlen (ld_links db) < i ->
  (links = [] -> err <> None) ->
  exists j e, ld_update_append (bd_mw info dev_mw) i links err (db, d) = (Ret (j, Some e), (db, d)).
Proof.
  intros info links. induction links as [|l links IH]; intros i err db d Hh Hm Hok Hl Hi He.
  - destruct err as [e|]; [|exfalso; apply He; reflexivity]. exists i, e. reflexivity.
  - cbn [ld_update_append]. unfold pbind, ld_write_link. unfold pbind, pfst, pget. cbn [fst snd]. replace (zlen (ld_links db) <? i) with true by lia.
    unfold pret. cbn [fst snd]. destruct (IH (i + 1) (Some EDevLinkIndexOutOfRange) db d Hh Hm Hok (Forall_inv_tail Hl) ltac:(lia) ltac:(discriminate)) as (j & e & E).
    exists j, e. exact E.
Qed.

Lemma update_append_step : forall info links db d, handle info d -> mirrored db d -> memory_ok (dv_slots d) -> Forall link_wf links ->
  exists j r db' d', ld_update_append (bd_mw info dev_mw) (zlen (ld_links db)) links None (db, d) = (Ret (j, r), (db', d')) /\ same_device d d' /\ mirrored db' d' /\
    memory_ok (dv_slots d') /\ length (dv_slots d') = length (dv_slots d) /\
    (r = None -> ld_links db' = ld_links db ++ map not_last links /\ j = zlen (ld_links db')) /\
    (exists more, ld_links db' = ld_links db ++ more) /\
    ((length (ld_links db) + length links <= length (dv_slots d))%nat -> (forall n, dv_fate d n = None) -> r = None).
Proof.
  intros info links. induction links as [|l links IH]; intros db d Hh Hm Hok Hl.
  - exists (zlen (ld_links db)), None, db, d. cbn [ld_update_append map]. rewrite app_nil_r.
    repeat (split; auto using same_device_refl). exists []. symmetry. apply app_nil_r.
  - cbn [ld_update_append]. destruct (clear_last_not_last l (Forall_inv Hl)) as (Ec & Hwl & Hnl). rewrite Ec.
    destruct (write_step_mirror info db d (zlen (ld_links db)) (not_last l) Hh Hm Hok Hwl ltac:(unfold zlen; lia)) as (r & db1 & d1 & E & Hs & Hm1 & Hok1 & Hsucc & Hfail & _).
    destruct (write_step info db d (zlen (ld_links db)) (not_last l) Hh (mirrored_length _ _ Hm) Hok Hwl ltac:(unfold zlen; lia)) as (r' & db1' & d1' & E' & _ & _ & _ & Hr & Hc).
    rewrite E in E'. injection E' as <- <- <-. unfold pbind at 1. rewrite E. destruct r as [e|].
    + destruct (Hfail ltac:(discriminate)) as [-> Es]. destruct links as [|l2 links].
      * exists (zlen (ld_links db) + 1), (Some e), db, d1. split; [reflexivity|]. split; [exact Hs|]. split; [exact Hm1|]. split; [exact Hok1|].
        split; [rewrite Es; reflexivity|]. split; [discriminate|]. split; [exists []; symmetry; apply app_nil_r|].
        cbn [length]. intros H1 H2. destruct (Hc ltac:(lia) ltac:(unfold zlen; lia)) as [[_ H] _]. apply H. apply H2.
      * destruct (update_append_late info (l2 :: links) (zlen (ld_links db) + 1) (Some e) db d1 (handle_same _ _ _ Hs Hh) Hm1 Hok1 (Forall_inv_tail Hl) ltac:(lia) ltac:(discriminate)) as (j & e2 & E2).
        exists j, (Some e2), db, d1. split; [exact E2|]. split; [exact Hs|]. split; [exact Hm1|]. split; [exact Hok1|].
        split; [rewrite Es; reflexivity|]. split; [discriminate|]. split; [exists []; symmetry; apply app_nil_r|].
        cbn [length]. intros H1 H2. destruct (Hc ltac:(lia) ltac:(unfold zlen; lia)) as [[_ H] _]. exfalso. discriminate (H (H2 _)).
    + destruct Hr as [(_ & H1 & H2 & H3 & H4)|(H & _)]; [|congruence].
      unfold cache_after in H4. rewrite Hnl in H4. rewrite firstn_all2 in H4 by (unfold zlen; lia). rewrite skipn_all2 in H4 by (unfold zlen; lia).
      destruct (IH db1 d1 (handle_same _ _ _ Hs Hh) Hm1 Hok1 (Forall_inv_tail Hl)) as (j & r2 & db2 & d2 & E2 & Hs2 & Hm2 & Hok2 & Hlen2 & Hsucc2 & (more & Hmore) & Hfate2).
      assert (Hz : zlen (ld_links db) + 1 = zlen (ld_links db1)) by (unfold zlen; rewrite H4, app_length; cbn [length]; lia).
      rewrite Hz. exists j, r2, db2, d2. split; [exact E2|]. split; [eapply same_device_trans; eassumption|]. split; [exact Hm2|]. split; [exact Hok2|].
      split; [rewrite Hlen2, H3, list_set_length; reflexivity|]. split; [|split].
      * intro H. destruct (Hsucc2 H) as [A B]. split; [|exact B]. rewrite A, H4, <- app_assoc. reflexivity.
      * exists (not_last l :: more). rewrite Hmore, H4, <- app_assoc. reflexivity.
      * cbn [length]. intros Hroom Hf. apply Hfate2; [rewrite H4, app_length, H3, list_set_length; cbn [length]; lia|]. destruct Hs as (_ & _ & Ef & _). rewrite Ef. exact Hf.
Qed.

Lemma refresh_cases : forall info fuel now db d, handle info d -> memory_ok (dv_slots d) -> existsb is_last (dv_slots d) = true -> quiet_device d ->
  ld_age db + 3600 < now -> (length (stream d 0 (dv_slots d)) < fuel)%nat ->
  exists r db' d', ld_refresh fuel (bd_mw info dev_mw) now (db, d) = (Ret r, (db', d')) /\ same_device d d' /\ dv_slots d' = dv_slots d /\ mirrored db' d' /\
    (r = None -> ld_links db' = below (dv_slots d) /\ index_ok (ld_links db') (ld_index db')) /\ (r = None <-> dv_fate d (dv_count d) = None).
Proof.
  intros info fuel now db d Hh Hok Hl Hq Hage Hfuel. destruct (dv_fate d (dv_count d)) as [e|] eqn:Ef.
  - exists (Some e), (mkLdb (ld_age db) [] []), (set_out (count_up d) []). split; [|split; [repeat split|split; [reflexivity|split; [exists (dv_slots d); split; [reflexivity|constructor]|split; [discriminate|split; discriminate]]]]].
    unfold ld_refresh. unfold pbind at 1. unfold pfst at 1, pget at 1. cbn [fst snd].
    unfold ld_old, max_age. replace (ld_age db + 3600 <? now) with true by lia. cbn [negb].
    unfold pbind at 1. unfold pfst at 1, pput at 1. cbn [fst snd].
    unfold pbind at 1, plift. rewrite aldb_read_request. unfold pbind at 1, psnd. cbn [fst snd].
    rewrite dev_read_request by exact Hh. rewrite Ef. reflexivity.
  - destruct (refresh_device info fuel now db d Hh Hok Hl Hq Hage Ef Hfuel) as (ix & o & E & Hix).
    eexists _, _, _. split; [exact E|]. split; [repeat split|]. split; [reflexivity|]. split; [|split; [auto|split; auto]].
    destruct (below_prefix (dv_slots d)) as (rest & Er & _). exists rest. split; [exact Er|apply below_nonlast].
Qed.

Lemma known_absent : forall recs l, Forall link_wf recs -> link_wf l -> negb (known recs l) = absent recs l.
Proof.
  intros recs l Hr Hl. unfold known, absent. induction Hr as [|r recs Hw Hr IH]; [reflexivity|]. cbn [existsb forallb]. rewrite <- IH, negb_orb. f_equal. f_equal.
  pose proof (link_equal_iff r l Hw Hl) as H. unfold same_link in H. unfold same_linkb.
  destruct (link_equal r l).
  - destruct H as [H _]. destruct (H eq_refl) as (-> & -> & ->). rewrite !Z.eqb_refl. reflexivity.
  - symmetry. destruct ((bit 6 (l_flags r) =? bit 6 (l_flags l)) && (l_group r =? l_group l) && (l_addr r =? l_addr l)) eqn:E; [|reflexivity].
    apply andb_prop in E. destruct E as [E E3]. apply andb_prop in E. destruct E as [E1 E2]. destruct H as [_ H]. discriminate H. lia.
Qed.

Lemma filter_ext_in' : forall A (f g : A -> bool) l, (forall x, In x l -> f x = g x) -> filter f l = filter g l.
Proof. intros A f g l H. induction l as [|x l IH]; [reflexivity|]. cbn [filter]. rewrite H by (left; reflexivity). rewrite IH by (intros y Hy; apply H; right; exact Hy). reflexivity. Qed.

Lemma update_links_step : forall info fuel now ls db d, handle info d -> memory_ok (dv_slots d) -> existsb is_last (dv_slots d) = true -> quiet_device d ->
  ld_age db + 3600 < now -> (length (stream d 0 (dv_slots d)) < fuel)%nat -> Forall link_wf ls ->
  (forall l r, In l ls -> In r (below (dv_slots d)) -> same_link r l -> l_flags r = l_flags l) ->
  exists r db' d', ld_update_links fuel (bd_mw info dev_mw) now ls (db, d) = (Ret r, (db', d')) /\ same_device d d' /\ memory_ok (dv_slots d') /\
    (forall k x, nth_error (below (dv_slots d)) k = Some x -> is_free x = false -> nth_error (below (dv_slots d')) k = Some x) /\
    (r = None -> below (dv_slots d') =
       fst (place (below (dv_slots d)) (filter (absent (below (dv_slots d))) ls)) ++ map not_last (snd (place (below (dv_slots d)) (filter (absent (below (dv_slots d))) ls)))) /\
    ((length (below (dv_slots d)) + length ls < length (dv_slots d))%nat -> (forall n, dv_fate d n = None) -> r = None).
Proof.
  intros info fuel now ls db d Hh Hok Hl Hq Hage Hfuel Hls Hsame. unfold ld_update_links.
  destruct (refresh_cases info fuel now db d Hh Hok Hl Hq Hage Hfuel) as (r0 & db0 & d0 & E0 & Hs0 & Hslots0 & Hm0 & Hsucc0 & Hfate0).
  unfold pbind at 1. rewrite E0. destruct r0 as [e|].
  { exists (Some e), db0, d0. split; [reflexivity|]. split; [exact Hs0|]. rewrite Hslots0. split; [exact Hok|]. split; [auto|]. split; [discriminate|].
    intros _ Hf. apply Hfate0. apply Hf. }
  destruct (Hsucc0 eq_refl) as [Hlinks0 Hix0].
  assert (Hwf0 : Forall link_wf (ld_links db0)) by (rewrite <- Hslots0 in Hok; exact (mirrored_wf _ _ Hm0 Hok)).
  assert (Hnew : filter (fun l => negb (known (ld_links db0) l)) ls = filter (absent (below (dv_slots d))) ls).
  { apply filter_ext_in'. intros l Hin. rewrite <- Hlinks0. apply known_absent; [exact Hwf0|]. rewrite Forall_forall in Hls. apply Hls. exact Hin. }
  unfold pbind at 1. rewrite (update_match_keeps _ (bd_mw info dev_mw) ls [] db0 d0 Hix0).
  2:{ intros l r Hin Hr Hid. apply Hsame; [exact Hin|rewrite <- Hlinks0; exact Hr|]. rewrite Forall_forall in Hwf0, Hls.
      apply link_equal_iff; [apply Hwf0; exact Hr|apply Hls; exact Hin|]. unfold link_equal. rewrite Hid. apply bytes_eqb_refl. }
  cbn [rev app]. rewrite Hnew. set (new := filter (absent (below (dv_slots d))) ls) in *.
  assert (Hwn : Forall link_wf new) by (apply Forall_forall; intros x Hx; apply filter_In in Hx; rewrite Forall_forall in Hls; apply Hls; apply Hx).
  unfold pbind at 1. unfold pfst at 1, pget at 1. cbn [fst snd].
  destruct (below_prefix (dv_slots d)) as (rest & Er & Hrest).
  assert (Ho : over rest db0 d0) by (split; [rewrite Hslots0, Hlinks0; exact Er|rewrite Hlinks0; apply below_nonlast]).
  assert (Hok0 : memory_ok (dv_slots d0)) by (rewrite Hslots0; exact Hok).
  destruct (update_fill_step info rest (length (ld_links db0)) 0 new db0 d0 (handle_same _ _ _ Hs0 Hh) Ho Hok0 Hwn ltac:(lia))
    as (left & r1 & db1 & d1 & E1 & Hs1 & Ho1 & Hok1 & Hsucc1 & Hfate1 & Hlen1 & Hwl1 & Hkeep1).
  change (Z.of_nat 0) with 0 in E1. cbn [skipn firstn app] in Hsucc1. rewrite Hlinks0 in Hsucc1, Hkeep1.
  unfold pbind at 1. rewrite E1.
  assert (Hkeepd : forall k x, nth_error (below (dv_slots d)) k = Some x -> is_free x = false -> nth_error (below (dv_slots d1)) k = Some x).
  { intros k x Hk Hfx. destruct Ho1 as [Ho1 Hn1]. rewrite Ho1, below_app, Hrest, app_nil_r by exact Hn1. apply Hkeep1; assumption. }
  assert (Hf1 : (forall n, dv_fate d n = None) -> forall n, dv_fate d1 n = None) by (intros H n; destruct Hs0 as (_ & _ & A & _), Hs1 as (_ & _ & B & _); rewrite B, A; apply H).
  assert (Hs01 : same_device d d1) by (eapply same_device_trans; eassumption).
  destruct r1 as [e|].
  { exists (Some e), db1, d1. split; [reflexivity|]. split; [exact Hs01|]. split; [exact Hok1|]. split; [exact Hkeepd|]. split; [discriminate|].
    intros _ Hf. apply Hfate1. intro n. destruct Hs0 as (_ & _ & A & _). rewrite A. apply Hf. }
  destruct (Hsucc1 eq_refl) as [Ea Eb]. destruct left as [|l0 left].
  { exists None, db1, d1. split; [reflexivity|]. split; [exact Hs01|]. split; [exact Hok1|]. split; [exact Hkeepd|]. split; [|auto].
    intros _. rewrite <- Eb. cbn [map]. rewrite app_nil_r, <- Ea. destruct Ho1 as [Ho1 Hn1]. rewrite Ho1, below_app, Hrest, app_nil_r by exact Hn1. reflexivity. }
  rewrite <- Ea, <- Eb. unfold pbind at 1. unfold pfst at 1, pget at 1. cbn [fst snd].
  destruct (update_append_step info (l0 :: left) db1 d1 (handle_same _ _ _ Hs01 Hh) (over_mirrored _ _ _ Ho1) Hok1 Hwl1)
    as (j & r2 & db2 & d2 & E2 & Hs2 & Hm2 & Hok2 & Hlen2 & Hsucc2 & (more & Hmore) & Hfate2).
  unfold pbind at 1. rewrite E2.
  assert (Hs02 : same_device d d2) by (eapply same_device_trans; eassumption).
  assert (Hkeepd2 : forall k x, nth_error (below (dv_slots d)) k = Some x -> is_free x = false -> nth_error (below (dv_slots d2)) k = Some x).
  { intros k x Hk Hfx. destruct (mirrored_below _ _ Hm2) as (m2 & Hb2). rewrite Hb2, Hmore, <- app_assoc.
    specialize (Hkeep1 k x Hk Hfx). rewrite nth_error_app1; [exact Hkeep1|]. apply nth_error_Some. congruence. }
  assert (Hleft : (length (l0 :: left) <= length ls)%nat).
  { rewrite Eb. assert (G : forall a b, (length (snd (place a b)) <= length b)%nat).
    { induction a as [|x a IHa]; intros [|y b]; cbn [place snd length]; try lia. destruct (is_free x); [specialize (IHa b)|specialize (IHa (y :: b))]; destruct (place a _); cbn [snd] in *; cbn [length] in *; lia. }
    etransitivity; [apply G|]. unfold new. clear. induction ls as [|x ls IHl]; cbn [filter length]; [lia|]. destruct (absent _ x); cbn [length]; lia. }
  assert (Hroom : (length (below (dv_slots d)) + length ls < length (dv_slots d))%nat -> (length (ld_links db1) + length (l0 :: left) < length (dv_slots d1))%nat).
  { intro H. destruct Ho1 as [Ho1 _]. rewrite Ho1, app_length, Hlen1, Hlinks0. rewrite Er in H at 2. rewrite app_length in H. lia. }
  destruct r2 as [e|].
  { exists (Some e), db2, d2. split; [reflexivity|]. split; [exact Hs02|]. split; [exact Hok2|]. split; [exact Hkeepd2|]. split; [discriminate|].
    intros H1 H2. apply Hfate2; [specialize (Hroom H1); lia|apply Hf1; exact H2]. }
  destruct (Hsucc2 eq_refl) as [Ea2 ->].
  destruct (write_step_mirror info db2 d2 (zlen (ld_links db2)) terminator (handle_same _ _ _ Hs02 Hh) Hm2 Hok2 terminator_wf ltac:(unfold zlen; lia))
    as (r3 & db3 & d3 & E3 & Hs3 & Hm3 & Hok3 & Hsucc3 & Hfail3 & _ & Hlast3).
  destruct (write_step info db2 d2 (zlen (ld_links db2)) terminator (handle_same _ _ _ Hs02 Hh) (mirrored_length _ _ Hm2) Hok2 terminator_wf ltac:(unfold zlen; lia))
    as (r' & db' & d' & E' & _ & _ & _ & Hr & Hcount).
  rewrite E3 in E'. injection E' as <- <- <-.
  exists r3, db3, d3. split; [exact E3|]. split; [eapply same_device_trans; eassumption|]. split; [exact Hok3|].
  destruct Hr as [(-> & H1 & H2 & H3 & H4)|(Hne & _ & Hsl)].
  - unfold cache_after in H4. rewrite terminator_last, firstn_all2 in H4 by (unfold zlen; lia). unfold mirror in Hlast3. rewrite <- Hlast3 by reflexivity. rewrite H4.
    split; [|split; [intros _; exact Ea2|auto]]. intros k x Hk Hfx. rewrite Ea2. specialize (Hkeep1 k x Hk Hfx). rewrite nth_error_app1; [exact Hkeep1|]. apply nth_error_Some. congruence.
  - rewrite Hsl. split; [exact Hkeepd2|]. split; [congruence|]. intros G1 G2. apply (Hcount ltac:(lia)).
    + unfold zlen. rewrite Hlen2, Ea2, app_length, map_length. specialize (Hroom G1). lia.
    + destruct Hs2 as (_ & _ & A & _). rewrite A. apply Hf1. exact G2.
Qed.

(** Facts about [place]. *)
Lemma place_keeps : forall recs new k x, nth_error recs k = Some x -> is_free x = false -> nth_error (fst (place recs new)) k = Some x.
Proof.
  induction recs as [|r recs IH]; intros new k x H Hf; [destruct k; discriminate|]. destruct new as [|n new]; [exact H|]. cbn [place].
  destruct k as [|k]; cbn [nth_error] in H.
  - injection H as ->. rewrite Hf. destruct (place recs (n :: new)). reflexivity.
  - destruct (is_free r); [specialize (IH new k x H Hf)|specialize (IH (n :: new) k x H Hf)]; destruct (place recs _); exact IH.
Qed.
Lemma place_stored : forall recs new n, In n new -> In (not_last n) (fst (place recs new)) \/ In n (snd (place recs new)).
Proof.
  induction recs as [|r recs IH]; intros new n H; [right; exact H|]. destruct new as [|m new]; [destruct H|]. cbn [place]. destruct (is_free r).
  - destruct H as [->|H]; [destruct (place recs new); left; left; reflexivity|]. specialize (IH new n H). destruct (place recs new). cbn [fst snd] in *. destruct IH; [left; right|right]; assumption.
  - specialize (IH (m :: new) n H). destruct (place recs (m :: new)). cbn [fst snd] in *. destruct IH; [left; right|right]; assumption.
Qed.
Lemma place_length : forall recs new, length (fst (place recs new)) = length recs.
Proof.
  induction recs as [|r recs IH]; intros new; [reflexivity|]. destruct new as [|m new]; [reflexivity|]. cbn [place].
  destruct (is_free r); [specialize (IH new)|specialize (IH (m :: new))]; destruct (place recs _); cbn [fst length] in *; lia.
Qed.
(** Something is appended only when every free record has been used. *)
Lemma place_full : forall recs new, snd (place recs new) <> [] ->
  (length (filter is_free recs) + length (snd (place recs new)) = length new)%nat.
Proof.
  induction recs as [|r recs IH]; intros new H; [reflexivity|]. destruct new as [|m new]; [exfalso; apply H; reflexivity|]. cbn [place filter] in *. destruct (is_free r).
  - specialize (IH new). destruct (place recs new). cbn [snd length] in *. specialize (IH H). lia.
  - specialize (IH (m :: new)). destruct (place recs (m :: new)). cbn [snd length] in *. specialize (IH H). lia.
Qed.

(** ** AddLinks *)
Lemma list_set_same : forall A (l : list A) i x, nth_error l i = Some x -> list_set l i x = l.
Proof. intros A l. induction l as [|h l IH]; intros [|i] x H; try discriminate; cbn [list_set]; [injection H as ->; reflexivity|]. rewrite (IH i x H). reflexivity. Qed.
Lemma skipn_cons_nth : forall A (l : list A) i x t, skipn i l = x :: t -> nth_error l i = Some x /\ skipn (S i) l = t.
Proof. intros A l. induction l as [|h l IH]; intros [|i] x t H; try discriminate; [cbn [skipn] in H; injection H as -> ->; auto|]. apply IH in H. exact H. Qed.

Lemma add_fill_step : forall info ls i add rest db d, handle info d -> memory_ok (dv_slots d) -> (i + length ls = length (ld_links db))%nat ->
  (length (ld_links db) <= length (dv_slots d))%nat -> skipn i (dv_slots d) = ls ++ rest -> Forall (fun l => is_last l = false) ls -> add <> [] ->
  exists left r db' d', ld_add_fill (bd_mw info dev_mw) (Z.of_nat i) ls add (db, d) = (Ret (left, r), (db', d')) /\ same_device d d' /\ dv_slots d' = dv_slots d /\
    length (ld_links db') = length (ld_links db) /\ (r = None -> left = skipn (length ls) add) /\ ((forall n, dv_fate d n = None) -> r = None).
Proof.
  intros info ls. induction ls as [|l ls IH]; intros i add rest db d Hh Hok Hi Hlen Hsk Hn Ha.
  - destruct add as [|a add]; [congruence|]. exists (a :: add), None, db, d. cbn [ld_add_fill]. repeat (split; auto using same_device_refl).
  - destruct add as [|a add]; [congruence|]. cbn [app] in Hsk. destruct (skipn_cons_nth _ _ _ _ _ Hsk) as [Hnth Hsk1]. cbn [length] in Hi.
    assert (Hwl : link_wf l) by (destruct Hok as [_ Hw]; rewrite Forall_forall in Hw; apply Hw; exact (nth_error_In _ _ Hnth)).
    cbn [ld_add_fill]. unfold pbind at 1. rewrite (available_free l Hwl). destruct (is_free l) eqn:Efree.
    + destruct (write_step info db d (Z.of_nat i) l Hh Hlen Hok Hwl ltac:(lia)) as (r & db1 & d1 & E & Hs & _ & _ & Hr & Hc).
      rewrite Nat2Z.id in Hr. unfold pbind at 1. rewrite E. destruct Hr as [(-> & H1 & H2 & H3 & H4)|(Hne & -> & Hsl)].
      * rewrite (list_set_same _ _ _ _ Hnth) in H3. unfold cache_after in H4. rewrite (Forall_inv Hn) in H4.
        assert (Hl1 : length (ld_links db1) = length (ld_links db)) by (rewrite H4, app_length, firstn_length; cbn [length]; rewrite skipn_length; lia).
        unfold pbind at 1. unfold pfst at 1, pget at 1. cbn [fst snd]. replace (zlen (ld_links db1) <=? Z.of_nat i) with false by (unfold zlen; lia).
        unfold pbind, pfst, pput, pret. cbn [fst snd].
        match goal with |- context [(mkLdb ?x ?y ?z, d1)] => idtac | |- context [(set_ld_links db1 ?y, d1)] => set (db2 := set_ld_links db1 y) end.
        assert (Hl2 : length (ld_links db2) = length (ld_links db)) by (unfold db2; cbn [set_ld_links ld_links]; rewrite list_set_length; exact Hl1).
        destruct add as [|a2 add].
        -- exists [], None, db2, d1. split; [reflexivity|]. split; [exact Hs|]. split; [exact H3|]. split; [exact Hl2|]. split; [|auto].
           intros _. cbn [length skipn]. destruct (length ls); reflexivity.
        -- destruct (IH (S i) (a2 :: add) rest db2 d1 (handle_same _ _ _ Hs Hh)) as (left & r2 & db3 & d3 & E2 & Hs2 & Hsl2 & Hl3 & Hsucc & Hfate);
             [rewrite H3; exact Hok|lia|rewrite H3; lia|rewrite H3; exact Hsk1|exact (Forall_inv_tail Hn)|discriminate|].
           replace (Z.of_nat (S i)) with (Z.of_nat i + 1) in E2 by lia.
           exists left, r2, db3, d3. split; [exact E2|]. split; [eapply same_device_trans; eassumption|]. split; [congruence|]. split; [congruence|]. split; [exact Hsucc|].
           intro Hf. apply Hfate. destruct Hs as (_ & _ & A & _). rewrite A. exact Hf.
      * destruct r as [e|]; [|congruence]. exists (a :: add), (Some e), db, d1. split; [reflexivity|]. split; [exact Hs|]. split; [exact Hsl|]. split; [reflexivity|]. split; [discriminate|].
        intro Hf. apply (Hc ltac:(unfold zlen; lia) ltac:(unfold zlen; lia)). apply Hf.
    + unfold pret at 1. cbn [fst snd]. destruct add as [|a2 add].
      * exists [], None, db, d. split; [reflexivity|]. split; [apply same_device_refl|]. split; [reflexivity|]. split; [reflexivity|]. split; [|auto].
        intros _. cbn [length skipn]. destruct (length ls); reflexivity.
      * destruct (IH (S i) (a2 :: add) rest db d Hh Hok ltac:(lia) Hlen Hsk1 (Forall_inv_tail Hn) ltac:(discriminate)) as (left & r2 & db3 & d3 & E2 & Hs2 & Hsl2 & Hl3 & Hsucc & Hfate).
        replace (Z.of_nat (S i)) with (Z.of_nat i + 1) in E2 by lia.
        exists left, r2, db3, d3. split; [exact E2|]. split; [exact Hs2|]. split; [exact Hsl2|]. split; [exact Hl3|]. split; [exact Hsucc|exact Hfate].
Qed.

Lemma add_append_step : forall info add db d, handle info d -> memory_ok (dv_slots d) -> (length (ld_links db) <= length (dv_slots d))%nat -> Forall link_wf add ->
  exists r db' d', ld_add_append (bd_mw info dev_mw) add (db, d) = (Ret r, (db', d')) /\ same_device d d' /\ memory_ok (dv_slots d') /\
    firstn (length (ld_links db)) (dv_slots d') = firstn (length (ld_links db)) (dv_slots d) /\
    (r = None -> dv_slots d' = firstn (length (ld_links db)) (dv_slots d) ++ map not_last add ++ skipn (length (ld_links db) + length add) (dv_slots d)) /\
    ((length (ld_links db) + length add <= length (dv_slots d))%nat -> (forall n, dv_fate d n = None) -> r = None).
Proof.
  intros info add. induction add as [|a add IH]; intros db d Hh Hok Hlen Hw.
  - exists None, db, d. cbn [ld_add_append map app length]. rewrite Nat.add_0_r, firstn_skipn. repeat (split; auto using same_device_refl).
  - cbn [ld_add_append]. unfold pbind at 1. unfold pfst at 1, pget at 1. cbn [fst snd]. destruct (clear_last_not_last a (Forall_inv Hw)) as (Ec & Hwa & Hna). rewrite Ec.
    destruct (write_step info db d (zlen (ld_links db)) (not_last a) Hh Hlen Hok Hwa ltac:(unfold zlen; lia)) as (r & db1 & d1 & E & Hs & _ & _ & Hr & Hc).
    unfold pbind at 1. rewrite E. assert (Hz : Z.to_nat (zlen (ld_links db)) = length (ld_links db)) by (unfold zlen; lia). rewrite Hz in Hr.
    set (n := length (ld_links db)) in *.
    destruct Hr as [(-> & H1 & H2 & H3 & H4)|(Hne & -> & Hsl)].
    + unfold cache_after in H4. rewrite Hna in H4. rewrite firstn_all2 in H4 by lia. rewrite skipn_all2 in H4 by lia.
      assert (Hn1 : length (ld_links db1) = S n) by (rewrite H4, app_length; cbn [length]; lia).
      assert (Hlt : (n < length (dv_slots d))%nat) by (unfold zlen in H2; lia).
      rewrite list_set_split' in H3 by exact Hlt.
      assert (Hls : length (dv_slots d1) = length (dv_slots d)) by (rewrite H3, app_length, firstn_length; cbn [length]; rewrite skipn_length; lia).
      assert (Hok1 : memory_ok (dv_slots d1)) by (rewrite H3, <- list_set_split' by exact Hlt; apply memory_set; assumption).
      destruct (IH db1 d1 (handle_same _ _ _ Hs Hh) Hok1 ltac:(lia) (Forall_inv_tail Hw)) as (r2 & db2 & d2 & E2 & Hs2 & Hok2 & Hpre & Hsucc & Hfate).
      rewrite Hn1 in *.
      assert (Hf1 : firstn (S n) (dv_slots d1) = firstn n (dv_slots d) ++ [not_last a]).
      { rewrite H3, firstn_app, firstn_firstn, firstn_length. replace (Nat.min (S n) n) with n by lia. replace (S n - Nat.min n (length (dv_slots d)))%nat with 1%nat by lia. reflexivity. }
      exists r2, db2, d2. split; [exact E2|]. split; [eapply same_device_trans; eassumption|]. split; [exact Hok2|]. split; [|split].
      * assert (G : firstn n (firstn (S n) (dv_slots d2)) = firstn n (firstn (S n) (dv_slots d1))) by (rewrite Hpre; reflexivity).
        rewrite !firstn_firstn in G. replace (Nat.min n (S n)) with n in G by lia. rewrite G, H3, firstn_app, firstn_firstn, firstn_length.
        replace (Nat.min n n) with n by lia. replace (n - Nat.min n (length (dv_slots d)))%nat with 0%nat by lia. cbn [firstn]. apply app_nil_r.
      * intro Hr2. rewrite (Hsucc Hr2), Hf1, <- app_assoc. cbn [map app length]. f_equal. f_equal. f_equal.
        rewrite H3, skipn_app, firstn_length. rewrite skipn_all2 by (rewrite firstn_length; lia). replace (S n + length add - Nat.min n (length (dv_slots d)))%nat with (S (length add)) by lia.
        cbn [app]. rewrite skipn_cons, skipn_plus. f_equal. lia.
      * cbn [length]. intros G1 G2. apply Hfate; [lia|]. destruct Hs as (_ & _ & A & _). rewrite A. exact G2.
    + destruct r as [e|]; [|congruence]. exists (Some e), db, d1. split; [reflexivity|]. split; [exact Hs|]. rewrite Hsl. split; [exact Hok|]. split; [reflexivity|]. split; [discriminate|].
      cbn [length]. intros G1 G2. apply (Hc ltac:(lia) ltac:(unfold zlen; fold n; lia)). apply G2.
Qed.

Lemma add_links_step : forall info fuel now add db d, handle info d -> memory_ok (dv_slots d) -> existsb is_last (dv_slots d) = true -> quiet_device d ->
  ld_age db + 3600 < now -> (length (stream d 0 (dv_slots d)) < fuel)%nat -> Forall link_wf add ->
  exists r db' d', ld_add_links fuel (bd_mw info dev_mw) now add (db, d) = (Ret r, (db', d')) /\ same_device d d' /\
    firstn (length (below (dv_slots d))) (dv_slots d') = below (dv_slots d) /\
    (r = None -> dv_slots d' = below (dv_slots d) ++ map not_last (skipn (length (below (dv_slots d))) add) ++
                               skipn (length (below (dv_slots d)) + length (skipn (length (below (dv_slots d))) add)) (dv_slots d)) /\
    ((length (below (dv_slots d)) + length add <= length (dv_slots d))%nat -> (forall n, dv_fate d n = None) -> r = None).
Proof.
  intros info fuel now add db d Hh Hok Hl Hq Hage Hfuel Hadd.
  destruct (below_prefix (dv_slots d)) as (rest & Er & Hrest).
  assert (Hfst : firstn (length (below (dv_slots d))) (dv_slots d) = below (dv_slots d)).
  { rewrite Er at 2. rewrite firstn_app, firstn_all, Nat.sub_diag. cbn [firstn]. apply app_nil_r. }
  unfold ld_add_links. destruct add as [|a add].
  { exists None, db, d. split; [reflexivity|]. split; [apply same_device_refl|]. split; [exact Hfst|]. split; [|auto]. intros _. rewrite skipn_nil. cbn [map app length].
    rewrite Nat.add_0_r. rewrite <- Hfst at 1. symmetry. apply firstn_skipn. }
  destruct (refresh_cases info fuel now db d Hh Hok Hl Hq Hage Hfuel) as (r0 & db0 & d0 & E0 & Hs0 & Hslots0 & Hm0 & Hsucc0 & Hfate0).
  unfold pbind at 1. rewrite E0. destruct r0 as [e|].
  { exists (Some e), db0, d0. split; [reflexivity|]. split; [exact Hs0|]. rewrite Hslots0. split; [exact Hfst|]. split; [discriminate|]. intros _ Hf. apply Hfate0. apply Hf. }
  destruct (Hsucc0 eq_refl) as [Hlinks0 _]. unfold pbind at 1. unfold pfst at 1, pget at 1. cbn [fst snd].
  destruct (add_fill_step info (ld_links db0) 0 (a :: add) rest db0 d0 (handle_same _ _ _ Hs0 Hh)) as (left & r1 & db1 & d1 & E1 & Hs1 & Hsl1 & Hl1 & Hsucc1 & Hfate1);
    [rewrite Hslots0; exact Hok|lia|exact (mirrored_length _ _ Hm0)|cbn [skipn]; rewrite Hslots0, Hlinks0; exact Er|rewrite Hlinks0; apply below_nonlast|discriminate|].
  change (Z.of_nat 0) with 0 in E1. unfold pbind at 1. rewrite E1. rewrite Hlinks0 in Hl1, Hsucc1.
  assert (Hs01 : same_device d d1) by (eapply same_device_trans; eassumption).
  destruct r1 as [e|].
  { exists (Some e), db1, d1. split; [reflexivity|]. split; [exact Hs01|]. rewrite Hsl1, Hslots0. split; [exact Hfst|]. split; [discriminate|].
    intros _ Hf. apply Hfate1. destruct Hs0 as (_ & _ & A & _). rewrite A. exact Hf. }
  rewrite (Hsucc1 eq_refl).
  assert (Hlb : (length (below (dv_slots d)) <= length (dv_slots d))%nat) by (rewrite Er at 2; rewrite app_length; lia).
  destruct (add_append_step info (skipn (length (below (dv_slots d))) (a :: add)) db1 d1 (handle_same _ _ _ Hs01 Hh))
    as (r2 & db2 & d2 & E2 & Hs2 & _ & Hpre & Hsucc2 & Hfate2);
    [rewrite Hsl1, Hslots0; exact Hok|rewrite Hsl1, Hslots0; lia|apply Forall_skipn; exact Hadd|].
  exists r2, db2, d2. split; [exact E2|]. split; [eapply same_device_trans; eassumption|]. rewrite Hl1, Hsl1, Hslots0, Hfst in *.
  split; [exact Hpre|]. split; [exact Hsucc2|]. intros G1 G2. apply Hfate2; [rewrite skipn_length; lia|]. destruct Hs01 as (_ & _ & A & _). rewrite A. exact G2.
Qed.
