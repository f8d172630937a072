From Coq Require Import ZArith List Bool Lia ZifyBool ZifyNat.
From Verif Require Import GoBase GoLemmas GoText Address AddressProofs Command Message MessageSpec.
Import ListNotations.
Open Scope Z_scope.
Ltac Zify.zify_post_hook ::= Z.div_mod_to_equations.

(** Bit operations as arithmetic. *)
Lemma land_255 : forall x, Z.land x 255 = x mod 256.
Proof. intros x. change 255 with (Z.ones 8). rewrite Z.land_ones by lia. reflexivity. Qed.

Lemma land_255_l : forall x, Z.land 255 x = x mod 256.
Proof. intros x. rewrite Z.land_comm. apply land_255. Qed.

Lemma land_ffff00 : forall x, Z.land x 0xffff00 = ((x / 256) mod 65536) * 256.
Proof.
  intros x. change 0xffff00 with (Z.shiftl (Z.ones 16) 8).
  replace (Z.land x (Z.shiftl (Z.ones 16) 8)) with (Z.shiftl (Z.land (Z.shiftr x 8) (Z.ones 16)) 8).
  - rewrite Z.land_ones by lia. rewrite Z.shiftl_mul_pow2, Z.shiftr_div_pow2 by lia. reflexivity.
  - apply Z.bits_inj'. intros n Hn.
    rewrite Z.land_spec, !Z.shiftl_spec by lia. 
    destruct (Z.ltb_spec n 8) as [H|H].
    + rewrite !(Z.testbit_neg_r _ (n - 8)) by lia. rewrite andb_false_r. reflexivity.
    + rewrite Z.land_spec, Z.shiftr_spec by lia. replace (n - 8 + 8) with n by lia. reflexivity.
Qed.

(** Disjoint [lor] is addition: low part below 2^k. *)
Lemma lor_shift_add : forall a b k, 0 <= k -> 0 <= b < 2 ^ k -> Z.lor (a * 2 ^ k) b = a * 2 ^ k + b.
Proof.
  intros a b k Hk Hb. rewrite <- Z.shiftl_mul_pow2 by lia.
  symmetry. rewrite <- Z.lxor_lor.
  - apply Z.add_nocarry_lxor.
    apply Z.bits_inj'. intros n Hn. rewrite Z.land_spec, Z.bits_0, Z.shiftl_spec by lia.
    destruct (Z.ltb_spec n k) as [H|H].
    + rewrite (Z.testbit_neg_r a) by lia. reflexivity.
    + replace (Z.testbit b n) with false; [apply andb_false_r|].
      symmetry. destruct (Z.eq_dec b 0) as [->|Hb0]; [apply Z.bits_0|].
      apply Z.bits_above_log2; [lia|]. apply Z.lt_le_trans with k; [|lia].
      apply Z.log2_lt_pow2; lia.
  - apply Z.bits_inj'. intros n Hn. rewrite Z.land_spec, Z.bits_0, Z.shiftl_spec by lia.
    destruct (Z.ltb_spec n k) as [H|H].
    + rewrite (Z.testbit_neg_r a) by lia. reflexivity.
    + replace (Z.testbit b n) with false; [apply andb_false_r|].
      symmetry. destruct (Z.eq_dec b 0) as [->|Hb0]; [apply Z.bits_0|].
      apply Z.bits_above_log2; [lia|]. apply Z.lt_le_trans with k; [|lia].
      apply Z.log2_lt_pow2; lia.
Qed.

Lemma command0_arith : forall c, command0 c = (c / 65536) mod 256.
Proof. intros c. unfold command0. rewrite land_255, Z.shiftr_div_pow2 by lia. reflexivity. Qed.
Lemma command1_arith : forall c, command1 c = (c / 256) mod 256.
Proof. intros c. unfold command1. rewrite land_255, Z.shiftr_div_pow2 by lia. reflexivity. Qed.
Lemma command2_arith : forall c, command2 c = c mod 256.
Proof. intros c. unfold command2. apply land_255. Qed.
Lemma sub_command_arith : forall c s, sub_command c s = ((c / 256) mod 65536) * 256 + s mod 256.
Proof.
  intros c s. unfold sub_command. rewrite land_ffff00, land_255_l.
  apply (lor_shift_add _ _ 8); [lia|]. change (2 ^ 8) with 256. lia.
Qed.

(** The kind and length of a flags byte. *)
Definition kind_of_bits (n : Z) : kind :=
  if n =? 0 then KDirect else if n =? 1 then KDirectAck else if n =? 2 then KCleanup
  else if n =? 3 then KCleanupAck else if n =? 4 then KBroadcast else if n =? 5 then KDirectNak
  else if n =? 6 then KAllLink else KCleanupNak.

Lemma layout_exists : forall f, is_byte f ->
  flags_layout f (kind_of_bits (f / 32)) ((f / 16) mod 2 =? 1) ((f / 4) mod 4) (f mod 4).
Proof.
  intros f Hf. unfold is_byte in Hf. unfold flags_layout.
  split; [lia|]. split; [lia|].
  assert (Hk : kind_bits (kind_of_bits (f / 32)) = f / 32).
  { assert (Hr : 0 <= f / 32 < 8) by lia. revert Hr. generalize (f / 32) as n. intros n Hr.
    unfold kind_of_bits.
    repeat match goal with |- context [?a =? ?b] => destruct (Z.eqb_spec a b); [subst; reflexivity|] end.
    cbn [kind_bits]. lia. }
  rewrite Hk. destruct ((f / 16) mod 2 =? 1) eqn:E; lia.
Qed.

(** A layout determines its parts; transfer a boolean sweep over (kind, ext, left, max). *)
Definition all_kinds : list kind :=
  [KDirect; KDirectAck; KCleanup; KCleanupAck; KBroadcast; KDirectNak; KAllLink; KCleanupNak].
Lemma all_kinds_In : forall k, In k all_kinds.
Proof. intros []; cbn; tauto. Qed.
Definition hops4 : list Z := [0; 1; 2; 3].
Lemma hops4_In : forall h, 0 <= h <= 3 -> In h hops4.
Proof. intros h H. cbn. lia. Qed.

Definition mkf (k : kind) (ext : bool) (l m : Z) : Z := 32 * kind_bits k + (if ext then 16 else 0) + 4 * l + m.

Lemma sweep_layout : forall (P : kind -> bool -> Z -> Z -> bool),
  forallb (fun k => forallb (fun e => forallb (fun l => forallb (fun m => P k e l m) hops4) hops4) [true; false]) all_kinds = true ->
  forall f k e l m, flags_layout f k e l m -> P k e l m = true /\ f = mkf k e l m.
Proof.
  intros P H f k e l m [Hl [Hm Hf]]. split; [|exact Hf].
  rewrite forallb_forall in H. specialize (H k (all_kinds_In k)).
  rewrite forallb_forall in H. specialize (H e (ltac:(destruct e; cbn; tauto))).
  rewrite forallb_forall in H. specialize (H l (hops4_In l Hl)).
  rewrite forallb_forall in H. exact (H m (hops4_In m Hm)).
Qed.


Lemma accessors_layout : forall f k e l m, flags_layout f k e l m ->
  is_byte f /\
  fl_ttl f = l /\ fl_max_ttl f = m /\ fl_extended f = e /\ fl_standard f = negb e /\
  fl_type f = 32 * kind_bits k /\ fl_ack f = is_ack_kind k /\ fl_nak f = is_nak_kind k /\
  mt_is_broadcast (fl_type f) = is_broadcast_kind k /\ mt_is_alllink (fl_type f) = is_alllink_kind k /\
  mt_is_direct (fl_type f) = negb (is_broadcast_kind k).
Proof.
  intros f k e l m H.
  destruct (sweep_layout (fun k e l m =>
    let f := mkf k e l m in
    (0 <=? f) && (f <? 256) && (fl_ttl f =? l) && (fl_max_ttl f =? m) && eqb (fl_extended f) e &&
    eqb (fl_standard f) (negb e) && (fl_type f =? 32 * kind_bits k) && eqb (fl_ack f) (is_ack_kind k) &&
    eqb (fl_nak f) (is_nak_kind k) && eqb (mt_is_broadcast (fl_type f)) (is_broadcast_kind k) &&
    eqb (mt_is_alllink (fl_type f)) (is_alllink_kind k) && eqb (mt_is_direct (fl_type f)) (negb (is_broadcast_kind k)))
    ltac:(vm_compute; reflexivity) f k e l m H) as [H1 Hf].
  cbv beta zeta in H1. rewrite <- Hf in H1.
  repeat (apply andb_true_iff in H1; destruct H1 as [H1 ?]).
  repeat match goal with
  | HH : eqb _ _ = true |- _ => apply eqb_prop in HH
  | HH : (_ =? _) = true |- _ => apply Z.eqb_eq in HH
  end.
  unfold is_byte. repeat split; try assumption; lia.
Qed.

Lemma fl_make_layout : forall k e l m, 0 <= l <= 3 -> 0 <= m <= 3 ->
  flags_layout (fl_make (32 * kind_bits k) e l m) k e l m.
Proof.
  intros k e l m Hl Hm.
  assert (HL : flags_layout (mkf k e l m) k e l m) by (repeat split; auto; lia).
  destruct (sweep_layout (fun k e l m => fl_make (32 * kind_bits k) e l m =? mkf k e l m)
    ltac:(vm_compute; reflexivity) _ k e l m HL) as [H1 _].
  apply Z.eqb_eq in H1. rewrite H1. exact HL.
Qed.

Lemma set_ttl_layout : forall f k e l m t, flags_layout f k e l m -> is_byte t ->
  flags_layout (fl_set_ttl f t) k e (t mod 4) m.
Proof.
  intros f k e l m t H Ht.
  assert (Hland : Z.land 3 t = t mod 4).
  { rewrite Z.land_comm. change 3 with (Z.ones 2). rewrite Z.land_ones by lia. reflexivity. }
  assert (H4 : 0 <= t mod 4 <= 3) by lia.
  unfold fl_set_ttl. rewrite Hland.
  destruct (sweep_layout (fun k e l m => forallb (fun t => Z.lor (Z.land (mkf k e l m) 0xf3) (byte_of (Z.shiftl t 2)) =? mkf k e t m) hops4)
    ltac:(vm_compute; reflexivity) f k e l m H) as [H1 Hf].
  rewrite forallb_forall in H1. specialize (H1 (t mod 4) (hops4_In _ H4)).
  apply Z.eqb_eq in H1. rewrite <- Hf in H1. rewrite H1.
  destruct H as [_ [Hm _]]. repeat split; try lia; try exact (proj1 Hm); exact (proj2 Hm).
Qed.

Lemma set_max_ttl_layout : forall f k e l m t, flags_layout f k e l m -> is_byte t ->
  flags_layout (fl_set_max_ttl f t) k e l (t mod 4).
Proof.
  intros f k e l m t H Ht.
  assert (Hland : Z.land t 3 = t mod 4).
  { change 3 with (Z.ones 2). rewrite Z.land_ones by lia. reflexivity. }
  assert (H4 : 0 <= t mod 4 <= 3) by lia.
  unfold fl_set_max_ttl. rewrite Hland.
  destruct (sweep_layout (fun k e l m => forallb (fun t => Z.lor (Z.land (mkf k e l m) 0xfc) t =? mkf k e l t) hops4)
    ltac:(vm_compute; reflexivity) f k e l m H) as [H1 Hf].
  rewrite forallb_forall in H1. specialize (H1 (t mod 4) (hops4_In _ H4)).
  apply Z.eqb_eq in H1. rewrite <- Hf in H1. rewrite H1.
  destruct H as [Hl [_ _]]. repeat split; try lia; try exact (proj1 Hl); exact (proj2 Hl).
Qed.

Lemma fl_make_invalid : forall t e l m, 3 < l \/ 3 < m -> fl_make t e l m = 0.
Proof.
  intros t e l m H. unfold fl_make.
  replace ((3 <? l) || (3 <? m)) with true by lia. reflexivity.
Qed.

(** Command words. *)
Lemma cmd_from_layout : forall f k e l m c1 c2, flags_layout f k e l m -> is_byte c1 -> is_byte c2 ->
  cmd_from f c1 c2 = class_of k e * 65536 + c1 * 256 + c2.
Proof.
  intros f k e l m c1 c2 H H1 H2. unfold is_byte in *.
  assert (Hcls : forall cls, Z.lor (Z.lor (cls * 65536) (Z.shiftl c1 8)) c2 = cls * 65536 + c1 * 256 + c2).
  { intros cls. rewrite Z.shiftl_mul_pow2 by lia. change (2 ^ 8) with 256.
    change 65536 with (2 ^ 16). rewrite lor_shift_add by (change (2 ^ 16) with 65536; lia).
    replace (cls * 2 ^ 16 + c1 * 256) with ((cls * 256 + c1) * 2 ^ 8)
      by (change (2 ^ 16) with 65536; change (2 ^ 8) with 256; lia).
    rewrite lor_shift_add by (change (2 ^ 8) with 256; lia).
    change (2 ^ 16) with 65536; change (2 ^ 8) with 256; lia. }
  assert (Hc : cmd_from f c1 c2 = Z.lor (Z.lor (class_of k e * 65536) (Z.shiftl c1 8)) c2).
  { unfold cmd_from. f_equal. f_equal.
    destruct (sweep_layout (fun k e l m =>
      (if Z.land (mkf k e l m) 16 =? 16 then cmd_ExtendedDirect
       else if 0 <? mkf k e l m then
        (let f0 := Z.land (mkf k e l m) 224 in
         if (f0 =? 0) || (f0 =? 32) then cmd_StandardDirect
         else if f0 =? 128 then cmd_Broadcast
         else if (f0 =? 64) || (f0 =? 96) || (f0 =? 192) || (f0 =? 224) then cmd_AllLink else 0)
       else 0) =? class_of k e * 65536)
      ltac:(vm_compute; reflexivity) f k e l m H) as [HS Hf].
    rewrite <- Hf in HS. apply Z.eqb_eq in HS. exact HS. }
  rewrite Hc. apply Hcls.
Qed.

Lemma class_of_range : forall k e, 0 <= class_of k e < 256.
Proof. intros [] []; cbn [class_of]; lia. Qed.

(** Codec. *)
Lemma extended_bit : forall f, is_byte f -> fl_extended f = ((f / 16) mod 2 =? 1).
Proof.
  intros f Hf. apply (accessors_layout _ _ _ _ _ (layout_exists f Hf)).
Qed.

Lemma msg_marshal_length : forall m,
  length (msg_marshal m) = if fl_extended (m_flags m) then 23%nat else 9%nat.
Proof.
  intros m. unfold msg_marshal. rewrite !app_length.
  destruct (fl_extended (m_flags m)); cbn [addr_bytes length].
  - rewrite go_copy_length. reflexivity.
  - reflexivity.
Qed.

Lemma msg_marshal_layout : forall m, msg_wf m ->
  msg_layout (m_src m) (m_dst m) (m_flags m) ((m_cmd m / 256) mod 256) (m_cmd m mod 256)
    (if fl_extended (m_flags m) then firstn 14 (m_payload m) ++ zeros (14 - length (m_payload m)) else [])
    (msg_marshal m).
Proof.
  intros m [Hs [Hd [Hf Hp]]]. change (2 ^ 24) with 16777216 in *.
  unfold msg_layout.
  exists (m_src m / 65536), ((m_src m / 256) mod 256), (m_src m mod 256),
         (m_dst m / 65536), ((m_dst m / 256) mod 256), (m_dst m mod 256).
  unfold is_byte in *.
  repeat match goal with |- _ /\ _ => split end; try lia.
  - destruct (fl_extended (m_flags m)); [|constructor].
    apply bytes_ok_app. split; [apply bytes_ok_firstn; exact Hp|apply bytes_ok_zeros].
  - rewrite (extended_bit _ Hf). destruct ((m_flags m / 16) mod 2 =? 1); [|reflexivity].
    rewrite app_length, firstn_length. unfold zeros. rewrite repeat_length. lia.
  - unfold msg_marshal, addr_bytes. cbn [app].
    rewrite command1_arith, command2_arith. unfold byte_of.
    cons_lia.
    destruct (fl_extended (m_flags m)); [|reflexivity].
    rewrite go_copy_spec. change (length (zeros 14)) with 14%nat. f_equal.
    unfold zeros. clear. remember (length (m_payload m)) as n. clear Heqn.
    destruct (Nat.le_gt_cases n 14) as [H|H].
    + replace (repeat 0 14) with (repeat 0 n ++ repeat 0 (14 - n)).
      * rewrite skipn_app, repeat_length, Nat.sub_diag. cbn [skipn].
        rewrite skipn_all2 by (rewrite repeat_length; lia). reflexivity.
      * rewrite <- repeat_app. f_equal. lia.
    + rewrite skipn_all2 by (rewrite repeat_length; lia).
      replace (14 - n)%nat with 0%nat by lia. reflexivity.
Qed.

Lemma msg_unmarshal_short : forall old data, (length data < 9)%nat ->
  msg_unmarshal old data = (old, Some (EWrap EBufferTooShort)).
Proof.
  intros old data H.
  destruct data as [|a [|b [|c [|d [|e [|f [|g [|h [|i t]]]]]]]]]; try reflexivity.
  cbn [length] in H. lia.
Qed.

Lemma split9 : forall data : list Z, (9 <= length data)%nat ->
  exists a b c d e f g h i t, data = [a; b; c; d; e; f; g; h; i] ++ t.
Proof.
  intros data H.
  destruct data as [|a [|b [|c [|d [|e [|f [|g [|h [|i t]]]]]]]]]; cbn [length] in H; try lia.
  exists a, b, c, d, e, f, g, h, i, t. reflexivity.
Qed.

Lemma firstn_exact : forall A (l : list A) n, length l = n -> firstn n l = l.
Proof. intros A l n H. rewrite <- H. apply firstn_all. Qed.

Lemma go_copy_zeros_full : forall n s, (n <= length s)%nat -> go_copy (zeros n) s = firstn n s.
Proof.
  intros n s H. rewrite go_copy_spec. unfold zeros. rewrite repeat_length.
  rewrite skipn_all2 by (rewrite repeat_length; lia). apply app_nil_r.
Qed.

(** Decoding a laid out message (possibly followed by more bytes). *)
Lemma msg_unmarshal_layout : forall old src dst f c1 c2 data b rest,
  msg_layout src dst f c1 c2 data b ->
  msg_unmarshal old (b ++ rest) =
    (mkMsg src dst f (cmd_from f c1 c2) (if (f / 16) mod 2 =? 1 then data else m_payload old), None).
Proof.
  intros old src dst f c1 c2 data b rest
    (s2 & s1 & s0 & d2 & d1 & d0 & Hs2 & Hs1 & Hs0 & Hd2 & Hd1 & Hd0 & Hf & Hc1 & Hc2 & Hdata & Hsrc & Hdst & Hlen & Hb).
  subst b. cbn [app msg_unmarshal].
  rewrite (extended_bit _ Hf). rewrite !addr_put3. rewrite <- Hsrc, <- Hdst.
  destruct ((f / 16) mod 2 =? 1) eqn:E.
  - replace (zlen (s2 :: s1 :: s0 :: d2 :: d1 :: d0 :: f :: c1 :: c2 :: data ++ rest) <? 23) with false
      by (unfold zlen; cbn [length]; rewrite app_length, Hlen; lia).
    cbn [m_src m_dst m_cmd]. rewrite go_copy_zeros_full by (rewrite app_length; lia).
    rewrite firstn_app, Hlen, Nat.sub_diag, firstn_O, app_nil_r, firstn_exact by exact Hlen.
    reflexivity.
  - reflexivity.
Qed.

Definition need (data : list Z) : nat := if fl_extended (nth 6 data 0) then 23 else 9.

Lemma msg_layout_of_bytes : forall data, bytes_ok data -> (9 <= length data)%nat -> (need data <= length data)%nat ->
  exists src dst c1 c2 pl, msg_layout src dst (nth 6 data 0) c1 c2 pl (firstn (need data) data).
Proof.
  intros data Hok H9 Hn.
  destruct (split9 data H9) as (a & b & c & d & e & f & g & h & i & t & Hdata). subst data.
  apply bytes_ok_app in Hok. destruct Hok as [Hok Ht].
  inversion Hok as [|? ? Ha Hok1]; subst. inversion Hok1 as [|? ? Hb Hok2]; subst.
  inversion Hok2 as [|? ? Hc Hok3]; subst. inversion Hok3 as [|? ? Hd Hok4]; subst.
  inversion Hok4 as [|? ? He Hok5]; subst. inversion Hok5 as [|? ? Hf Hok6]; subst.
  inversion Hok6 as [|? ? Hg Hok7]; subst. inversion Hok7 as [|? ? Hh Hok8]; subst.
  inversion Hok8 as [|? ? Hi Hok9]; subst. clear Hok Hok1 Hok2 Hok3 Hok4 Hok5 Hok6 Hok7 Hok8 Hok9.
  unfold need in *. cbn [app nth] in *. rewrite (extended_bit _ Hg) in *.
  exists (a * 65536 + b * 256 + c), (d * 65536 + e * 256 + f), h, i.
  exists (if (g / 16) mod 2 =? 1 then firstn 14 t else []).
  exists a, b, c, d, e, f. cbn [length] in Hn.
  repeat match goal with |- _ /\ _ => split end; try assumption; try reflexivity.
  - destruct ((g / 16) mod 2 =? 1); [apply bytes_ok_firstn; exact Ht|constructor].
  - destruct ((g / 16) mod 2 =? 1); [|reflexivity]. rewrite firstn_length. lia.
  - destruct ((g / 16) mod 2 =? 1); reflexivity.
Qed.

Lemma msg_unmarshal_ok_iff : forall old data,
  snd (msg_unmarshal old data) = None <-> (9 <= length data /\ need data <= length data)%nat.
Proof.
  intros old data. destruct (Nat.le_gt_cases 9 (length data)) as [H9|H9].
  - destruct (split9 data H9) as (a & b & c & d & e & f & g & h & i & t & Hdata). subst data.
    unfold need. cbn [app nth msg_unmarshal]. destruct (fl_extended g).
    + destruct (zlen (a :: b :: c :: d :: e :: f :: g :: h :: i :: t) <? 23) eqn:E; cbn [snd];
        unfold zlen in E; cbn [length] in *; split; intro H; try discriminate; try lia; auto.
    + cbn [snd]. split; intro H; auto.
  - rewrite msg_unmarshal_short by exact H9. cbn [snd]. split; intro H; [discriminate|lia].
Qed.

Lemma msg_unmarshal_err : forall old data e,
  snd (msg_unmarshal old data) = Some e -> e = EWrap EBufferTooShort.
Proof.
  intros old data e H. destruct (Nat.le_gt_cases 9 (length data)) as [H9|H9].
  - destruct (split9 data H9) as (a & b & c & d & e' & f & g & h & i & t & Hdata). subst data.
    cbn [app msg_unmarshal] in H. destruct (fl_extended g).
    + destruct (zlen (a :: b :: c :: d :: e' :: f :: g :: h :: i :: t) <? 23); cbn [snd] in H; congruence.
    + cbn [snd] in H. congruence.
  - rewrite msg_unmarshal_short in H by exact H9. cbn [snd] in H. congruence.
Qed.

Lemma cmd_from_parts : forall f c1 c2, is_byte f -> is_byte c1 -> is_byte c2 ->
  (cmd_from f c1 c2 / 256) mod 256 = c1 /\ cmd_from f c1 c2 mod 256 = c2.
Proof.
  intros f c1 c2 Hf H1 H2.
  rewrite (cmd_from_layout _ _ _ _ _ _ _ (layout_exists f Hf) H1 H2).
  pose proof (class_of_range (kind_of_bits (f / 32)) ((f / 16) mod 2 =? 1)) as Hc.
  unfold is_byte in *. remember (class_of (kind_of_bits (f / 32)) ((f / 16) mod 2 =? 1)) as q. clear Heqq.
  split; lia.
Qed.

Lemma msg_reencode : forall old data m, bytes_ok data ->
  msg_unmarshal old data = (m, None) ->
  msg_marshal m = firstn (need data) data.
Proof.
  intros old data m Hok H.
  assert (Hlen : (9 <= length data /\ need data <= length data)%nat).
  { apply (msg_unmarshal_ok_iff old). rewrite H. reflexivity. }
  destruct Hlen as [H9 Hn].
  destruct (msg_layout_of_bytes data Hok H9 Hn) as (src & dst & c1 & c2 & pl & HL).
  pose proof (msg_unmarshal_layout old _ _ _ _ _ _ _ (skipn (need data) data) HL) as HU.
  rewrite firstn_skipn in HU. rewrite H in HU. injection HU as HU. subst m.
  destruct HL as (s2 & s1 & s0 & d2 & d1 & d0 & Hs2 & Hs1 & Hs0 & Hd2 & Hd1 & Hd0 & Hf & Hc1 & Hc2 & Hdata & Hsrc & Hdst & Hl & Hb).
  rewrite Hb. unfold msg_marshal. cbn [m_src m_dst m_flags m_cmd m_payload].
  rewrite command1_arith, command2_arith.
  destruct (cmd_from_parts _ c1 c2 Hf Hc1 Hc2) as [P1 P2]. rewrite P1, P2.
  rewrite (extended_bit _ Hf).
  unfold addr_bytes. subst src dst. unfold is_byte in *.
  unfold byte_of. cbn [app].
  cons_lia.
  destruct ((nth 6 data 0 / 16) mod 2 =? 1).
  - rewrite go_copy_zeros_full by lia. apply firstn_exact. exact Hl.
  - destruct pl; [reflexivity|cbn [length] in Hl; lia].
Qed.

Lemma msg_roundtrip : forall old m, msg_wf m ->
  msg_unmarshal old (msg_marshal m) =
    (mkMsg (m_src m) (m_dst m) (m_flags m) (cmd_from (m_flags m) ((m_cmd m / 256) mod 256) (m_cmd m mod 256))
       (if fl_extended (m_flags m) then firstn 14 (m_payload m) ++ zeros (14 - length (m_payload m)) else m_payload old), None).
Proof.
  intros old m Hwf. pose proof (msg_marshal_layout m Hwf) as HL.
  pose proof (msg_unmarshal_layout old _ _ _ _ _ _ _ [] HL) as HU. rewrite app_nil_r in HU. rewrite HU.
  destruct Hwf as [_ [_ [Hf _]]]. rewrite <- (extended_bit _ Hf).
  destruct (fl_extended (m_flags m)); reflexivity.
Qed.

Lemma msg_duplicate_iff : forall m o, is_byte (m_flags m) -> is_byte (m_flags o) ->
  msg_duplicate m o = true <->
  m_src m = m_src o /\ m_dst m = m_dst o /\ m_cmd m = m_cmd o /\
  m_flags m mod 4 = m_flags o mod 4 /\ m_payload m = m_payload o.
Proof.
  intros m o Hm Ho. unfold msg_duplicate.
  destruct (accessors_layout _ _ _ _ _ (layout_exists _ Hm)) as (_ & _ & E1 & _).
  destruct (accessors_layout _ _ _ _ _ (layout_exists _ Ho)) as (_ & _ & E2 & _).
  rewrite E1, E2. rewrite !andb_true_iff, !Z.eqb_eq, bytes_eqb_eq. tauto.
Qed.
