From Coq Require Import ZArith List Bool Lia ZifyBool ZifyNat.
From Verif Require Import GoBase GoLemmas GoText Address AddressSpec AddressProofs MessageProofs Link LinkText LinkSpec.
Import ListNotations.
Open Scope Z_scope.
Ltac Zify.zify_post_hook ::= Z.div_mod_to_equations.

(** ** Flags *)
Definition bitb (n f : Z) : bool := bit n f =? 1.

Lemma rcf_accessors : forall f, is_byte f ->
  rcf_in_use f = bitb 7 f /\ rcf_available f = negb (bitb 7 f) /\
  rcf_controller f = bitb 6 f /\ rcf_responder f = negb (bitb 6 f) /\
  rcf_last_record f = negb (bitb 1 f).
Proof.
  intros f Hf.
  pose proof (sweep1 (fun f => eqb (rcf_in_use f) (bitb 7 f) && eqb (rcf_available f) (negb (bitb 7 f)) &&
    eqb (rcf_controller f) (bitb 6 f) && eqb (rcf_responder f) (negb (bitb 6 f)) &&
    eqb (rcf_last_record f) (negb (bitb 1 f))) ltac:(vm_compute; reflexivity) f Hf) as H.
  cbv beta in H. repeat (apply andb_true_iff in H; destruct H as [H ?]).
  repeat match goal with HH : eqb _ _ = true |- _ => apply eqb_prop in HH end.
  auto.
Qed.

(** Setting or clearing one bit leaves the other seven alone. *)
Definition bits8 : list Z := [0; 1; 2; 3; 4; 5; 6; 7].
Lemma bits8_In : forall n, 0 <= n < 8 -> In n bits8.
Proof. intros n H. cbn. lia. Qed.

Lemma rcf_bit_ops : forall f n p, is_byte f -> 0 <= n < 8 -> 0 <= p < 8 ->
  bit n (rcf_set_bit f p) = (if n =? p then 1 else bit n f) /\
  bit n (rcf_clear_bit f p) = (if n =? p then 0 else bit n f) /\
  is_byte (rcf_set_bit f p) /\ is_byte (rcf_clear_bit f p).
Proof.
  intros f n p Hf Hn Hp.
  pose proof (sweep1 (fun f => forallb (fun n => forallb (fun p =>
     (bit n (rcf_set_bit f p) =? (if n =? p then 1 else bit n f)) &&
     (bit n (rcf_clear_bit f p) =? (if n =? p then 0 else bit n f)) &&
     (0 <=? rcf_set_bit f p) && (rcf_set_bit f p <? 256) &&
     (0 <=? rcf_clear_bit f p) && (rcf_clear_bit f p <? 256)) bits8) bits8)
     ltac:(vm_compute; reflexivity) f Hf) as H.
  cbv beta in H. rewrite forallb_forall in H. specialize (H n (bits8_In n Hn)).
  cbv beta in H. rewrite forallb_forall in H. specialize (H p (bits8_In p Hp)).
  cbv beta in H. unfold is_byte. repeat (apply andb_true_iff in H; destruct H as [H ?]).
  repeat match goal with HH : (_ =? _) = true |- _ => apply Z.eqb_eq in HH end.
  repeat split; try assumption; lia.
Qed.

(** ** Binary codec and identity *)
Lemma link_marshal_layout : forall l, link_wf l -> link_layout l (link_marshal l).
Proof.
  intros l (Hf & Hg & Ha & H0 & H1 & H2). change (2 ^ 24) with 16777216 in Ha.
  exists (l_addr l / 65536), ((l_addr l / 256) mod 256), (l_addr l mod 256).
  unfold is_byte in *. repeat match goal with |- _ /\ _ => split end; try lia.
  unfold link_marshal, addr_bytes, byte_of. cbn [app]. cons_lia. reflexivity.
Qed.

Lemma link_unmarshal_layout : forall old l b rest, link_layout l b ->
  link_unmarshal old (b ++ rest) = (l, None).
Proof.
  intros old l b rest (a2 & a1 & a0 & H2 & H1 & H0 & Ha & Hb). subst b. cbn [app link_unmarshal].
  rewrite addr_put3, <- Ha. destruct l; reflexivity.
Qed.

Lemma link_unmarshal_ok_iff : forall old b, snd (link_unmarshal old b) = None <-> (8 <= length b)%nat.
Proof.
  intros old b.
  destruct b as [|x0 [|x1 [|x2 [|x3 [|x4 [|x5 [|x6 [|x7 t]]]]]]]]; cbn [link_unmarshal snd length];
    split; intro H; try discriminate; try lia; reflexivity.
Qed.

Lemma link_unmarshal_short : forall old b, (length b < 8)%nat ->
  link_unmarshal old b = (old, Some (EWrap EBufferTooShort)).
Proof.
  intros old b H.
  destruct b as [|x0 [|x1 [|x2 [|x3 [|x4 [|x5 [|x6 [|x7 t]]]]]]]]; try reflexivity.
  cbn [length] in H. lia.
Qed.

Lemma link_reencode : forall old b l, bytes_ok b -> link_unmarshal old b = (l, None) ->
  link_wf l /\ link_marshal l = firstn 8 b.
Proof.
  intros old b l Hb H.
  destruct b as [|x0 [|x1 [|x2 [|x3 [|x4 [|x5 [|x6 [|x7 t]]]]]]]]; cbn [link_unmarshal] in H; try discriminate.
  injection H as H. subst l.
  inversion Hb as [|? ? Hx0 Hb1]; subst. inversion Hb1 as [|? ? Hx1 Hb2]; subst.
  inversion Hb2 as [|? ? Hx2 Hb3]; subst. inversion Hb3 as [|? ? Hx3 Hb4]; subst.
  inversion Hb4 as [|? ? Hx4 Hb5]; subst. inversion Hb5 as [|? ? Hx5 Hb6]; subst.
  inversion Hb6 as [|? ? Hx6 Hb7]; subst. inversion Hb7 as [|? ? Hx7 Hb8]; subst.
  split.
  - unfold link_wf. cbn [l_flags l_group l_addr l_d0 l_d1 l_d2]. rewrite addr_put3. unfold is_byte in *.
    change (2 ^ 24) with 16777216. lia.
  - unfold link_marshal. cbn [l_flags l_group l_addr l_d0 l_d1 l_d2 app].
    change (addr_bytes (addr_put [x2; x3; x4]) ++ [x5; x6; x7]) with ((addr_bytes (addr_put [x2; x3; x4])) ++ [x5; x6; x7]).
    rewrite addr_bytes_put by assumption. reflexivity.
Qed.

Lemma bit6_land : forall f, is_byte f -> Z.land f 64 = 64 * bit 6 f.
Proof.
  intros f Hf.
  pose proof (sweep1 (fun f => Z.land f 64 =? 64 * bit 6 f) ltac:(vm_compute; reflexivity) f Hf) as H.
  apply Z.eqb_eq in H. exact H.
Qed.

Lemma bit_range : forall n f, bit n f = 0 \/ bit n f = 1.
Proof. intros n f. unfold bit. lia. Qed.

Lemma link_equal_iff : forall a b, link_wf a -> link_wf b ->
  (link_equal a b = true <-> same_link a b).
Proof.
  intros a b (Hfa & Hga & Haa & _) (Hfb & Hgb & Hab & _).
  change (2 ^ 24) with 16777216 in *.
  unfold link_equal, same_link, link_id. rewrite bytes_eqb_eq.
  rewrite !bit6_land by assumption.
  assert (Hb3 : forall x, 0 <= x < 16777216 -> 
     byte_of (Z.shiftr x 16) = x / 65536 /\ byte_of (Z.shiftr (Z.land x 65280) 8) = (x / 256) mod 256 /\ byte_of (Z.land x 255) = x mod 256).
  { intros x Hx. rewrite !Z.shiftr_div_pow2 by lia. rewrite land_255. unfold byte_of.
    change (2 ^ 16) with 65536. change (2 ^ 8) with 256.
    assert (Hl : Z.land x 65280 = ((x / 256) mod 256) * 256).
    { change 65280 with (Z.shiftl (Z.ones 8) 8).
      replace (Z.land x (Z.shiftl (Z.ones 8) 8)) with (Z.shiftl (Z.land (Z.shiftr x 8) (Z.ones 8)) 8).
      - rewrite Z.land_ones by lia. rewrite Z.shiftl_mul_pow2, Z.shiftr_div_pow2 by lia. reflexivity.
      - apply Z.bits_inj'. intros n Hn.
        rewrite Z.land_spec, !Z.shiftl_spec by lia. 
        destruct (Z.ltb_spec n 8) as [H|H].
        + rewrite !(Z.testbit_neg_r _ (n - 8)) by lia. rewrite andb_false_r. reflexivity.
        + rewrite Z.land_spec, Z.shiftr_spec by lia. replace (n - 8 + 8) with n by lia. reflexivity. }
    rewrite Hl. repeat split; lia. }
  destruct (Hb3 _ Haa) as (A1 & A2 & A3). destruct (Hb3 _ Hab) as (B1 & B2 & B3).
  rewrite A1, A2, A3, B1, B2, B3.
  pose proof (bit_range 6 (l_flags a)) as Ra. pose proof (bit_range 6 (l_flags b)) as Rb.
  generalize dependent (bit 6 (l_flags a)). generalize dependent (bit 6 (l_flags b)). intros bb Rb ba Ra. split.
  - intro H. apply (f_equal (fun l => (nth 0 l 0, nth 1 l 0, nth 2 l 0, nth 3 l 0, nth 4 l 0))) in H.
    cbn [nth] in H. inversion H as [[E1 E2 E3 E4 E5]].
    split; [destruct Ra, Rb; subst; (reflexivity || discriminate)|]. split; lia.
  - intros (E1 & E2 & E3). rewrite E1, E2, E3. reflexivity.
Qed.

(** ** Text *)
Definition nonblank (w : list Z) : Prop := Forall (fun c => is_space c = false) w.

Lemma fields_go_word : forall w cur s, nonblank w ->
  fields_go cur (w ++ s) = fields_go (rev w ++ cur) s.
Proof.
  induction w as [|c w IH]; intros cur s Hw; [reflexivity|].
  inversion Hw as [|? ? Hc Hw']; subst. cbn [app fields_go]. rewrite Hc.
  rewrite IH by exact Hw'. cbn [rev]. rewrite <- app_assoc. reflexivity.
Qed.

Lemma fields_word_space : forall w c s, nonblank w -> w <> [] -> is_space c = true ->
  fields (w ++ c :: s) = w :: fields s.
Proof.
  intros w c s Hw Hne Hc. unfold fields. rewrite fields_go_word by exact Hw. rewrite app_nil_r.
  cbn [fields_go]. rewrite Hc. destruct (rev w) as [|x r] eqn:E.
  - exfalso. apply Hne. apply (f_equal (@rev Z)) in E. rewrite rev_involutive in E. exact E.
  - rewrite <- E, rev_involutive. reflexivity.
Qed.

Lemma fields_word : forall w, nonblank w -> w <> [] -> fields w = [w].
Proof.
  intros w Hw Hne. unfold fields. rewrite <- (app_nil_r w) at 1. rewrite fields_go_word by exact Hw.
  rewrite app_nil_r. cbn [fields_go]. destruct (rev w) as [|x r] eqn:E.
  - exfalso. apply Hne. apply (f_equal (@rev Z)) in E. rewrite rev_involutive in E. exact E.
  - rewrite <- E, rev_involutive. reflexivity.
Qed.

Lemma fields_space : forall c s, is_space c = true -> fields (c :: s) = fields s.
Proof. intros c s Hc. unfold fields. cbn [fields_go]. rewrite Hc. reflexivity. Qed.

Lemma fields_spaces : forall sp s, Forall (fun c => is_space c = true) sp -> fields (sp ++ s) = fields s.
Proof.
  induction sp as [|c sp IH]; intros s H; [reflexivity|].
  inversion H as [|? ? Hc H']; subst. cbn [app]. rewrite fields_space by exact Hc. apply IH. exact H'.
Qed.

Lemma repeat_space : forall n, Forall (fun c => is_space c = true) (repeat ch_space n).
Proof. induction n as [|n IH]; cbn [repeat]; constructor; [reflexivity|exact IH]. Qed.

Lemma fields_pad_right : forall w n s, nonblank w -> w <> [] ->
  fields (pad_right n w ++ ch_space :: s) = w :: fields s.
Proof.
  intros w n s Hw Hne. unfold pad_right. rewrite <- app_assoc.
  destruct (n - length w)%nat as [|k]; cbn [repeat app].
  - apply fields_word_space; auto.
  - rewrite fields_word_space by auto. rewrite fields_spaces by apply repeat_space.
    rewrite fields_space by reflexivity. reflexivity.
Qed.

Lemma fields_pad_left : forall w n s, nonblank w -> w <> [] ->
  fields (pad_left n w ++ ch_space :: s) = w :: fields s.
Proof.
  intros w n s Hw Hne. unfold pad_left. rewrite <- app_assoc.
  rewrite fields_spaces by apply repeat_space. apply fields_word_space; auto.
Qed.

(** Trimming does not change the words of a line. *)
Lemma fields_drop_space : forall s, fields (drop_space s) = fields s.
Proof.
  induction s as [|c s IH]; [reflexivity|]. cbn [drop_space].
  destruct (is_space c) eqn:E; [|reflexivity]. rewrite IH. symmetry. apply fields_space. exact E.
Qed.

Lemma fields_go_trailing : forall s cur c, is_space c = true -> fields_go cur (s ++ [c]) = fields_go cur s.
Proof.
  induction s as [|x s IH]; intros cur c Hc; cbn [app fields_go].
  - rewrite Hc. destruct cur; reflexivity.
  - destruct (is_space x) eqn:E.
    + destruct cur; rewrite IH by exact Hc; reflexivity.
    + apply IH. exact Hc.
Qed.

Lemma fields_rev_drop : forall s, fields (rev (drop_space s)) = fields (rev s).
Proof.
  induction s as [|c s IH]; [reflexivity|]. cbn [drop_space].
  destruct (is_space c) eqn:E; [|reflexivity].
  rewrite IH. cbn [rev]. unfold fields. rewrite fields_go_trailing by exact E. reflexivity.
Qed.

Lemma fields_trim : forall s, fields (trim_space s) = fields s.
Proof.
  intros s. unfold trim_space. rewrite fields_rev_drop, rev_involutive. apply fields_drop_space.
Qed.

Lemma link_unmarshal_text_trim : forall l s, link_unmarshal_text l (trim_space s) = link_unmarshal_text l s.
Proof. intros l s. unfold link_unmarshal_text. rewrite fields_trim. reflexivity. Qed.

(** First non-blank character of a trimmed line. *)
Lemma drop_space_head : forall s c t, drop_space s = c :: t -> is_space c = false.
Proof.
  induction s as [|x s IH]; intros c t H; cbn [drop_space] in H; [discriminate|].
  destruct (is_space x) eqn:E; [apply (IH c t H)|]. injection H as H1 H2. congruence.
Qed.

Lemma drop_space_app_nonblank : forall s c, is_space c = false ->
  exists t, drop_space (s ++ [c]) = t ++ [c].
Proof.
  induction s as [|x s IH]; intros c Hc; cbn [app drop_space].
  - rewrite Hc. exists []. reflexivity.
  - destruct (is_space x) eqn:E; [apply IH; exact Hc|]. exists (x :: s). reflexivity.
Qed.

Lemma trim_space_cons : forall s c t, drop_space s = c :: t -> exists t', trim_space s = c :: t'.
Proof.
  intros s c t H. pose proof (drop_space_head _ _ _ H) as Hc.
  unfold trim_space. rewrite H. cbn [rev].
  destruct (drop_space_app_nonblank (rev t) c Hc) as [u Hu]. rewrite Hu.
  rewrite rev_app_distr. cbn [rev app]. exists (rev u). reflexivity.
Qed.

Lemma trim_space_nil : forall s, drop_space s = [] -> trim_space s = [].
Proof. intros s H. unfold trim_space. rewrite H. reflexivity. Qed.

(** *** Words of a record line *)
Lemma rcf_string_nonblank : forall f, nonblank (rcf_string f) /\ rcf_string f <> [].
Proof.
  intros f. unfold rcf_string. split; [|discriminate].
  destruct (rcf_in_use f), (rcf_controller f); repeat constructor.
Qed.

Lemma hex_char_nonblank : forall n, 0 <= n < 16 -> is_space (hex_char n) = false.
Proof.
  intros n H. unfold hex_char, is_space, wide_space. destruct (n <? 10) eqn:E; lia.
Qed.

Lemma fmt_02x_nonblank : forall b, is_byte b -> nonblank (fmt_02x b) /\ fmt_02x b <> [].
Proof.
  intros b Hb. unfold is_byte in Hb. unfold fmt_02x. split; [|discriminate].
  repeat constructor; apply hex_char_nonblank; lia.
Qed.

Lemma addr_string_nonblank : forall a, nonblank (addr_string a) /\ addr_string a <> [].
Proof.
  intros a. unfold addr_string. split; [|discriminate].
  unfold nonblank. rewrite !Forall_app.
  repeat split; try (apply fmt_02x_nonblank; apply byte_of_range); repeat constructor.
Qed.

Lemma fmt_d_byte_nonblank : forall b, is_byte b -> nonblank (fmt_d_byte b) /\ fmt_d_byte b <> [].
Proof.
  intros b Hb. unfold is_byte in Hb. unfold fmt_d_byte.
  destruct (b <? 10) eqn:E1; [|destruct (b <? 100) eqn:E2]; (split; [|discriminate]);
    repeat constructor; unfold is_space, wide_space; lia.
Qed.

Lemma atoi_fmt_d : forall b, is_byte b -> atoi (fmt_d_byte b) = Some b.
Proof.
  intros b Hb.
  pose proof (sweep1 (fun b => match atoi (fmt_d_byte b) with Some v => v =? b | None => false end)
    ltac:(vm_compute; reflexivity) b Hb) as H. cbv beta in H.
  destruct (atoi (fmt_d_byte b)); [|discriminate]. apply Z.eqb_eq in H. congruence.
Qed.

Lemma scan_fmt_02x : forall b, is_byte b -> scan_hex8 None (fmt_02x b) = Some (b, []).
Proof.
  intros b Hb.
  pose proof (sweep1 (fun b => match scan_hex8 None (fmt_02x b) with Some (v, []) => v =? b | _ => false end)
    ltac:(vm_compute; reflexivity) b Hb) as H. cbv beta in H.
  destruct (scan_hex8 None (fmt_02x b)) as [[v [|x r]]|]; try discriminate. apply Z.eqb_eq in H. congruence.
Qed.

Lemma fields_marshal_text : forall l, link_wf l ->
  fields (link_marshal_text l) =
    [rcf_string (l_flags l); fmt_d_byte (l_group l); addr_string (l_addr l);
     fmt_02x (l_d0 l); fmt_02x (l_d1 l); fmt_02x (l_d2 l)].
Proof.
  intros l (Hf & Hg & Ha & H0 & H1 & H2). unfold link_marshal_text.
  destruct (rcf_string_nonblank (l_flags l)) as [R1 R2].
  destruct (fmt_d_byte_nonblank _ Hg) as [G1 G2].
  destruct (addr_string_nonblank (l_addr l)) as [A1 A2].
  destruct (fmt_02x_nonblank _ H0) as [D1 D2]. destruct (fmt_02x_nonblank _ H1) as [E1 E2].
  destruct (fmt_02x_nonblank _ H2) as [F1 F2].
  cbn [app]. rewrite fields_pad_right by auto. rewrite fields_pad_left by auto.
  rewrite fields_pad_left by auto. rewrite !fields_space by reflexivity.
  rewrite fields_word_space by auto. rewrite fields_word_space by auto. rewrite fields_word by auto.
  reflexivity.
Qed.

Lemma rcf_text_roundtrip : forall f g, is_byte f -> is_byte g ->
  rcf_unmarshal_text g (rcf_string f) =
    ((if bitb 6 f then rcf_set_controller else rcf_set_responder)
      ((if bitb 7 f then rcf_set_in_use else rcf_set_available) g), None).
Proof.
  intros f g Hf Hg. destruct (rcf_accessors f Hf) as (E1 & _ & E2 & _).
  unfold rcf_string. rewrite E1, E2. destruct (bitb 7 f), (bitb 6 f); reflexivity.
Qed.

Lemma link_text_roundtrip : forall l, link_wf l ->
  link_unmarshal_text link_zero (link_marshal_text l) = (expressible l, None).
Proof.
  intros l Hwf. pose proof Hwf as (Hf & Hg & Ha & H0 & H1 & H2).
  unfold link_unmarshal_text. rewrite fields_marshal_text by exact Hwf.
  rewrite rcf_text_roundtrip by (assumption || (unfold is_byte; cbn; lia)).
  unfold group_unmarshal_text. rewrite atoi_fmt_d by exact Hg.
  replace ((0 <=? l_group l) && (l_group l <=? 255)) with true by (unfold is_byte in Hg; lia).
  rewrite (addr_rendering_parses _ (l_addr l)) by (apply addr_string_rendering; exact Ha).
  unfold scan_data. rewrite !scan_fmt_02x by assumption.
  rewrite byte_of_id by exact Hg. unfold expressible.
  replace (rcf_clear_last_record
    ((if bitb 6 (l_flags l) then rcf_set_controller else rcf_set_responder)
      ((if bitb 7 (l_flags l) then rcf_set_in_use else rcf_set_available) (l_flags link_zero))))
    with (128 * bit 7 (l_flags l) + 64 * bit 6 (l_flags l) + 2); [reflexivity|].
  unfold bitb. destruct (bit_range 7 (l_flags l)) as [E7|E7], (bit_range 6 (l_flags l)) as [E6|E6];
    rewrite E7, E6; reflexivity.
Qed.

(** *** Lines *)
Definition no_nl (l : list Z) : Prop := Forall (fun c => c <> ch_nl) l.

Lemma split_on_line : forall l s, no_nl l -> split_on ch_nl (l ++ ch_nl :: s) = l :: split_on ch_nl s.
Proof.
  induction l as [|c l IH]; intros s H; cbn [app split_on].
  - reflexivity.
  - inversion H as [|? ? Hc H']; subst. destruct (c =? ch_nl) eqn:E; [apply Z.eqb_eq in E; contradiction|].
    rewrite IH by exact H'. reflexivity.
Qed.

Lemma split_on_unlines : forall ls, Forall no_nl ls -> split_on ch_nl (unlines ls) = ls ++ [[]].
Proof.
  induction ls as [|l ls IH]; intros H; [reflexivity|].
  inversion H as [|? ? Hl H']; subst. unfold unlines. cbn [flat_map]. rewrite <- app_assoc. cbn [app].
  rewrite split_on_line by exact Hl. unfold unlines in IH. rewrite IH by exact H'. reflexivity.
Qed.

(** Meaning of one line. *)
Inductive line_means : list Z -> option link -> Prop :=
| lm_blank : forall l, drop_space l = [] -> line_means l None
| lm_comment : forall l t, drop_space l = ch_hash :: t -> line_means l None
| lm_record : forall l c t r, drop_space l = c :: t -> c <> ch_hash ->
    link_unmarshal_text link_zero l = (r, None) -> line_means l (Some r).

Definition keep (o : option link) : list link := match o with Some r => [r] | None => [] end.

Lemma text_lines_spec : forall lines ms acc, Forall2 line_means lines ms ->
  text_lines acc lines = (acc ++ flat_map keep ms, None).
Proof.
  intros lines ms acc H. revert acc. induction H as [|l m ls ms Hl H IH]; intros acc.
  - cbn [text_lines flat_map]. rewrite app_nil_r. reflexivity.
  - cbn [text_lines flat_map].
    destruct Hl as [l Hb|l t Hc|l c t r Hd Hne Hr].
    + rewrite trim_space_nil by exact Hb. rewrite IH. reflexivity.
    + destruct (trim_space_cons _ _ _ Hc) as [t' Ht]. rewrite Ht.
      replace (ch_hash =? ch_hash) with true by reflexivity. rewrite IH. reflexivity.
    + destruct (trim_space_cons _ _ _ Hd) as [t' Ht]. rewrite Ht.
      replace (c =? ch_hash) with false by lia. rewrite <- Ht, link_unmarshal_text_trim, Hr.
      rewrite IH. cbn [keep]. rewrite <- app_assoc. reflexivity.
Qed.

Lemma marshal_text_head : forall l, exists c t, link_marshal_text l = c :: t /\ (c = ch_U \/ c = ch_A).
Proof.
  intros l. unfold link_marshal_text, pad_right, rcf_string. cbn [app].
  eexists. eexists. split; [reflexivity|]. destruct (rcf_in_use (l_flags l)); auto.
Qed.

Lemma marshal_text_means : forall l, link_wf l -> line_means (link_marshal_text l) (Some (expressible l)).
Proof.
  intros l Hwf. destruct (marshal_text_head l) as (c & t & Ht & Hc).
  apply (lm_record _ c t).
  - rewrite Ht. cbn [drop_space]. destruct Hc as [->| ->]; reflexivity.
  - destruct Hc as [->| ->]; discriminate.
  - apply link_text_roundtrip. exact Hwf.
Qed.

Lemma nonblank_no_nl : forall w, nonblank w -> no_nl w.
Proof.
  intros w H. unfold nonblank, no_nl in *. rewrite Forall_forall in *. intros c Hc Hn. subst c.
  specialize (H _ Hc). discriminate H.
Qed.

Lemma repeat_space_no_nl : forall n, no_nl (repeat ch_space n).
Proof. induction n as [|n IH]; cbn [repeat]; constructor; [discriminate|exact IH]. Qed.

Lemma marshal_text_no_nl : forall l, link_wf l -> no_nl (link_marshal_text l).
Proof.
  intros l (Hf & Hg & Ha & H0 & H1 & H2). unfold link_marshal_text, pad_right, pad_left, no_nl.
  rewrite !Forall_app. 
  assert (Hs : ch_space <> ch_nl) by discriminate.
  repeat split; try apply repeat_space_no_nl; try (repeat constructor; exact Hs);
    apply nonblank_no_nl.
  - apply rcf_string_nonblank.
  - apply fmt_d_byte_nonblank; exact Hg.
  - apply addr_string_nonblank.
  - apply fmt_02x_nonblank; exact H0.
  - apply fmt_02x_nonblank; exact H1.
  - apply fmt_02x_nonblank; exact H2.
Qed.

Lemma heading_means : Forall2 line_means text_heading (map (fun _ => None) text_heading).
Proof.
  unfold text_heading. cbn [map].
  repeat (constructor; [eapply lm_comment; vm_compute; reflexivity|]). constructor.
Qed.

Lemma heading_no_nl : Forall no_nl text_heading.
Proof.
  assert (H : forallb (fun l => forallb (fun c => negb (c =? ch_nl)) l) text_heading = true) by (vm_compute; reflexivity).
  rewrite forallb_forall in H. rewrite Forall_forall. intros l Hl. specialize (H l Hl).
  rewrite forallb_forall in H. unfold no_nl. rewrite Forall_forall. intros c Hc. specialize (H c Hc). lia.
Qed.

Lemma Forall2_map_means : forall links, Forall link_wf links ->
  Forall2 line_means (map link_marshal_text links) (map (fun l => Some (expressible l)) links).
Proof.
  induction links as [|l ls IH]; intros H; cbn [map]; constructor.
  - inversion H; subst. apply marshal_text_means. assumption.
  - inversion H; subst. apply IH. assumption.
Qed.

Lemma keep_map : forall links, flat_map keep (map (fun l => Some (expressible l)) links) = map expressible links.
Proof. induction links as [|l ls IH]; cbn [map flat_map keep app]; [reflexivity|]. rewrite IH. reflexivity. Qed.

Lemma text_roundtrip : forall links heading, Forall link_wf links ->
  text_to_links (links_to_text links heading) = (map expressible links, None).
Proof.
  intros links heading Hwf. unfold text_to_links, links_to_text.
  rewrite split_on_unlines.
  - set (hd := if heading then text_heading else []).
    rewrite (text_lines_spec _ (map (fun _ => None) hd ++ map (fun l => Some (expressible l)) links ++ [None])).
    + rewrite !flat_map_app, keep_map. cbn [flat_map keep app]. rewrite app_nil_r.
      replace (flat_map keep (map (fun _ => None) hd)) with (@nil link); [reflexivity|].
      clear. induction hd as [|x hd IH]; [reflexivity|]. cbn [map flat_map keep app]. exact IH.
    + rewrite <- app_assoc. apply Forall2_app; [subst hd; destruct heading; [apply heading_means|constructor]|].
      apply Forall2_app; [apply Forall2_map_means; exact Hwf|].
      constructor; [apply lm_blank; reflexivity|constructor].
  - rewrite Forall_app. split.
    + destruct heading; [apply heading_no_nl|constructor].
    + rewrite Forall_forall. intros x Hx. apply in_map_iff in Hx. destruct Hx as [l [<- Hl]].
      apply marshal_text_no_nl. rewrite Forall_forall in Hwf. apply Hwf. exact Hl.
Qed.

(** Any text whose lines are blank, comments, or records. *)
Lemma text_to_links_lines : forall lines ms, Forall no_nl lines -> Forall2 line_means lines ms ->
  text_to_links (unlines lines) = (flat_map keep ms, None).
Proof.
  intros lines ms Hn H. unfold text_to_links. rewrite split_on_unlines by exact Hn.
  rewrite (text_lines_spec _ (ms ++ [None])).
  - cbn [app]. rewrite flat_map_app. cbn [flat_map keep app]. rewrite app_nil_r. reflexivity.
  - apply Forall2_app; [exact H|]. constructor; [apply lm_blank; reflexivity|constructor].
Qed.
