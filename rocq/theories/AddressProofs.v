From Coq Require Import ZArith List Bool Lia ZifyBool ZifyNat.
From Verif Require Import GoBase GoLemmas GoText Address AddressSpec.
Import ListNotations.
Open Scope Z_scope.
Ltac Zify.zify_post_hook ::= Z.div_mod_to_equations.

Lemma hex_val_digit : forall c v, hex_val c = Some v <-> hex_digit c v.
Proof.
  intros c v. unfold hex_val. split.
  - intro H.
    destruct ((48 <=? c) && (c <=? 57)) eqn:E1.
    { injection H as H. replace c with (48 + v) by lia. apply hd_dec. lia. }
    destruct ((97 <=? c) && (c <=? 102)) eqn:E2.
    { injection H as H. replace c with (97 + (v - 10)) by lia. apply hd_low. lia. }
    destruct ((65 <=? c) && (c <=? 70)) eqn:E3; [|discriminate].
    injection H as H. replace c with (65 + (v - 10)) by lia. apply hd_upp. lia.
  - intro H. destruct H as [v Hv|v Hv|v Hv].
    + replace ((48 <=? 48 + v) && (48 + v <=? 57)) with true by lia. f_equal. lia.
    + replace ((48 <=? 97 + (v - 10)) && (97 + (v - 10) <=? 57)) with false by lia.
      replace ((97 <=? 97 + (v - 10)) && (97 + (v - 10) <=? 102)) with true by lia. f_equal. lia.
    + replace ((48 <=? 65 + (v - 10)) && (65 + (v - 10) <=? 57)) with false by lia.
      replace ((97 <=? 65 + (v - 10)) && (65 + (v - 10) <=? 102)) with false by lia.
      replace ((65 <=? 65 + (v - 10)) && (65 + (v - 10) <=? 70)) with true by lia. f_equal. lia.
Qed.

Lemma hex_digit_range : forall c v, hex_digit c v -> 0 <= v < 16.
Proof. intros c v H. destruct H; lia. Qed.

Lemma hex_digit_not_blank : forall c v, hex_digit c v -> is_space c = false /\ (c =? ch_nl) = false /\ c <> 46.
Proof.
  intros c v H. unfold is_space, wide_space, ch_nl. destruct H; repeat split; lia.
Qed.

Lemma hex_digit_fun : forall c v w, hex_digit c v -> hex_digit c w -> v = w.
Proof. intros c v w H1 H2. apply hex_val_digit in H1. apply hex_val_digit in H2. congruence. Qed.

Lemma hex_char_digit : forall n, 0 <= n < 16 -> hex_digit (hex_char n) n.
Proof.
  intros n H. unfold hex_char. destruct (n <? 10) eqn:E.
  - apply hd_dec. lia.
  - replace (87 + n) with (97 + (n - 10)) by lia. apply hd_low. lia.
Qed.

Lemma blank_space : forall c, blank c <-> is_space c = true /\ (c =? ch_nl) = false.
Proof. intros c. unfold blank, is_space, wide_space, ch_nl. lia. Qed.

Lemma skip_space_blanks : forall sp t, Forall blank sp -> skip_space (sp ++ t) = skip_space t.
Proof.
  induction sp as [|c sp IH]; intros t H; [reflexivity|].
  inversion H as [|c' sp' Hc Hsp]; subst. cbn [app skip_space].
  apply blank_space in Hc. destruct Hc as [H1 H2]. rewrite H1, H2. apply IH. exact Hsp.
Qed.

Lemma skip_space_spec : forall s r, skip_space s = Some r ->
  exists sp, s = sp ++ r /\ Forall blank sp /\
    (forall c t, r = c :: t -> is_space c = false).
Proof.
  induction s as [|c s IH]; intros r H; cbn [skip_space] in H.
  - injection H as H. subst r. exists []. repeat split; auto. intros; discriminate.
  - destruct (c =? ch_nl) eqn:E1; [discriminate|].
    destruct (is_space c) eqn:E2.
    + destruct (IH r H) as [sp [H1 [H2 H3]]]. exists (c :: sp). subst s. split; [reflexivity|].
      split; [|exact H3]. constructor; [|exact H2]. apply blank_space. auto.
    + injection H as H. subst r. exists []. split; [reflexivity|]. split; [constructor|].
      intros c' t Ht. injection Ht as Hc Ht. subst c'. exact E2.
Qed.

Lemma scan_hex8_field : forall s v r,
  scan_hex8 (Some 2%nat) s = Some (v, r) <-> hex_field s v r.
Proof.
  intros s v r. split.
  - unfold scan_hex8. destruct (skip_space s) as [s1|] eqn:Es; [|discriminate].
    destruct (skip_space_spec _ _ Es) as [sp [Hs [Hsp Hns]]]. subst s.
    destruct s1 as [|c1 t1].
    { cbn. discriminate. }
    cbn [take_digits].
    destruct (hex_val c1) as [v1|] eqn:E1; [|cbn; discriminate].
    apply hex_val_digit in E1.
    pose proof (hex_digit_range _ _ E1) as R1.
    destruct t1 as [|c2 t2].
    + cbn [take_digits Nat.eqb]. intro H.
      destruct (0 * 16 + v1 <? 256) eqn:E; [|discriminate].
      injection H as H1 H2. subst r.
      replace v with v1 by lia.
      apply hf_one; auto. intros; discriminate.
    + cbn [take_digits].
      destruct (hex_val c2) as [v2|] eqn:E2.
      * apply hex_val_digit in E2. pose proof (hex_digit_range _ _ E2) as R2.
        destruct t2 as [|c3 t3]; cbn [take_digits Nat.eqb];
          (destruct ((0 * 16 + v1) * 16 + v2 <? 256) eqn:E; [|discriminate]);
          intro H; injection H as H1 H2; subst r;
          replace v with (16 * v1 + v2) by lia;
          apply hf_two; auto.
      * cbn [Nat.eqb]. destruct (0 * 16 + v1 <? 256) eqn:E; [|discriminate].
        intro H; injection H as H1 H2; subst r.
        replace v with v1 by lia.
        apply hf_one; auto. intros c r Hr [w Hw]. injection Hr as Hr1 Hr2. subst c2 r.
        apply hex_val_digit in Hw. congruence.
  - intro H. destruct H as [sp c1 c2 v1 v2 rest Hsp H1 H2|sp c1 v1 rest Hsp H1 Hrest].
    + unfold scan_hex8. rewrite skip_space_blanks by exact Hsp.
      destruct (hex_digit_not_blank _ _ H1) as [N1 [N2 _]].
      cbn [skip_space]. rewrite N1, N2.
      pose proof (hex_digit_range _ _ H1) as R1. pose proof (hex_digit_range _ _ H2) as R2.
      apply hex_val_digit in H1. apply hex_val_digit in H2.
      cbn [take_digits]. rewrite H1, H2.
      replace ((0 * 16 + v1) * 16 + v2) with (16 * v1 + v2) by lia.
      destruct rest as [|c3 t3]; cbn [take_digits Nat.eqb];
        replace (16 * v1 + v2 <? 256) with true by lia; reflexivity.
    + unfold scan_hex8. rewrite skip_space_blanks by exact Hsp.
      destruct (hex_digit_not_blank _ _ H1) as [N1 [N2 _]].
      cbn [skip_space]. rewrite N1, N2.
      pose proof (hex_digit_range _ _ H1) as R1.
      apply hex_val_digit in H1. cbn [take_digits]. rewrite H1.
      replace (0 * 16 + v1) with v1 by lia.
      destruct rest as [|c2 t2].
      * cbn [take_digits Nat.eqb]. replace (v1 <? 256) with true by lia. reflexivity.
      * cbn [take_digits]. destruct (hex_val c2) as [v2|] eqn:E2.
        { exfalso. apply (Hrest c2 t2 eq_refl). exists v2. apply hex_val_digit. exact E2. }
        cbn [Nat.eqb]. replace (v1 <? 256) with true by lia. reflexivity.
Qed.

Lemma hex_field_range : forall s v r, hex_field s v r -> is_byte v.
Proof.
  intros s v r H. unfold is_byte.
  destruct H as [sp c1 c2 v1 v2 rest Hsp H1 H2|sp c1 v1 rest Hsp H1 Hr].
  - pose proof (hex_digit_range _ _ H1). pose proof (hex_digit_range _ _ H2). lia.
  - pose proof (hex_digit_range _ _ H1). lia.
Qed.

Lemma scan_lit_spec : forall c s r, scan_lit c s = Some r <-> s = c :: r.
Proof.
  intros c s r. destruct s as [|x t]; cbn [scan_lit].
  - split; intro H; discriminate.
  - destruct (x =? c) eqn:E; split; intro H.
    + apply Z.eqb_eq in E. injection H as H. congruence.
    + injection H as H1 H2. congruence.
    + discriminate.
    + injection H as H1 H2. lia.
Qed.

Lemma addr_scan_dotted : forall t x y z, addr_scan t = Some (x, y, z) <-> dotted t x y z.
Proof.
  intros t x y z. unfold addr_scan, dotted. split.
  - destruct (scan_hex8 (Some 2%nat) t) as [[x0 r1]|] eqn:E1; [|discriminate].
    destruct (scan_lit ch_dot r1) as [r2|] eqn:E2; [|discriminate].
    destruct (scan_hex8 (Some 2%nat) r2) as [[y0 r3]|] eqn:E3; [|discriminate].
    destruct (scan_lit ch_dot r3) as [r4|] eqn:E4; [|discriminate].
    destruct (scan_hex8 (Some 2%nat) r4) as [[z0 r5]|] eqn:E5; [|discriminate].
    intro H. injection H as Hx Hy Hz. subst x0 y0 z0.
    apply scan_lit_spec in E2. apply scan_lit_spec in E4. subst r1 r3.
    apply scan_hex8_field in E1. apply scan_hex8_field in E3. apply scan_hex8_field in E5.
    exists r2, r4, r5. auto.
  - intros [r1 [r2 [r3 [H1 [H2 H3]]]]].
    apply scan_hex8_field in H1. apply scan_hex8_field in H2. apply scan_hex8_field in H3.
    assert (L : forall r, scan_lit ch_dot (46 :: r) = Some r) by reflexivity.
    rewrite H1, L, H2, L, H3. reflexivity.
Qed.

Lemma rejoin6 : forall a1 a2 b1 b2 c1 c2, Forall (fun c => c < 128) [a1; a2; b1; b2; c1; c2] ->
  addr_rejoin [a1; a2; b1; b2; c1; c2] = [a1; a2; 46; b1; b2; 46; c1; c2].
Proof.
  intros a1 a2 b1 b2 c1 c2 H. unfold addr_rejoin. cbn [length Nat.eqb andb]. rewrite (proj2 (forallb_forall _ _)); [reflexivity|].
  rewrite Forall_forall in H. intros c Hc. apply Z.ltb_lt, H, Hc.
Qed.

Lemma addr_accept_iff : forall old t a,
  addr_unmarshal_text old t = (a, None) <-> addr_accepts t a.
Proof.
  intros old t a. unfold addr_unmarshal_text, addr_accepts.
  destruct (Nat.eqb (length t) 6 && forallb (fun c => c <? 128) t) eqn:E6.
  - apply andb_prop in E6. destruct E6 as [E6 A6]. apply Nat.eqb_eq in E6.
    assert (A : Forall (fun c => c < 128) t) by (apply Forall_forall; rewrite forallb_forall in A6; intros c Hc; apply Z.ltb_lt, A6, Hc).
    destruct t as [|a1 [|a2 [|b1 [|b2 [|c1 [|c2 [|w t]]]]]]]; cbn [length] in E6; try discriminate.
    rewrite rejoin6 by exact A. split.
    + destruct (addr_scan [a1; a2; 46; b1; b2; 46; c1; c2]) as [[[x y] z]|] eqn:Es; [|discriminate].
      intro H. injection H as H. subst a. exists x, y, z. split; [reflexivity|]. right.
      exists a1, a2, b1, b2, c1, c2. split; [reflexivity|]. split; [exact A|]. apply addr_scan_dotted. exact Es.
    + intros [x [y [z [Ha [[Hl _]|Hd]]]]].
      { exfalso. apply Hl. split; [reflexivity|exact A]. }
      destruct Hd as [a1' [a2' [b1' [b2' [c1' [c2' [Ht [_ Hd]]]]]]]].
      injection Ht as <- <- <- <- <- <-.
      apply addr_scan_dotted in Hd. rewrite Hd. subst a. reflexivity.
  - unfold addr_rejoin. rewrite E6.
    assert (N : ~ (length t = 6%nat /\ Forall (fun c => c < 128) t)).
    { intros [L A]. rewrite L in E6. cbn [Nat.eqb andb] in E6. rewrite (proj2 (forallb_forall _ _)) in E6; [discriminate|].
      rewrite Forall_forall in A. intros c Hc. apply Z.ltb_lt, A, Hc. }
    split.
    + destruct (addr_scan t) as [[[x y] z]|] eqn:Es; [|discriminate].
      intro H. injection H as H. subst a. exists x, y, z. split; [reflexivity|]. left.
      split; [exact N|]. apply addr_scan_dotted. exact Es.
    + intros [x [y [z [Ha [[_ Hd]|Hd]]]]].
      * apply addr_scan_dotted in Hd. rewrite Hd. subst a. reflexivity.
      * destruct Hd as [a1' [a2' [b1' [b2' [c1' [c2' [Ht [A _]]]]]]]]. exfalso. apply N. subst t. split; [reflexivity|exact A].
Qed.

Lemma addr_accepts_range : forall t a, addr_accepts t a -> 0 <= a < 2 ^ 24.
Proof.
  intros t a [x [y [z [Ha H]]]].
  assert (Hd : exists t', dotted t' x y z).
  { destruct H as [[_ H]|[a1 [a2 [b1 [b2 [c1 [c2 [_ [_ H]]]]]]]]]; eexists; exact H. }
  destruct Hd as [t' [r1 [r2 [r3 [H1 [H2 H3]]]]]].
  apply hex_field_range in H1. apply hex_field_range in H2. apply hex_field_range in H3.
  unfold is_byte in *. subst a. change (2 ^ 24) with 16777216. lia.
Qed.

Lemma addr_reject : forall old t a e,
  addr_unmarshal_text old t = (a, Some e) -> a = old /\ e = EAddrFormat.
Proof.
  intros old t a e. unfold addr_unmarshal_text.
  destruct (addr_scan (addr_rejoin t)) as [[[x y] z]|]; intro H; [discriminate|].
  injection H as H1 H2. auto.
Qed.

Lemma two_digits_field : forall c1 c2 v1 v2 rest, hex_digit c1 v1 -> hex_digit c2 v2 ->
  hex_field (c1 :: c2 :: rest) (16 * v1 + v2) rest.
Proof. intros c1 c2 v1 v2 rest H1 H2. apply (hf_two []); auto. Qed.

Lemma addr_rendering_parses : forall old a t,
  addr_rendering a t -> addr_unmarshal_text old t = (a, None).
Proof.
  intros old a t (c5 & c4 & c3 & c2 & c1 & c0 & n5 & n4 & n3 & n2 & n1 & n0 & H5 & H4 & H3 & H2 & H1 & H0 & Ha & Ht).
  apply addr_accept_iff. exists (16 * n5 + n4), (16 * n3 + n2), (16 * n1 + n0).
  split. { subst a. change (16 ^ 5) with 1048576. change (16 ^ 4) with 65536. change (16 ^ 3) with 4096.
           change (16 ^ 2) with 256. lia. }
  assert (Hd : dotted [c5; c4; 46; c3; c2; 46; c1; c0] (16 * n5 + n4) (16 * n3 + n2) (16 * n1 + n0)).
  { exists [c3; c2; 46; c1; c0], [c1; c0], []. repeat split; apply two_digits_field; assumption. }
  destruct Ht as [Ht|Ht]; subst t.
  - left. split; [cbn [length]; lia|exact Hd].
  - right. exists c5, c4, c3, c2, c1, c0. split; [reflexivity|]. split; [|exact Hd].
    assert (L : forall c v, hex_digit c v -> c < 128) by (intros c v H; destruct H; lia).
    repeat (apply Forall_cons; [eapply L; eassumption|]). apply Forall_nil.
Qed.

Lemma addr_string_rendering : forall a, 0 <= a < 2 ^ 24 -> addr_rendering a (addr_string a).
Proof.
  intros a Ha. change (2 ^ 24) with 16777216 in Ha.
  unfold addr_rendering, addr_string, fmt_02x, byte_of.
  exists (hex_char (a / 65536 mod 256 / 16)), (hex_char ((a / 65536 mod 256) mod 16)),
         (hex_char (a / 256 mod 256 / 16)), (hex_char ((a / 256 mod 256) mod 16)),
         (hex_char (a mod 256 / 16)), (hex_char ((a mod 256) mod 16)).
  exists (a / 65536 mod 256 / 16), ((a / 65536 mod 256) mod 16),
         (a / 256 mod 256 / 16), ((a / 256 mod 256) mod 16),
         (a mod 256 / 16), ((a mod 256) mod 16).
  repeat split; try (apply hex_char_digit; lia).
  - change (16 ^ 5) with 1048576. change (16 ^ 4) with 65536. change (16 ^ 3) with 4096.
    change (16 ^ 2) with 256. lia.
  - left. reflexivity.
Qed.

Lemma addr_put_bytes : forall a, 0 <= a < 2 ^ 24 -> addr_put (addr_bytes a) = a.
Proof.
  intros a Ha. change (2 ^ 24) with 16777216 in Ha.
  unfold addr_put, addr_bytes, byte_of. cbn [go_copy]. lia.
Qed.

Lemma addr_bytes_put : forall x y z, is_byte x -> is_byte y -> is_byte z ->
  addr_bytes (addr_put [x; y; z]) = [x; y; z].
Proof.
  intros x y z Hx Hy Hz. unfold is_byte in *. unfold addr_put, addr_bytes, byte_of. cbn [go_copy].
  f_equal; [lia|]. f_equal; [lia|]. f_equal. lia.
Qed.

Lemma addr_put3 : forall x y z rest, addr_put (x :: y :: z :: rest) = x * 65536 + y * 256 + z.
Proof. reflexivity. Qed.

Lemma addr_bytes_ok : forall a, bytes_ok (addr_bytes a).
Proof.
  intros a. unfold addr_bytes. repeat constructor; try apply byte_of_range; unfold byte_of; lia.
Qed.
