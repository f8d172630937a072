(** Proofs about command-line arguments. *)
From Coq Require Import ZArith List Bool Lia ZifyBool ZifyNat.
From Verif Require Import GoBase GoLemmas GoText Address AddressSpec AddressProofs MessageProofs IcVars IcVarsSpec.
Import ListNotations.
Open Scope Z_scope.
Ltac Zify.zify_post_hook ::= Z.div_mod_to_equations.

Lemma hex_digit_sign : forall c v, hex_digit c v -> (c =? ch_minus) = false /\ (c =? ch_plus) = false /\ (c =? ch_dot) = false.
Proof. intros c v H. unfold ch_minus, ch_plus, ch_dot. destruct H; lia. Qed.

Lemma all_digits_two : forall c1 c0 v, all_digits_val hex_val 16 [c1; c0] = Some v <-> hex_byte [c1; c0] v.
Proof.
  intros c1 c0 v. unfold all_digits_val. cbn [take_digits]. split.
  - destruct (hex_val c1) as [n1|] eqn:E1; [|discriminate]. cbn [take_digits].
    destruct (hex_val c0) as [n0|] eqn:E0; [|discriminate]. cbn [take_digits Nat.eqb].
    intro H. apply hex_val_digit in E1. apply hex_val_digit in E0.
    exists c1, c0, n1, n0. repeat split; auto. injection H as <-. lia.
  - intros (d1 & d0 & n1 & n0 & H & H1 & H0 & ->). injection H as <- <-.
    apply hex_val_digit in H1. apply hex_val_digit in H0. rewrite H1. cbn [take_digits]. rewrite H0.
    cbn [take_digits Nat.eqb]. f_equal. lia.
Qed.

Lemma all_digits_one : forall c v, all_digits_val hex_val 16 [c] = Some v <-> hex_digit c v.
Proof.
  intros c v. unfold all_digits_val. cbn [take_digits]. split.
  - destruct (hex_val c) as [n|] eqn:E; [|discriminate]. cbn [take_digits Nat.eqb].
    intro H. apply hex_val_digit in E. injection H as <-. exact E.
  - intro H. apply hex_val_digit in H. rewrite H. reflexivity.
Qed.

Lemma hex_byte_range : forall t v, hex_byte t v -> 0 <= v < 256 /\ length t = 2%nat /\ ~ In 46 t.
Proof.
  intros t v (c1 & c0 & n1 & n0 & -> & H1 & H0 & ->).
  split; [destruct H1, H0; lia|]. split; [reflexivity|].
  destruct (hex_digit_sign _ _ H1) as (_ & _ & S1). destruct (hex_digit_sign _ _ H0) as (_ & _ & S0).
  unfold ch_dot in S1, S0. intros [H|[H|[]]]; lia.
Qed.

Lemma parse_half : forall t v, length t = 2%nat ->
  (exists c, parse_int8_hex t = inl c /\ v = Z.land c 0xff) <-> half_accepted t v.
Proof.
  intros t v Hl. destruct t as [|c1 [|c0 [|? ?]]]; try discriminate Hl. clear Hl.
  unfold parse_int8_hex, half_accepted.
  assert (Hland : forall c, Z.land c 0xff = c mod 256).
  { intro c. change 0xff with (Z.ones 8). rewrite Z.land_ones by lia. reflexivity. }
  destruct (c1 =? ch_minus) eqn:Em; [|destruct (c1 =? ch_plus) eqn:Ep].
  - apply Z.eqb_eq in Em. unfold ch_minus in Em. subst c1. split.
    + intros (c & H & ->). destruct (all_digits_val hex_val 16 [c0]) as [n|] eqn:E; [|discriminate].
      apply all_digits_one in E. right. right. exists c0, n. split; [reflexivity|]. split; [exact E|].
      rewrite Hland. destruct (n <=? 128); [|discriminate]. injection H as <-. reflexivity.
    + intros [[H _]|[(c & H & _)|(c & n & H & Hd & ->)]].
      * destruct H as (d1 & d0 & n1 & n0 & H & H1 & _). injection H as <- _. destruct (hex_digit_sign _ _ H1) as (S1 & S2 & _). discriminate.
      * discriminate H.
      * injection H as <-. pose proof (proj2 (all_digits_one c0 n) Hd) as ->.
        replace (n <=? 128) with true by (destruct Hd; lia).
        exists (- n). split; [reflexivity|]. rewrite Hland. reflexivity.
  - apply Z.eqb_eq in Ep. unfold ch_plus in Ep. subst c1. split.
    + intros (c & H & ->). destruct (all_digits_val hex_val 16 [c0]) as [n|] eqn:E; [|discriminate].
      apply all_digits_one in E. right. left. exists c0. split; [reflexivity|].
      destruct (n <? 128); [|discriminate]. injection H as <-. rewrite Hland.
      replace (n mod 256) with n; [exact E|]. destruct E; lia.
    + intros [[H _]|[(c & H & Hd)|(c & n & H & _)]].
      * destruct H as (d1 & d0 & n1 & n0 & H & H1 & _). injection H as <- _. destruct (hex_digit_sign _ _ H1) as (S1 & S2 & _). discriminate.
      * injection H as <-. pose proof (proj2 (all_digits_one c0 v) Hd) as ->.
        replace (v <? 128) with true by (destruct Hd; lia).
        exists v. split; [reflexivity|]. rewrite Hland. destruct Hd; lia.
      * discriminate H.
  - split.
    + intros (c & H & ->). destruct (all_digits_val hex_val 16 [c1; c0]) as [n|] eqn:E; [|discriminate].
      apply all_digits_two in E. left. destruct (n <? 128) eqn:En; [|discriminate]. injection H as <-.
      rewrite Hland. destruct (hex_byte_range _ _ E) as [R _].
      replace (n mod 256) with n by lia. split; [exact E|lia].
    + unfold ch_minus, ch_plus in Em, Ep.
      intros [[H Hv]|[(c & H & _)|(c & n & H & _)]]; [|injection H as Hx _; lia|injection H as Hx _; lia].
      pose proof (hex_byte_range _ _ H) as [R _]. apply all_digits_two in H. rewrite H.
      replace (v <? 128) with true by lia. exists v. split; [reflexivity|]. rewrite Hland. lia.
Qed.

Lemma drop_dot_without : forall t s, drop_dot t = s <-> without_first_dot t s.
Proof.
  assert (H1 : forall t, without_first_dot t (drop_dot t)).
  { induction t as [|c t IH]; cbn [drop_dot].
    - apply wd_none. intros [].
    - destruct (c =? ch_dot) eqn:E.
      + apply Z.eqb_eq in E. subst c. unfold ch_dot. apply (wd_dot [] t). intros [].
      + unfold ch_dot in E. remember (drop_dot t) as s eqn:Es. clear Es. destruct IH as [p q Hp|t Ht].
        * apply (wd_dot (c :: p) q). intros [H|H]; [lia|contradiction].
        * apply wd_none. intros [H|H]; [lia|contradiction]. }
  intros t s. split; [intros <-; apply H1|].
  intros H. destruct H as [p q Hp|t Ht].
  - induction p as [|c p IH]; cbn [app drop_dot]; [reflexivity|].
    unfold ch_dot in *. replace (c =? 46) with false by (symmetry; apply Z.eqb_neq; intro; apply Hp; left; auto).
    f_equal. apply IH. intro; apply Hp; right; auto.
  - induction t as [|c t IH]; cbn [drop_dot]; [reflexivity|].
    unfold ch_dot in *. replace (c =? 46) with false by (symmetry; apply Z.eqb_neq; intro; apply Ht; left; auto).
    f_equal. apply IH. intro; apply Ht; right; auto.
Qed.

Lemma cmd_text_dropped : forall t a b, cmd_text t a b -> exists p q, hex_byte p a /\ hex_byte q b /\ drop_dot t = p ++ q.
Proof.
  intros t a b (p & q & Hp & Hq & [-> | ->]); exists p, q; repeat split; auto; apply drop_dot_without.
  - apply wd_dot. apply (hex_byte_range _ _ Hp).
  - apply wd_none. rewrite in_app_iff. intros [H|H]; [apply (hex_byte_range _ _ Hp)|apply (hex_byte_range _ _ Hq)]; exact H.
Qed.

Lemma lor_bytes : forall a b, 0 <= b < 256 -> Z.lor (Z.shiftl a 8) b = 256 * a + b.
Proof.
  intros a b Hb. rewrite Z.shiftl_mul_pow2 by lia.
  rewrite lor_shift_add by (change (2 ^ 8) with 256; lia). change (2 ^ 8) with 256. lia.
Qed.

Lemma slice02 : forall (p q : list Z), length p = 2%nat -> slice (p ++ q) 0 2 = p /\ skipn 2 (p ++ q) = q.
Proof.
  intros p q H. destruct p as [|a [|b [|? ?]]]; try discriminate H. split; reflexivity.
Qed.

Lemma half_range : forall t v, half_accepted t v -> 0 <= v < 256.
Proof.
  intros t v [[H _]|[(c & _ & H)|(c & n & _ & _ & ->)]].
  - apply (hex_byte_range _ _ H).
  - destruct H; lia.
  - lia.
Qed.

Lemma utf8_low : forall s, Forall (fun c => c < 128) s -> utf8_text s = s.
Proof. intros s H. induction H as [|c s Hc _ IH]; [reflexivity|]. cbn. unfold utf8 at 1. replace (c <? 128) with true by lia. cbn. f_equal. exact IH. Qed.

Lemma utf8_back : forall s, Forall (fun c => c < 128) (utf8_text s) -> utf8_text s = s.
Proof.
  intros s H. apply utf8_low. induction s as [|c s IH]; [apply Forall_nil|]. cbn in H. apply Forall_app in H. destruct H as [H1 H2].
  apply Forall_cons; [|apply IH; exact H2]. destruct (c <? 128) eqn:E; [lia|]. exfalso. unfold utf8 in H1. rewrite E in H1.
  apply Z.ltb_ge in E. destruct (c <? 2048); [|destruct (c <? 65536)]; apply Forall_inv in H1; cbn beta in H1; lia.
Qed.

Lemma half_low : forall t v, half_accepted t v -> Forall (fun c => c < 128) t.
Proof.
  assert (D : forall c n, hex_digit c n -> c < 128) by (intros c n H; destruct H; lia).
  intros t v [[(c1 & c0 & n1 & n0 & -> & H1 & H0 & _) _]|[(c & -> & H)|(c & n & -> & H & _)]];
    repeat (apply Forall_cons); try apply Forall_nil; try lia; eapply D; eassumption.
Qed.

Lemma hex_byte_low : forall t v, hex_byte t v -> Forall (fun c => c < 128) t.
Proof.
  assert (D : forall c n, hex_digit c n -> c < 128) by (intros c n H; destruct H; lia).
  intros t v (c1 & c0 & n1 & n0 & -> & H1 & H0 & _).
  repeat (apply Forall_cons); try apply Forall_nil; eapply D; eassumption.
Qed.

Lemma cmdvar_accepts : forall old t v, cmdvar_set old t = (v, None) <->
  exists p q a b, without_first_dot t (p ++ q) /\ length p = 2%nat /\ length q = 2%nat /\
    half_accepted p a /\ half_accepted q b /\ v = 256 * a + b.
Proof.
  intros old t v. unfold cmdvar_set. split.
  - destruct (zlen (utf8_text (drop_dot t)) =? 4) eqn:El; cbn [negb]; [|discriminate].
    unfold zlen in El. remember (utf8_text (drop_dot t)) as s eqn:Es.
    destruct s as [|x1 [|x2 [|x3 [|x4 [|? ?]]]]]; cbn [length] in El; try lia.
    change (slice [x1; x2; x3; x4] 0 2) with [x1; x2]. change (skipn 2 [x1; x2; x3; x4]) with [x3; x4].
    destruct (parse_int8_hex [x1; x2]) as [c1|e] eqn:E1; [|discriminate].
    destruct (parse_int8_hex [x3; x4]) as [c2|e] eqn:E2; [|discriminate].
    intro H. injection H as <-.
    assert (H1 : half_accepted [x1; x2] (Z.land c1 0xff)) by (apply parse_half; [reflexivity|eauto]).
    assert (H2 : half_accepted [x3; x4] (Z.land c2 0xff)) by (apply parse_half; [reflexivity|eauto]).
    exists [x1; x2], [x3; x4], (Z.land c1 0xff), (Z.land c2 0xff).
    repeat split; auto.
    { apply drop_dot_without. cbn [app]. rewrite Es. symmetry. apply utf8_back. rewrite <- Es. change [x1; x2; x3; x4] with ([x1; x2] ++ [x3; x4]).
      apply Forall_app. split; eapply half_low; eassumption. }
    apply lor_bytes. exact (half_range _ _ H2).
  - intros (p & q & a & b & Hw & Hp & Hq & Ha & Hb & ->). apply drop_dot_without in Hw. rewrite Hw.
    rewrite utf8_low by (apply Forall_app; split; eapply half_low; eassumption).
    replace (zlen (p ++ q) =? 4) with true by (unfold zlen; rewrite app_length; lia). cbn [negb].
    destruct (slice02 p q Hp) as [-> ->].
    apply parse_half in Ha; [|exact Hp]. destruct Ha as (c1 & -> & ->).
    pose proof (half_range _ _ Hb) as Rb.
    apply parse_half in Hb; [|exact Hq]. destruct Hb as (c2 & -> & ->).
    rewrite lor_bytes by exact Rb. reflexivity.
Qed.

Lemma cmdvar_low : forall old t a b, cmd_text t a b -> a < 128 -> b < 128 -> cmdvar_set old t = (256 * a + b, None).
Proof.
  intros old t a b H Ha Hb. destruct (cmd_text_dropped _ _ _ H) as (p & q & Hp & Hq & Hd).
  apply cmdvar_accepts. exists p, q, a, b. apply drop_dot_without in Hd.
  destruct (hex_byte_range _ _ Hp) as (_ & Lp & _). destruct (hex_byte_range _ _ Hq) as (_ & Lq & _).
  repeat split; auto; left; auto.
Qed.

Lemma parse_byte : forall t a, hex_byte t a -> parse_int8_hex t = if a <? 128 then inl a else inr err_range.
Proof.
  intros t a H. pose proof H as (c1 & c0 & n1 & n0 & -> & H1 & H0 & Hv).
  apply all_digits_two in H. unfold parse_int8_hex.
  destruct (hex_digit_sign _ _ H1) as (-> & -> & _). rewrite H. reflexivity.
Qed.

Lemma cmdvar_high : forall old t a b, cmd_text t a b -> 128 <= a \/ 128 <= b -> cmdvar_set old t = (old, Some err_range).
Proof.
  intros old t a b H Hab. destruct (cmd_text_dropped _ _ _ H) as (p & q & Hp & Hq & Hd).
  destruct (hex_byte_range _ _ Hp) as (_ & Lp & _). destruct (hex_byte_range _ _ Hq) as (_ & Lq & _).
  unfold cmdvar_set. rewrite Hd.
  rewrite utf8_low by (apply Forall_app; split; eapply hex_byte_low; eassumption).
  replace (zlen (p ++ q) =? 4) with true by (unfold zlen; rewrite app_length; lia). cbn [negb].
  destruct (slice02 p q Lp) as [-> ->]. rewrite (parse_byte _ _ Hp), (parse_byte _ _ Hq).
  destruct (a <? 128) eqn:Ea; [|reflexivity]. replace (b <? 128) with false by lia. reflexivity.
Qed.

Lemma cmdvar_rejected : forall old t v e, cmdvar_set old t = (v, Some e) -> v = old /\ (e = err_syntax \/ e = err_range).
Proof.
  intros old t v e. unfold cmdvar_set.
  assert (P : forall s e', parse_int8_hex s = inr e' -> e' = err_syntax \/ e' = err_range).
  { intros s e'. unfold parse_int8_hex.
    destruct (match s with [] => _ | _ => _ end) as [neg body].
    destruct (all_digits_val hex_val 16 body) as [n|]; [|intro H; injection H as <-; auto].
    destruct neg; [destruct (n <=? 128)|destruct (n <? 128)]; intro H; try discriminate; injection H as <-; auto. }
  destruct (negb (zlen (utf8_text (drop_dot t)) =? 4)); [intro H; injection H as <- <-; auto|].
  destruct (parse_int8_hex (slice (utf8_text (drop_dot t)) 0 2)) as [c1|e1] eqn:E1; [|intro H; injection H as <- <-; eauto].
  destruct (parse_int8_hex (skipn 2 (utf8_text (drop_dot t)))) as [c2|e2] eqn:E2; [discriminate|intro H; injection H as <- <-; eauto].
Qed.

(** Data bytes *)
Lemma take_digits_spec : forall s acc n v m rest, take_digits hex_val 16 None acc n s = (v, m, rest) ->
  exists ds vs, s = ds ++ rest /\ Forall2 hex_digit ds vs /\ m = (n + length ds)%nat /\
    (forall c r, rest = c :: r -> ~ exists k, hex_digit c k) /\ v = digits_value acc vs.
Proof.
  induction s as [|c s IH]; intros acc n v m rest H; cbn [take_digits] in H.
  - injection H as <- <- <-. exists [], []. repeat split; auto; try discriminate; cbn; lia.
  - destruct (hex_val c) as [d|] eqn:E.
    + destruct (IH _ _ _ _ _ H) as (ds & vs & -> & Hf & -> & Hr & ->).
      exists (c :: ds), (d :: vs). repeat split; auto.
      * constructor; [apply hex_val_digit; exact E|exact Hf].
      * cbn [length]; lia.
      * cbn [digits_value]. f_equal. lia.
    + injection H as <- <- <-. exists [], []. repeat split; auto; try (cbn; lia).
      intros c' r Hc [k Hk]. injection Hc as <- <-. apply hex_val_digit in Hk. congruence.
Qed.

Lemma take_digits_app : forall ds vs rest acc n, Forall2 hex_digit ds vs ->
  (forall c r, rest = c :: r -> ~ exists k, hex_digit c k) ->
  take_digits hex_val 16 None acc n (ds ++ rest) = (digits_value acc vs, (n + length ds)%nat, rest).
Proof.
  induction ds as [|d ds IH]; intros vs rest acc n Hf Hr; inversion Hf as [|d' v ds' vs' Hd Hds]; subst.
  - cbn [app length digits_value]. rewrite Nat.add_0_r. destruct rest as [|c r]; [reflexivity|].
    cbn [take_digits]. destruct (hex_val c) as [k|] eqn:E; [|reflexivity].
    exfalso. apply (Hr c r eq_refl). exists k. apply hex_val_digit. exact E.
  - cbn [app take_digits]. apply hex_val_digit in Hd. rewrite Hd. rewrite (IH vs') by auto.
    cbn [length digits_value]. replace (acc * 16 + v) with (16 * acc + v) by lia. replace (S n + length ds)%nat with (n + S (length ds))%nat by lia. reflexivity.
Qed.

Lemma scan_data : forall t v, (exists r, scan_hex8 None t = Some (v, r)) <-> data_text t v.
Proof.
  intros t v. unfold scan_hex8, data_text. split.
  - intros [r H]. destruct (skip_space t) as [s1|] eqn:Es; [|discriminate].
    destruct (skip_space_spec _ _ Es) as [sp [-> [Hsp _]]].
    destruct (take_digits hex_val 16 None 0 0 s1) as [[v' n] rest] eqn:E.
    destruct (take_digits_spec _ _ _ _ _ _ E) as (ds & vs & -> & Hf & -> & Hr & ->).
    destruct ds as [|d ds]; [discriminate|]. cbn [Nat.add length Nat.eqb] in H.
    destruct (digits_value 0 vs <? 256) eqn:El; [|discriminate]. injection H as <- <-.
    exists sp, (d :: ds), vs, rest. repeat split; auto; [discriminate|lia].
  - intros (sp & ds & vs & rest & -> & Hsp & Hf & Hne & Hr & -> & Hv). exists rest.
    rewrite skip_space_blanks by exact Hsp.
    destruct ds as [|d ds]; [congruence|].
    assert (Hss : skip_space ((d :: ds) ++ rest) = Some ((d :: ds) ++ rest)).
    { cbn [app skip_space]. inversion Hf as [|? v0 ? ? Hd _]; subst.
      replace (d =? ch_nl) with false by (unfold ch_nl; destruct Hd; lia).
      replace (is_space d) with false by (unfold is_space, wide_space; destruct Hd; lia). reflexivity. }
    rewrite Hss, (take_digits_app _ vs) by auto.
    cbn [length Nat.add Nat.eqb]. replace (digits_value 0 vs <? 256) with true by lia. reflexivity.
Qed.

Lemma datavar_all : forall str old d,
  datavar_set old str = (d, None) <-> exists new, d = old ++ new /\ Forall2 data_text str new.
Proof.
  induction str as [|s str IH]; intros old d; cbn [datavar_set].
  - split.
    + intro H. injection H as <-. exists []. rewrite app_nil_r. auto.
    + intros (new & -> & H). inversion H. rewrite app_nil_r. reflexivity.
  - destruct (scan_hex8 None s) as [[b r]|] eqn:E.
    + assert (Hd : data_text s b) by (apply scan_data; eauto).
      rewrite IH. split.
      * intros (new & -> & H). exists (b :: new). rewrite <- app_assoc. split; [reflexivity|constructor; auto].
      * intros (new & -> & H). inversion H as [|s' b' str' new' Hb Hn]; subst.
        assert (b' = b). { apply scan_data in Hb. destruct Hb as [r' Hr]. congruence. } subst b'.
        exists new'. rewrite <- app_assoc. auto.
    + split; [discriminate|]. intros (new & -> & H). inversion H as [|s' b' str' new' Hb Hn]; subst.
      apply scan_data in Hb. destruct Hb as [r' Hr]. congruence.
Qed.

Lemma datavar_error : forall str old d e, datavar_set old str = (d, Some e) ->
  exists pre bad post new, str = pre ++ bad :: post /\ d = old ++ new /\ Forall2 data_text pre new /\
    ~ exists v, data_text bad v.
Proof.
  induction str as [|s str IH]; intros old d e H; cbn [datavar_set] in H; [discriminate|].
  destruct (scan_hex8 None s) as [[b r]|] eqn:E.
  - destruct (IH _ _ _ H) as (pre & bad & post & new & -> & -> & Hf & Hb).
    exists (s :: pre), bad, post, (b :: new). rewrite <- app_assoc. repeat split; auto.
    constructor; [apply scan_data; eauto|exact Hf].
  - injection H as <- <-. exists [], s, str, []. rewrite app_nil_r. repeat split; auto.
    intros [v Hv]. apply scan_data in Hv. destruct Hv as [r Hr]. congruence.
Qed.

(** Address lists *)
Lemma addresses_all : forall str old d,
  addresses_set old str = (d, None) <-> exists new, d = old ++ new /\ Forall2 addr_accepts str new.
Proof.
  induction str as [|s str IH]; intros old d; cbn [addresses_set].
  - split.
    + intro H. injection H as <-. exists []. rewrite app_nil_r. auto.
    + intros (new & -> & H). inversion H. rewrite app_nil_r. reflexivity.
  - destruct (addr_unmarshal_text 0 s) as [a [e|]] eqn:E.
    + split; [discriminate|]. intros (new & -> & H). inversion H as [|s' b' str' new' Hb Hn]; subst.
      apply (addr_accept_iff 0) in Hb. congruence.
    + rewrite IH. split.
      * intros (new & -> & H). exists (a :: new). rewrite <- app_assoc. split; [reflexivity|].
        constructor; [apply (addr_accept_iff 0); exact E|exact H].
      * intros (new & -> & H). inversion H as [|s' b' str' new' Hb Hn]; subst.
        apply (addr_accept_iff 0) in Hb. rewrite Hb in E. injection E as ->.
        exists new'. rewrite <- app_assoc. auto.
Qed.

Lemma addresses_error : forall str old d e, addresses_set old str = (d, Some e) ->
  e = EAddrFormat /\
  exists pre bad post new, str = pre ++ bad :: post /\ d = old ++ new /\ Forall2 addr_accepts pre new /\
    ~ exists a, addr_accepts bad a.
Proof.
  induction str as [|s str IH]; intros old d e H; cbn [addresses_set] in H; [discriminate|].
  destruct (addr_unmarshal_text 0 s) as [a [e'|]] eqn:E.
  - injection H as <- <-. split; [apply (addr_reject _ _ _ _ E)|].
    exists [], s, str, []. rewrite app_nil_r. repeat split; auto.
    intros [v Hv]. apply (addr_accept_iff 0) in Hv. congruence.
  - destruct (IH _ _ _ H) as (He & pre & bad & post & new & -> & -> & Hf & Hb). split; [exact He|].
    exists (s :: pre), bad, post, (a :: new). rewrite <- app_assoc. repeat split; auto.
    constructor; [apply (addr_accept_iff 0); exact E|exact Hf].
Qed.

(** Printing a list of addresses and splitting it at blanks gives texts that parse back. *)
Lemma split_join : forall l, Forall (fun s => ~ In 32 s) l -> l <> [] -> split_on 32 (join [32] l) = l.
Proof.
  assert (Hone : forall s, ~ In 32 s -> split_on 32 s = [s]).
  { induction s as [|c s IH]; intro H; [reflexivity|]. cbn [split_on].
    replace (c =? 32) with false by (symmetry; apply Z.eqb_neq; intro; apply H; left; auto).
    rewrite IH; [reflexivity|]. intro; apply H; right; auto. }
  assert (Happ : forall s r, ~ In 32 s -> split_on 32 (s ++ 32 :: r) = s :: split_on 32 r).
  { induction s as [|c s IH]; intros r H; [reflexivity|]. cbn [app split_on].
    replace (c =? 32) with false by (symmetry; apply Z.eqb_neq; intro; apply H; left; auto).
    rewrite IH; [reflexivity|]. intro; apply H; right; auto. }
  induction l as [|s l IH]; intros Hf Hne; [congruence|].
  inversion Hf as [|s' l' Hs Hl]; subst. destruct l as [|s2 l].
  - cbn [join]. apply Hone. exact Hs.
  - change (join [32] (s :: s2 :: l)) with (s ++ 32 :: join [32] (s2 :: l)).
    rewrite Happ by exact Hs. rewrite IH; [reflexivity|exact Hl|discriminate].
Qed.

Lemma addresses_print_parse : forall l, Forall (fun a => 0 <= a < 2 ^ 24) l -> l <> [] ->
  addresses_set [] (split_on 32 (addresses_string l)) = (l, None).
Proof.
  intros l Hl Hne. unfold addresses_string, ch_space. rewrite split_join.
  - apply addresses_all. exists l. split; [reflexivity|].
    induction Hl as [|a l Ha Hl IH]; cbn [map]; constructor.
    + apply (addr_accept_iff 0). apply addr_rendering_parses. apply addr_string_rendering. exact Ha.
    + destruct l; [constructor|]. apply IH. discriminate.
  - apply Forall_forall. intros s Hs. apply in_map_iff in Hs. destruct Hs as (a & <- & _).
    unfold addr_string, fmt_02x, hex_char, ch_dot, byte_of. cbn [app In]. intros H.
    repeat match goal with H : _ \/ _ |- _ => destruct H as [H|H] end; try contradiction; try lia;
    match type of H with (if ?b then _ else _) = _ => destruct b eqn:?; lia end.
  - destruct l; [congruence|discriminate].
Qed.
