(** Proofs about rounding to float32. *)
From Coq Require Import ZArith QArith Qround Qabs Qpower Lqa Lia Bool.
From Verif Require Import F32 F32Spec.
Open Scope Z_scope.

Lemma rne_cases : forall q, let n := Qfloor q in
  ((q - inject_Z n < 1 # 2)%Q /\ rne q = n) \/ ((1 # 2 < q - inject_Z n)%Q /\ rne q = n + 1) \/
  ((q - inject_Z n == 1 # 2)%Q /\ (rne q = n \/ rne q = n + 1) /\ Z.even (rne q) = true).
Proof.
  intros q n. unfold rne. fold n. destruct (q - inject_Z n ?= 1 # 2)%Q eqn:E.
  - apply Qeq_alt in E. right. right. split; [exact E|]. destruct (Z.even n) eqn:En; [auto|]. split; [auto|].
    rewrite Z.even_add, En. reflexivity.
  - apply Qlt_alt in E. left. auto.
  - apply Qgt_alt in E. right. left. auto.
Qed.
Lemma floor_bounds : forall q, (inject_Z (Qfloor q) <= q /\ q < inject_Z (Qfloor q) + 1)%Q.
Proof.
  intro q. split; [apply Qfloor_le|]. pose proof (Qlt_floor q) as H. rewrite inject_Z_plus in H. exact H.
Qed.
Lemma rne_near : forall q, (- (1 # 2) <= inject_Z (rne q) - q /\ inject_Z (rne q) - q <= 1 # 2)%Q.
Proof.
  intro q. destruct (floor_bounds q) as [F1 F2].
  destruct (rne_cases q) as [[H ->]|[[H ->]|[H [[-> | ->] _]]]]; try rewrite inject_Z_plus; change (inject_Z 1) with 1%Q; lra.
Qed.
Lemma inject_lt1 : forall a b : Z, a < b -> (inject_Z a + 1 <= inject_Z b)%Q.
Proof. intros a b H. change 1%Q with (inject_Z 1). rewrite <- inject_Z_plus. rewrite <- Zle_Qle. lia. Qed.
(** No integer is nearer, and if another one is as near then the one taken is even. *)
Lemma rne_best : forall q (n : Z), (Qabs (inject_Z (rne q) - q) <= Qabs (inject_Z n - q))%Q.
Proof.
  intros q n. destruct (floor_bounds q) as [F1 F2].
  assert (A : (inject_Z (rne q) == inject_Z (Qfloor q) /\ q - inject_Z (Qfloor q) <= 1 # 2)%Q \/
              (inject_Z (rne q) == inject_Z (Qfloor q) + 1 /\ 1 # 2 <= q - inject_Z (Qfloor q))%Q).
  { destruct (rne_cases q) as [[H ->]|[[H ->]|[H [[-> | ->] _]]]]; try rewrite inject_Z_plus; change (inject_Z 1) with 1%Q;
      [left|right|left|right]; split; lra. }
  destruct (Z_le_gt_dec n (Qfloor q)) as [L|L].
  - assert (N : (inject_Z n <= inject_Z (Qfloor q))%Q) by (rewrite <- Zle_Qle; lia).
    rewrite (Qabs_neg (inject_Z n - q)) by lra.
    destruct A as [[E H]|[E H]].
    + rewrite Qabs_neg by lra. lra.
    + rewrite Qabs_pos by lra. lra.
  - assert (N := inject_lt1 (Qfloor q) n ltac:(lia)).
    rewrite (Qabs_pos (inject_Z n - q)) by lra.
    destruct A as [[E H]|[E H]].
    + rewrite Qabs_neg by lra. lra.
    + rewrite Qabs_pos by lra. lra.
Qed.
Lemma rne_tie : forall q (n : Z), (Qabs (inject_Z n - q) == Qabs (inject_Z (rne q) - q))%Q -> n = rne q \/ Z.even (rne q) = true.
Proof.
  intros q n H. destruct (Z.eq_dec n (rne q)) as [E|E]; [auto|]. right.
  destruct (floor_bounds q) as [F1 F2]. pose proof (rne_near q) as [R1 R2].
  destruct (rne_cases q) as [[C Er]|[[C Er]|[_ [_ Ev]]]]; [exfalso|exfalso|exact Ev].
  - rewrite Er in *. rewrite (Qabs_neg (inject_Z (Qfloor q) - q)) in H by lra.
    destruct (Z_le_gt_dec n (Qfloor q)) as [L|L].
    + pose proof (inject_lt1 n (Qfloor q) ltac:(lia)). rewrite Qabs_neg in H by lra. lra.
    + pose proof (inject_lt1 (Qfloor q) n ltac:(lia)). rewrite Qabs_pos in H by lra. lra.
  - rewrite Er in *. rewrite inject_Z_plus in *. change (inject_Z 1) with 1%Q in *.
    rewrite (Qabs_pos (inject_Z (Qfloor q) + 1 - q)) in H by lra.
    destruct (Z_le_gt_dec n (Qfloor q)) as [L|L].
    + assert (N : (inject_Z n <= inject_Z (Qfloor q))%Q) by (rewrite <- Zle_Qle; lia). rewrite Qabs_neg in H by lra. lra.
    + pose proof (inject_lt1 (Qfloor q + 1) n ltac:(lia)) as N. rewrite inject_Z_plus in N. change (inject_Z 1) with 1%Q in N.
      rewrite Qabs_pos in H by lra. lra.
Qed.

Lemma pow_pos : forall e, (0 < 2 ^ e)%Q.
Proof. intro e. apply Qpower_0_lt. reflexivity. Qed.
Lemma pow_add : forall a b, (2 ^ (a + b) == 2 ^ a * 2 ^ b)%Q.
Proof. intros. apply Qpower_plus. discriminate. Qed.
Lemma pow_opp : forall e, (2 ^ (- e) * 2 ^ e == 1)%Q.
Proof. intro e. rewrite <- pow_add. replace (- e + e) with 0 by lia. reflexivity. Qed.
Lemma pow_Z : forall n, 0 <= n -> (inject_Z (2 ^ n) == 2 ^ n)%Q.
Proof. intros. apply Zpower_Qpower. assumption. Qed.

Lemma f32_exp_range : forall q, (0 < q)%Q -> (2 ^ 23 * 2 ^ f32_exp q <= q /\ q < 2 ^ 24 * 2 ^ f32_exp q)%Q.
Proof.
  intros [n d] Hq. assert (Hn : 0 < n) by (unfold Qlt in Hq; cbn in Hq; lia).
  unfold f32_exp. cbn [Qnum Qden]. set (a := Z.log2 n). set (b := Z.log2 (Zpos d)). set (k := a - b).
  pose proof (Z.log2_spec n Hn) as [A1 A2]. fold a in A1, A2. pose proof (Z.log2_spec (Zpos d) ltac:(lia)) as [B1 B2]. fold b in B1, B2.
  assert (Ha : 0 <= a) by apply Z.log2_nonneg. assert (Hb : 0 <= b) by apply Z.log2_nonneg.
  assert (V : (n # d == inject_Z n / inject_Z (Zpos d))%Q) by apply Qmake_Qdiv.
  assert (P : (0 < inject_Z (Zpos d))%Q) by reflexivity.
  rewrite Zlt_Qlt in A2, B2. rewrite Zle_Qle in A1, B1. rewrite pow_Z in A1, A2, B1, B2 by lia.
  assert (U : ((n # d) * inject_Z (Zpos d) == inject_Z n)%Q) by (rewrite V; field; lra).
  assert (KA : (2 ^ a == 2 ^ k * 2 ^ b)%Q) by (rewrite <- pow_add; replace (k + b) with a by (unfold k; lia); reflexivity).
  assert (S1 : forall z, (2 ^ Z.succ z == 2 * 2 ^ z)%Q).
  { intro z. rewrite <- (Z.add_1_r z), pow_add. change (2 ^ 1)%Q with 2%Q. ring. }
  rewrite S1 in A2, B2.
  assert (Pk := pow_pos k). assert (Pb := pow_pos b).
  assert (L : (2 ^ k * (1 # 2) < n # d)%Q).
  { apply Qmult_lt_r with (z := inject_Z (Zpos d)); [exact P|]. rewrite U.
    apply Qlt_le_trans with (2 ^ a)%Q; [|exact A1]. rewrite KA.
    setoid_replace (2 ^ k * (1 # 2) * inject_Z (Z.pos d))%Q with (2 ^ k * (inject_Z (Z.pos d) * (1 # 2)))%Q by ring.
    apply Qmult_lt_l; [exact Pk|]. lra. }
  assert (Hi : (n # d < 2 ^ k * 2)%Q).
  { apply Qmult_lt_r with (z := inject_Z (Zpos d)); [exact P|]. rewrite U.
    apply Qlt_le_trans with (2 * 2 ^ a)%Q; [exact A2|]. rewrite KA.
    setoid_replace (2 * (2 ^ k * 2 ^ b))%Q with (2 ^ k * 2 * 2 ^ b)%Q by ring.
    apply Qmult_le_l; [lra|]. exact B1. }
  destruct (Qle_bool (2 ^ k) (n # d)) eqn:E.
  - apply Qle_bool_iff in E. rewrite <- !pow_add. replace (23 + (k - 23)) with k by lia. replace (24 + (k - 23)) with (Z.succ k) by lia.
    rewrite S1. split; [exact E|]. lra.
  - assert (E' : (n # d < 2 ^ k)%Q). { apply Qnot_le_lt. intro H. apply Qle_bool_iff in H. congruence. }
    rewrite <- !pow_add. replace (23 + (k - 24)) with (k + -1) by lia. replace (24 + (k - 24)) with k by lia.
    rewrite pow_add. change (2 ^ -1)%Q with (1 # 2)%Q. split; [lra|exact E'].
Qed.

(** The rounded value in terms of its last binary digit. *)
Lemma f32_round_eq : forall q, (0 < q)%Q -> exists e m : Z, (f32_round q == inject_Z m * 2 ^ e)%Q /\ m = rne (q * 2 ^ (- e)) /\
  (2 ^ 23 <= q * 2 ^ (- e) /\ q * 2 ^ (- e) < 2 ^ 24)%Q /\ 2 ^ 23 <= m <= 2 ^ 24.
Proof.
  intros q Hq. exists (f32_exp q), (rne (q * 2 ^ (- f32_exp q))). unfold f32_round.
  destruct (Qle_bool q 0) eqn:E; [apply Qle_bool_iff in E; lra|]. split; [apply Qred_correct|]. split; [reflexivity|].
  destruct (f32_exp_range q Hq) as [L H]. set (e := f32_exp q) in *. assert (Pe := pow_pos e). assert (Pn := pow_pos (- e)). assert (O := pow_opp e).
  assert (B : (2 ^ 23 <= q * 2 ^ (- e) /\ q * 2 ^ (- e) < 2 ^ 24)%Q).
  { split.
    - apply Qmult_le_r with (z := (2 ^ e)%Q); [exact Pe|]. rewrite <- Qmult_assoc, O, Qmult_1_r. exact L.
    - apply Qmult_lt_r with (z := (2 ^ e)%Q); [exact Pe|]. rewrite <- Qmult_assoc, O, Qmult_1_r. exact H. }
  split; [exact B|]. destruct B as [B1 B2]. pose proof (rne_near (q * 2 ^ (- e))) as [R1 R2].
  set (x := (q * 2 ^ (- e))%Q) in *. set (m := rne x) in *.
  change (2 ^ 23)%Q with (inject_Z 8388608) in B1. change (2 ^ 24)%Q with (inject_Z 16777216) in B2.
  change (2 ^ 23) with 8388608. change (2 ^ 24) with 16777216.
  split.
  - destruct (Z_le_gt_dec 8388608 m) as [|G]; [assumption|]. pose proof (inject_lt1 m 8388608 ltac:(lia)). lra.
  - destruct (Z_le_gt_dec m 16777216) as [|G]; [assumption|]. pose proof (inject_lt1 16777216 m ltac:(lia)). lra.
Qed.

(** The error of one operation. *)
Lemma f32_round_error : forall q b, (0 < q)%Q -> (q < 2 ^ b)%Q -> (Qabs (f32_round q - q) <= 2 ^ (b - 25))%Q.
Proof.
  intros q b Hq Hb. destruct (f32_round_eq q Hq) as (e & m & -> & -> & [B1 B2] & _). set (x := (q * 2 ^ (- e))%Q) in *.
  assert (Pe := pow_pos e). assert (O := pow_opp e).
  assert (Q1 : (q == x * 2 ^ e)%Q) by (unfold x; rewrite <- Qmult_assoc, O; ring).
  assert (He : e <= b - 24).
  { assert (L : (2 ^ (23 + e) < 2 ^ b)%Q).
    { rewrite pow_add. apply Qle_lt_trans with q; [|exact Hb]. rewrite Q1. apply Qmult_le_r; [exact Pe|exact B1]. }
    apply Qpower_lt_compat_l_inv in L; [lia|reflexivity]. }
  assert (N := rne_near x). destruct N as [N1 N2].
  apply Qle_trans with ((1 # 2) * 2 ^ e)%Q.
  - rewrite Q1. setoid_replace (inject_Z (rne x) * 2 ^ e - x * 2 ^ e)%Q with ((inject_Z (rne x) - x) * 2 ^ e)%Q by ring.
    rewrite Qabs_Qmult, (Qabs_pos (2 ^ e)) by lra. apply Qmult_le_r; [exact Pe|]. apply Qabs_Qle_condition. split; lra.
  - apply Qle_trans with ((1 # 2) * 2 ^ (b - 24))%Q.
    + apply Qmult_le_l; [reflexivity|]. apply Qpower_le_compat_l; [exact He|discriminate].
    + replace (b - 25) with (-1 + (b - 24)) by lia. rewrite pow_add. change (2 ^ -1)%Q with (1 # 2)%Q. apply Qle_refl.
Qed.

(** Rounding is rounding to the nearest. *)
Lemma f32_value_le : forall x, f32_value x -> (0 <= x)%Q.
Proof.
  intros x (m & e & Hm & ->). apply Qmult_le_0_compat; [|apply Qlt_le_weak, pow_pos]. change 0%Q with (inject_Z 0). rewrite <- Zle_Qle. lia.
Qed.
Lemma multiple_of : forall m e e' : Z, e <= e' -> exists k : Z, (inject_Z m * 2 ^ e' == inject_Z k * 2 ^ e)%Q.
Proof.
  intros m e e' H. exists (m * 2 ^ (e' - e)). rewrite inject_Z_mult, pow_Z by lia. rewrite <- Qmult_assoc, <- pow_add.
  replace (e' - e + e) with e' by lia. reflexivity.
Qed.
Lemma f32_round_nearest : forall q, (0 <= q)%Q -> f32_nearest q (f32_round q).
Proof.
  intros q Hq0. destruct (Qlt_le_dec 0 q) as [Hq|Hz].
  2:{ assert (Z0 : (q == 0)%Q) by lra. unfold f32_round. replace (Qle_bool q 0) with true by (symmetry; apply Qle_bool_iff; lra).
      split; [exists 0, 0; split; [lia|reflexivity]|]. split.
      - intros x _. rewrite Z0. change (Qabs (0 - 0)) with 0%Q. apply Qabs_nonneg.
      - intros x Hx. rewrite Z0. change (Qabs (0 - 0)) with 0%Q. pose proof (f32_value_le x Hx). rewrite Qabs_pos by lra. intro E. left. lra. }
  destruct (f32_round_eq q Hq) as (e & m & Er & Em & [B1 B2] & [M1 M2]). set (x := (q * 2 ^ (- e))%Q) in *.
  assert (Pe := pow_pos e). assert (O := pow_opp e).
  assert (Q1 : (q == x * 2 ^ e)%Q) by (unfold x; rewrite <- Qmult_assoc, O; ring).
  assert (D : forall k : Z, (Qabs (inject_Z k * 2 ^ e - q) == Qabs (inject_Z k - x) * 2 ^ e)%Q).
  { intro k. rewrite Q1. setoid_replace (inject_Z k * 2 ^ e - x * 2 ^ e)%Q with ((inject_Z k - x) * 2 ^ e)%Q by ring.
    rewrite Qabs_Qmult, (Qabs_pos (2 ^ e)) by lra. reflexivity. }
  assert (Low : forall y, f32_value y -> (exists k : Z, y == inject_Z k * 2 ^ e)%Q \/ (y < inject_Z (2 ^ 23) * 2 ^ e)%Q).
  { intros y (m' & e' & Hm' & Ey). destruct (Z_le_gt_dec e e') as [Le|Gt].
    - left. destruct (multiple_of m' e e' Le) as [k Hk]. exists k. rewrite Ey. exact Hk.
    - right. rewrite Ey. apply Qlt_le_trans with (inject_Z (2 ^ 24) * 2 ^ e')%Q.
      + apply Qmult_lt_r; [apply pow_pos|]. rewrite <- Zlt_Qlt. lia.
      + rewrite !pow_Z by lia. rewrite <- !pow_add. apply Qpower_le_compat_l; [lia|discriminate]. }
  split; [|split].
  - destruct (Z.eq_dec m (2 ^ 24)) as [E|E].
    + exists (2 ^ 23), (e + 1). split; [lia|]. rewrite Er, E, pow_add. change (2 ^ 1)%Q with 2%Q. change (inject_Z (2 ^ 24)) with (inject_Z (2 ^ 23) * 2)%Q. ring.
    + exists m, e. split; [lia|exact Er].
  - intros y Hy. rewrite Er, D. destruct (Low y Hy) as [[k Ek]|L].
    + rewrite Ek, D. apply Qmult_le_r; [exact Pe|]. rewrite Em. apply rne_best.
    + apply Qle_trans with (Qabs (inject_Z (2 ^ 23) - x) * 2 ^ e)%Q; [apply Qmult_le_r; [exact Pe|]; rewrite Em; apply rne_best|].
      rewrite <- D. assert (LQ : (inject_Z (2 ^ 23) * 2 ^ e <= q)%Q). { rewrite Q1, pow_Z by lia. apply Qmult_le_r; [exact Pe|exact B1]. }
      rewrite (Qabs_neg (_ - q)) by lra. rewrite (Qabs_neg (y - q)) by lra. lra.
  - intros y Hy. rewrite Er, D. intro E. destruct (Low y Hy) as [[k Ek]|L].
    + rewrite Ek, D in E. rewrite Em in E. apply Qmult_inj_r in E; [|lra]. destruct (rne_tie x k E) as [->|Ev].
      * left. rewrite Ek, Em. reflexivity.
      * right. exists m, e. split; [lia|]. split; [rewrite Em; exact Ev|exact Er].
    + exfalso. assert (LQ : (inject_Z (2 ^ 23) * 2 ^ e <= q)%Q). { rewrite Q1, pow_Z by lia. apply Qmult_le_r; [exact Pe|exact B1]. }
      assert (Best : (Qabs (inject_Z m - x) * 2 ^ e <= Qabs (inject_Z (2 ^ 23) - x) * 2 ^ e)%Q) by (apply Qmult_le_r; [exact Pe|]; rewrite Em; apply rne_best).
      rewrite <- (D (2 ^ 23)) in Best. rewrite (Qabs_neg (inject_Z (2 ^ 23) * _ - q)) in Best by lra. rewrite (Qabs_neg (y - q)) in E by lra. lra.
Qed.

(** Temperatures: an integer below 2^16 is a float32. *)
Lemma f32_value_round : forall q, (0 <= q)%Q -> f32_value q -> (f32_round q == q)%Q.
Proof.
  intros q H0 H. destruct (f32_round_nearest q H0) as (_ & B & _). specialize (B q H).
  setoid_replace (q - q)%Q with 0%Q in B by ring. change (Qabs 0) with 0%Q in B.
  apply Qabs_Qle_condition in B. lra.
Qed.
Lemma int_exact : forall t : Z, 0 <= t < 65536 -> (f32_of_int t == inject_Z t)%Q.
Proof.
  intros t H. apply f32_value_round.
  - change 0%Q with (inject_Z 0). rewrite <- Zle_Qle. lia.
  - exists t, 0. split; [lia|]. change (2 ^ 0)%Q with 1%Q. ring.
Qed.
Lemma f32_nearest_comp : forall q q' r, (q == q')%Q -> f32_nearest q r -> f32_nearest q' r.
Proof.
  intros q q' r E (V & B & T). split; [exact V|]. split.
  - intros x Hx. rewrite <- E. auto.
  - intros x Hx. rewrite <- E. auto.
Qed.
Lemma f32_error : forall q b, (0 <= q)%Q -> (q < 2 ^ b)%Q -> (Qabs (f32_round q - q) <= 2 ^ (b - 25))%Q.
Proof.
  intros q b H0 Hb. destruct (Qlt_le_dec 0 q) as [H|H]; [apply f32_round_error; assumption|].
  unfold f32_round. replace (Qle_bool q 0) with true by (symmetry; apply Qle_bool_iff; exact H).
  assert (E : (q == 0)%Q) by lra. rewrite E. change (Qabs (0 - 0)) with 0%Q. apply Qlt_le_weak, pow_pos.
Qed.
Lemma tenths_bounds : forall t : Z, 0 <= t < 65536 -> (0 <= inject_Z t / 10 /\ inject_Z t / 10 <= 65535 # 10)%Q.
Proof.
  intros t H. assert (A : (inject_Z 0 <= inject_Z t)%Q) by (rewrite <- Zle_Qle; lia).
  assert (B : (inject_Z t <= inject_Z 65535)%Q) by (rewrite <- Zle_Qle; lia).
  setoid_replace (inject_Z t / 10)%Q with (inject_Z t * (1 # 10))%Q by field.
  change (inject_Z 0) with 0%Q in A. change (inject_Z 65535) with 65535%Q in B. lra.
Qed.
Lemma celsius_nearest : forall t : Z, 0 <= t < 65536 -> f32_nearest (inject_Z t / 10) (f32_div (f32_of_int t) 10).
Proof.
  intros t H. unfold f32_div. destruct (tenths_bounds t H) as [A _].
  assert (E : (f32_of_int t / 10 == inject_Z t / 10)%Q) by (rewrite int_exact by exact H; reflexivity).
  apply f32_nearest_comp with (f32_of_int t / 10)%Q; [exact E|]. apply f32_round_nearest. rewrite E. exact A.
Qed.
Lemma celsius_error : forall t : Z, 0 <= t < 65536 -> (Qabs (f32_div (f32_of_int t) 10 - inject_Z t / 10) <= 1 # 4096)%Q.
Proof.
  intros t H. unfold f32_div. destruct (tenths_bounds t H) as [A B].
  assert (E : (f32_of_int t / 10 == inject_Z t / 10)%Q) by (rewrite int_exact by exact H; reflexivity).
  rewrite <- E in *. pose proof (f32_error (f32_of_int t / 10) 13 A) as R. change (2 ^ (13 - 25))%Q with (1 # 4096)%Q in R. apply R.
  change (2 ^ 13)%Q with 8192%Q. lra.
Qed.
Lemma fahrenheit_error : forall t : Z, 0 <= t < 65536 ->
  (Qabs (f32_add (f32_div (f32_mul (f32_div (f32_of_int t) 10) 9) 5) 32 - (inject_Z t / 10 * 9 / 5 + 32)) <= 1 # 500)%Q.
Proof.
  intros t H. destruct (tenths_bounds t H) as [A B]. pose proof (celsius_error t H) as C.
  destruct (celsius_nearest t H) as (V & _). apply f32_value_le in V.
  set (x := (inject_Z t / 10)%Q) in *. set (c := f32_div (f32_of_int t) 10) in *. apply Qabs_Qle_condition in C.
  unfold f32_mul. pose proof (f32_error (c * 9) 16) as M. change (2 ^ 16)%Q with 65536%Q in M. change (2 ^ (16 - 25))%Q with (1 # 512)%Q in M.
  specialize (M ltac:(lra) ltac:(lra)). set (m := f32_round (c * 9)) in *.
  assert (Vm : (0 <= m)%Q) by (apply f32_value_le, f32_round_nearest; lra). apply Qabs_Qle_condition in M.
  unfold f32_div. setoid_replace (x * 9 / 5)%Q with (x * (9 # 5))%Q by field.
  assert (E5 : (m / 5 == m * (1 # 5))%Q) by field.
  pose proof (f32_error (m / 5) 14) as D. change (2 ^ 14)%Q with 16384%Q in D. change (2 ^ (14 - 25))%Q with (1 # 2048)%Q in D.
  specialize (D ltac:(lra) ltac:(lra)). set (d := f32_round (m / 5)) in *.
  assert (Vd : (0 <= d)%Q) by (apply f32_value_le, f32_round_nearest; lra). apply Qabs_Qle_condition in D.
  unfold f32_add. pose proof (f32_error (d + 32) 14) as S. change (2 ^ 14)%Q with 16384%Q in S. change (2 ^ (14 - 25))%Q with (1 # 2048)%Q in S.
  specialize (S ltac:(lra) ltac:(lra)). apply Qabs_Qle_condition in S. apply Qabs_Qle_condition. split; lra.
Qed.
