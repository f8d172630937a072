(** Property C72: what the report of a thermostat says. *)
From Coq Require Import ZArith QArith Qround Qabs Lqa List Bool Lia ZifyBool ZifyNat String.
From Verif Require Import F32 F32Spec F32Proofs GoBase GoLemmas GoProg GoText GoJson JsonProofs Message MessageSpec BasicDevice DeviceSpec DevReqSpec Address Link LinkText Thermostat Plm PlmPacket PlmLinkdb Display DisplaySpec DisplayProofs DisplayProofs2 IcDev IcDevSpec IcDevProofs Report ReportSpec Props_Thermostat.
Import ListNotations.
Open Scope Z_scope.
Ltac Zify.zify_post_hook ::= Z.div_mod_to_equations.

(** ** The number of tenths *)
Lemma rne_unique : forall q (n : Z), (Qabs (q - inject_Z n) < 1 # 2)%Q -> rne q = n.
Proof.
  intros q n H. apply Qabs_Qlt_condition in H. destruct (rne_near q) as [A B].
  destruct (Z_lt_ge_dec (rne q) n) as [L|G].
  - pose proof (inject_lt1 _ _ L). lra.
  - destruct (Z.eq_dec (rne q) n) as [E|E]; [exact E|]. pose proof (inject_lt1 n (rne q) ltac:(lia)). lra.
Qed.
Lemma celsius_shown : forall t : Z, 0 <= t < 65536 -> rne (f32_div (f32_of_int t) 10 * 10) = t.
Proof.
  intros t H. apply rne_unique. pose proof (celsius_error t H) as C. apply Qabs_Qle_condition in C. apply Qabs_Qlt_condition.
  setoid_replace (inject_Z t / 10)%Q with (inject_Z t * (1 # 10))%Q in C by field. split; lra.
Qed.
Definition f_tenths (t : Z) : Z := (9 * t + 1602) / 5.
Lemma fahrenheit_shown : forall t : Z, 0 <= t < 65536 ->
  rne (f32_add (f32_div (f32_mul (f32_div (f32_of_int t) 10) 9) 5) 32 * 10) = f_tenths t.
Proof.
  intros t H. apply rne_unique. pose proof (fahrenheit_error t H) as C. apply Qabs_Qle_condition in C. apply Qabs_Qlt_condition.
  setoid_replace (inject_Z t / 10 * 9 / 5)%Q with (inject_Z t * (9 # 50))%Q in C by field.
  assert (D : 5 * f_tenths t <= 9 * t + 1602 <= 5 * f_tenths t + 4) by (unfold f_tenths; lia).
  destruct D as [D1 D2]. rewrite Zle_Qle in D1, D2. repeat rewrite ?inject_Z_plus, ?inject_Z_mult in D1. repeat rewrite ?inject_Z_plus, ?inject_Z_mult in D2.
  change (inject_Z 9) with 9%Q in *. change (inject_Z 5) with 5%Q in *. change (inject_Z 1602) with 1602%Q in *. change (inject_Z 4) with 4%Q in *.
  split; lra.
Qed.

Lemma dec_go_value : forall f n, 0 <= n < 10 ^ Z.of_nat f -> dec_value (dec_go f n []) = n.
Proof.
  induction f as [|f IH]; intros n H; [cbn in *; lia|]. cbn [dec_go]. destruct (n <? 10) eqn:E; [unfold dec_value; cbn [fold_left]; lia|].
  rewrite dec_go_acc. unfold dec_value in *. rewrite fold_left_app. rewrite IH; [cbn [fold_left]; lia|].
  rewrite Nat2Z.inj_succ, Z.pow_succ_r in H by lia. lia.
Qed.
Lemma decimal_tenths : forall n, 0 <= n -> decimal_text n (fmt_int (n / 10) ++ zs "." ++ fmt_int (n mod 10)).
Proof.
  intros n Hn. exists (fmt_int (n / 10)), (48 + n mod 10). unfold fmt_int.
  replace (n / 10 <? 0) with false by lia. replace (n mod 10 <? 0) with false by lia.
  assert (E : fmt_nat (n mod 10) = [48 + n mod 10]).
  { unfold fmt_nat. cbn [dec_go]. replace (n mod 10 <? 10) with true by lia. reflexivity. }
  rewrite E. split; [reflexivity|]. split; [constructor; [lia|exact (fmt_nat_dec (n / 10) ltac:(lia))]|].
  split.
  { destruct (Z.eq_dec (n / 10) 0) as [->|Hz]; [left; reflexivity|]. right. pose proof (fmt_nat_fuel (n / 10) ltac:(lia)) as F.
    destruct (dec_go_head _ (n / 10) (conj (proj2 (Z.le_neq _ _) (conj (proj1 F) (not_eq_sym Hz))) (proj2 F))) as (c & t & E2 & Hc).
    unfold fmt_nat. rewrite E2. cbn [hd]. lia. }
  rewrite fold_left_app. cbn [fold_left].
  assert (V : dec_value (fmt_nat (n / 10)) = n / 10) by (apply dec_go_value, fmt_nat_fuel; lia).
  unfold dec_value in V. rewrite V. lia.
Qed.
Lemma decimal_inj : forall n m s, decimal_text n s -> decimal_text m s -> n = m.
Proof.
  intros n m s (w & c & -> & _ & _ & <-) (w' & c' & E & _ & _ & <-). apply app_inj_tail_iff in E as [] || (change [46; c] with ([46] ++ [c]) in E; change [46; c'] with ([46] ++ [c']) in E; rewrite !app_assoc in E; apply app_inj_tail in E; destruct E as [E ->]; apply app_inj_tail in E; destruct E as [-> _]). reflexivity.
Qed.

(** ** C72 *)
Lemma nth_byte : forall d i, (i < List.length d)%nat -> bytes_ok d -> is_byte (nth i d 0).
Proof. intros d i H Hb. apply (proj1 (Forall_forall _ _) Hb). apply nth_In. exact H. Qed.
Lemma word_of : forall h l, is_byte h -> is_byte l -> Z.lor (Z.shiftl h 8) l = 256 * h + l.
Proof. intros h l Hh Hl. assert (S := sweep2 (fun a b => Z.lor (Z.shiftl a 8) b =? 256 * a + b) ltac:(vm_compute; reflexivity) _ _ Hh Hl). lia. Qed.
Lemma format_celsius : forall f, is_byte f -> tf_temp_format f = if Z.testbit f 3 then 1 else 0.
Proof. intros f Hf. assert (S := sweep1 (fun f => tf_temp_format f =? if Z.testbit f 3 then 1 else 0) ltac:(vm_compute; reflexivity) _ Hf). lia. Qed.
Lemma unit_name : forall f, is_byte f -> name_of (unit_string (tf_temp_format f)) = [194; 176; if Z.testbit f 3 then 67 else 70].
Proof. intros f Hf. rewrite (format_celsius f Hf). destruct (Z.testbit f 3); vm_compute; reflexivity. Qed.
Lemma mode_text_of : forall m, is_byte m -> mode_text m (name_of (tmode_string m)).
Proof.
  intros m Hm. destruct (Z_le_gt_dec 9 m) as [H|H].
  - right. split; [exact H|]. unfold tmode_string. replace (9 <=? m) with true by lia. cbn [name_of]. rewrite fmt_int_byte by exact Hm. reflexivity.
  - left. assert (exists n, In (m, n) mode_names) as [n Hn].
    { unfold is_byte in Hm. assert (m = 0 \/ m = 1 \/ m = 2 \/ m = 3 \/ m = 4 \/ m = 5 \/ m = 6 \/ m = 7 \/ m = 8) as M by lia.
      repeat destruct M as [->|M]; try subst m; unfold mode_names; cbn [In]; eexists; repeat ((left; reflexivity) || right). }
    exists n. split; [exact Hn|]. rewrite (tmode_documented _ _ Hn). reflexivity.
Qed.

Definition num_tenths (d0 : list Z) : Z := if celsius d0 then tenths d0 else f_tenths (tenths d0).
Definition tenth_text (n : Z) : list Z := fmt_int (n / 10) ++ zs "." ++ fmt_int (n mod 10).
Lemma report_exact : forall old d0 d1, data_set 0 d0 -> data_set 1 d1 ->
  exists ti0 ti, ti_unmarshal old d0 = (ti0, None) /\ ti_unmarshal ti0 d1 = (ti, None) /\ 0 <= tenths d0 < 65536 /\ is_byte (nth 7 d0 0) /\
    ti_string ti = unlines (report_lines (tenth_text (num_tenths d0)) (name_of (tmode_string (nth 7 d0 0))) d0 d1).
Proof.
  intros old d0 d1 (L0 & B0 & K0) (L1 & B1 & K1).
  destruct (ti_unmarshal old d0) as [ti0 e0] eqn:E0. destruct (ti_unmarshal ti0 d1) as [ti e1] eqn:E1.
  pose proof E1 as U1. unfold ti_unmarshal in E0, E1. replace (zlen d0 <? 14) with false in E0 by (unfold zlen; lia). replace (zlen d1 <? 14) with false in E1 by (unfold zlen; lia).
  rewrite K0 in E0. rewrite K1 in E1. change (0 =? 0) with true in E0. change (1 =? 0) with false in E1. change (1 =? 1) with true in E1. cbn iota zeta in E0, E1.
  assert (N0 : forall i, (i < 14)%nat -> is_byte (nth i d0 0)) by (intros; apply nth_byte; [lia|assumption]).
  rewrite (word_of _ _ (N0 13%nat ltac:(lia)) (N0 3%nat ltac:(lia))) in E0. fold (tenths d0) in E0.
  injection E0 as <- <-. injection E1 as <- <-.
  assert (N1 : forall i, (i < 14)%nat -> is_byte (nth i d1 0)) by (intros; apply nth_byte; [lia|assumption]).
  do 2 eexists. split; [reflexivity|]. split; [exact U1|].
  assert (T : 0 <= tenths d0 < 65536).
  { unfold tenths. pose proof (N0 13%nat ltac:(lia)). pose proof (N0 3%nat ltac:(lia)). unfold is_byte in *. lia. }
  split; [exact T|]. split; [apply N0; lia|].
  unfold ti_string, report_lines.
  cbn [ti_temp ti_humidity ti_temp_offset ti_humidity_offset ti_mode ti_fan_mode ti_backlight ti_hysteresis ti_flags ti_cool ti_heat ti_hum_low ti_hum_high ti_rev ti_rf_offset ti_setback ti_ext_offset ti_report ti_ext_power ti_ext_temp].
  rewrite unit_name by (apply N0; lia). fold (celsius d0).
  assert (F : fmt_tenth (if tf_temp_format (nth 12 d0 0) =? u_Fahrenheit then f32_add (f32_div (f32_mul (f32_div (f32_of_int (tenths d0)) 10) 9) 5) 32
                          else f32_div (f32_of_int (tenths d0)) 10) =
          tenth_text (num_tenths d0)).
  { rewrite format_celsius by (apply N0; lia). fold (celsius d0). unfold fmt_tenth, num_tenths. destruct (celsius d0).
    - change (1 =? u_Fahrenheit) with false. cbn iota. rewrite celsius_shown by exact T. reflexivity.
    - change (0 =? u_Fahrenheit) with true. cbn iota. rewrite fahrenheit_shown by exact T. reflexivity. }
  assert (I0 : forall i, (i < 14)%nat -> fmt_int (nth i d0 0) = fmt_d_byte (nth i d0 0)) by (intros; apply fmt_int_byte, N0; assumption).
  assert (I1 : forall i, (i < 14)%nat -> fmt_int (nth i d1 0) = fmt_d_byte (nth i d1 0)) by (intros; apply fmt_int_byte, N1; assumption).
  rewrite F, !I0, !I1 by lia. reflexivity.
Qed.


(** Decoding both sets and printing gives the report of their bytes, with the temperature correct to the last digit shown in either unit. *)
Theorem C72_report : forall old d0 d1, data_set 0 d0 -> data_set 1 d1 ->
  exists ti0 ti n deg mode, ti_unmarshal old d0 = (ti0, None) /\ ti_unmarshal ti0 d1 = (ti, None) /\
    shown_tenths d0 n /\ decimal_text n deg /\ mode_text (nth 7 d0 0) mode /\ ti_string ti = unlines (report_lines deg mode d0 d1).
Proof.
  intros old d0 d1 D0 D1. destruct (report_exact old d0 d1 D0 D1) as (ti0 & ti & U0 & U1 & T & B & E).
  exists ti0, ti, (num_tenths d0). do 2 eexists. split; [exact U0|]. split; [exact U1|].
  assert (F : 0 <= num_tenths d0 /\ shown_tenths d0 (num_tenths d0)).
  { unfold shown_tenths, num_tenths. destruct (celsius d0); [lia|]. unfold f_tenths. lia. }
  split; [apply F|]. split; [apply decimal_tenths, F|]. split; [apply mode_text_of, B|exact E].
Qed.

Lemma nonl_d_byte : forall b, is_byte b -> Forall nonl (fmt_d_byte b).
Proof. intros b Hb. eapply Forall_impl; [|apply fmt_d_byte_dec; exact Hb]. unfold is_dec, nonl. intros; lia. Qed.
Lemma nonl_yes : forall b, Forall nonl (yes_no b).
Proof. intros []; apply nonl_zs; reflexivity. Qed.
Lemma nonl_tenth : forall n, Forall nonl (tenth_text n).
Proof. intro n. unfold tenth_text. nonl. Qed.
Lemma nonl_degree : forall c : bool, Forall nonl [194; 176; if c then 67 else 70].
Proof. intros []; apply forallb_nonl; reflexivity. Qed.
Lemma yes_inj : forall a b, yes_no a = yes_no b -> a = b.
Proof. intros [] []; vm_compute; congruence. Qed.
Lemma tenth_cut : forall n m x y, 0 <= n -> 0 <= m -> tenth_text n ++ 32 :: x = tenth_text m ++ 32 :: y -> n = m /\ x = y.
Proof.
  intros n m x y Hn Hm H. unfold tenth_text in H. change (zs ".") with [46] in H. rewrite <- !app_assoc in H. cbn [app] in H.
  apply num_cut in H; [|unfold is_num, is_dec; lia]. destruct H as [H1 H]. apply num_cut in H; [|unfold is_num, is_dec; lia]. destruct H as [H2 H].
  split; [lia|exact H].
Qed.
Lemma num_unique : forall d e, celsius d = celsius e -> (num_tenths d = num_tenths e <-> tenths d = tenths e).
Proof. intros d e H. unfold num_tenths, f_tenths. rewrite H. destruct (celsius e); lia. Qed.
Lemma window : forall k n i (d : list Z), (i < n)%nat -> nth i (firstn n (skipn k d)) 0 = nth (k + i) d 0.
Proof.
  intros k n i d H. revert d. induction k as [|k IH]; intro d.
  - cbn [skipn Nat.add]. revert n i H. induction d as [|a d IHd]; intros [|n] [|i] H; try lia; try reflexivity.
    cbn [firstn nth]. apply IHd. lia.
  - destruct d as [|a d]; [rewrite skipn_nil, firstn_nil; destruct i; reflexivity|]. cbn [skipn Nat.add nth]. apply IH.
Qed.
Lemma window_eq : forall k n (d e : list Z), (k + n <= List.length d)%nat -> (k + n <= List.length e)%nat ->
  (forall i, (i < n)%nat -> nth (k + i) d 0 = nth (k + i) e 0) -> firstn n (skipn k d) = firstn n (skipn k e).
Proof.
  intros k n d e Hd He H. apply nth_ext with 0 0.
  - rewrite !firstn_length, !skipn_length. lia.
  - intros i Hi. rewrite firstn_length in Hi. rewrite !window by lia. apply H. lia.
Qed.
(** The report tells exactly this: two pairs of answers give the same text if and only if they agree in what is shown. *)
Theorem C72_told_apart : forall old d0 d1 e0 e1 td0 td te0 te, data_set 0 d0 -> data_set 1 d1 -> data_set 0 e0 -> data_set 1 e1 ->
  ti_unmarshal old d0 = (td0, None) -> ti_unmarshal td0 d1 = (td, None) -> ti_unmarshal old e0 = (te0, None) -> ti_unmarshal te0 e1 = (te, None) ->
  (ti_string td = ti_string te <-> report_alike d0 d1 e0 e1).
Proof.
  intros old d0 d1 e0 e1 td0 td te0 te D0 D1 E0 E1 U1 U2 U3 U4.
  destruct (report_exact old d0 d1 D0 D1) as (x0 & x & X1 & X2 & T & B & X). rewrite U1 in X1. injection X1 as <-. rewrite U2 in X2. injection X2 as <-.
  destruct (report_exact old e0 e1 E0 E1) as (y0 & y & Y1 & Y2 & T' & B' & Y). rewrite U3 in Y1. injection Y1 as <-. rewrite U4 in Y2. injection Y2 as <-.
  rewrite X, Y. clear X Y U1 U2 U3 U4. destruct D0 as (L0 & B0 & _), D1 as (L1 & B1 & _), E0 as (M0 & C0 & _), E1 as (M1 & C1 & _).
  assert (N0 : forall i, (i < 14)%nat -> is_byte (nth i d0 0)) by (intros; apply nth_byte; [lia|assumption]).
  assert (N1 : forall i, (i < 14)%nat -> is_byte (nth i d1 0)) by (intros; apply nth_byte; [lia|assumption]).
  assert (P0 : forall i, (i < 14)%nat -> is_byte (nth i e0 0)) by (intros; apply nth_byte; [lia|assumption]).
  assert (P1 : forall i, (i < 14)%nat -> is_byte (nth i e1 0)) by (intros; apply nth_byte; [lia|assumption]).
  split.
  - intro H. unfold report_lines in H. rewrite !unlines_cons, unlines_nil in H.
    do 21 (let E := fresh "E" in apply line_cut in H; [destruct H as [E H]; apply app_inv_head in E|
      repeat first [apply nonl_tenth | apply nonl_degree | apply nonl_yes | apply nonl_zs; reflexivity | apply nonl_tmode; assumption |
        apply nonl_d_byte; (apply N0 || apply N1 || apply P0 || apply P1); lia | apply Forall_app; split]..]).
    change (zs " ") with [32] in *. cbn [app] in E.
    assert (Np : 0 <= num_tenths d0 /\ 0 <= num_tenths e0) by (unfold num_tenths, f_tenths; destruct (celsius d0), (celsius e0); lia).
    apply tenth_cut in E; try apply Np. destruct E as [En Eu].
    assert (Ec : celsius d0 = celsius e0) by (destruct (celsius d0), (celsius e0); congruence || discriminate Eu).
    apply (num_unique _ _ Ec) in En. apply app_inv_tail in E0.
    repeat match goal with Q : fmt_d_byte _ = fmt_d_byte _ |- _ => apply fmt_d_byte_inj in Q; [|(apply N0 || apply N1 || apply P0 || apply P1); lia..] end.
    apply tmode_inj in E3; [|assumption..].
    repeat match goal with Q : yes_no _ = yes_no _ |- _ => apply yes_inj in Q end.
    split; [exact En|]. split; [exact Ec|]. split; [|split].
    + apply window_eq; [lia..|]. intros i Hi. do 7 (destruct i as [|i]; [assumption|]). lia.
    + apply window_eq; [lia..|]. intros i Hi. do 8 (destruct i as [|i]; [assumption|]). lia.
    + lia.
  - intros (A1 & A2 & A3 & A4 & A5 & A6 & A7). apply (num_unique _ _ A2) in A1.
    assert (W0 : forall i, (i < 7)%nat -> nth (4 + i) d0 0 = nth (4 + i) e0 0) by (intros i Hi; rewrite <- !(window 4 7 i) by lia; rewrite A3; reflexivity).
    assert (W1 : forall i, (i < 8)%nat -> nth (3 + i) d1 0 = nth (3 + i) e1 0) by (intros i Hi; rewrite <- !(window 3 8 i) by lia; rewrite A4; reflexivity).
    unfold report_lines. rewrite A1, A2.
    assert (Y1 : yes_no (nth 11 d1 0 =? 1) = yes_no (nth 11 e1 0 =? 1)) by (f_equal; lia).
    assert (Y2 : yes_no (nth 12 d1 0 =? 1) = yes_no (nth 12 e1 0 =? 1)) by (f_equal; lia).
    assert (Y3 : yes_no (nth 13 d1 0 =? 2) = yes_no (nth 13 e1 0 =? 2)) by (f_equal; lia).
    rewrite Y1, Y2, Y3.
    pose proof (W0 0%nat ltac:(lia)) as V0. pose proof (W0 1%nat ltac:(lia)) as V1. pose proof (W0 2%nat ltac:(lia)) as V2. pose proof (W0 3%nat ltac:(lia)) as V3.
    pose proof (W0 4%nat ltac:(lia)) as V4. pose proof (W0 5%nat ltac:(lia)) as V5. pose proof (W0 6%nat ltac:(lia)) as V6.
    pose proof (W1 0%nat ltac:(lia)) as U0. pose proof (W1 1%nat ltac:(lia)) as U1. pose proof (W1 2%nat ltac:(lia)) as U2. pose proof (W1 3%nat ltac:(lia)) as U3.
    pose proof (W1 4%nat ltac:(lia)) as U4. pose proof (W1 5%nat ltac:(lia)) as U5. pose proof (W1 6%nat ltac:(lia)) as U6. pose proof (W1 7%nat ltac:(lia)) as U7.
    cbn [Nat.add] in V0, V1, V2, V3, V4, V5, V6, U0, U1, U2, U3, U4, U5, U6, U7.
    rewrite V0, V1, V2, V3, V4, V5, V6, U0, U1, U2, U3, U4, U5, U6, U7. reflexivity.
Qed.

(** The answer carries a checksum in the byte read as the high half of the temperature: a valid answer of 20.0 degrees is reported as more than 5000. *)
Theorem C72_checksum_shown_refuted : exists m d1 ti0 ti, checksum_valid m /\ is_data_answer m /\ data_set 0 (m_payload m) /\ data_set 1 d1 /\
  nth 3 (m_payload m) 0 = 200 /\ celsius (m_payload m) = true /\
  ti_unmarshal tinfo_zero (m_payload m) = (ti0, None) /\ ti_unmarshal ti0 d1 = (ti, None) /\
  firstn 31 (ti_string ti) = zs "                Temp: 5472.8 " ++ [194; 176].
Proof.
  exists (mkMsg 0x010203 0x040506 0x1b 0x2e00 [0; 0; 0; 200; 45; 0; 0; 0; 0; 0; 0; 0; 8; 0xd5]), [0; 0; 1; 0; 0; 0; 0; 0; 0; 0; 0; 0; 0; 0]. do 2 eexists.
  unfold data_set. cbn [m_payload].
  repeat match goal with |- _ /\ _ => split | |- bytes_ok _ => repeat constructor; unfold is_byte; lia | |- _ => vm_compute; reflexivity end.
  all: try (vm_compute; lia).
  all: repeat (apply Forall_cons; [unfold is_byte; lia|]); apply Forall_nil.
Qed.

Example C72_ex :
  let d0 := [0; 0; 0; 215; 45; 1; 2; 4; 0; 30; 5; 0; 0; 0] in
  let d1 := [0; 0; 1; 60; 40; 9; 75; 68; 3; 2; 250; 1; 0; 2] in
  let ti := fst (ti_unmarshal (fst (ti_unmarshal tinfo_zero d0)) d1) in
  ti_string ti = unlines
    [ zs "                Temp: 70.7 " ++ [194; 176; 70]
    ; zs "            Humidity: 45 %"
    ; zs "          Temp Offset: 1"
    ; zs "      Humidity Offset: 2"
    ; zs "                 Mode: Fan On"
    ; zs "             Fan Mode: 0"
    ; zs "    Backlight Seconds: 30"
    ; zs "   Hysteresis Minutes: 5"
    ; zs " Energy Set Backpoint: 2"
    ; zs "   Temperature Format: " ++ [194; 176; 70]
    ; zs "         Humidity Low: 40"
    ; zs "        Humidity High: 60"
    ; zs "                  Rev: 9"
    ; zs "       Cool Set Point: 75"
    ; zs "       Heat Set Point: 68"
    ; zs "            RF Offset: 3"
    ; zs " Energy Set Backpoint: 2"
    ; zs " External Temp Offset: 250"
    ; zs "Status Report Enabled: true"
    ; zs "       External Power: false"
    ; zs "        External Temp: true" ].
Proof. vm_compute. reflexivity. Qed.
Example C72_report_case : data_set 0 [0; 0; 0; 215; 45; 1; 2; 4; 0; 30; 5; 0; 0; 0] /\ data_set 1 [0; 0; 1; 60; 40; 9; 75; 68; 3; 2; 250; 1; 0; 2].
Proof. split; (split; [cbn; lia|split; [repeat constructor; unfold is_byte; lia|reflexivity]]). Qed.

Print Assumptions C72_report.
Print Assumptions C72_told_apart.
Print Assumptions C72_checksum_shown_refuted.
