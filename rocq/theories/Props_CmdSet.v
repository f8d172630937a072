(** Two small functions that only the tests call: [Message.Equals] and [Command.Set]. *)
From Coq Require Import ZArith Lia List Bool String ZifyBool ZifyNat.
From Verif Require Import GoBase GoText GoLemmas Command Message MessageSpec MessageProofs LinkText EditLineSpec EditLineProofs.
Import ListNotations.
Ltac Zify.zify_post_hook ::= Z.div_mod_to_equations.
Open Scope string_scope.
Open Scope list_scope.
Open Scope Z_scope.

(** * C04: messages are equal when they agree in all their fields, and then they are duplicates. *)
Theorem C04_equals_exactly : forall m o, msg_equals m o = true <-> m = o.
Proof.
  intros [s d f c p] [s' d' f' c' p']. unfold msg_equals. cbn. rewrite !andb_true_iff, !Z.eqb_eq, bytes_eqb_eq. split.
  - intros ((((-> & ->) & ->) & ->) & ->). reflexivity.
  - intro H. injection H as -> -> -> -> ->. repeat split.
Qed.
Theorem C04_equal_is_duplicate : forall m o, msg_equals m o = true -> msg_duplicate m o = true.
Proof. intros m o H. apply C04_equals_exactly in H. subst o. unfold msg_duplicate. rewrite !Z.eqb_refl. cbn. apply bytes_eqb_eq. reflexivity. Qed.
Example C04_equals_case : msg_equals (mkMsg 1 2 0x2a 0x1000 [7]) (mkMsg 1 2 0x2a 0x1000 [7]) = true /\
  msg_equals (mkMsg 1 2 0x2a 0x1000 [7]) (mkMsg 1 2 0x26 0x1000 [7]) = false /\
  msg_duplicate (mkMsg 1 2 0x2a 0x1000 [7]) (mkMsg 1 2 0x26 0x1000 [7]) = true.
Proof. repeat split; reflexivity. Qed.

(** * C46: a decimal number with or without sign, of 64 bits. *)
Definition int_word (w : list Z) (i : Z) : Prop :=
  exists sign ds vs, w = sign ++ ds /\ Forall2 dec_digit ds vs /\ ds <> [] /\
    ((sign = [] \/ sign = [43]) /\ i = decimal_value 0 vs \/ sign = [45] /\ i = - decimal_value 0 vs) /\
    -9223372036854775808 <= i <= 9223372036854775807.

Lemma atoi_iff : forall w i, atoi w = Some i <-> int_word w i.
Proof.
  intros w i. unfold atoi, parse_int, int_word. change (2 ^ (64 - 1)) with 9223372036854775808.
  assert (P : forall body v, (match all_digits_val dec_val 10 body with None => None | Some v => if v <? 9223372036854775808 then Some v else None end) = Some v <->
     exists vs, Forall2 dec_digit body vs /\ body <> [] /\ v = decimal_value 0 vs /\ v <= 9223372036854775807).
  { intros body v. destruct (all_digits_val dec_val 10 body) as [u|] eqn:E.
    - split.
      + destruct (u <? 9223372036854775808) eqn:L; [|discriminate]. intro H. injection H as <-. apply all_digits_dec in E.
        destruct E as (vs & A & B & ->). exists vs. repeat split; auto. lia.
      + intros (vs & A & B & -> & L). assert (E' : all_digits_val dec_val 10 body = Some (decimal_value 0 vs)) by (apply all_digits_dec; eauto).
        rewrite E' in E. injection E as <-. replace (_ <? _) with true by lia. reflexivity.
    - split; [discriminate|]. intros (vs & A & B & -> & L).
      assert (E' : all_digits_val dec_val 10 body = Some (decimal_value 0 vs)) by (apply all_digits_dec; eauto). congruence. }
  split.
  - intro H. destruct w as [|c t].
    + apply P in H. destruct H as (vs & A & B & _). contradiction.
    + destruct (c =? ch_minus) eqn:Em.
      * destruct (all_digits_val dec_val 10 t) as [u|] eqn:E; [|discriminate]. destruct (u <=? 9223372036854775808) eqn:L; [|discriminate].
        injection H as <-. apply all_digits_dec in E. destruct E as (vs & A & B & ->). pose proof (decimal_value_nonneg _ _ 0 A (Z.le_refl 0)).
        exists [45], t, vs. repeat split; auto; [cbn; f_equal; unfold ch_minus in Em; lia|lia..].
      * destruct (c =? ch_plus) eqn:Ep.
        -- apply P in H. destruct H as (vs & A & B & -> & L). pose proof (decimal_value_nonneg _ _ 0 A (Z.le_refl 0)).
           exists [43], t, vs. repeat split; auto; [cbn; f_equal; unfold ch_plus in Ep; lia|lia].
        -- apply P in H. destruct H as (vs & A & B & -> & L). pose proof (decimal_value_nonneg _ _ 0 A (Z.le_refl 0)).
           exists [], (c :: t), vs. repeat split; auto; lia.
  - intros (sign & ds & vs & -> & A & B & S & L). pose proof (decimal_value_nonneg _ _ 0 A (Z.le_refl 0)).
    assert (E : all_digits_val dec_val 10 ds = Some (decimal_value 0 vs)) by (apply all_digits_dec; eauto).
    destruct S as [[[->| ->] ->]|[-> ->]].
    + assert (R : exists vs0, Forall2 dec_digit ds vs0 /\ ds <> [] /\ decimal_value 0 vs = decimal_value 0 vs0 /\ decimal_value 0 vs <= 9223372036854775807)
        by (exists vs; repeat split; auto; lia).
      apply P in R. cbn [app]. destruct ds as [|c ds]; [contradiction|].
      replace (c =? ch_minus) with false by (unfold ch_minus; inversion A as [|? ? ? ? [? ?] ?]; lia).
      replace (c =? ch_plus) with false by (unfold ch_plus; inversion A as [|? ? ? ? [? ?] ?]; lia). exact R.
    + cbn [app]. replace (43 =? ch_minus) with false by reflexivity. replace (43 =? ch_plus) with true by reflexivity.
      apply P. exists vs. repeat split; auto. lia.
    + cbn [app]. replace (45 =? ch_minus) with true by reflexivity. rewrite E. replace (_ <=? _) with true by lia. reflexivity.
Qed.

(** Setting a command from a number replaces the second command byte by the number modulo 256 and nothing else. *)
Theorem C46_set : forall c w i, 0 <= c < 2 ^ 24 -> int_word w i ->
  exists c', cmd_set c w = (c', None) /\ c' = c / 256 * 256 + i mod 256.
Proof.
  intros c w i Hc H. apply atoi_iff in H. unfold cmd_set. rewrite H. eexists. split; [reflexivity|].
  change (Z.lor (Z.land c 0xffff00) (Z.land 0xff i)) with (sub_command c i). rewrite sub_command_arith.
  change (2 ^ 24) with 16777216 in Hc. lia.
Qed.
(** Anything else is refused and leaves the command as it was. *)
Theorem C46_set_refused : forall c w, (forall i, ~ int_word w i) -> exists e, cmd_set c w = (c, Some e).
Proof.
  intros c w H. unfold cmd_set. destruct (atoi w) as [i|] eqn:E; [|eauto]. apply atoi_iff in E. destruct (H i E).
Qed.
(** A text is one number at most. *)
Theorem C46_number_unique : forall w i j, int_word w i -> int_word w j -> i = j.
Proof. intros w i j A B. apply atoi_iff in A, B. congruence. Qed.
Example C46_set_case : int_word (zs "-1") (-1) /\ cmd_set 0x0c1100 (zs "-1") = (0x0c11ff, None) /\ int_word (zs "+300") 300 /\
  cmd_set 0x0c1100 (zs "+300") = (0x0c112c, None).
Proof.
  split; [|split; [reflexivity|split; [|reflexivity]]].
  - exists [45], [49], [1]. unfold dec_digit. cbn. repeat split; try lia; [repeat constructor; lia|discriminate|right; split; reflexivity].
  - exists [43], [51; 48; 48], [3; 0; 0]. unfold dec_digit. cbn. repeat split; try lia; [repeat constructor; lia|discriminate|left; split; auto].
Qed.
Example C46_set_refused_case : forall i, ~ int_word (zs "0x10") i /\ ~ int_word (zs "9223372036854775808") i /\ ~ int_word [] i.
Proof. intro i. repeat split; intro H; apply atoi_iff in H; vm_compute in H; discriminate. Qed.
Print Assumptions C04_equals_exactly.
Print Assumptions C04_equal_is_duplicate.
Print Assumptions C46_set.
Print Assumptions C46_set_refused.
Print Assumptions C46_number_unique.
