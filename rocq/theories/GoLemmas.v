(** General lemmas about the notions of [GoBase]. *)
From Coq Require Import ZArith List Bool Lia ZifyBool ZifyNat.
From Verif Require Import GoBase.
Import ListNotations.
Open Scope Z_scope.
Ltac Zify.zify_post_hook ::= Z.div_mod_to_equations.

Lemma byte_of_range : forall x, is_byte (byte_of x).
Proof. intros x. unfold is_byte, byte_of. apply Z.mod_pos_bound. lia. Qed.

Lemma byte_of_id : forall b, is_byte b -> byte_of b = b.
Proof. intros b H. apply Z.mod_small. exact H. Qed.

Lemma zrange_from_In : forall n a x, In x (zrange_from a n) <-> a <= x < a + Z.of_nat n.
Proof.
  induction n as [|n IH]; intros a x.
  - cbn [zrange_from In]. lia.
  - cbn [zrange_from In]. rewrite IH. lia.
Qed.

Lemma all_bytes_In : forall b, In b all_bytes <-> is_byte b.
Proof. intros b. unfold all_bytes. rewrite zrange_from_In. unfold is_byte. lia. Qed.

(** Lift a boolean sweep over all bytes to a statement about every byte. *)
Lemma sweep1 : forall (f : Z -> bool),
  forallb f all_bytes = true -> forall b, is_byte b -> f b = true.
Proof.
  intros f H b Hb. rewrite forallb_forall in H. apply H. apply all_bytes_In. exact Hb.
Qed.

Lemma sweep_range : forall (f : Z -> bool) n,
  forallb f (zrange_from 0 n) = true -> forall b, 0 <= b < Z.of_nat n -> f b = true.
Proof.
  intros f n H b Hb. rewrite forallb_forall in H. apply H. apply zrange_from_In. lia.
Qed.

Lemma sweep2 : forall (f : Z -> Z -> bool),
  forallb (fun a => forallb (f a) all_bytes) all_bytes = true ->
  forall a b, is_byte a -> is_byte b -> f a b = true.
Proof.
  intros f H a b Ha Hb.
  pose proof (sweep1 _ H a Ha) as H1. cbv beta in H1.
  exact (sweep1 _ H1 b Hb).
Qed.

Lemma bytes_eqb_eq : forall a b, bytes_eqb a b = true <-> a = b.
Proof.
  induction a as [|x a IH]; destruct b as [|y b]; cbn [bytes_eqb]; split; intro H;
    try discriminate; try reflexivity.
  - apply andb_true_iff in H. destruct H as [H1 H2].
    apply Z.eqb_eq in H1. apply IH in H2. congruence.
  - injection H as H1 H2. apply andb_true_iff. split.
    + apply Z.eqb_eq. exact H1.
    + apply IH. exact H2.
Qed.

Lemma bytes_eqb_refl : forall a, bytes_eqb a a = true.
Proof. intros a. apply bytes_eqb_eq. reflexivity. Qed.

Lemma bytes_eqb_neq : forall a b, bytes_eqb a b = false <-> a <> b.
Proof.
  intros a b. rewrite <- bytes_eqb_eq. destruct (bytes_eqb a b); split; intro H; congruence.
Qed.

Lemma error_eqb_eq : forall a b, error_eqb a b = true <-> a = b.
Proof.
  induction a; intros b; split; intro H; destruct b;
    try discriminate; try reflexivity; cbn [error_eqb] in *.
  - apply Z.eqb_eq in H. congruence.
  - injection H as H. apply Z.eqb_eq. exact H.
  - apply Z.eqb_eq in H. congruence.
  - injection H as H. apply Z.eqb_eq. exact H.
  - apply IHa in H. congruence.
  - injection H as H. apply IHa. exact H.
Qed.

Lemma error_eqb_refl : forall a, error_eqb a a = true.
Proof. intros a. apply error_eqb_eq. reflexivity. Qed.

Lemma error_eqb_neq : forall a b, error_eqb a b = false <-> a <> b.
Proof.
  intros a b. rewrite <- error_eqb_eq. destruct (error_eqb a b); split; intro H; congruence.
Qed.

Lemma zlen_nil : forall A, zlen (@nil A) = 0.
Proof. reflexivity. Qed.
Lemma zlen_cons : forall A (x : A) l, zlen (x :: l) = zlen l + 1.
Proof. intros A x l. unfold zlen. cbn [length]. lia. Qed.
Lemma zlen_app : forall A (a b : list A), zlen (a ++ b) = zlen a + zlen b.
Proof. intros A a b. unfold zlen. rewrite app_length. lia. Qed.
Lemma zlen_nonneg : forall A (l : list A), 0 <= zlen l.
Proof. intros A l. unfold zlen. lia. Qed.

Lemma go_copy_length : forall d s, length (go_copy d s) = length d.
Proof.
  induction d as [|x d IH]; destruct s as [|y s]; cbn [go_copy length]; auto.
Qed.

Lemma go_copy_spec : forall d s,
  go_copy d s = firstn (length d) s ++ skipn (length s) d.
Proof.
  induction d as [|x d IH]; destruct s as [|y s]; cbn [go_copy length firstn skipn app]; try reflexivity.
  rewrite IH. reflexivity.
Qed.

Lemma list_set_length : forall A (l : list A) i x, length (list_set l i x) = length l.
Proof.
  induction l as [|h t IH]; intros i x; [reflexivity|].
  destruct i; cbn [list_set length]; [reflexivity|]. rewrite IH. reflexivity.
Qed.

Lemma nth_error_list_set_eq : forall A (l : list A) i x,
  (i < length l)%nat -> nth_error (list_set l i x) i = Some x.
Proof.
  induction l as [|h t IH]; intros i x H; [cbn [length] in H; lia|].
  destruct i; cbn [list_set nth_error]; [reflexivity|]. apply IH. cbn [length] in H. lia.
Qed.

Lemma nth_error_list_set_neq : forall A (l : list A) i j x,
  i <> j -> nth_error (list_set l i x) j = nth_error l j.
Proof.
  induction l as [|h t IH]; intros i j x H; [reflexivity|].
  destruct i, j; cbn [list_set nth_error]; try reflexivity; try congruence.
  apply IH. congruence.
Qed.

Lemma list_set_app_r : forall A (a b : list A) x,
  list_set (a ++ b) (length a) x = a ++ list_set b 0 x.
Proof.
  induction a as [|h t IH]; intros b x; cbn [app length list_set]; [reflexivity|].
  rewrite IH. reflexivity.
Qed.

Lemma go_index_in : forall A (l : list A) i x,
  0 <= i -> nth_error l (Z.to_nat i) = Some x -> go_index l i = Ret x.
Proof.
  intros A l i x Hi H. unfold go_index.
  assert (Hlt : (Z.to_nat i < length l)%nat) by (apply nth_error_Some; congruence).
  unfold zlen.
  destruct ((i <? 0) || (Z.of_nat (length l) <=? i)) eqn:E.
  - exfalso. lia.
  - rewrite H. reflexivity.
Qed.

Lemma bytes_ok_app : forall a b, bytes_ok (a ++ b) <-> bytes_ok a /\ bytes_ok b.
Proof. intros a b. unfold bytes_ok. apply Forall_app. Qed.

Lemma bytes_ok_firstn : forall n l, bytes_ok l -> bytes_ok (firstn n l).
Proof.
  intros n l H. unfold bytes_ok in *. rewrite Forall_forall in *. intros x Hx.
  apply H. rewrite <- (firstn_skipn n l). apply in_or_app. left. exact Hx.
Qed.

Lemma bytes_ok_skipn : forall n l, bytes_ok l -> bytes_ok (skipn n l).
Proof.
  intros n l H. unfold bytes_ok in *. rewrite Forall_forall in *. intros x Hx.
  apply H. rewrite <- (firstn_skipn n l). apply in_or_app. right. exact Hx.
Qed.

Lemma bytes_ok_zeros : forall n, bytes_ok (zeros n).
Proof.
  intros n. unfold bytes_ok, zeros. rewrite Forall_forall. intros x Hx.
  apply repeat_spec in Hx. subst x. unfold is_byte. lia.
Qed.

(** Peel equal heads (by arithmetic) off a list equality. *)
Ltac cons_lia := repeat (match goal with |- _ :: _ = _ :: _ => apply f_equal2; [lia|] end).
