(** C90: the order of things that should not depend on each other does not matter. *)
From Coq Require Import ZArith List Bool Lia ZifyBool ZifyNat Permutation.
From Verif Require Import GoBase GoLemmas GoProg Command Message Address GoJson JsonProofs MsgWriter Filters BasicDevice Database DatabaseSpec DatabaseProofs DisplaySpec DisplayProofs Props_Database.
Import ListNotations.
Open Scope Z_scope.

(** * The text of the device file *)

Lemma text_ltb_asym : forall a b, text_ltb a b = true -> text_ltb b a = false.
Proof.
  induction a as [|x a IH]; intros [|y b] H; try discriminate; [reflexivity|]. cbn [text_ltb] in *.
  destruct (x <? y) eqn:E1, (y <? x) eqn:E2; try lia; try discriminate; try reflexivity. apply IH. exact H.
Qed.
Lemma text_ltb_tri : forall a b, text_ltb a b = false -> text_ltb b a = false -> a = b.
Proof.
  induction a as [|x a IH]; intros [|y b] H1 H2; try discriminate; [reflexivity|]. cbn [text_ltb] in *.
  destruct (x <? y) eqn:E1; [discriminate|]. destruct (y <? x) eqn:E2; [discriminate|]. assert (x = y) by lia. subst y. f_equal. apply IH; assumption.
Qed.
Lemma text_ltb_le_lt : forall h b a, text_ltb h b = false -> text_ltb h a = true -> text_ltb b a = true.
Proof.
  induction h as [|x h IH]; intros [|y b] [|z a] H1 H2; try discriminate; try reflexivity. cbn [text_ltb] in *.
  destruct (x <? y) eqn:E1; [discriminate|]. destruct (x <? z) eqn:E3.
  - replace (y <? z) with true by lia. reflexivity.
  - destruct (z <? x) eqn:E4; [discriminate|]. assert (x = z) by lia. subst z. destruct (y <? x) eqn:E2; [reflexivity|]. rewrite E1. apply (IH b a); assumption.
Qed.
Lemma insert_comm : forall a b l, fst a <> fst b -> insert_sorted a (insert_sorted b l) = insert_sorted b (insert_sorted a l).
Proof.
  intros a b l Hne. assert (Hc : text_ltb (fst a) (fst b) = true /\ text_ltb (fst b) (fst a) = false \/ text_ltb (fst a) (fst b) = false /\ text_ltb (fst b) (fst a) = true).
  { destruct (text_ltb (fst a) (fst b)) eqn:E1, (text_ltb (fst b) (fst a)) eqn:E2; auto.
    - rewrite (text_ltb_asym _ _ E1) in E2. discriminate.
    - exfalso. apply Hne. apply text_ltb_tri; assumption. }
  induction l as [|h t IH].
  - cbn [insert_sorted]. destruct Hc as [[-> ->]|[-> ->]]; reflexivity.
  - cbn [insert_sorted]. destruct (text_ltb (fst h) (fst b)) eqn:Eb, (text_ltb (fst h) (fst a)) eqn:Ea; cbn [insert_sorted]; rewrite ?Ea, ?Eb.
    + rewrite IH. reflexivity.
    + rewrite (text_ltb_le_lt _ _ _ Ea Eb). reflexivity.
    + rewrite (text_ltb_le_lt _ _ _ Eb Ea). reflexivity.
    + destruct Hc as [[-> ->]|[-> ->]]; reflexivity.
Qed.
Lemma sort_perm : forall l l', Permutation l l' -> NoDup (map fst l) -> fold_right insert_sorted [] l = fold_right insert_sorted [] l'.
Proof.
  induction 1 as [|x l l' P IH|x y l|l1 l2 l3 P1 IH1 P2 IH2]; intros Hn; cbn [fold_right].
  - reflexivity.
  - rewrite IH; [reflexivity|]. inversion Hn. assumption.
  - apply insert_comm. cbn [map] in Hn. inversion Hn as [|? ? H _]; subst. intros E. apply H. left. symmetry. exact E.
  - rewrite IH1 by exact Hn. apply IH2. apply (Permutation_NoDup (Permutation_map fst P1)). exact Hn.
Qed.
Lemma same_contents_perm : forall m m', NoDup (map fst m) -> NoDup (map fst m') -> (forall a, mget m a = mget m' a) -> Permutation m m'.
Proof.
  intros m m' Hn Hn' H. apply NoDup_Permutation; [apply NoDup_map_inv in Hn; exact Hn|apply NoDup_map_inv in Hn'; exact Hn'|].
  intros [a v]. rewrite <- (mget_In m a v Hn), <- (mget_In m' a v Hn'), H. tauto.
Qed.
(** The text a database is saved as says what it holds and nothing else: two databases are saved as the same text exactly when they
    answer every question alike, however they came about. *)
Theorem C90_text_is_contents : forall d1 d2, db_ok d1 -> db_ok d2 -> (db_marshal d1 = db_marshal d2 <-> same_contents d1 d2).
Proof.
  intros d1 d2 H1 H2. split; intros H.
  - destruct (C40_load_saved_partial d1 new_memdb H1) as (x1 & E1 & S1 & _). destruct (C40_load_saved_partial d2 new_memdb H2) as (x2 & E2 & S2 & _).
    rewrite H, E2 in E1. injection E1 as <-. intros a. rewrite <- (S1 a), <- (S2 a). reflexivity.
  - destruct d1 as [v1 b1], d2 as [v2 b2], H1 as (m1 & E1 & Hn1 & Hf1), H2 as (m2 & E2 & Hn2 & Hf2). cbn [db_values] in *. subst v1 v2.
    unfold db_marshal. cbn [db_values]. f_equal. unfold map_json. f_equal. f_equal. unfold sorted_members. apply sort_perm.
    + apply Permutation_map. apply same_contents_perm; [assumption|assumption|]. intros a. specialize (H a). rewrite !db_get_mget in H. unfold db_map in H. cbn [db_values] in H.
      destruct (mget m1 a), (mget m2 a); congruence.
    + rewrite map_map. cbn [fst]. clear -Hn1 Hf1. induction m1 as [|[k v] t IH]; [constructor|]. cbn [map fst] in *. inversion Hn1 as [|? ? Hk Ht]; subst. inversion Hf1 as [|? ? [Hr _] Hft]; subst.
      constructor; [|apply IH; assumption]. intros Hin. apply in_map_iff in Hin. destruct Hin as ([k' v'] & Es & Hin'). cbn [fst] in *. apply Hk.
      rewrite Forall_forall in Hft. specialize (Hft _ Hin'). cbn [fst] in Hft. apply addr_string_inj in Es; [|unfold word24; lia|unfold word24; lia]. subst k'.
      apply in_map_iff. exists (k, v'). auto.
Qed.
Example C90_text_is_contents_case : let a := mkDI 0x112233 1 2 3 2 in let b := mkDI 0x445566 2 1 5 1 in
  let d1 := mkDB (Some [(0x112233, a); (0x445566, b)]) true in let d2 := mkDB (Some [(0x445566, b); (0x112233, a)]) false in
  db_ok d1 /\ db_ok d2 /\ same_contents d1 d2 /\ d1 <> d2 /\ db_marshal d1 = db_marshal d2.
Proof.
  cbn zeta. assert (H : db_ok (mkDB (Some [(0x112233, mkDI 0x112233 1 2 3 2); (0x445566, mkDI 0x445566 2 1 5 1)]) true) /\ db_ok (mkDB (Some [(0x445566, mkDI 0x445566 2 1 5 1); (0x112233, mkDI 0x112233 1 2 3 2)]) false)).
  { split; (eexists; split; [reflexivity|]; split; [repeat constructor; cbn [map fst In]; intuition lia|repeat constructor; cbn [fst snd di_addr di_dc0 di_dc1 di_fw di_engine]; unfold is_byte; try lia]). }
  destruct H as [H1 H2]. split; [exact H1|]. split; [exact H2|].
  assert (Hs : same_contents (mkDB (Some [(0x112233, mkDI 0x112233 1 2 3 2); (0x445566, mkDI 0x445566 2 1 5 1)]) true) (mkDB (Some [(0x445566, mkDI 0x445566 2 1 5 1); (0x112233, mkDI 0x112233 1 2 3 2)]) false)).
  { intros a. rewrite !db_get_mget. unfold mget. cbn [db_map db_values find fst snd]. destruct (0x112233 =? a) eqn:E1, (0x445566 =? a) eqn:E2; try reflexivity; lia. }
  split; [exact Hs|]. split; [discriminate|]. apply (proj2 (C90_text_is_contents _ _ H1 H2)). exact Hs.
Qed.

(** A file that lists the devices in any order, as after editing by hand, loads as the same database. *)
Theorem C90_file_in_any_order : forall db db0 ms, db_ok db -> Permutation (map (fun kv => (addr_string (fst kv), info_json (snd kv))) (db_map db)) ms ->
  exists db1, db_load db0 (jprint (JObj ms)) None = (db1, None) /\ same_contents db1 db /\ db_marshal db1 = db_marshal db.
Proof.
  intros [v d] db0 ms (m & Hv & Hn & Hf) HP. cbn in Hv. subst v. unfold db_map in HP. cbn [db_values] in HP.
  destruct (Permutation_map_inv _ _ (Permutation_sym HP)) as (m1 & -> & P). assert (Hn1 : NoDup (map fst m1)) by (apply (Permutation_NoDup (Permutation_map fst P)); exact Hn).
  assert (Hf1 : Forall (fun kv => 0 <= fst kv < 2 ^ 24 /\ info_ok (snd kv)) m1) by (apply (Permutation_Forall P); exact Hf).
  exists (mkDB (Some m1) (db_dirty db0)). assert (Hs : same_contents (mkDB (Some m1) (db_dirty db0)) (mkDB (Some m) d)).
  { intros a. rewrite !db_get_mget. unfold db_map. cbn [db_values]. rewrite (mget_perm m m1 Hn P). reflexivity. }
  split; [|split; [exact Hs|]].
  - unfold db_load, db_unmarshal. rewrite json_parse_print.
    + pose proof (decode_map_members m1 [] Hn1 Hf1) as H. rewrite map_map in H. cbn [fst snd app] in H. rewrite H. reflexivity.
    + apply wf_obj. apply Forall_map. eapply Forall_impl; [|exact Hf1]. intros [k i] [_ (_ & H0 & H1 & _)]. cbn [fst snd] in *. split; [apply addr_string_ascii|apply info_json_wf; assumption].
  - apply C90_text_is_contents; [exists m1; auto|exists m; auto|exact Hs].
Qed.
Example C90_file_in_any_order_case : let db := mkDB (Some [(0x112233, mkDI 0x112233 1 2 3 2); (0x445566, mkDI 0x445566 2 1 5 1)]) true in
  db_ok db /\ exists ms, Permutation (map (fun kv => (addr_string (fst kv), info_json (snd kv))) (db_map db)) ms /\ jprint (JObj ms) <> db_marshal db.
Proof.
  cbn zeta. split; [apply C90_text_is_contents_case|]. eexists. split; [apply perm_swap|]. vm_compute. discriminate.
Qed.

(** * The order in which devices are stored *)

(** Storing one after the other. *)
Fixpoint puts (db : memdb) (xs : list dinfo) : outcome memdb :=
  match xs with [] => Ret db | x :: t => match db_put db x with Ret db1 => puts db1 t | Panic => Panic | NoFuel => NoFuel end end.
Lemma put_get : forall db x db1, db_put db x = Ret db1 ->
  forall a, db_get db1 a = if a =? di_addr x then (if dinfo_eqb (fst (db_get db (di_addr x))) x then db_get db (di_addr x) else (x, true)) else db_get db a.
Proof.
  intros db x db1 H a. unfold db_put in H. destruct (dinfo_eqb (fst (db_get db (di_addr x))) x) eqn:E.
  - injection H as <-. destruct (a =? di_addr x) eqn:Ea; [|reflexivity]. apply Z.eqb_eq in Ea. subst a. reflexivity.
  - unfold db_get, db_map in *. destruct (db_values db) as [m|]; [|discriminate]. injection H as <-. cbn [db_values]. rewrite mget_mset. destruct (a =? di_addr x); reflexivity.
Qed.
Lemma put_same : forall d d' x d1 d1', same_contents d d' -> db_put d x = Ret d1 -> db_put d' x = Ret d1' -> same_contents d1 d1'.
Proof. intros d d' x d1 d1' H E E' a. rewrite (put_get _ _ _ E a), (put_get _ _ _ E' a), !H. reflexivity. Qed.
Lemma put_total : forall db x, db_ok db -> info_ok x -> exists db1, db_put db x = Ret db1 /\ db_ok db1.
Proof.
  intros db x Hd Hx. destruct (db_put db x) as [db1| |] eqn:E.
  - exists db1. split; [reflexivity|]. apply (C40_puts_ok db x db1 Hd Hx E).
  - destruct Hd as (m & Hv & _). unfold db_put in E. rewrite Hv in E. destruct (dinfo_eqb _ _); discriminate.
  - unfold db_put in E. destruct (dinfo_eqb _ _); [discriminate|]. destruct (db_values db); discriminate.
Qed.
Lemma puts_total : forall xs db, db_ok db -> Forall info_ok xs -> exists db1, puts db xs = Ret db1 /\ db_ok db1.
Proof.
  induction xs as [|x t IH]; intros db Hd Hf; [exists db; auto|]. inversion Hf as [|? ? Hx Ht]; subst. destruct (put_total db x Hd Hx) as (d1 & E & H1).
  cbn [puts]. rewrite E. apply IH; assumption.
Qed.
Lemma puts_same : forall xs d d', db_ok d -> db_ok d' -> Forall info_ok xs -> same_contents d d' ->
  forall d1 d1', puts d xs = Ret d1 -> puts d' xs = Ret d1' -> same_contents d1 d1'.
Proof.
  induction xs as [|x t IH]; intros d d' Hd Hd' Hf Hs d1 d1' E E'; [cbn [puts] in *; injection E as <-; injection E' as <-; exact Hs|].
  inversion Hf as [|? ? Hx Ht]; subst. destruct (put_total d x Hd Hx) as (e & P & He). destruct (put_total d' x Hd' Hx) as (e' & P' & He').
  cbn [puts] in *. rewrite P in E. rewrite P' in E'. apply (IH e e'); try assumption. apply (put_same d d' x); assumption.
Qed.
(** Storing devices with different addresses in another order leads to the same answers and the same file. *)
Theorem C90_stored_in_any_order : forall db xs ys, db_ok db -> Forall info_ok xs -> NoDup (map di_addr xs) -> Permutation xs ys ->
  exists d1 d2, puts db xs = Ret d1 /\ puts db ys = Ret d2 /\ same_contents d1 d2 /\ db_marshal d1 = db_marshal d2.
Proof.
  intros db xs ys Hd Hf Hn HP. assert (Hfy : Forall info_ok ys) by (apply (Permutation_Forall HP); exact Hf).
  destruct (puts_total xs db Hd Hf) as (d1 & E1 & H1). destruct (puts_total ys db Hd Hfy) as (d2 & E2 & H2). exists d1, d2.
  assert (Hs : same_contents d1 d2).
  { clear H1 H2. revert db Hd d1 d2 E1 E2. induction HP as [|x l l' HP IH|x y l|l1 l2 l3 P1 IH1 P2 IH2]; intros db Hd d1 d2 E1 E2.
    - cbn [puts] in *. intros a. congruence.
    - inversion Hf as [|? ? Hx Ht]; inversion Hfy as [|? ? _ Ht']; subst. cbn [map] in Hn. inversion Hn as [|? ? _ Hn1]; subst. cbn [puts] in *. destruct (put_total db x Hd Hx) as (e & P & He).
      rewrite P in *. apply (IH Ht Hn1 Ht' e He); assumption.
    - inversion Hf as [|? ? Hy Hf1]; subst. inversion Hf1 as [|? ? Hx Hl]; subst. cbn [map] in Hn. inversion Hn as [|? ? Hyx Hn1]; subst.
      assert (Hne : di_addr y <> di_addr x) by (intros E; apply Hyx; left; symmetry; exact E).
      destruct (put_total db y Hd Hy) as (a1 & P1 & Ha1). destruct (put_total a1 x Ha1 Hx) as (a2 & P2 & Ha2).
      destruct (put_total db x Hd Hx) as (b1 & Q1 & Hb1). destruct (put_total b1 y Hb1 Hy) as (b2 & Q2 & Hb2).
      cbn [puts] in *. rewrite P1, P2 in E1. rewrite Q1, Q2 in E2. apply (puts_same l a2 b2); try assumption.
      intros a. rewrite (put_get _ _ _ P2 a), (put_get _ _ _ Q2 a). rewrite !(put_get _ _ _ P1), !(put_get _ _ _ Q1).
      replace (di_addr x =? di_addr y) with false by lia. replace (di_addr y =? di_addr x) with false by lia.
      destruct (a =? di_addr x) eqn:Ex, (a =? di_addr y) eqn:Ey; try reflexivity. lia.
    - assert (Hf2 : Forall info_ok l2) by (apply (Permutation_Forall P1); exact Hf). assert (Hn2 : NoDup (map di_addr l2)) by (apply (Permutation_NoDup (Permutation_map di_addr P1)); exact Hn).
      destruct (puts_total l2 db Hd Hf2) as (d & E & _). intros a. transitivity (db_get d a); [apply (IH1 Hf Hn Hf2 db Hd _ _ E1 E)|apply (IH2 Hf2 Hn2 Hfy db Hd _ _ E E2)]. }
  split; [exact E1|]. split; [exact E2|]. split; [exact Hs|]. apply C90_text_is_contents; assumption.
Qed.
Example C90_stored_in_any_order_case : let a := mkDI 0x112233 1 2 3 2 in let b := mkDI 0x445566 2 1 5 1 in
  db_ok new_memdb /\ Forall info_ok [a; b] /\ NoDup (map di_addr [a; b]) /\ Permutation [a; b] [b; a] /\ puts new_memdb [a; b] <> puts new_memdb [b; a].
Proof.
  cbn zeta. split; [exists []; repeat split; constructor|]. split; [repeat constructor; cbn; unfold is_byte; lia|]. split; [repeat constructor; cbn; intuition lia|].
  split; [constructor|discriminate].
Qed.
(** With the same address it does matter: the last one counts. *)
Theorem C90_same_address_refuted : exists a b d1 d2, info_ok a /\ info_ok b /\ di_addr a = di_addr b /\ puts new_memdb [a; b] = Ret d1 /\ puts new_memdb [b; a] = Ret d2 /\
  db_marshal d1 <> db_marshal d2.
Proof.
  exists (mkDI 5 1 2 3 2), (mkDI 5 1 2 4 2). eexists _, _. split; [unfold info_ok, is_byte; cbn; lia|]. split; [unfold info_ok, is_byte; cbn; lia|]. split; [reflexivity|].
  split; [reflexivity|]. split; [reflexivity|]. vm_compute. discriminate.
Qed.

(** * Conditions and filters *)

(** The order of the conditions of Or and And does not matter, nor how often each is given. *)
Theorem C90_conditions : forall l l' m, (forall p, In p l <-> In p l') -> or_matcher l m = or_matcher l' m /\ and_matcher l m = and_matcher l' m.
Proof.
  assert (Ho : forall l m, or_matcher l m = true <-> exists p, In p l /\ p m = true).
  { intros l m. induction l as [|p t IH]; cbn [or_matcher]; [split; [discriminate|intros (p & [] & _)]|]. destruct (p m) eqn:E.
    - split; [intros _; exists p; split; [left; reflexivity|exact E]|reflexivity].
    - rewrite IH. split; intros (q & Hq & H); exists q; [split; [right; exact Hq|exact H]|]. destruct Hq as [<-|Hq]; [congruence|auto]. }
  assert (Ha : forall l m, and_matcher l m = false <-> exists p, In p l /\ p m = false).
  { intros l m. induction l as [|p t IH]; cbn [and_matcher]; [split; [discriminate|intros (p & [] & _)]|]. destruct (p m) eqn:E; cbn [negb].
    - rewrite IH. split; intros (q & Hq & H); exists q; [split; [right; exact Hq|exact H]|]. destruct Hq as [<-|Hq]; [congruence|auto].
    - split; [intros _; exists p; split; [left; reflexivity|exact E]|reflexivity]. }
  intros l l' m H. split.
  - apply eq_true_iff_eq. rewrite !Ho. split; intros (p & Hp & Hm); exists p; split; try exact Hm; apply H; exact Hp.
  - destruct (and_matcher l m) eqn:E1, (and_matcher l' m) eqn:E2; try reflexivity; exfalso.
    + apply Ha in E2. destruct E2 as (p & Hp & Hm). assert (X : and_matcher l m = false) by (apply Ha; exists p; split; [apply H; exact Hp|exact Hm]). congruence.
    + apply Ha in E1. destruct E1 as (p & Hp & Hm). assert (X : and_matcher l' m = false) by (apply Ha; exists p; split; [apply H; exact Hp|exact Hm]). congruence.
Qed.
Example C90_conditions_case : let p := cmd_matcher 0x0100 in let q := dst_matcher 5 in let m := mkMsg 1 5 0 0x0200 [] in
  (forall x, In x [p; q] <-> In x [q; p; q]) /\ or_matcher [q; p; q] m = true /\ and_matcher [q; p; q] m = false.
Proof. cbn zeta. split; [intros x; cbn [In]; tauto|]. split; reflexivity. Qed.

(** Setting the hop counts and trying again may be put in either order. *)
Theorem C90_hops_and_retries : forall W (mw : mwriter W) t n, same_writer (ttl_filter t (retry_filter n mw)) (retry_filter n (ttl_filter t mw)).
Proof.
  intros W mw t n. split; [reflexivity|]. intros m w. cbn [ttl_filter retry_filter mw_write]. generalize (S (Z.to_nat n)) as fuel. intros fuel. revert n w.
  induction fuel as [|k IH]; intros n w; [reflexivity|]. cbn [retry_writes]. unfold pbind.
  change (mw_write (ttl_filter t mw) m w) with (mw_write mw (ttl_message t m) w). destruct (mw_write mw _ w) as [[[a e]| |] w1]; try reflexivity.
  destruct (negb (err_is e EDevReadTimeout)); [reflexivity|]. destruct (1 <? n); [apply IH|reflexivity].
Qed.

(** ic (cmd/ic/main.go:108) and iwalk (cmd/iwalk/main.go:80) apply the two in different orders, and get connections that behave alike. *)
Theorem C90_both_tools : forall W (mw : mwriter W) t, same_writer (apply_filters [ttl_filter t; retry_filter 3] mw) (apply_filters [retry_filter 3; ttl_filter t] mw).
Proof.
  intros W mw t. destruct (C90_hops_and_retries W mw t 3) as [R H]. cbn [apply_filters fold_left]. split; intros; symmetry; [apply R|apply H].
Qed.
(** The filter of duplicates is not independent of retrying: it remembers what is written, and outside it remembers a message once, inside
    once for each try. *)
Theorem C90_duplicates_and_retries_refuted : exists m, let deaf := mkMW (pret (None, Some EDevReadTimeout)) (fun _ n => (Ret (None, Some EDevReadTimeout), S n)) in
  let inside := retry_filter 3 (dup_filter 5 deaf) in let outside := dup_filter 5 (retry_filter 3 deaf) in
  map snd (c_msgs (fst (snd (mw_write outside m (dup_cache, 0%nat))))) = [m] /\ map snd (c_msgs (fst (snd (mw_write inside m (dup_cache, 0%nat))))) = [m; m; m] /\
  snd (snd (mw_write outside m (dup_cache, 0%nat))) = snd (snd (mw_write inside m (dup_cache, 0%nat))).
Proof. exists (mkMsg 1 2 0x0f 3 []). vm_compute. auto. Qed.

(** Retrying the retries: one inside the other tries as often as the product says, so their order does not matter. *)
Fixpoint attempts {W} (next : mwriter W) (m : message) (n : nat) : prog W mresult :=
  match n with
  | O => mw_write next m
  | S k => do (a, e) <- mw_write next m ;; if err_is e EDevReadTimeout then attempts next m k else pret (a, e)
  end.
Lemma retry_attempts : forall W (mw : mwriter W) m n fuel w, (Z.to_nat n < fuel)%nat -> retry_writes fuel mw n m w = attempts mw m (Z.to_nat (n - 1)) w.
Proof.
  intros W mw m n fuel. revert n. induction fuel as [|k IH]; intros n w Hf; [lia|]. cbn [retry_writes]. destruct (1 <? n) eqn:E.
  - replace (Z.to_nat (n - 1)) with (S (Z.to_nat (n - 1 - 1))) by lia. cbn [attempts]. unfold pbind. destruct (mw_write mw m w) as [[[a e]| |] w1]; try reflexivity.
    destruct (err_is e EDevReadTimeout); cbn [negb]; [|reflexivity]. apply IH. lia.
  - replace (Z.to_nat (n - 1)) with 0%nat by lia. cbn [attempts]. unfold pbind. destruct (mw_write mw m w) as [[[a e]| |] w1]; try reflexivity.
    destruct (negb _); reflexivity.
Qed.
Lemma attempts_more : forall W (mw : mwriter W) m a b w,
  attempts mw m (a + S b) w = (do (x, e) <- attempts mw m a ;; if err_is e EDevReadTimeout then attempts mw m b else pret (x, e)) w.
Proof.
  intros W mw m. induction a as [|a IH]; intros b w; [reflexivity|]. cbn [Nat.add attempts]. unfold pbind. destruct (mw_write mw m w) as [[[x e]| |] w1]; try reflexivity.
  destruct (err_is e EDevReadTimeout) eqn:E; [|unfold pret; rewrite E; reflexivity]. rewrite IH. reflexivity.
Qed.
Lemma attempts_nested : forall W (mw next : mwriter W) m j n w, (forall w, mw_write next m w = attempts mw m j w) -> attempts next m n w = attempts mw m (n + (S n * j)) w.
Proof.
  intros W mw next m j n. induction n as [|n IH]; intros w H; cbn [attempts].
  - rewrite H. f_equal. lia.
  - replace (S n + S (S n) * j)%nat with (j + S (n + S n * j))%nat by lia. rewrite attempts_more. unfold pbind. rewrite H.
    destruct (attempts mw m j w) as [[[x e]| |] w1]; try reflexivity. destruct (err_is e EDevReadTimeout); [|reflexivity]. apply IH. exact H.
Qed.
Theorem C90_retries_multiply : forall W (mw : mwriter W) n k,
  same_writer (retry_filter n (retry_filter k mw)) (retry_filter (Z.max 1 n * Z.max 1 k) mw) /\
  same_writer (retry_filter n (retry_filter k mw)) (retry_filter k (retry_filter n mw)).
Proof.
  assert (H : forall W (mw : mwriter W) n k, same_writer (retry_filter n (retry_filter k mw)) (retry_filter (Z.max 1 n * Z.max 1 k) mw)).
  { intros W mw n k. split; [reflexivity|]. intros m w. unfold retry_filter at 1 3. cbn [mw_write].
    rewrite !retry_attempts by lia. rewrite (attempts_nested W mw (retry_filter k mw) m (Z.to_nat (k - 1))).
    - f_equal. nia.
    - intros w0. unfold retry_filter. cbn [mw_write]. apply retry_attempts. lia. }
  intros W mw n k. split; [apply H|]. destruct (H W mw n k) as [R1 W1]. destruct (H W mw k n) as [R2 W2]. split; [reflexivity|].
  intros m w. rewrite W1, W2, (Z.mul_comm (Z.max 1 n)). reflexivity.
Qed.
(** A writer that counts its messages and never gets an answer: three times two. *)
Definition ex_deaf90 : mwriter nat := mkMW (pret (None, Some EDevReadTimeout)) (fun _ n => (Ret (None, Some EDevReadTimeout), S n)).
Example C90_retries_multiply_case : snd (mw_write (retry_filter 3 (retry_filter 2 ex_deaf90)) (mkMsg 1 2 0 3 []) 0%nat) = 6%nat /\
  snd (mw_write (ttl_filter 2 (retry_filter 3 ex_deaf90)) (mkMsg 1 2 0 3 []) 0%nat) = 3%nat.
Proof. split; reflexivity. Qed.

Print Assumptions C90_text_is_contents.
Print Assumptions C90_file_in_any_order.
Print Assumptions C90_stored_in_any_order.
Print Assumptions C90_same_address_refuted.
Print Assumptions C90_conditions.
Print Assumptions C90_hops_and_retries.
Print Assumptions C90_both_tools.
Print Assumptions C90_duplicates_and_retries_refuted.
Print Assumptions C90_retries_multiply.
