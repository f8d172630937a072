(** Counting the packets that the functions of util/link.go use up. *)
From Coq Require Import ZArith List Bool Lia ZifyBool ZifyNat.
From Verif Require Import GoBase GoProg Command Message Link MsgWriter BasicDevice Query PlmPacket Plm PlmProofs PlmLinkdb Database DevLinkdb UtilLink LinkText IcCmd IcDev IcLine IcWalk IcLink
  DebugLogProofs Parties EndsSpec EndsProofs EndsNetProofs.
Import ListNotations.
Open Scope Z_scope.

Section Db.
  Variable W : Type.
  Variable U : nat -> W -> W -> Prop.
  Hypothesis HU : counts U.
  Variable N : nat.
  Variable i : dinfo.
  Variables mw mw' : mwriter W.
  Hypothesis Hmw : mw_fits U N mw mw'.
  Variables n n' : nat.
  Hypothesis Hn : (N < n)%nat.
  Hypothesis Hnn : (n <= n')%nat.
  Definition U2 : nat -> linkdb * W -> linkdb * W -> Prop := fun k x y => U k (snd x) (snd y).
  Lemma HU2 : counts U2. Proof. exact (EndsProofs.HU2 W U HU). Qed.
  Lemma get2 : forall M, fits U2 M (@pfst linkdb W _ pget) (pfst pget). Proof. exact (ft_pget W U HU). Qed.
  Lemma put2 : forall M x, fits U2 M (@pfst linkdb W _ (pput x)) (pfst (pput x)). Proof. exact (ft_pput W U HU). Qed.
  Lemma write2 : forall M m, (M <= N)%nat -> fits U2 M (psnd (mw_write (bd_mw i mw) m)) (psnd (mw_write (bd_mw i mw') m)).
  Proof. intros M m HM. apply (ft_psnd W U). apply (ft_le W U HU M N); [exact HM|]. apply ft_write. exact Hmw. Qed.
  Lemma go_index_fuel : forall A (l : list A) j, go_index l j <> NoFuel.
  Proof. intros A l j. unfold go_index. repeat match goal with |- context [if ?b then _ else _] => destruct b | |- context [match ?x with _ => _ end] => destruct x end; discriminate. Qed.
  Lemma lr_marshal_fuel : forall r, lr_marshal r <> NoFuel.
  Proof. intro r. unfold lr_marshal. repeat match goal with |- context [if ?b then _ else _] => destruct b | |- context [match ?x with _ => _ end] => destruct x end; discriminate. Qed.
  Ltac step := pose proof HU2; ft; try apply get2; try apply put2; try (apply write2; lia); try (apply ft_lift; [apply HU2|first [apply lr_marshal_fuel|apply go_index_fuel]]).

  Lemma refresh2 : forall now, fits U2 N (ld_refresh n (bd_mw i mw) now) (ld_refresh n' (bd_mw i mw') now).
  Proof.
    intro now. unfold ld_refresh. step. apply (ft_le _ U2 HU2 N (n - 1)); [lia|]. apply (ft_refresh_loop W U HU N i mw mw' Hmw n n'); assumption.
  Qed.
  Lemma links2 : forall now, fits U2 N (ld_get_links n (bd_mw i mw) now) (ld_get_links n' (bd_mw i mw') now).
  Proof. intro now. unfold ld_get_links. pose proof HU2. ft; [apply refresh2|apply get2]. Qed.
  Lemma write_link2 : forall k l, fits U2 N (ld_write_link (bd_mw i mw) k l) (ld_write_link (bd_mw i mw') k l).
  Proof. intros k l. unfold ld_write_link. step. Qed.
  Lemma write_loop2 : forall ls k, fits U2 N (ld_write_loop (bd_mw i mw) k ls) (ld_write_loop (bd_mw i mw') k ls).
  Proof. induction ls as [|l ls IH]; intro k; cbn [ld_write_loop]; step; first [apply write_link2|apply IH]. Qed.
  Lemma write_links2 : forall now ls, fits U2 N (ld_write_links (bd_mw i mw) now ls) (ld_write_links (bd_mw i mw') now ls).
  Proof. intros now ls. unfold ld_write_links. step; first [apply write_loop2|apply write_link2]. Qed.
  Lemma match2 : forall todo kept, fits U2 N (ld_update_match (bd_mw i mw) kept todo) (ld_update_match (bd_mw i mw') kept todo).
  Proof. induction todo as [|l t IH]; intro kept; cbn [ld_update_match]; step; first [apply write_link2|apply IH]. Qed.
  Lemma fill2 : forall m k ls, fits U2 N (ld_update_fill (bd_mw i mw) m k ls) (ld_update_fill (bd_mw i mw') m k ls).
  Proof. induction m as [|m IH]; intros k ls; cbn [ld_update_fill]; step; first [apply write_link2|apply IH]. Qed.
  Lemma append2 : forall ls k e, fits U2 N (ld_update_append (bd_mw i mw) k ls e) (ld_update_append (bd_mw i mw') k ls e).
  Proof. induction ls as [|l ls IH]; intros k e; cbn [ld_update_append]; step; first [apply write_link2|apply IH]. Qed.
  Lemma update2 : forall now ls, fits U2 N (ld_update_links n (bd_mw i mw) now ls) (ld_update_links n' (bd_mw i mw') now ls).
  Proof. intros now ls. unfold ld_update_links. step; first [apply refresh2|apply match2|apply fill2|apply append2|apply write_link2]. Qed.
End Db.

(** Everything a [Linkable] can be asked. *)
Definition all_fits {W} (U : nat -> W -> W -> Prop) (N : nat) (l l' : linkable W) : Prop :=
  lk_id l = lk_id l' /\ fits U N (lk_address l) (lk_address l') /\ (forall g, fits U N (lk_enter l g) (lk_enter l' g)) /\
  (forall g, fits U N (lk_unlink l g) (lk_unlink l' g)) /\ fits U N (lk_exit l) (lk_exit l') /\ fits U N (lk_links l) (lk_links l') /\
  (forall ls, fits U N (lk_update l ls) (lk_update l' ls)) /\ (forall ls, fits U N (lk_write l ls) (lk_write l' ls)) /\
  match lk_write_one l, lk_write_one l' with Some w, Some w' => forall k x, fits U N (w k x) (w' k x) | None, None => True | _, _ => False end.

Section Util.
  Variable W : Type.
  Variable U : nat -> W -> W -> Prop.
  Hypothesis HU : counts U.
  Variable N : nat.
  Notation ok := (all_fits U N).
  Ltac parts H := destruct H as (?Hid & ?Ha & ?He & ?Hu & ?Hx & ?Hl & ?Hup & ?Hw & ?Hone).
  Ltac sub := ft; eauto.

  Lemma find_fits : forall l l' c a g, ok l l' -> fits U N (find_link_record l c a g) (find_link_record l' c a g).
  Proof. intros l l' c a g H. parts H. unfold find_link_record. sub. Qed.
  Lemma dup_fits : forall l l' eq, ok l l' -> fits U N (find_duplicate_links l eq) (find_duplicate_links l' eq).
  Proof. intros l l' eq H. parts H. unfold find_duplicate_links. sub. Qed.
  Lemma force_all : forall g c c' r r', ok c c' -> ok r r' -> fits U N (force_link g c r) (force_link g c' r').
  Proof. intros g c c' r r' H1 H2. parts H1. parts H2. unfold force_link. sub. Qed.
  Lemma unlink_fits : forall g c c' r r', ok c c' -> ok r r' -> fits U N (unlink g c r) (unlink g c' r').
  Proof. intros g c c' r r' H1 H2. parts H1. parts H2. unfold unlink. sub. Qed.
  Lemma unlink_all_fits : forall c c' r r', ok c c' -> ok r r' -> fits U N (unlink_all c r) (unlink_all c' r').
  Proof.
    intros c c' r r' H1 H2. assert (L : forall ls e, fits U N (unlink_loop c r ls e) (unlink_loop c' r' ls e)).
    { induction ls as [|l ls IH]; intro e; cbn [unlink_loop]; pose proof H2 as H3; parts H3; sub; apply unlink_fits; assumption. }
    pose proof H1 as H3. parts H3. unfold unlink_all. sub.
  Qed.
  Lemma remove_fits : forall l l' ls, ok l l' -> fits U N (remove_links l ls) (remove_links l' ls).
  Proof.
    intros l l' ls H. parts H. unfold remove_links.
    assert (L : forall xs k, fits U N (remove_loop (lk_write_one l) k xs ls) (remove_loop (lk_write_one l') k xs ls)).
    { induction xs as [|x xs IH]; intro k; cbn [remove_loop]; destruct (lk_write_one l), (lk_write_one l'); try contradiction; sub. }
    sub.
  Qed.
  Lemma add_fits : forall l l' ls, ok l l' -> fits U N (add_links l ls) (add_links l' ls).
  Proof.
    intros l l' ls H. parts H. unfold add_links. apply ft_bind; [exact HU|exact Hl|]. intros [ex [e|]]; [apply ft_ret; exact HU|].
    destruct (lk_write_one l) as [w|], (lk_write_one l') as [w'|]; try contradiction.
    - assert (L : forall xs k ys, fits U N (add_fill w k xs ys) (add_fill w' k xs ys)).
      { induction xs as [|x xs IH]; intros k ys; cbn [add_fill]; [apply ft_ret; exact HU|]. destruct ys; sub. }
      assert (L2 : forall ys k e, fits U N (add_append w k ys e) (add_append w' k ys e)) by (induction ys as [|y ys IH]; intros k e; cbn [add_append]; sub).
      sub.
    - destruct (add_merge ex ls) as [a b]. destruct (a ++ b); sub.
  Qed.
  Lemma link_fits : forall g c c' r r', ok c c' -> ok r r' -> fits U N (link_devices g c r) (link_devices g c' r').
  Proof.
    intros g c c' r r' H1 H2. pose proof H1 as H3. pose proof H2 as H4. parts H3. parts H4. unfold link_devices.
    ft; first [assumption|apply find_fits; assumption|apply remove_fits; assumption|apply force_all; assumption].
  Qed.
  Lemma cross_fits : forall g c c' r r', ok c c' -> ok r r' -> fits U N (cross_link g c r) (cross_link g c' r').
  Proof. intros g c c' r r' H1 H2. unfold cross_link. cbv zeta. ft; apply link_fits; assumption. Qed.
  Lemma cross_all_fits : forall g ds ds', Forall2 ok ds ds' -> fits U N (cross_link_all g ds) (cross_link_all g ds').
  Proof.
    intros g. assert (L : forall d d', ok d d' -> forall ds ds', Forall2 ok ds ds' -> fits U N (cross_link_one g d ds) (cross_link_one g d' ds')).
    { intros d d' Hd ds ds' H. induction H as [|x x' t t' Hx Ht IH]; cbn [cross_link_one]; [apply ft_ret; exact HU|].
      rewrite <- (proj1 Hd), <- (proj1 Hx). ft; try exact IH; apply cross_fits; assumption. }
    intros ds ds' H. induction H as [|x x' t t' Hx Ht IH]; cbn [cross_link_all]; [apply ft_ret; exact HU|]. ft; try exact IH. apply L; [exact Hx|constructor; assumption].
  Qed.
  Lemma edit_fits : forall l l' edit, ok l l' -> (forall t, fits U N (edit t) (edit t)) -> fits U N (ic_edit l edit) (ic_edit l' edit).
  Proof. intros l l' edit H Hed. parts H. unfold ic_edit. cbv zeta. sub. Qed.
End Util.

(** ** The members *)
Lemma on_dev_fits : forall sc N A k (p p' : prog (linkdb * plm) A), fits (@used2 linkdb sc) N p p' -> fits (@used2 memory sc) N (on_dev k p) (on_dev k p').
Proof.
  intros sc N A k p p' Hp [m st] r w' H. unfold on_dev in H |- *. destruct (p (me_dev m k, st)) as [o [db st1]] eqn:E. injection H as <- <-.
  destruct (Hp _ _ _ E) as [H1 H2]. split; [exact H1|]. destruct o; [|rewrite H2; reflexivity|exact H2]. destruct H2 as (a' & H2 & ->). rewrite H2. eexists. split; reflexivity.
Qed.
Lemma on_plm_fits : forall sc N A (p p' : prog (plmdb * plm) A), fits (@used2 plmdb sc) N p p' -> fits (@used2 memory sc) N (on_plm p) (on_plm p').
Proof.
  intros sc N A p p' Hp [m st] r w' H. unfold on_plm in H |- *. destruct (p (me_modem m, st)) as [o [db st1]] eqn:E. injection H as <- <-.
  destruct (Hp _ _ _ E) as [H1 H2]. split; [exact H1|]. destruct o; [|rewrite H2; reflexivity|exact H2]. destruct H2 as (a' & H2 & ->). rewrite H2. eexists. split; reflexivity.
Qed.
Lemma plain_fits : forall W (U : nat -> W -> W -> Prop) N A (p : prog W A), (forall w r w', p w = (r, w') -> U O w w' /\ r <> NoFuel) -> fits U N p p.
Proof. intros W U N A p Hp w r w' H. destruct (Hp _ _ _ H) as [H1 H2]. split; [exact H1|]. destruct r; [eexists; split; [exact H|reflexivity]|exact H|congruence]. Qed.
Lemma retry_plain : forall sc k nak pkt st r st', pw_write (retry (plm_pw sc) k nak) pkt st = (r, st') -> used sc O st st' /\ r <> NoFuel.
Proof.
  intros sc k nak pkt st r st' H. unfold retry in H. cbn [pw_write] in H. split; [exact (retry_used _ _ _ _ _ _ _ _ H)|]. intros ->. exact (retry_fuel _ _ _ _ _ _ _ H).
Qed.
Ltac plain := intros; match goal with H : context [pw_write (retry ?a ?b ?c) ?d ?e] |- _ => destruct (pw_write (retry a b c) d e) as [?o ?st1] eqn:?E end;
  match goal with E : pw_write (retry _ _ _) _ _ = _ |- _ => apply retry_plain in E; destruct E as [?H1 ?H2] end.
Lemma info_plain : forall sc st r st', plm_info sc st = (r, st') -> used sc O st st' /\ r <> NoFuel.
Proof.
  unfold plm_info. plain. destruct o as [[[a|] [e|]]| |]; try (injection H as <- <-; split; [exact H1|discriminate]); [|congruence].
  injection H as <- <-. split; [exact H1|]. unfold info_unmarshal. repeat match goal with |- context [match ?x with _ => _ end] => destruct x end; discriminate.
Qed.
Lemma config_plain : forall sc st r st', plm_config sc st = (r, st') -> used sc O st st' /\ r <> NoFuel.
Proof. unfold plm_config. plain. destruct o as [[[a|] [e|]]| |]; try (injection H as <- <-; split; [exact H1|discriminate]). congruence. Qed.
Lemma set_config_plain : forall sc c st r st', plm_set_config sc c st = (r, st') -> used sc O st st' /\ r <> NoFuel.
Proof. unfold plm_set_config. plain. destruct o as [[a e]| |]; try (injection H as <- <-; split; [exact H1|discriminate]). congruence. Qed.
Lemma reset_plain : forall sc st r st', plm_reset sc st = (r, st') -> used sc O st st' /\ r <> NoFuel.
Proof. unfold plm_reset. plain. destruct o as [[a e]| |]; try (injection H as <- <-; split; [exact H1|discriminate]). congruence. Qed.
Lemma address_plain : forall sc st r st', plm_address sc st = (r, st') -> used sc O st st' /\ r <> NoFuel.
Proof.
  intros sc st r st' H. unfold plm_address in H. destruct (p_addr st =? 0); [|injection H as <- <-; split; [apply used_counts|discriminate]].
  destruct (plm_info sc st) as [o st1] eqn:E. destruct (info_plain _ _ _ _ E) as [H1 H2].
  destruct o as [[[a|] [e|]]| |]; try (injection H as <- <-; split; [exact H1|discriminate]). congruence.
Qed.
Lemma write_links_fits : forall sc N ls, fits (@used2 plmdb sc) N (pdb_write_links (plm_pw sc) ls) (pdb_write_links (plm_pw sc) ls).
Proof.
  intros sc N ls. pose proof (used2_counts plmdb sc) as HU. pose proof (used_counts sc) as HU1.
  assert (Hget : fits (@used2 plmdb sc) N (pfst pget) (pfst pget)) by (intros w r w' H; injection H as <- <-; split; [apply used_counts|]; eexists; split; reflexivity).
  assert (Hput : forall x, fits (@used2 plmdb sc) N (pfst (pput x)) (pfst (pput x))) by (intros x w r w' H; injection H as <- <-; split; [apply used_counts|]; eexists; split; reflexivity).
  assert (D : forall xs, fits (used sc) N (delete_all (plm_pw sc) xs) (delete_all (plm_pw sc) xs)).
  { induction xs as [|x xs IH]; cbn [delete_all]; ft. apply retry_fits. }
  assert (O1 : forall l, fits (used sc) N (write_one (plm_pw sc) l) (write_one (plm_pw sc) l)) by (intro l; unfold write_one; ft; apply retry_fits).
  assert (A : forall xs, fits (@used2 plmdb sc) N (write_all (plm_pw sc) xs) (write_all (plm_pw sc) xs)).
  { induction xs as [|x xs IH]; cbn [write_all]; ft; auto. apply psnd_fits, O1. }
  unfold pdb_write_links. ft; auto. apply psnd_fits, D.
Qed.
Lemma member_fits : forall sc N k k' n n' now p, (N < k)%nat -> (k <= k')%nat -> (N < n)%nat -> (n <= n')%nat ->
  all_fits (@used2 memory sc) N (member_lk k n sc now p) (member_lk k' n' sc now p).
Proof.
  intros sc N k k' n n' now p HN Hk Hn Hnn. pose proof (used_counts sc) as HU. pose proof (used2_counts memory sc) as HU2.
  assert (Hmw : mw_fits (used sc) N (plm_mw k sc) (plm_mw k' sc)) by (apply plm_fits; lia). destruct p as [j i|]; unfold all_fits; cbn [member_lk]; cbv zeta;
    cbn [lk_id lk_address lk_enter lk_unlink lk_exit lk_links lk_update lk_write lk_write_one].
  - split; [reflexivity|]. split; [apply ft_ret; exact HU2|]. split; [intro g; apply psnd_fits, ft_enter; assumption|]. split; [intro g; apply psnd_fits, ft_unenter; assumption|].
    split; [apply psnd_fits, ft_exit; assumption|]. split; [apply on_dev_fits, (links2 _ _ HU N i _ _ Hmw); assumption|].
    split; [intro ls; apply on_dev_fits, (update2 _ _ HU N i _ _ Hmw); assumption|]. split; [intro ls; apply on_dev_fits, (write_links2 _ _ HU N i _ _ Hmw n n'); assumption|].
    intros m x. apply on_dev_fits, (write_link2 _ _ HU N i _ _ Hmw n n'); assumption.
  - assert (Hpk : forall pkt, fits (@used2 memory sc) N (psnd (do (_, err) <- pw_write (plm_pw sc) pkt ;; pret err)) (psnd (do (_, err) <- pw_write (plm_pw sc) pkt ;; pret err))).
    { intro pkt. apply psnd_fits. apply ft_bind; [exact HU|apply packet_fits|intros [x e]; apply ft_ret; exact HU]. }
    split; [reflexivity|]. split; [apply psnd_fits, plain_fits, address_plain|]. split; [intro g; apply Hpk|]. split; [intro g; apply Hpk|]. split; [apply Hpk|].
    split; [apply on_plm_fits, pdb_links_fits; assumption|]. split; [intro ls; apply on_plm_fits; apply ft_ret; apply used2_counts|]. split; [intro ls; apply on_plm_fits, write_links_fits|exact I].
Qed.

(** ** Devices as the tool opens them *)
Lemma on_device_fits : forall W (U : nat -> W -> W -> Prop) N A (p p' : prog (linkdb * W) A), fits (U2 W U) N p p' -> fits U N (on_device_db p) (on_device_db p').
Proof.
  intros W U N A p p' Hp w r w' H. unfold on_device_db in H |- *. destruct (p (linkdb_new, w)) as [o [db w1]] eqn:E. injection H as <- <-.
  destruct (Hp _ _ _ E) as [H1 H2]. split; [exact H1|]. destruct o; [|rewrite H2; reflexivity|exact H2]. destruct H2 as (a' & H2 & ->). rewrite H2. eexists. split; reflexivity.
Qed.
Lemma bdev_all : forall W (U : nat -> W -> W -> Prop) N n n' now d d', counts U -> (N < n)%nat -> (n <= n')%nat -> bdev_fits U N d d' ->
  all_fits U N (bdev_lk n now d) (bdev_lk n' now d').
Proof.
  intros W U N n n' now d d' HU Hn Hnn [Hi Hmw]. unfold all_fits, bdev_lk. cbv zeta. rewrite <- Hi. cbn [lk_id lk_address lk_enter lk_unlink lk_exit lk_links lk_update lk_write lk_write_one].
  split; [reflexivity|]. split; [apply ft_ret; exact HU|]. split; [intro g; apply ft_enter; assumption|]. split; [intro g; apply ft_unenter; assumption|].
  split; [apply ft_exit; assumption|]. split; [apply on_device_fits, (links2 _ _ HU N _ _ _ Hmw); assumption|].
  split; [intro ls; apply on_device_fits, (update2 _ _ HU N _ _ _ Hmw); assumption|]. split; [intro ls; apply on_device_fits, (write_links2 _ _ HU N _ _ _ Hmw n n'); assumption|].
  intros m x. apply on_device_fits, (write_link2 _ _ HU N _ _ _ Hmw n n'); assumption.
Qed.
Lemma nil_all : forall W (U : nat -> W -> W -> Prop) N, counts U -> all_fits U N lk_nil lk_nil.
Proof. intros W U N HU. pose proof (fun A => ft_panic W U HU N A) as HP. unfold all_fits, lk_nil. cbn [lk_id lk_address lk_enter lk_unlink lk_exit lk_links lk_update lk_write lk_write_one].
  split; [reflexivity|]. split; [apply HP|]. split; [intro; apply HP|]. split; [intro; apply HP|]. split; [apply HP|]. split; [apply HP|]. split; [intro; apply HP|]. split; [intro; apply HP|exact I].
Qed.
Lemma modem_all : forall S sc N n n' now, (N < n)%nat -> (n <= n')%nat -> all_fits (@used2 S sc) N (modem_lk n sc now) (modem_lk n' sc now).
Proof.
  intros S sc N n n' now Hn Hnn. pose proof (used_counts sc) as HU. pose proof (used2_counts S sc) as HU2. unfold all_fits, modem_lk.
  cbn [lk_id lk_address lk_enter lk_unlink lk_exit lk_links lk_update lk_write lk_write_one].
  assert (Hpk : forall pkt, fits (@used2 S sc) N (psnd (do (_, err) <- pw_write (plm_pw sc) pkt ;; pret err)) (psnd (do (_, err) <- pw_write (plm_pw sc) pkt ;; pret err))).
  { intro pkt. apply psnd_fits. apply ft_bind; [exact HU|apply packet_fits|intros [x e]; apply ft_ret; exact HU]. }
  split; [reflexivity|]. split; [apply psnd_fits, plain_fits, address_plain|]. split; [intro g; apply Hpk|]. split; [intro g; apply Hpk|]. split; [apply Hpk|].
  split; [apply on_modem_fits, pdb_links_fits; assumption|]. split; [intro ls; apply on_modem_fits; apply ft_ret; apply used2_counts|]. split; [intro ls; apply on_modem_fits, write_links_fits|exact I].
Qed.
Definition same_all {W} (U : nat -> W -> W -> Prop) (N : nat) (x y : option (linkable W) * option error) : Prop :=
  snd x = snd y /\ all_fits U N (lk_or_nil (fst x)) (lk_or_nil (fst y)).
Lemma open_all : forall sc N k k' n n' os now filters a, (N < k)%nat -> (k <= k')%nat -> (N < n)%nat -> (n <= n')%nat ->
  fits_by (used2 sc) N (same_all (used2 sc) N) (open_lk n now (db_opener k os (plm_mw k sc) filters) a) (open_lk n' now (db_opener k' os (plm_mw k' sc) filters) a).
Proof.
  intros sc N k k' n n' os now filters a HN Hk Hn Hnn. pose proof (used2_counts (fstate * memdb) sc) as HU. unfold open_lk.
  eapply by_bind; [exact HU|apply opener_fits; assumption|]. intros [x e] [y e'] [H1 H2]. cbn [fst snd] in H1, H2. subst e'. apply by_ret; [exact HU|]. split; [reflexivity|].
  cbn [fst]. destruct x as [d|], y as [d'|]; try contradiction; cbn [option_map lk_or_nil]; [|apply nil_all; exact HU]. apply bdev_all; assumption.
Qed.
Lemma ic_unlink_fits : forall sc N k k' n n' os now filters g, (N < k)%nat -> (k <= k')%nat -> (N < n)%nat -> (n <= n')%nat -> forall addrs last,
  fits (used2 sc) N (ic_unlink_loop (open_lk n now (db_opener k os (plm_mw k sc) filters)) (modem_lk n sc now) g addrs last)
    (ic_unlink_loop (open_lk n' now (db_opener k' os (plm_mw k' sc) filters)) (modem_lk n' sc now) g addrs last).
Proof.
  intros sc N k k' n n' os now filters g HN Hk Hn Hnn. pose proof (used2_counts (fstate * memdb) sc) as HU.
  induction addrs as [|a addrs IH]; intro last; cbn [ic_unlink_loop]; [apply ft_ret; exact HU|].
  eapply (by_bind _ _ HU); [apply open_all; eassumption|]. intros [x e] [y e'] [H1 H2]. cbn [fst snd] in H1, H2. subst e'.
  assert (Hone : fits (used2 sc) N
    (do e1 <- unlink g (lk_or_nil x) (modem_lk n sc now) ;; match e1 with None | Some EDevNotLinked => unlink g (modem_lk n sc now) (lk_or_nil x) | Some e => pret (Some e) end)
    (do e1 <- unlink g (lk_or_nil y) (modem_lk n' sc now) ;; match e1 with None | Some EDevNotLinked => unlink g (modem_lk n' sc now) (lk_or_nil y) | Some e => pret (Some e) end)).
  { pose proof (modem_all (fstate * memdb) sc N n n' now Hn Hnn) as HM. apply ft_bind; [exact HU|apply unlink_fits; assumption|].
    intros [e1|]; [destruct e1|]; try (apply ft_ret; exact HU); apply unlink_fits; assumption. }
  destruct e as [e|]; [destruct e|]; first [exact Hone|apply IH|apply ft_ret; exact HU].
Qed.
