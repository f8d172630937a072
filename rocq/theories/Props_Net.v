(** * C67.  On a network of cooperating devices the link operations make and undo exactly the links they are for. *)
From Coq Require Import ZArith List Bool Lia.
From Verif Require Import GoBase GoLemmas GoProg Link LinkSpec UtilLink UtilLinkSpec UtilLinkProofs NetSpec NetProofs IcCmd.
Import ListNotations.
Open Scope Z_scope.

(** From a network where nobody waits, to one where nobody waits, with exactly these records more or less. *)
Definition links_made (P : Z -> bool -> Z -> Z -> Prop) (w w' : net) : Prop := n_wait w' = None /\ well w' /\
  forall i role a h, has (n_recs w' i) role a h <-> has (n_recs w i) role a h \/ P i role a h.
Definition links_undone (P : Z -> bool -> Z -> Z -> Prop) (w w' : net) : Prop := n_wait w' = None /\ well w' /\
  forall i role a h, has (n_recs w' i) role a h <-> has (n_recs w i) role a h /\ ~ P i role a h.
Definition ready (w : net) : Prop := n_wait w = None /\ well w.
Definition addresses (addr : Z -> Z) : Prop := forall i, 0 <= addr i < 2 ^ 24.

(** Whatever records there were, a half of the link included: afterwards the link is there, no other link was made and none lost. *)
Theorem C67_link : forall s addr c r g w, stores_well s -> addresses addr -> c <> r -> is_byte g -> ready w ->
  exists w', link_devices g (party s addr true c) (party s addr true r) w = (Ret None, w') /\ links_made (part_of addr c r g) w w'.
Proof. intros s addr c r g w Hs Ha Hcr Hg [H1 H2]. apply (link_ok s addr Hs Ha); auto. Qed.
(** The same between every two of any number of devices, in both directions. *)
Theorem C67_cross_link_all : forall s addr g ds w, stores_well s -> addresses addr -> NoDup ds -> is_byte g -> ready w ->
  exists w', cross_link_all g (map (party s addr true) ds) w = (Ret None, w') /\
    links_made (fun i role a h => exists x y, In x ds /\ In y ds /\ x <> y /\ part_of addr x y g i role a h) w w'.
Proof. intros s addr g ds w Hs Ha Hn Hg [H1 H2]. apply (cross_all_ok s addr Hs Ha); auto. Qed.
Theorem C67_cross_link_all_linked : forall s addr g ds w w' e, stores_well s -> addresses addr -> NoDup ds -> is_byte g -> ready w ->
  cross_link_all g (map (party s addr true) ds) w = (Ret e, w') ->
  e = None /\ (forall x y, In x ds -> In y ds -> x <> y -> linked addr w' x y g) /\
  cross_link_all g (map (party s addr true) ds) w' = (Ret None, w').
Proof.
  intros s addr g ds w w' e Hs Ha Hn Hg Hr H. destruct (C67_cross_link_all s addr g ds w Hs Ha Hn Hg Hr) as (w1 & E & W & F & G). rewrite E in H.
  apply pair_equal_spec in H. destruct H as [H ->]. injection H as <-. split; [reflexivity|].
  assert (L : forall x y, In x ds -> In y ds -> x <> y -> linked addr w' x y g).
  { intros x y Hx Hy Hxy. split; apply G; right; exists x, y; unfold part_of; auto 10. }
  split; [exact L|]. clear - L F.
  assert (Hl : forall x y, In x ds -> In y ds -> x <> y -> link_devices g (party s addr true x) (party s addr true y) w' = (Ret None, w')).
  { intros x y Hx Hy Hxy. destruct (L x y Hx Hy Hxy) as [L1 L2]. unfold link_devices, pbind. cbn [party lk_address]. unfold pret.
    destruct (find_ok s addr true x true (addr y) g w' F) as [(l & E & _)|[_ N]]; [|contradiction]. cbn [party] in E. rewrite E.
    destruct (find_ok s addr true y false (addr x) g w' F) as [(l2 & E2 & _)|[_ N]]; [|contradiction]. cbn [party] in E2. rewrite E2. reflexivity. }
  assert (Hone : forall d es, In d ds -> (forall e, In e es -> In e ds) -> cross_link_one g (party s addr true d) (map (party s addr true) es) w' = (Ret None, w')).
  { intros d. induction es as [|e es IH]; intros Hd Hes; [reflexivity|]. cbn [map cross_link_one]. change (lk_id (party s addr true d)) with d. change (lk_id (party s addr true e)) with e.
    destruct (Z.eqb_spec d e) as [<-|Hde]; [apply IH; auto; intros; apply Hes; right; auto|]. unfold cross_link, pbind.
    rewrite (Hl d e) by (auto; apply Hes; left; reflexivity). rewrite (Hl e d) by (auto; apply Hes; left; reflexivity). apply IH; auto. intros; apply Hes; right; auto. }
  assert (Hall : forall es, (forall e, In e es -> In e ds) -> cross_link_all g (map (party s addr true) es) w' = (Ret None, w')).
  { induction es as [|e es IH]; intro Hes; [reflexivity|]. cbn [map cross_link_all]. unfold pbind. change (party s addr true e :: map (party s addr true) es) with (map (party s addr true) (e :: es)).
    rewrite Hone by (auto; apply Hes; left; reflexivity). apply IH. intros; apply Hes; right; auto. }
  apply Hall. auto.
Qed.

(** Undoing one link, and undoing all links of a device that it has records of.  A free record counts as well. *)
Theorem C67_unlink : forall s addr kc kr c r g w, stores_well s -> addresses addr -> c <> r -> ready w ->
  exists w', unlink g (party s addr kc c) (party s addr kr r) w = (Ret None, w') /\ links_undone (part_of addr c r g) w w'.
Proof. intros s addr kc kr c r g w Hs Ha Hcr [H1 H2]. apply (unlink_ok s addr Hs Ha); auto. Qed.
Theorem C67_unlink_all : forall s addr kc kr c r w, stores_well s -> addresses addr -> c <> r -> ready w ->
  exists w', unlink_all (party s addr kc c) (party s addr kr r) w = (Ret None, w') /\
    links_undone (fun i role a h => exists l, In l (n_recs w c) /\ l_addr l = addr r /\
      (if bit 6 (l_flags l) =? 1 then part_of addr c r (l_group l) i role a h else part_of addr r c (l_group l) i role a h)) w w'.
Proof.
  intros s addr kc kr c r w Hs Ha Hcr [H1 H2]. destruct (unlink_loop_ok s addr Hs Ha kc kr c r (n_recs w c) w Hcr (H2 c) H1 H2) as (w' & E & S).
  exists w'. split; [unfold unlink_all, pbind; cbn [party lk_links]; exact E|exact S].
Qed.
(** So afterwards the device itself has no record of the other, and no whole link between the two is left. *)
Theorem C67_unlink_all_clean : forall s addr kc kr c r w w' e, stores_well s -> addresses addr -> c <> r -> ready w ->
  unlink_all (party s addr kc c) (party s addr kr r) w = (Ret e, w') ->
  e = None /\ (forall role g, ~ has (n_recs w' c) role (addr r) g) /\ (forall g, ~ linked addr w' c r g /\ ~ linked addr w' r c g).
Proof.
  intros s addr kc kr c r w w' e Hs Ha Hcr Hr H. destruct (C67_unlink_all s addr kc kr c r w Hs Ha Hcr Hr) as (w1 & E & _ & _ & G). rewrite E in H.
  apply pair_equal_spec in H. destruct H as [H ->]. injection H as <-. split; [reflexivity|].
  assert (N : forall role g, ~ has (n_recs w' c) role (addr r) g).
  { intros role g X. apply G in X. destruct X as [(l & Hin & Hw) N]. apply N. pose proof Hw as (_ & H6 & Hla & Hlg). exists l. split; [exact Hin|]. split; [exact Hla|].
    rewrite H6. unfold part_of. destruct role; cbn; auto 10. }
  split; [exact N|]. intro g. split; [intros [X _]|intros [_ X]]; exact (N _ _ X).
Qed.
(** But a record only the other device has stays: the two are not clean of each other. *)
Definition plain : storing := mkStoring
  (fun role a g rs => rs ++ [mkLink (if role then 0xe2 else 0xa2) g a 0 0 0])
  (fun role a g rs => filter (fun l => negb ((bit 7 (l_flags l) =? 1) && (bit 6 (l_flags l) =? (if role then 1 else 0)) && (l_addr l =? a) && (l_group l =? g))) rs).
Lemma plain_well : stores_well plain.
Proof.
  split; [|split; [|split]]; intros role a g rs; cbn [plain st_put st_del].
  - intros H Ha Hg. apply Forall_app. split; [exact H|]. constructor; [|constructor]. unfold link_wf, is_byte in *. destruct role; cbn; lia.
  - intro H. rewrite Forall_forall in *. intros l Hl. apply filter_In in Hl. apply H, Hl.
  - intros x b h. split.
    + intros (l & Hin & Hw). apply in_app_iff in Hin. destruct Hin as [Hin|[<-|[]]]; [left; exists l; auto|]. right. destruct Hw as (_ & H6 & H1 & H2). cbn in H1, H2.
      split; [|auto]. destruct role, x; cbn in H6; auto; discriminate.
    + intros [(l & Hin & Hw)|(-> & -> & ->)]; [exists l; split; [apply in_app_iff; auto|exact Hw]|].
      eexists. split; [apply in_app_iff; right; left; reflexivity|]. destruct role; repeat split.
  - intros x b h. split.
    + intros (l & Hin & Hw). apply filter_In in Hin. destruct Hin as [Hin Hf]. split; [exists l; auto|]. intros (-> & -> & ->). destruct Hw as (H7 & H6 & H1 & H2).
      rewrite H7, H6, H1, H2, !Z.eqb_refl in Hf. discriminate Hf.
    + intros [(l & Hin & Hw) N]. exists l. split; [|exact Hw]. apply filter_In. split; [exact Hin|]. destruct Hw as (H7 & H6 & H1 & H2).
      rewrite H7, H6, H1, H2. apply Bool.negb_true_iff, Bool.not_true_iff_false. intro E. apply N. rewrite !Bool.andb_true_iff, !Z.eqb_eq in E.
      destruct E as (((_ & E6) & E1) & E2). split; [destruct role, x; auto; discriminate|auto].
Qed.
Definition ex_addr (i : Z) : Z := 0x010000 + i mod 65536.
Definition ex_net67 : net := mkNet (fun i => if i =? 2 then [mkLink 0xa2 7 (ex_addr 1) 0 0 0] else []) None.
Theorem C67_unlink_all_half_refuted : exists w', unlink_all (party plain ex_addr true 1) (party plain ex_addr true 2) ex_net67 = (Ret None, w') /\
  ready ex_net67 /\ has (n_recs w' 2) false (ex_addr 1) 7.
Proof.
  eexists. split; [reflexivity|]. split.
  - split; [reflexivity|]. intro i. cbn [n_recs ex_net67]. destruct (i =? 2); [constructor; [|constructor]|constructor]. unfold link_wf, is_byte, ex_addr. cbn. lia.
  - eexists. split; [left; reflexivity|]. repeat split.
Qed.

(** The command [link] of the tool, with the modem (whose records cannot be changed one by one) and one device. *)
Theorem C67_tool_links : forall s addr c r dev modem a g w, stores_well s -> addresses addr -> dev <> modem -> is_byte g -> ready w ->
  exists w', ic_link (fun _ => pret (Some (party s addr true dev), None)) (party s addr false modem) c r g [a] w = (Ret None, w') /\
    links_made (fun i role b h => (c = true /\ part_of addr modem dev g i role b h) \/ (r = true /\ part_of addr dev modem g i role b h)) w w'.
Proof.
  intros s addr c r dev modem a g w Hs Ha Hdm Hg [H1 H2]. cbn [ic_link]. unfold pbind, pret. cbn [lk_or_nil]. unfold ic_link_one, pbind.
  assert (G0 : exists w1, (if c then force_link g (party s addr false modem) (party s addr true dev) else pret None) w = (Ret None, w1) /\
    links_made (fun i role b h => c = true /\ part_of addr modem dev g i role b h) w w1).
  { destruct c.
    - destruct (force_ok s addr Hs Ha false true modem dev g w) as (w1 & E & G); auto. exists w1. split; [exact E|]. destruct G as (G1 & G2 & G3). split; [exact G1|]. split; [exact G2|].
      intros i role b h. rewrite G3. tauto.
    - exists w. split; [reflexivity|]. split; [exact H1|]. split; [exact H2|]. intros i role b h. split; [auto|]. intros [X|[X _]]; [exact X|discriminate]. }
  destruct G0 as (w1 & -> & W1 & F1 & G1). destruct r.
  - destruct (force_ok s addr Hs Ha true false dev modem g w1) as (w2 & E & G); auto. exists w2. split; [exact E|]. destruct G as (G2 & G3 & G4). split; [exact G2|]. split; [exact G3|].
    intros i role b h. rewrite G4, G1. tauto.
  - exists w1. split; [reflexivity|]. split; [exact W1|]. split; [exact F1|]. intros i role b h. rewrite G1. split; [tauto|]. intros [X|[X|[X _]]]; [tauto|tauto|discriminate].
Qed.

(** [Link] with the modem as controller works unless the modem has its half of the link and the device has not; then it fails, and
    both stay as they are. *)
Theorem C67_modem_link : forall s addr modem dev g w, stores_well s -> addresses addr -> modem <> dev -> is_byte g -> ready w ->
  let half := has (n_recs w modem) true (addr dev) g /\ ~ has (n_recs w dev) false (addr modem) g in
  (~ half -> exists w', link_devices g (party s addr false modem) (party s addr true dev) w = (Ret None, w') /\ links_made (part_of addr modem dev g) w w') /\
  (half -> link_devices g (party s addr false modem) (party s addr true dev) w = (Ret (Some EInsteonNotImplemented), w)).
Proof.
  intros s addr modem dev g w Hs Ha Hmd Hg [H1 H2] half. split.
  - intro Hn. destruct (find_ok s addr true dev false (addr modem) g w H2) as [(l & _ & _ & _ & X)|[_ X]].
    + apply (link_ok s addr Hs Ha); auto.
    + destruct (find_ok s addr false modem true (addr dev) g w H2) as [(l & _ & _ & _ & Y)|[_ Y]]; [elim Hn; split; assumption|]. apply (link_ok s addr Hs Ha); auto.
  - intros [X Y]. unfold link_devices, pbind. cbn [party lk_address]. unfold pret.
    destruct (find_ok s addr false modem true (addr dev) g w H2) as [(l & E & Hin & Hl & _)|[_ N]]; [|contradiction]. cbn [party] in E. rewrite E.
    destruct (find_ok s addr true dev false (addr modem) g w H2) as [(l2 & _ & _ & _ & N)|[E2 _]]; [contradiction|]. cbn [party] in E2. rewrite E2. rewrite error_eqb_refl.
    unfold remove_links, pbind. cbn [party lk_links lk_write_one lk_update].
    assert (Hrl : forall ls i, (forall x, In x ls -> link_wf x) -> In l ls -> exists y t, remove_loop (W := net) None i ls [l] w = (Ret (y :: t), w)).
    { assert (Hany : forall ls i, exists t, remove_loop (W := net) None i ls [l] w = (Ret t, w)).
      { induction ls as [|x ls IH]; intros i; cbn [remove_loop]; [eexists; reflexivity|]. destruct (removes [l] x); [|apply IH]. unfold pbind. destruct (IH (i + 1)) as (t & ->). eexists; reflexivity. }
      induction ls as [|x ls IH]; intros i Hwf Hx; [destruct Hx|]. cbn [remove_loop]. destruct (removes [l] x) eqn:Er.
      - unfold pbind. destruct (Hany ls (i + 1)) as (t & ->). eexists _, _. reflexivity.
      - destruct Hx as [->|Hx]; [|apply IH; auto; intros; apply Hwf; right; auto]. unfold removes in Er. cbn [existsb] in Er. unfold link_equal in Er. rewrite bytes_eqb_refl in Er. discriminate Er. }
    pose proof (H2 modem) as Hwm. rewrite Forall_forall in Hwm. destruct (Hrl _ 0 Hwm Hin) as (y & t & ->). reflexivity.
Qed.
Theorem C67_modem_link_refuted : exists w, ready w /\ link_devices 7 (party plain ex_addr false 2) (party plain ex_addr true 1) w = (Ret (Some EInsteonNotImplemented), w) /\
  ~ linked ex_addr w 2 1 7.
Proof.
  exists (mkNet (fun i => if i =? 2 then [mkLink 0xe2 7 (ex_addr 1) 0 0 0] else []) None). split; [|split].
  - split; [reflexivity|]. intro i. cbn [n_recs]. destruct (i =? 2); [constructor; [|constructor]|constructor]. unfold link_wf, is_byte, ex_addr. cbn. lia.
  - reflexivity.
  - intros [_ (l & [] & _)].
Qed.

(** Three devices, the first with half a link to the second: all six links are there afterwards, twelve records in all; then the
    first two are unlinked and the four records between them are gone. *)
Definition ex_half : net := mkNet (fun i => if i =? 1 then [mkLink 0xe2 5 (ex_addr 2) 0 0 0] else []) None.
Definition ex_used (w : net) : list (list (bool * Z * Z)) :=
  map (fun i => map (fun l => (bit 6 (l_flags l) =? 1, l_addr l - 0x010000, l_group l)) (filter (fun l => bit 7 (l_flags l) =? 1) (n_recs w i))) [1; 2; 3].
Example C67_ex :
  stores_well plain /\ addresses ex_addr /\ ready ex_half /\
  (let '(o, w) := cross_link_all 5 (map (party plain ex_addr true) [1; 2; 3]) ex_half in
   o = Ret None /\ ex_used w = [[(true, 2, 5); (false, 2, 5); (true, 3, 5); (false, 3, 5)]; [(false, 1, 5); (true, 1, 5); (true, 3, 5); (false, 3, 5)];
     [(false, 1, 5); (true, 1, 5); (false, 2, 5); (true, 2, 5)]] /\
   let '(o2, w2) := unlink_all (party plain ex_addr true 1) (party plain ex_addr true 2) w in
   o2 = Ret None /\ ex_used w2 = [[(true, 3, 5); (false, 3, 5)]; [(true, 3, 5); (false, 3, 5)]; [(false, 1, 5); (true, 1, 5); (false, 2, 5); (true, 2, 5)]]).
Proof.
  split; [exact plain_well|]. split; [intro i; unfold ex_addr; change (2 ^ 24) with 16777216; pose proof (Z.mod_pos_bound i 65536); lia|]. split.
  - split; [reflexivity|]. intro i. cbn [n_recs ex_half]. destruct (i =? 1); [constructor; [|constructor]|constructor]. unfold link_wf, is_byte, ex_addr. cbn. lia.
  - vm_compute. repeat split.
Qed.
Print Assumptions C67_link.
Print Assumptions C67_cross_link_all.
Print Assumptions C67_cross_link_all_linked.
Print Assumptions C67_unlink.
Print Assumptions C67_unlink_all.
Print Assumptions C67_unlink_all_clean.
Print Assumptions C67_unlink_all_half_refuted.
Print Assumptions C67_tool_links.
Print Assumptions C67_modem_link.
Print Assumptions C67_modem_link_refuted.
