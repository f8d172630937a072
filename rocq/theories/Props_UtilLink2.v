(** C33-C38: linking and unlinking, searching, anonymising, missing links, order. *)
From Coq Require Import ZArith List Bool Lia ZifyBool ZifyNat.
From Verif Require Import GoBase GoText GoLemmas GoProg Command Message MsgWriter Address AddressSpec AddressProofs Link LinkSpec LinkProofs LinkText BasicDevice DevLinkdb DeviceSpec DevLinkdbSpec DevLinkdbProofs Props_DevLinkdb.
From Verif Require Import UtilLink UtilLinkSpec UtilLinkProofs UtilLinkEditProofs UtilLinkListProofs.
Import ListNotations.
Open Scope Z_scope.
Ltac Zify.zify_post_hook ::= Z.div_mod_to_equations.

(** * C33 linking modes *)
Theorem C33_force_link : forall W (c r : linkable W) g, adds (force_link g (lk_logged c) (lk_logged r)) (fun e t =>
  (exists x, e = Some x /\ t = [(lk_id c, OEnter g (Some x))]) \/
  t = [(lk_id c, OEnter g None); (lk_id r, OEnter g e); (lk_id c, OExit); (lk_id r, OExit)]).
Proof. exact force_link_trace. Qed.
Theorem C33_unlink : forall W (c r : linkable W) g, adds (unlink g (lk_logged c) (lk_logged r)) (fun e t =>
  (exists x, e = Some x /\ t = [(lk_id c, OUnlink g (Some x))]) \/
  t = [(lk_id c, OUnlink g None); (lk_id r, OEnter g e); (lk_id c, OExit); (lk_id r, OExit)]).
Proof. exact unlink_trace. Qed.
(** Whatever fails: after a device entered the mode both are told to leave. *)
Theorem C33_link_leaves_mode : forall W (c r : linkable W) g, adds (link_devices g (lk_logged c) (lk_logged r)) (fun _ t => closed [lk_id c; lk_id r] t).
Proof. exact link_closed. Qed.
Theorem C33_cross_link_leaves_mode : forall W (c r : linkable W) g, adds (cross_link g (lk_logged c) (lk_logged r)) (fun _ t => closed [lk_id c; lk_id r] t).
Proof. exact cross_link_closed. Qed.
Theorem C33_cross_link_all_leaves_mode : forall W g (ds : list (linkable W)), adds (cross_link_all g (map lk_logged ds)) (fun _ t => self_closed t).
Proof. exact cross_link_all_self. Qed.

Lemma find_record_run : forall W (lk : linkable W) ctl a g w ls w', lk_links lk w = (Ret (ls, None), w') -> Forall (fun l => is_byte (l_flags l)) ls ->
  ((exists l, In l ls /\ wanted ctl a g l) -> exists l, find_link_record lk ctl a g w = (Ret (l, None), w') /\ In l ls /\ wanted ctl a g l) /\
  ((forall l, In l ls -> ~ wanted ctl a g l) -> find_link_record lk ctl a g w = (Ret (link_zero, Some EUtilLinkNotFound), w')).
Proof.
  intros W lk ctl a g w ls w' E Hb. rewrite Forall_forall in Hb. unfold find_link_record. unfold pbind at 1 2. rewrite E. destruct (find (record_matches ctl a g) ls) as [l|] eqn:Ef.
  - apply find_some in Ef. destruct Ef as [Hin Hm]. apply record_matches_wanted in Hm; [|auto]. split; [intros _; exists l; auto|]. intro H. destruct (H l Hin Hm).
  - split; [|reflexivity]. intros (l & Hin & Hw). apply record_matches_wanted in Hw; [|auto]. rewrite (find_none _ _ Ef l Hin) in Hw. discriminate.
Qed.
(** Both records exist: nothing but the two databases is read. *)
Theorem C33_already_linked : forall W (c r : linkable W) g ca ra w lc w1 lr w2, lk_address c = pret ca -> lk_address r = pret ra ->
  lk_links c w = (Ret (lc, None), w1) -> lk_links r w1 = (Ret (lr, None), w2) -> Forall (fun l => is_byte (l_flags l)) (lc ++ lr) ->
  (exists l, In l lc /\ wanted true ra g l) -> (exists l, In l lr /\ wanted false ca g l) ->
  link_devices g c r w = (Ret None, w2).
Proof.
  intros W c r g ca ra w lc w1 lr w2 Hc Hr E1 E2 Hb H1 H2. apply Forall_app in Hb. destruct Hb as [Hb1 Hb2].
  destruct (proj1 (find_record_run W c true ra g w lc w1 E1 Hb1) H1) as (l1 & F1 & _). destruct (proj1 (find_record_run W r false ca g w1 lr w2 E2 Hb2) H2) as (l2 & F2 & _).
  unfold link_devices. rewrite Hc, Hr. unfold pbind at 1, pret at 1. unfold pbind at 1. rewrite F1. unfold pbind at 1, pret at 1. unfold pbind at 1. rewrite F2. reflexivity.
Qed.
Definition mkpair (id addr : Z) (links : list link) : linkable unit :=
  mkLk id (pret addr) (fun _ => pret None) (fun _ => pret None) (pret None) (pret (links, None)) (fun _ => pret None) (fun _ => pret None) None.
Example C33_already_linked_case :
  link_devices 1 (mkpair 1 0x111111 [ex_a; mkLink 0xe2 1 0x222222 0 0 0]) (mkpair 2 0x222222 [ex_b; mkLink 0xa2 1 0x111111 0 0 0]) tt = (Ret None, tt).
Proof.
  refine (C33_already_linked unit (mkpair 1 0x111111 [ex_a; mkLink 0xe2 1 0x222222 0 0 0]) (mkpair 2 0x222222 [ex_b; mkLink 0xa2 1 0x111111 0 0 0]) 1 _ _ tt _ _ _ _ eq_refl eq_refl eq_refl eq_refl _ _ _).
  - on_example.
  - exists (mkLink 0xe2 1 0x222222 0 0 0). cbn. repeat split; auto.
  - exists (mkLink 0xa2 1 0x111111 0 0 0). cbn. repeat split; auto.
Qed.
(** Neither exists: the devices are linked at once. *)
Theorem C33_not_linked : forall W (c r : linkable W) g ca ra w lc w1 lr w2, lk_address c = pret ca -> lk_address r = pret ra ->
  lk_links c w = (Ret (lc, None), w1) -> lk_links r w1 = (Ret (lr, None), w2) -> Forall (fun l => is_byte (l_flags l)) (lc ++ lr) ->
  (forall l, In l lc -> ~ wanted true ra g l) -> (forall l, In l lr -> ~ wanted false ca g l) ->
  link_devices g c r w = force_link g c r w2.
Proof.
  intros W c r g ca ra w lc w1 lr w2 Hc Hr E1 E2 Hb H1 H2. apply Forall_app in Hb. destruct Hb as [Hb1 Hb2].
  pose proof (proj2 (find_record_run W c true ra g w lc w1 E1 Hb1) H1) as F1. pose proof (proj2 (find_record_run W r false ca g w1 lr w2 E2 Hb2) H2) as F2.
  unfold link_devices. rewrite Hc, Hr. unfold pbind at 1, pret at 1. unfold pbind at 1. rewrite F1. rewrite error_eqb_refl. unfold pbind at 1, pret at 1. unfold pbind at 1. rewrite F2.
  unfold pbind at 1, pret at 1. rewrite error_eqb_refl. reflexivity.
Qed.
(** Records of another group and with the other role do not count. *)
Example C33_not_linked_case : let c := mkpair 1 0x111111 [mkLink 0xe2 2 0x222222 0 0 0; mkLink 0xa2 1 0x222222 0 0 0] in let r := mkpair 2 0x222222 [mkLink 0x22 1 0x111111 0 0 0] in
  link_devices 1 c r tt = force_link 1 c r tt.
Proof.
  intros c r. refine (C33_not_linked unit c r 1 _ _ tt _ _ _ _ eq_refl eq_refl eq_refl eq_refl _ _ _).
  - subst c r. on_example.
  - intros l H (H1 & H2 & H3 & H4). cbn in H. repeat (destruct H as [<-|H]); try contradiction; vm_compute in H1, H2, H3, H4; discriminate.
  - intros l H (H1 & H2 & H3 & H4). cbn in H. repeat (destruct H as [<-|H]); try contradiction; vm_compute in H1, H2, H3, H4; discriminate.
Qed.
(** Half of the pair exists: that record is removed first. *)
Theorem C33_half_linked : forall W (c r : linkable W) g ca ra w lc w1 lr w2, lk_address c = pret ca -> lk_address r = pret ra ->
  lk_links c w = (Ret (lc, None), w1) -> lk_links r w1 = (Ret (lr, None), w2) -> Forall (fun l => is_byte (l_flags l)) (lc ++ lr) ->
  ((exists l, In l lc /\ wanted true ra g l) -> (forall l, In l lr -> ~ wanted false ca g l) ->
     exists l, In l lc /\ wanted true ra g l /\ forall w3, remove_links c [l] w2 = (Ret None, w3) -> link_devices g c r w = force_link g c r w3) /\
  ((forall l, In l lc -> ~ wanted true ra g l) -> (exists l, In l lr /\ wanted false ca g l) ->
     exists l, In l lr /\ wanted false ca g l /\ forall w3, remove_links r [l] w2 = (Ret None, w3) -> link_devices g c r w = force_link g c r w3).
Proof.
  intros W c r g ca ra w lc w1 lr w2 Hc Hr E1 E2 Hb. apply Forall_app in Hb. destruct Hb as [Hb1 Hb2].
  pose proof (find_record_run W c true ra g w lc w1 E1 Hb1) as F1. pose proof (find_record_run W r false ca g w1 lr w2 E2 Hb2) as F2. split; intros H1 H2.
  - destruct (proj1 F1 H1) as (l & G1 & Hin & Hw). pose proof (proj2 F2 H2) as G2. exists l. split; [exact Hin|]. split; [exact Hw|]. intros w3 E3.
    unfold link_devices. rewrite Hc, Hr. unfold pbind at 1, pret at 1. unfold pbind at 1. rewrite G1. unfold pbind at 1, pret at 1. unfold pbind at 1. rewrite G2. rewrite error_eqb_refl. unfold pbind at 1. rewrite E3. reflexivity.
  - pose proof (proj2 F1 H1) as G1. destruct (proj1 F2 H2) as (l & G2 & Hin & Hw). exists l. split; [exact Hin|]. split; [exact Hw|]. intros w3 E3.
    unfold link_devices. rewrite Hc, Hr. unfold pbind at 1, pret at 1. unfold pbind at 1. rewrite G1. rewrite error_eqb_refl. unfold pbind at 1, pret at 1. unfold pbind at 1. rewrite G2. unfold pbind at 1. rewrite E3. reflexivity.
Qed.
(** The controller has its record, the responder none. *)
Example C33_half_linked_case : let c := mkpair 1 0x111111 [mkLink 0xe2 1 0x222222 0 0 0] in let r := mkpair 2 0x222222 [] in
  link_devices 1 c r tt = force_link 1 c r tt.
Proof.
  intros c r. destruct (C33_half_linked unit c r 1 _ _ tt _ _ _ _ eq_refl eq_refl eq_refl eq_refl) as [H _].
  - subst c r. on_example.
  - destruct H as (l & Hl & Hw & H).
    + exists (mkLink 0xe2 1 0x222222 0 0 0). cbn. repeat split; auto.
    + intros l [].
    + apply H. destruct Hl as [<-|[]]. vm_compute. reflexivity.
Qed.
(** The controller got the request but its acknowledgement was lost: nobody is told to leave. *)
Definition deaf_mw : mwriter (list message) := mkMW (fun w => (Ret (None, Some EDevReadTimeout), w)) (fun m w => (Ret (None, Some EDevReadTimeout), w ++ [m])).
Theorem C33_lost_ack_refuted : exists e db sent, force_link 1 (dev_linkable 5 deaf_mw 0 1 ex_info) (dev_linkable 5 deaf_mw 0 2 ex_info) (linkdb_new, []) = (Ret (Some e), (db, sent)) /\
  map (fun m => (m_cmd m / 256) mod 256) sent = [0x09].
Proof. eexists _, _, _. split; [reflexivity|]. vm_compute. reflexivity. Qed.
Definition pair_lk (id addr : Z) (links : list link) (enter : option error) : linkable unit :=
  mkLk id (pret addr) (fun _ => pret enter) (fun _ => pret enter) (pret None) (pret (links, None)) (fun _ => pret None) (fun _ => pret None) None.
Example C33_ex : snd (snd (link_devices 1 (lk_logged (pair_lk 1 0x111111 [mkLink 0xe2 1 0x222222 0 0 0] None)) (lk_logged (pair_lk 2 0x222222 [] (Some EDevNak))) (tt, []))) =
  [(2, OAddress 0x222222); (1, OLinks ([mkLink 0xe2 1 0x222222 0 0 0], None)); (1, OAddress 0x111111); (2, OLinks ([], None)); (1, OLinks ([mkLink 0xe2 1 0x222222 0 0 0], None));
   (1, OUpdate [mkLink 0x62 1 0x222222 0 0 0] None); (1, OEnter 1 None); (2, OEnter 1 (Some EDevNak)); (1, OExit); (2, OExit)].
Proof. vm_compute. reflexivity. Qed.
Print Assumptions C33_force_link.
Print Assumptions C33_unlink.
Print Assumptions C33_link_leaves_mode.
Print Assumptions C33_cross_link_leaves_mode.
Print Assumptions C33_cross_link_all_leaves_mode.
Print Assumptions C33_already_linked.
Print Assumptions C33_not_linked.
Print Assumptions C33_half_linked.
Print Assumptions C33_lost_ack_refuted.

(** * C34 UnlinkAll *)
(** Every record of the responder's address leads to one unlink operation; the result is that of the last. *)
Theorem C34_every_group : forall W (c r : linkable W) a, lk_address r = pret a -> forall w log e w' log', unlink_all (lk_logged c) (lk_logged r) (w, log) = (Ret e, (w', log')) ->
  exists ls err t, log' = log ++ (lk_id c, OLinks (ls, err)) :: t /\ (err <> None -> e = err /\ t = []) /\
    (err = None -> Forall (fun l => is_byte (l_flags l)) ls ->
       unlinks t = attempts a (lk_id c) (lk_id r) ls /\ length (outcomes t) = length (unlinks t) /\ e = last (outcomes t) None).
Proof.
  intros W c r a Ha w log e w' log' E. unfold unlink_all in E. unfold pbind at 1 in E.
  destruct (lk_links (lk_logged c) (w, log)) as [o [w1 log1]] eqn:E1. destruct (adds_logged _ _ _ _ _ _ _ _ _ _ E1) as (t1 & -> & H1).
  destruct o as [[ls err]| |]; [|discriminate|discriminate]. rewrite (H1 _ eq_refl) in *. clear H1 E1. destruct err as [x|].
  - injection E as <- <- <-. exists ls, (Some x), []. split; [reflexivity|]. split; [auto|discriminate].
  - assert (Hany : forall ls err0, adds (unlink_loop (lk_logged c) (lk_logged r) ls err0) (fun _ _ => True)).
    { clear. assert (Ht : forall a b : trace, True -> True -> True) by auto. induction ls as [|l ls IH]; intros err0; cbn [unlink_loop]; [apply (adds_ret_inv (fun _ => True)); exact I|].
      apply (adds_bind_inv (fun _ => True) Ht); [apply (adds_logged_inv (fun _ => True)); auto|]. intro ra. destruct (l_addr l =? ra); [|apply IH].
      apply (adds_bind_inv (fun _ => True) Ht); [|intro; apply IH]. destruct (rcf_controller (l_flags l)); (eapply adds_weaken; [apply unlink_trace|auto]). }
    destruct (Hany ls None _ _ _ _ _ E) as (t & -> & _). exists ls, None, t. split; [rewrite <- app_assoc; reflexivity|]. split; [congruence|]. intros _ Hb.
    destruct (unlink_loop_trace W c r a Ha ls None Hb _ _ _ _ _ E) as (t' & Et & Ht). apply app_inv_head in Et. subst t'. apply Ht. reflexivity.
Qed.
Example C34_every_group_case : let c := mkpair 1 0x111111 [mkLink 0xe2 3 0x222222 0 0 0; ex_c; mkLink 0xa2 1 0x222222 0 0 0] in let r := mkpair 2 0x222222 [] in
  exists w' log' ls err t, unlink_all (lk_logged c) (lk_logged r) (tt, []) = (Ret None, (w', log')) /\ log' = (1, OLinks (ls, err)) :: t /\
    (err = None -> Forall (fun l => is_byte (l_flags l)) ls -> unlinks t = attempts 0x222222 1 2 ls).
Proof.
  intros c r. destruct (unlink_all (lk_logged c) (lk_logged r) (tt, [])) as [e [w' log']] eqn:E.
  assert (Ee : e = Ret None) by (apply (f_equal fst) in E; vm_compute in E; symmetry; exact E). rewrite Ee in E.
  destruct (C34_every_group unit c r 0x222222 eq_refl tt [] None w' log' E) as (ls & err & t & El & _ & H).
  exists w', log', ls, err, t. rewrite Ee. split; [reflexivity|]. split; [exact El|]. intros He Hb. apply (H He Hb).
Qed.
(** No error means success if there is at most one group.  Missing: several groups (below). *)
Theorem C34_report_partial : forall W (c r : linkable W) a, lk_address r = pret a -> forall w log w' log', unlink_all (lk_logged c) (lk_logged r) (w, log) = (Ret None, (w', log')) ->
  exists ls t, log' = log ++ (lk_id c, OLinks (ls, None)) :: t /\ (Forall (fun l => is_byte (l_flags l)) ls -> (length (attempts a (lk_id c) (lk_id r) ls) <= 1)%nat -> Forall (eq None) (outcomes t)).
Proof.
  intros W c r a Ha w log w' log' E. destruct (C34_every_group W c r a Ha w log None w' log' E) as (ls & err & t & -> & H1 & H2).
  destruct err as [x|]; [destruct (H1 ltac:(discriminate)) as [H _]; discriminate|]. exists ls, t. split; [reflexivity|]. intros Hb Hlen. destruct (H2 eq_refl Hb) as (Hu & Ho & He). rewrite Hu in Ho.
  destruct (outcomes t) as [|y [|z q]]; [constructor| |cbn in Ho; lia]. cbn in He. subst y. constructor; [reflexivity|constructor].
Qed.
Example C34_report_case : let c := mkpair 1 0x111111 [mkLink 0xe2 3 0x222222 0 0 0; ex_c] in let r := mkpair 2 0x222222 [] in
  fst (unlink_all (lk_logged c) (lk_logged r) (tt, [])) = Ret None /\ (length (attempts 0x222222 1 2 [mkLink 0xe2 3 0x222222 0 0 0; ex_c]) <= 1)%nat.
Proof. split; [vm_compute; reflexivity|vm_compute; lia]. Qed.
(** The first group could not be unlinked, the second could: success is reported. *)
Definition fussy_lk (id addr : Z) (links : list link) : linkable unit :=
  mkLk id (pret addr) (fun _ => pret None) (fun g => pret (if g =? 1 then Some EDevNak else None)) (pret None) (pret (links, None)) (fun _ => pret None) (fun _ => pret None) None.
Theorem C34_lost_error_refuted : exists (c r : linkable unit) w t, unlink_all (lk_logged c) (lk_logged r) (tt, []) = (Ret None, (w, t)) /\ outcomes t = [Some EDevNak; None].
Proof.
  exists (fussy_lk 1 0x111111 [mkLink 0xe2 1 0x222222 0 0 0; mkLink 0xe2 2 0x222222 0 0 0]), (fussy_lk 2 0x222222 []). eexists _, _. split; [reflexivity|]. vm_compute. reflexivity.
Qed.
Example C34_ex : match unlink_all (lk_logged (fussy_lk 1 0x111111 [mkLink 0xe2 3 0x222222 0 0 0; mkLink 0xe2 4 0x333333 0 0 0; mkLink 0xa2 1 0x222222 0 0 0])) (lk_logged (fussy_lk 2 0x222222 [])) (tt, []) with
  | (e, (_, t)) => e = Ret (Some EDevNak) /\ unlinks t = [(1, 3); (2, 1)] /\ outcomes t = [None; Some EDevNak]
  end.
Proof. vm_compute. auto. Qed.
Print Assumptions C34_every_group.
Print Assumptions C34_report_partial.
Print Assumptions C34_lost_error_refuted.

(** * C35 searching *)
Theorem C35_first_record : forall W (lk : linkable W) ctl a g w ls w', lk_links lk w = (Ret (ls, None), w') -> Forall (fun l => is_byte (l_flags l)) ls ->
  (forall l, find_link_record lk ctl a g w = (Ret (l, None), w') <->
     exists pre post, ls = pre ++ l :: post /\ wanted ctl a g l /\ Forall (fun x => ~ wanted ctl a g x) pre) /\
  (find_link_record lk ctl a g w = (Ret (link_zero, Some EUtilLinkNotFound), w') <-> Forall (fun x => ~ wanted ctl a g x) ls).
Proof.
  intros W lk ctl a g w ls w' E Hb.
  assert (Hneg : forall pre, Forall (fun l => is_byte (l_flags l)) pre -> Forall (fun x => record_matches ctl a g x = false) pre <-> Forall (fun x => ~ wanted ctl a g x) pre).
  { intros pre Hp. rewrite !Forall_forall in *. split; intros H x Hx.
    - intro Hw. apply record_matches_wanted in Hw; [|auto]. rewrite (H x Hx) in Hw. discriminate.
    - destruct (record_matches ctl a g x) eqn:Em; [|reflexivity]. apply record_matches_wanted in Em; [|auto]. destruct (H x Hx Em). }
  unfold find_link_record. unfold pbind. rewrite E. split.
  - intro l. transitivity (find (record_matches ctl a g) ls = Some l).
    + destruct (find (record_matches ctl a g) ls) as [l'|]; unfold pret; split; intro H; try discriminate; [injection H as ->; reflexivity|injection H as ->; reflexivity].
    + rewrite find_first. split; intros (pre & post & -> & H1 & H2); exists pre, post; apply Forall_app in Hb; destruct Hb as [Hb1 Hb2]; inversion Hb2; subst; (split; [reflexivity|]); (split; [apply record_matches_wanted; assumption|apply Hneg; assumption]).
  - transitivity (find (record_matches ctl a g) ls = None).
    + destruct (find (record_matches ctl a g) ls) as [l'|]; unfold pret; split; intro H; try discriminate; reflexivity.
    + rewrite <- (Hneg ls Hb). split; intro H; [apply Forall_forall; intros x Hx; eapply find_none; eassumption|]. destruct (find (record_matches ctl a g) ls) as [l|] eqn:Ef; [|reflexivity].
      apply find_some in Ef. destruct Ef as [Hin Hm]. rewrite Forall_forall in H. rewrite (H l Hin) in Hm. discriminate.
Qed.
Example C35_first_record_case : find_link_record (mkpair 1 0 [ex_free; ex_a; ex_b; mkLink 0xa2 2 0x0d0e0f 9 9 9]) false 0x0d0e0f 2 tt = (Ret (ex_b, None), tt) /\
  find_link_record (mkpair 1 0 [ex_free; ex_a; ex_b]) true 0x0d0e0f 2 tt = (Ret (link_zero, Some EUtilLinkNotFound), tt).
Proof.
  split.
  - apply (C35_first_record unit (mkpair 1 0 [ex_free; ex_a; ex_b; mkLink 0xa2 2 0x0d0e0f 9 9 9]) false 0x0d0e0f 2 tt _ tt eq_refl); [on_example|].
    exists [ex_free; ex_a], [mkLink 0xa2 2 0x0d0e0f 9 9 9]. split; [reflexivity|]. split; [repeat split; reflexivity|].
    repeat constructor; intros (H1 & H2 & H3 & H4); vm_compute in H1, H2, H3, H4; discriminate.
  - apply (C35_first_record unit (mkpair 1 0 [ex_free; ex_a; ex_b]) true 0x0d0e0f 2 tt _ tt eq_refl); [on_example|].
    repeat constructor; intros (H1 & H2 & H3 & H4); vm_compute in H1, H2, H3, H4; discriminate.
Qed.
(** A database that can not be read: its error, for both searches. *)
Theorem C35_read_error : forall W (lk : linkable W) ctl a g equal w ls e w', lk_links lk w = (Ret (ls, Some e), w') ->
  find_link_record lk ctl a g w = (Ret (link_zero, Some e), w') /\ find_duplicate_links lk equal w = (Ret ([], Some e), w').
Proof. intros W lk ctl a g equal w ls e w' E. unfold find_link_record, find_duplicate_links, pbind. rewrite E. auto. Qed.
Theorem C35_duplicates : forall W (lk : linkable W) equal w ls w', lk_links lk w = (Ret (ls, None), w') ->
  exists dups, find_duplicate_links lk equal w = (Ret (dups, None), w') /\
    (forall l, In l dups <-> exists i j l1, (i < j)%nat /\ nth_error ls i = Some l1 /\ nth_error ls j = Some l /\ equal l1 l = true) /\
    (dups = [] <-> forall i j l1 l2, (i < j)%nat -> nth_error ls i = Some l1 -> nth_error ls j = Some l2 -> equal l1 l2 = false).
Proof.
  intros W lk equal w ls w' E. exists (duplicates equal ls). unfold find_duplicate_links, pbind. rewrite E. split; [reflexivity|]. split; [apply duplicates_In|]. split.
  - intros Hd i j l1 l2 Hij H1 H2. destruct (equal l1 l2) eqn:He; [|reflexivity]. exfalso. assert (In l2 (duplicates equal ls)) by (apply duplicates_In; exists i, j, l1; auto). rewrite Hd in H. destruct H.
  - intro H. destruct (duplicates equal ls) as [|l d] eqn:Ed; [reflexivity|]. exfalso. assert (Hin : In l (duplicates equal ls)) by (rewrite Ed; left; reflexivity).
    apply duplicates_In in Hin. destruct Hin as (i & j & l1 & Hij & H1 & H2 & He). rewrite (H i j l1 l Hij H1 H2) in He. discriminate.
Qed.
Example C35_ex : fst (find_link_record (pair_lk 1 0 [ex_free; ex_a; ex_b; mkLink 0xa2 2 0x0d0e0f 9 9 9] None) false 0x0d0e0f 2 tt) = Ret (ex_b, None) /\
  fst (find_duplicate_links (pair_lk 1 0 [ex_a; ex_b; ex_a; ex_c; ex_b] None) link_equal tt) = Ret ([ex_a; ex_b], None).
Proof. vm_compute. auto. Qed.
Print Assumptions C35_first_record.
Print Assumptions C35_read_error.
Print Assumptions C35_duplicates.

(** * C36 anonymising *)
(** One function of the address; new addresses are the given ones and then random ones, in order of first appearance. *)
Theorem C36_substitution : forall rnd links repl, exists f,
  anonymize rnd links repl = map (fun l => mkLink (l_flags l) (l_group l) (f (l_addr l)) (l_d0 l) (l_d1 l) (l_d2 l)) links /\
  let seen := appearances (map l_addr links) in
  map f seen = firstn (length seen) (repl ++ map (fun k => rnd k mod 16777216) (seq 0 (length seen))).
Proof.
  intros rnd links repl. destruct (anonymize_loop_spec rnd links 0 [] repl) as (f & H1 & _ & H3). exists f. split; [exact H1|].
  unfold unseen in H3. cbn [addr_find] in H3. assert (Hid : forall l : list Z, filter (fun _ => true) l = l) by (induction l as [|x l IH]; [reflexivity|cbn [filter]; rewrite IH; reflexivity]). rewrite Hid in H3.
  cbv zeta. rewrite H3. unfold supply. f_equal. f_equal. apply map_ext. intro k. unfold masked. rewrite Z.land_comm. change 0x00ffffff with (Z.ones 24). rewrite Z.land_ones by lia. reflexivity.
Qed.
(** Every address of the result was given or drawn.  Missing: a drawn address may be an original one (below). *)
Theorem C36_no_leak_partial : forall rnd links repl l, In l (anonymize rnd links repl) -> In (l_addr l) repl \/ exists k, l_addr l = rnd k mod 16777216.
Proof.
  intros rnd links repl l Hl. destruct (C36_substitution rnd links repl) as (f & E & Hf). rewrite E in Hl. apply in_map_iff in Hl. destruct Hl as (x & <- & Hx). cbn [l_addr].
  assert (Ha : In (l_addr x) (appearances (map l_addr links))).
  { assert (G : forall l a, In a l -> In a (appearances l)). { induction l as [|b l IH]; intros a Ha; [destruct Ha|]. cbn [appearances]. destruct (Z.eq_dec b a) as [->|Hne]; [left; reflexivity|].
      destruct Ha as [Ha|Ha]; [congruence|]. right. apply filter_In. split; [auto|]. apply negb_true_iff, Z.eqb_neq. congruence. }
    apply G. apply in_map. exact Hx. }
  apply (in_map f) in Ha. cbv zeta in Hf. rewrite Hf in Ha. apply (fun H => in_or_app _ (skipn (length (appearances (map l_addr links))) (repl ++ map (fun k => rnd k mod 16777216) (seq 0 (length (appearances (map l_addr links)))))) _ (or_introl H)) in Ha. rewrite firstn_skipn in Ha.
  apply in_app_or in Ha. destruct Ha as [Ha|Ha]; [left; exact Ha|]. right. apply in_map_iff in Ha. destruct Ha as (k & Hk & _). exists k. auto.
Qed.
Theorem C36_random_leak_refuted : exists rnd links l, In l (anonymize rnd links []) /\ In (l_addr l) (map l_addr links).
Proof. exists (fun _ => 0x0a0b0c), [ex_a], ex_a. vm_compute. auto. Qed.
(** Drawn addresses may also coincide, so that different addresses become one. *)
Theorem C36_random_merge_refuted : exists rnd a b, l_addr a <> l_addr b /\ exists a' b', anonymize rnd [a; b] [] = [a'; b'] /\ l_addr a' = l_addr b'.
Proof. exists (fun _ => 7), ex_a, ex_b. split; [vm_compute; discriminate|]. eexists _, _. split; vm_compute; reflexivity. Qed.
Example C36_ex : map l_addr (anonymize (fun k => 0x7f000000 + Z.of_nat k) [ex_a; ex_b; ex_a; ex_c; mkLink 0 0 1 0 0 0; ex_b] [11; 22]) = [11; 22; 11; 0; 1; 22].
Proof. vm_compute. reflexivity. Qed.
Print Assumptions C36_substitution.
Print Assumptions C36_no_leak_partial.
Print Assumptions C36_random_leak_refuted.
Print Assumptions C36_random_merge_refuted.

(** * C37 missing cross links.  Full statement: every in-use record of a requested address without a counterpart has it reported. *)
(** Proved for the first in-use record of an address only. *)
Theorem C37_first_record_partial : forall links addrs pre l post, Forall (fun x => is_byte (l_flags x)) links -> links = pre ++ l :: post -> In (l_addr l) addrs ->
  is_free l = false -> Forall (fun x => is_free x = true \/ l_addr x <> l_addr l) pre ->
  (forall x, In x links -> l_addr x = l_addr l -> l_group x = l_group l -> bit 6 (l_flags x) = bit 6 (l_flags l)) ->
  In (counterpart l) (missing_crosslinks links addrs).
Proof.
  intros links addrs pre l post Hb E Ha Hf Hpre Hno. unfold missing_crosslinks. apply in_flat_map. exists (l_addr l). split; [exact Ha|].
  rewrite (missing_first_complete (l_addr l) links pre l post Hb E Hpre Hf eq_refl); [left; reflexivity|]. intros x Hx H1 H2. apply Hno; [rewrite E; apply in_or_app; right; right; exact Hx|exact H1|exact H2].
Qed.
Example C37_first_record_case : In (counterpart ex_b) (missing_crosslinks [ex_free; ex_a; mkLink 0x22 9 0x0d0e0f 0 0 0; ex_b; ex_c] [0x0d0e0f; 77]).
Proof.
  apply (C37_first_record_partial _ _ [ex_free; ex_a; mkLink 0x22 9 0x0d0e0f 0 0 0] ex_b [ex_c]).
  - on_example.
  - reflexivity.
  - cbn. auto.
  - reflexivity.
  - repeat (apply Forall_cons; [(left; reflexivity) || (right; discriminate)|]). apply Forall_nil.
  - intros x Hx. cbn in Hx. repeat (destruct Hx as [<-|Hx]); try contradiction; cbn; intros; try discriminate; reflexivity.
Qed.
(** Nothing else is reported: the counterpart of an in-use record of a requested address with no counterpart behind it. *)
Theorem C37_sound : forall links addrs m, Forall (fun x => is_byte (l_flags x)) links -> In m (missing_crosslinks links addrs) ->
  exists pre l post, links = pre ++ l :: post /\ m = counterpart l /\ is_free l = false /\ In (l_addr l) addrs /\
    (forall x, In x post -> l_addr x = l_addr l -> l_group x = l_group l -> bit 6 (l_flags x) = bit 6 (l_flags l)).
Proof.
  intros links addrs m Hb H. unfold missing_crosslinks in H. apply in_flat_map in H. destruct H as (a & Ha & Hm). destruct (missing_first_sound a links m Hb Hm) as (pre & l & post & H1 & H2 & H3 & H4 & H5 & _).
  exists pre, l, post. subst a. auto 8.
Qed.
(** A counterpart is the same link with the other role. *)
Theorem C37_counterpart : forall l, is_byte (l_flags l) -> bit 6 (l_flags (counterpart l)) = 1 - bit 6 (l_flags l) /\
  (forall n, 0 <= n < 8 -> n <> 6 -> bit n (l_flags (counterpart l)) = bit n (l_flags l)) /\ l_group (counterpart l) = l_group l /\ l_addr (counterpart l) = l_addr l.
Proof.
  intros l H. pose proof (sweep1 (fun f => forallb (fun n => bit n (f + 64 - 128 * bit 6 f) =? (if n =? 6 then 1 - bit 6 f else bit n f)) [0; 1; 2; 3; 4; 5; 6; 7]) ltac:(vm_compute; reflexivity) _ H) as E. cbv beta in E.
  rewrite forallb_forall in E. unfold counterpart. cbn [l_flags l_group l_addr]. split; [specialize (E 6 ltac:(cbn; auto 10)); apply Z.eqb_eq in E; exact E|]. split; [|auto].
  intros n Hn Hne. specialize (E n (bits8_In n Hn)). replace (n =? 6) with false in E by lia. apply Z.eqb_eq in E. exact E.
Qed.
(** The second group of an address is not looked at. *)
Theorem C37_second_group_refuted : exists links l addr, In l links /\ is_free l = false /\ l_addr l = addr /\
  (forall x, In x links -> l_addr x = addr -> l_group x = l_group l -> bit 6 (l_flags x) = bit 6 (l_flags l)) /\ missing_crosslinks links [addr] = [].
Proof.
  exists [mkLink 0xe2 1 5 0 0 0; mkLink 0xa2 1 5 0 0 0; mkLink 0xe2 2 5 0 0 0], (mkLink 0xe2 2 5 0 0 0), 5. split; [cbn; auto|]. split; [reflexivity|]. split; [reflexivity|]. split; [|vm_compute; reflexivity].
  intros x [<-|[<-|[<-|[]]]] _ Hg; cbn in Hg; try discriminate. reflexivity.
Qed.
(** A free record counts as a counterpart. *)
Theorem C37_free_counterpart_refuted : exists links l addr, In l links /\ is_free l = false /\ l_addr l = addr /\
  (forall x, In x links -> is_free x = false -> x = l) /\ missing_crosslinks links [addr] = [].
Proof.
  exists [mkLink 0xe2 1 5 0 0 0; mkLink 0x22 1 5 0 0 0], (mkLink 0xe2 1 5 0 0 0), 5. split; [cbn; auto|]. split; [reflexivity|]. split; [reflexivity|]. split; [|vm_compute; reflexivity].
  intros x [<-|[<-|[]]] Hx; [reflexivity|discriminate].
Qed.
(** fixCrosslinks keeps only the last of the missing links when nothing is free. *)
Theorem C37_fix_loses_refuted : exists links addrs, missing_crosslinks links addrs = [mkLink 0xa2 1 5 0 0 0; mkLink 0xa2 1 6 0 0 0] /\
  fix_crosslinks links addrs = links ++ [mkLink 0xa2 1 6 0 0 0].
Proof. exists [mkLink 0xe2 1 5 0 0 0; mkLink 0xe2 1 6 0 0 0], [5; 6]. vm_compute. auto. Qed.
(** What fixCrosslinks makes of the records: as long as there are free records the missing links take their places in order; whenever
    they run out the records are taken afresh as they were, with the link at hand behind them.  With [k] free records every [k + 1] links thus
    start a new round, and only the link that started the last round and those after it are in the result. *)
Section FixRounds.
Variable links : list link.
Let step (new : list link) (m : link) : list link := match fill_first m new with Some new' => new' | None => links ++ [m] end.
Let byted (ls : list link) : Prop := Forall (fun x => is_byte (l_flags x)) ls.
Let used (ls : list link) : Prop := Forall (fun x => is_byte (l_flags x) /\ is_free x = false) ls.
Let frees (ls : list link) : nat := length (filter is_free ls).
Lemma byte_free : forall l, is_byte (l_flags l) -> rcf_available (l_flags l) = is_free l.
Proof. intros l Hl. destruct (rcf_accessors _ Hl) as (_ & -> & _). unfold bitb, is_free. destruct (bit_range 7 (l_flags l)) as [-> | ->]; reflexivity. Qed.
Lemma fill_first_is : forall m ls, byted ls ->
  fill_first m ls = if Nat.eqb (frees ls) 0 then None else Some (fst (fill ls [m])).
Proof.
  intros m. induction ls as [|l t IH]; intro Hb; [reflexivity|]. inversion Hb as [|? ? Hl Ht]; subst. cbn [fill_first fill]. unfold frees. cbn [filter]. rewrite (byte_free l Hl).
  destruct (is_free l); [cbn [length Nat.eqb]; rewrite fill_nil; reflexivity|]. rewrite (IH Ht). unfold frees. destruct (Nat.eqb _ 0); [reflexivity|]. destruct (fill t [m]); reflexivity.
Qed.
Lemma fill_step : forall m ms ls, is_free m = false -> fst (fill (fst (fill ls [m])) ms) = fst (fill ls (if Nat.eqb (frees ls) 0 then ms else m :: ms)).
Proof.
  intros m ms. induction ls as [|l t IH]; intro Hm; [destruct ms; reflexivity|]. cbn [fill]. unfold frees. cbn [filter].
  destruct (is_free l) eqn:El; cbn [length Nat.eqb].
  - rewrite fill_nil. cbn [fst]. destruct ms as [|x ms]; [cbn [fill]; rewrite ?El, ?fill_nil; reflexivity|]. cbn [fill]. rewrite ?Hm, ?El. destruct (fill t (x :: ms)); reflexivity.
  - specialize (IH Hm). unfold frees in IH. destruct (fill t [m]) as [a b] eqn:Ea. cbn [fst] in *.
    destruct (Nat.eqb (length (filter is_free t)) 0).
    + destruct ms as [|x ms]; cbn [fill]; [cbn [fst]; f_equal; rewrite !fill_nil in IH; exact IH|]. rewrite ?El. destruct (fill a (x :: ms)), (fill t (x :: ms)). cbn [fst] in *. f_equal. exact IH.
    + cbn [fill]. rewrite ?El. destruct ms as [|x ms]; [cbn [fill]; rewrite fill_nil in IH; destruct (fill t [m]); cbn [fst] in *; f_equal; exact IH|]. cbn [fill]. rewrite ?El.
      destruct (fill a (x :: ms)), (fill t (m :: x :: ms)). cbn [fst] in *. f_equal. exact IH.
Qed.
Lemma fill_one : forall m ls, byted ls -> used [m] -> frees ls <> 0%nat -> byted (fst (fill ls [m])) /\ S (frees (fst (fill ls [m]))) = frees ls.
Proof.
  intros m ls Hb Hm. inversion Hm as [|? ? [Hm1 Hm2] _]; subst. induction Hb as [|l t Hl Ht IH]; [intro H; exfalso; apply H; reflexivity|]. unfold frees. cbn [fill filter].
  destruct (is_free l) eqn:El; intro Hf.
  - rewrite fill_nil. cbn [fst filter length]. rewrite Hm2. split; [constructor; assumption|reflexivity].
  - destruct (IH Hf) as [H1 H2]. destruct (fill t [m]) as [a b]. cbn [fst filter] in *. rewrite El. split; [constructor; assumption|exact H2].
Qed.
Lemma rounds_fill : forall ms new, byted new -> used ms -> (length ms <= frees new)%nat ->
  fold_left step ms new = fst (fill new ms) /\ byted (fst (fill new ms)) /\ (frees (fst (fill new ms)) + length ms = frees new)%nat.
Proof.
  induction ms as [|m ms IH]; intros new Hb Hm Hl; [rewrite fill_nil; cbn [fold_left fst length]; split; [reflexivity|split; [exact Hb|lia]]|].
  inversion Hm as [|? ? Hm1 Hm2]; subst. cbn [length] in Hl. assert (Hz : frees new <> 0%nat) by lia.
  destruct (fill_one m new Hb (Forall_cons _ Hm1 (Forall_nil _)) Hz) as [H1 H2].
  cbn [fold_left]. unfold step at 2. rewrite (fill_first_is m new Hb). replace (Nat.eqb (frees new) 0) with false by (symmetry; apply Nat.eqb_neq; exact Hz).
  pose proof (fill_step m ms new (proj2 Hm1)) as Hs. replace (Nat.eqb (frees new) 0) with false in Hs by (symmetry; apply Nat.eqb_neq; exact Hz). rewrite <- Hs.
  destruct (IH (fst (fill new [m])) H1 Hm2 ltac:(lia)) as (E1 & E2 & E3). split; [exact E1|]. split; [exact E2|]. cbn [length]. lia.
Qed.
Lemma round_one : forall b m new, byted new -> used b -> length b = frees new -> fold_left step (b ++ [m]) new = links ++ [m].
Proof.
  intros b m new Hn Hb Hl. rewrite fold_left_app. destruct (rounds_fill b new Hn Hb ltac:(lia)) as (-> & H2 & H3). cbn [fold_left]. unfold step. rewrite (fill_first_is m _ H2).
  replace (frees (fst (fill new b))) with 0%nat by lia. reflexivity.
Qed.
Lemma rounds : byted links -> forall j dn m new, byted new -> frees new = frees links -> used (dn ++ [m]) -> (length dn + 1 = S j * (frees links + 1))%nat ->
  fold_left step (dn ++ [m]) new = links ++ [m].
Proof.
  intros Hk. set (k := frees links) in *. induction j as [|j IH]; intros dn m new Hn Hf Hu Hl.
  - apply round_one; [exact Hn|apply Forall_app in Hu; apply Hu|lia].
  - assert (Hc : dn = firstn k dn ++ skipn k dn) by (symmetry; apply firstn_skipn).
    assert (Hl1 : length (firstn k dn) = k) by (rewrite firstn_length; nia).
    assert (Hl2 : (length (skipn k dn) = S j * (k + 1))%nat) by (rewrite skipn_length; nia).
    destruct (skipn k dn) as [|x rest]; [cbn [length] in Hl2; nia|]. rewrite Hc in Hu |- *. set (b := firstn k dn) in *.
    replace ((b ++ x :: rest) ++ [m]) with ((b ++ [x]) ++ rest ++ [m]) in Hu |- * by (rewrite <- !app_assoc; reflexivity).
    apply Forall_app in Hu. destruct Hu as [Hu1 Hu2]. rewrite fold_left_app. apply Forall_app in Hu1. destruct Hu1 as [Hu1 Hx].
    rewrite (round_one b x new Hn Hu1 ltac:(lia)). destruct (Forall_inv Hx) as [Hx1 Hx2]. apply IH; [|unfold frees; rewrite filter_app, app_length; cbn [filter]; rewrite Hx2; cbn [length]; fold (frees links); lia|exact Hu2|cbn [length] in Hl2; lia].
    apply Forall_app. split; [exact Hk|]. constructor; [exact Hx1|constructor].
Qed.
End FixRounds.
Theorem C37_fix : forall links addrs, Forall (fun x => is_byte (l_flags x)) links ->
  let k := length (filter is_free links) in let ms := missing_crosslinks links addrs in
  ((length ms <= k)%nat -> fix_crosslinks links addrs = fst (fill links ms)) /\
  (forall rounds before m rest, ms = before ++ m :: rest -> (length before + 1 = S rounds * (k + 1))%nat -> (length rest <= k)%nat ->
     fix_crosslinks links addrs = fst (fill (links ++ [m]) rest)).
Proof.
  intros links addrs Hb k ms.
  assert (Hu : Forall (fun x => is_byte (l_flags x) /\ is_free x = false) ms).
  { apply Forall_forall. intros x Hx. destruct (C37_sound links addrs x Hb Hx) as (pre & l & post & E & -> & Hf & _).
    assert (Hl : is_byte (l_flags l)) by (rewrite E in Hb; apply Forall_app in Hb; destruct Hb as [_ Hb]; inversion Hb; assumption).
    destruct (C37_counterpart l Hl) as (_ & H7 & _). unfold is_free in *. rewrite (H7 7) by lia. split; [|exact Hf].
    unfold counterpart. cbn [l_flags]. unfold is_byte, bit in *. lia. }
  unfold fix_crosslinks. fold ms. split.
  - intro Hl. apply (rounds_fill links ms links Hb Hu Hl).
  - intros j before m rest E Hl Hr. rewrite E in Hu |- *. replace (before ++ m :: rest) with ((before ++ [m]) ++ rest) in Hu |- * by (rewrite <- app_assoc; reflexivity).
    apply Forall_app in Hu. destruct Hu as [Hu1 Hu2]. rewrite fold_left_app, (rounds links Hb j before m links Hb eq_refl Hu1 Hl). apply Forall_app in Hu1. destruct Hu1 as [_ Hm]. destruct (Forall_inv Hm) as [Hm1 Hm2].
    apply rounds_fill; [apply Forall_app; split; [exact Hb|constructor; [exact Hm1|constructor]]|exact Hu2|]. rewrite filter_app, app_length. fold k. lia.
Qed.
(** One record is free and three links are missing: the first takes the free record and is lost when the second starts afresh. *)
Example C37_fix_case :
  let links := [mkLink 0xe2 1 5 0 0 0; mkLink 0x22 9 9 0 0 0; mkLink 0xe2 1 6 0 0 0; mkLink 0xa2 2 7 0 0 0] in
  missing_crosslinks links [5; 6; 7] = [mkLink 0xa2 1 5 0 0 0] ++ mkLink 0xa2 1 6 0 0 0 :: [mkLink 0xe2 2 7 0 0 0] /\
  length (filter is_free links) = 1%nat /\
  fix_crosslinks links [5; 6; 7] = [mkLink 0xe2 1 5 0 0 0; mkLink 0xe2 2 7 0 0 0; mkLink 0xe2 1 6 0 0 0; mkLink 0xa2 2 7 0 0 0; mkLink 0xa2 1 6 0 0 0] /\
  fix_crosslinks links [6] = [mkLink 0xe2 1 5 0 0 0; mkLink 0xa2 1 6 0 0 0; mkLink 0xe2 1 6 0 0 0; mkLink 0xa2 2 7 0 0 0].
Proof.
  intro links. assert (Hb : Forall (fun x => is_byte (l_flags x)) links) by (repeat constructor; cbn; lia).
  split; [vm_compute; reflexivity|]. split; [reflexivity|]. split.
  - refine (eq_trans (proj2 (C37_fix links [5; 6; 7] Hb) 0%nat [mkLink 0xa2 1 5 0 0 0] (mkLink 0xa2 1 6 0 0 0) [mkLink 0xe2 2 7 0 0 0] _ _ _) _); try (vm_compute; reflexivity); vm_compute; lia.
  - refine (eq_trans (proj1 (C37_fix links [6] Hb) _) _); [vm_compute; lia|vm_compute; reflexivity].
Qed.
(** Exactly what is missing: for each address in turn, the counterpart of its first record in use, unless a later record (free or not) has
    the same address and group and the other role. *)
Theorem C37_exact : forall links, Forall (fun x => is_byte (l_flags x)) links ->
  (forall a pre l post, links = pre ++ l :: post -> l_addr l = a -> is_free l = false -> Forall (fun x => is_free x = true \/ l_addr x <> a) pre ->
     (Forall (fun x => ~ (l_addr x = a /\ l_group x = l_group l /\ bit 6 (l_flags x) <> bit 6 (l_flags l))) post /\ missing_crosslinks links [a] = [counterpart l]) \/
     (Exists (fun x => l_addr x = a /\ l_group x = l_group l /\ bit 6 (l_flags x) <> bit 6 (l_flags l)) post /\ missing_crosslinks links [a] = [])) /\
  (forall a, Forall (fun x => is_free x = true \/ l_addr x <> a) links -> missing_crosslinks links [a] = []) /\
  (forall x y, missing_crosslinks links (x ++ y) = missing_crosslinks links x ++ missing_crosslinks links y).
Proof.
  intros links Hb.
  assert (Skip : forall a pre post, Forall (fun x => is_byte (l_flags x)) pre -> Forall (fun x => is_free x = true \/ l_addr x <> a) pre -> missing_first a (pre ++ post) = missing_first a post).
  { intros a pre post Hp H. induction H as [|x pre Hx _ IH]; [reflexivity|]. cbn [app missing_first]. rewrite byte_free by exact (Forall_inv Hp).
    replace (is_free x || negb (l_addr x =? a)) with true; [apply IH; exact (Forall_inv_tail Hp)|]. destruct Hx as [-> |Hx]; [reflexivity|]. replace (l_addr x =? a) with false by lia. rewrite orb_true_r. reflexivity. }
  assert (One : forall a, missing_crosslinks links [a] = missing_first a links) by (intro a; unfold missing_crosslinks; cbn [flat_map]; apply app_nil_r).
  split; [|split].
  - intros a pre l post E Ha Hf Hpre. rewrite One, E. rewrite E in Hb. apply Forall_app in Hb. destruct Hb as [Hb1 Hb2].
    pose proof (Forall_inv Hb2) as Hl. pose proof (Forall_inv_tail Hb2) as Hb'. rewrite Skip by assumption. cbn [missing_first]. rewrite byte_free, Hf by exact Hl.
    rewrite Ha, Z.eqb_refl. cbn [negb orb]. rewrite flip_counterpart by exact Hl. rewrite Forall_forall in Hb'.
    destruct (existsb (crosslink_of a l) post) eqn:Ex.
    + right. split; [|reflexivity]. apply existsb_exists in Ex. destruct Ex as (x & Hx & Hc). apply Exists_exists. exists x. split; [exact Hx|].
      apply crosslink_spec in Hc; [exact Hc|exact Hl|auto].
    + left. split; [|reflexivity]. apply Forall_forall. intros x Hx Hc. apply (crosslink_spec a l x Hl (Hb' x Hx)) in Hc.
      assert (existsb (crosslink_of a l) post = true) by (apply existsb_exists; exists x; auto). congruence.
  - intros a H. rewrite One. rewrite <- (app_nil_r links). rewrite Skip by assumption. reflexivity.
  - intros x y. unfold missing_crosslinks. apply flat_map_app.
Qed.
(** The first record in use of address 5 has its counterpart behind it, that of address 6 has none, address 7 has no record in use. *)
Example C37_exact_case :
  let links := [mkLink 0xe2 1 5 0 0 0; mkLink 0x22 1 6 0 0 0; mkLink 0xe2 1 6 0 0 0; mkLink 0xa2 1 5 0 0 0; mkLink 0xa2 2 6 0 0 0; mkLink 0x22 3 7 0 0 0] in
  missing_crosslinks links [5; 6; 7; 6] = [mkLink 0xa2 1 6 0 0 0; mkLink 0xa2 1 6 0 0 0].
Proof.
  intro links. assert (Hb : Forall (fun x => is_byte (l_flags x)) links) by (repeat constructor; cbn; lia).
  destruct (C37_exact links Hb) as (F & N & A).
  assert (E5 : missing_crosslinks links [5] = []).
  { destruct (F 5 [] (mkLink 0xe2 1 5 0 0 0) (tl links) eq_refl eq_refl eq_refl (Forall_nil _)) as [[H _]|[_ H]]; [|exact H].
    exfalso. rewrite Forall_forall in H. apply (H (mkLink 0xa2 1 5 0 0 0)); [cbn; auto|]. cbn. repeat split; discriminate. }
  assert (E6 : missing_crosslinks links [6] = [mkLink 0xa2 1 6 0 0 0]).
  { destruct (F 6 (firstn 2 links) (mkLink 0xe2 1 6 0 0 0) (skipn 3 links) eq_refl eq_refl eq_refl) as [[_ H]|[H _]]; [|exact H|].
    - constructor; [right; discriminate|]. constructor; [left; reflexivity|constructor].
    - exfalso. apply Exists_exists in H. cbn in H. destruct H as (x & [<-|[<-|[<-|[]]]] & H1 & H2 & _); discriminate. }
  assert (E7 : missing_crosslinks links [7] = []) by (apply N; repeat (constructor; [first [left; reflexivity|right; discriminate]|]); constructor).
  change [5; 6; 7; 6] with ([5] ++ [6] ++ [7] ++ [6]). rewrite !A, E5, E6, E7. reflexivity.
Qed.
Example C37_ex : missing_crosslinks [ex_free; ex_a; ex_b; ex_c; mkLink 0xe2 2 0x0d0e0f 0 0 0] [0x0d0e0f; 0x0a0b0c; 0x101112; 77] = [mkLink 0xa2 1 0x0a0b0c 1 2 3; mkLink 0xe2 3 0x101112 7 8 9].
Proof. vm_compute. reflexivity. Qed.
Print Assumptions C37_first_record_partial.
Print Assumptions C37_sound.
Print Assumptions C37_counterpart.
Print Assumptions C37_second_group_refuted.
Print Assumptions C37_free_counterpart_refuted.
Print Assumptions C37_fix_loses_refuted.
Print Assumptions C37_fix.
Print Assumptions C37_exact.

(** * C38 order *)
Lemma addr_string_ltb : forall x y, 0 <= x < 2 ^ 24 -> 0 <= y < 2 ^ 24 -> bytes_ltb (addr_string x) (addr_string y) = (x <? y).
Proof.
  intros x y Hx Hy. change (2 ^ 24) with 16777216 in *.
  unfold addr_string. rewrite bytes_ltb_fmt by apply byte_of_range. rewrite bytes_ltb_app, bytes_ltb_fmt by apply byte_of_range. rewrite bytes_ltb_app.
  rewrite <- (app_nil_r (fmt_02x (byte_of x))), <- (app_nil_r (fmt_02x (byte_of y))). rewrite bytes_ltb_fmt by apply byte_of_range. unfold byte_of. cbn [bytes_ltb].
  rewrite (Z.mod_small (x / 65536)), (Z.mod_small (y / 65536)) by lia.
  destruct (Z.eqb_spec (x / 65536) (y / 65536)) as [E1|E1]; [|lia].
  destruct (Z.eqb_spec (x / 256 mod 256) (y / 256 mod 256)) as [E2|E2]; [|lia].
  destruct (Z.eqb_spec (x mod 256) (y mod 256)) as [E3|E3]; lia.
Qed.
(** Exactly which order it is, for every two records with any uint32 addresses. *)
Theorem C38_exact : forall a b, 0 <= l_addr a -> 0 <= l_addr b ->
  links_less a b = true <->
  (l_addr a <> l_addr b /\ l_addr a mod 2 ^ 24 < l_addr b mod 2 ^ 24) \/ (l_addr a = l_addr b /\ l_group a < l_group b).
Proof.
  intros a b Ha Hb. unfold links_less. destruct (Z.eqb_spec (l_addr a) (l_addr b)) as [E|E]; [rewrite E; lia|].
  assert (M : forall x, 0 <= x -> addr_string x = addr_string (x mod 2 ^ 24)).
  { intros x Hx. change (2 ^ 24) with 16777216. unfold addr_string, byte_of.
    replace ((x mod 16777216 / 65536) mod 256) with ((x / 65536) mod 256) by lia.
    replace ((x mod 16777216 / 256) mod 256) with ((x / 256) mod 256) by lia.
    replace ((x mod 16777216) mod 256) with (x mod 256) by lia. reflexivity. }
  rewrite (M _ Ha), (M _ Hb). rewrite addr_string_ltb by (apply Z.mod_pos_bound; reflexivity). rewrite Z.ltb_lt. tauto.
Qed.
Theorem C38_numeric : forall a b, 0 <= l_addr a < 2 ^ 24 -> 0 <= l_addr b < 2 ^ 24 ->
  links_less a b = true <-> l_addr a < l_addr b \/ (l_addr a = l_addr b /\ l_group a < l_group b).
Proof.
  intros a b Ha Hb. rewrite C38_exact by lia. rewrite !Z.mod_small by assumption. lia.
Qed.
(** A strict partial order for every three records. *)
Theorem C38_strict_partial_order : forall a b c, 0 <= l_addr a -> 0 <= l_addr b -> 0 <= l_addr c ->
  links_less a a = false /\ (links_less a b = true -> links_less b a = false) /\ (links_less a b = true -> links_less b c = true -> links_less a c = true).
Proof.
  intros a b c Ha Hb Hc. rewrite <- !not_true_iff_false. rewrite !C38_exact by assumption.
  assert (E1 : l_addr a = l_addr b -> l_addr a mod 2 ^ 24 = l_addr b mod 2 ^ 24) by congruence.
  assert (E2 : l_addr b = l_addr c -> l_addr b mod 2 ^ 24 = l_addr c mod 2 ^ 24) by congruence.
  assert (E3 : l_addr a = l_addr c -> l_addr a mod 2 ^ 24 = l_addr c mod 2 ^ 24) by congruence. revert E1 E2 E3.
  generalize (l_addr a mod 2 ^ 24) (l_addr b mod 2 ^ 24) (l_addr c mod 2 ^ 24). intros x y z E1 E2 E3.
  split; [lia|]. split; [lia|]. intros. destruct (Z.eq_dec (l_addr a) (l_addr b)), (Z.eq_dec (l_addr b) (l_addr c)); lia.
Qed.
(** Strict weak order, for all addresses a device can have. *)
Theorem C38_strict_weak : forall a b c, 0 <= l_addr a < 2 ^ 24 -> 0 <= l_addr b < 2 ^ 24 -> 0 <= l_addr c < 2 ^ 24 ->
  links_less a a = false /\ (links_less a b = true -> links_less b a = false) /\ (links_less a b = true -> links_less b c = true -> links_less a c = true) /\
  (links_less a b = false -> links_less b a = false -> l_addr a = l_addr b /\ l_group a = l_group b).
Proof.
  intros a b c Ha Hb Hc. pose proof (C38_numeric a a Ha Ha) as H1. pose proof (C38_numeric a b Ha Hb) as H2. pose proof (C38_numeric b a Hb Ha) as H3. pose proof (C38_numeric b c Hb Hc) as H4. pose proof (C38_numeric a c Ha Hc) as H5.
  destruct (links_less a a), (links_less a b), (links_less b a), (links_less b c), (links_less a c); repeat split; intros; try reflexivity; try discriminate; try lia; exfalso; lia.
Qed.
(** Longer values, which a uint32 can hold, are compared by their last three bytes but told apart by all four. *)
Theorem C38_wide_address_refuted : exists a b c, links_less a b = false /\ links_less b a = false /\ links_less b c = true /\ links_less a c = false /\ links_less c a = false.
Proof. exists (mkLink 0 9 0x01000005 0 0 0), (mkLink 0 1 5 0 0 0), (mkLink 0 2 5 0 0 0). vm_compute. auto 10. Qed.
Example C38_ex : links_less ex_a ex_b = true /\ links_less (mkLink 0 7 0x0a0b0c 0 0 0) ex_a = false /\ links_less ex_a (mkLink 0 7 0x0a0b0c 0 0 0) = true.
Proof. vm_compute. auto. Qed.
Print Assumptions C38_exact.
Print Assumptions C38_strict_partial_order.
Print Assumptions C38_numeric.
Print Assumptions C38_strict_weak.
Print Assumptions C38_wide_address_refuted.
