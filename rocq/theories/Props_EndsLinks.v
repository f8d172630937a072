(** C85, continued: the modem's own subcommands, editing, unlinking and the functions of the library for links come to an end too. *)
From Coq Require Import ZArith List Bool Lia ZifyBool ZifyNat.
From Verif Require Import GoBase GoProg Command Message Link MsgWriter BasicDevice Query PlmPacket Plm PlmLinkdb Database DevLinkdb UtilLink LinkText IcCmd IcDev IcLine IcWalk IcLink
  Parties EndsSpec EndsProofs EndsNetProofs EndsLinksProofs Props_Line Props_Ends.
Import ListNotations.
Open Scope Z_scope.

(** The library's functions over any devices and the modem, each remembering its links: with at most [P] packets, all of them end. *)
Theorem C85_library : forall P sc now m st, at_most P sc st ->
  let lk fuel n := member_lk fuel n sc now in
  (forall g x y, ends P (fun fuel n => link_devices g (lk fuel n x) (lk fuel n y)) (m, st)) /\
  (forall g x y, ends P (fun fuel n => cross_link g (lk fuel n x) (lk fuel n y)) (m, st)) /\
  (forall g ds, ends P (fun fuel n => cross_link_all g (map (lk fuel n) ds)) (m, st)) /\
  (forall g x y, ends P (fun fuel n => unlink g (lk fuel n x) (lk fuel n y)) (m, st)) /\
  (forall x y, ends P (fun fuel n => unlink_all (lk fuel n x) (lk fuel n y)) (m, st)) /\
  (forall x ls, ends P (fun fuel n => add_links (lk fuel n x) ls) (m, st)) /\
  (forall x ls, ends P (fun fuel n => remove_links (lk fuel n x) ls) (m, st)) /\
  (forall x same, ends P (fun fuel n => find_duplicate_links (lk fuel n x) same) (m, st)) /\
  (forall x ls, ends P (fun fuel n => lk_update (lk fuel n x) ls) (m, st)) /\
  (forall x ls, ends P (fun fuel n => lk_write (lk fuel n x) ls) (m, st)).
Proof.
  intros P sc now m st Hm lk. pose proof (used2_counts memory sc) as HU.
  repeat split; intros; (apply (ends_of_fits _ sc); [exact Hm|]); intros k k' n n' Hk Hkk Hn Hnn; cbv beta;
    assert (F : forall p, all_fits (@used2 memory sc) (P + 1) (lk k n p) (lk k' n' p)) by (intro p; apply member_fits; lia).
  - apply link_fits; auto.
  - apply cross_fits; auto.
  - apply cross_all_fits; auto. induction ds as [|d ds IH]; cbn [map]; constructor; auto.
  - apply unlink_fits; auto.
  - apply unlink_all_fits; auto.
  - apply add_fits; auto.
  - apply remove_fits; auto.
  - apply dup_fits; auto.
  - apply (F x).
  - apply (F x).
Qed.

(** Without a bound on the packets this is false: a modem that always has one more record keeps Link asking. *)
Definition ex_memory85 : memory := mkMem (fun _ => linkdb_new) (modem_db ex_plm65).
Definition ex_dimmer85 : member := PDev 0 (mkDI 0x112233 1 0x0e 0x40 2).
Theorem C85_library_always_ends_refuted : exists sc now m st g x y, never_ends (fun fuel n => link_devices g (member_lk fuel n sc now x) (member_lk fuel n sc now y)) (m, st).
Proof.
  exists ex_records85, 100000, ex_memory85, ex_plm65, 1, PModem, ex_dimmer85. intros fuel n. pose proof (ex_listing85 fuel n) as H. cbv beta in H.
  unfold link_devices, find_link_record, pbind, ex_dimmer85. cbn [member_lk lk_address lk_links]. unfold pret at 1. unfold on_plm at 1. cbn [ex_memory85 me_modem].
  destruct (pdb_links n (plm_pw ex_records85) 100000 (modem_db ex_plm65, ex_plm65)) as [o [d s]]. cbn [fst] in H. subst o. reflexivity.
Qed.

(** Editing the links of a device or of the modem, whatever text the user leaves in the editor. *)
Theorem C85_edit : forall P sc now x edit m st, at_most P sc st -> (forall t w, exists r, edit t w = (Ret r, w)) ->
  ends P (fun fuel n => ic_edit (member_lk fuel n sc now x) edit) (m, st).
Proof.
  intros P sc now x edit m st Hm Hed. pose proof (used2_counts memory sc) as HU. apply (ends_of_fits _ sc); [exact Hm|]. intros k k' n n' Hk Hkk Hn Hnn.
  apply edit_fits; [exact HU|apply member_fits; lia|]. intros t w r w' H. destruct (Hed t w) as [z Hz]. rewrite Hz in H. injection H as <- <-. split; [apply HU|].
  exists z. split; [exact Hz|reflexivity].
Qed.

(** The modem's own subcommands: its information with its links, its flags, its reset. *)
Theorem C85_modem_commands : forall P sc now db st, at_most P sc st ->
  ends P (fun _ n => plm_info_cmd (psnd (plm_info sc)) (psnd (plm_config sc)) (pdb_links n (plm_pw sc) now)) (db, st) /\
  (forall set flag, ends P (fun _ _ => psnd (ic_flag sc set flag)) (db, st)) /\
  (forall yes, ends P (fun _ _ => psnd (ic_reset sc yes)) (db, st)).
Proof.
  intros P sc now db st Hm. pose proof (used_counts sc) as HU1. pose proof (used2_counts plmdb sc) as HU.
  split; [|split; intros]; (apply (ends_of_fits _ sc); [exact Hm|]); intros k k' n n' Hk Hkk Hn Hnn.
  - unfold plm_info_cmd. cbv zeta. ft; [apply psnd_fits, plain_fits, info_plain|apply psnd_fits, plain_fits, config_plain|apply pdb_links_fits; lia].
  - apply psnd_fits. unfold ic_flag. ft; apply plain_fits; [apply config_plain|apply set_config_plain].
  - apply psnd_fits. destruct yes; cbn [ic_reset]; [apply plain_fits, reset_plain|apply ft_ret; exact HU1].
Qed.

(** Unlinking with the tool, had it any addresses. *)
Theorem C85_unlink : forall P sc os now filters p args f db st, at_most P sc st ->
  ends P (fun fuel n => ic_unlink (open_lk n now (db_opener fuel os (plm_mw fuel sc) filters)) (modem_lk n sc now) p args) ((f, db), st).
Proof.
  intros P sc os now filters p args f db st Hm. apply (ends_of_fits _ sc); [exact Hm|]. intros k k' n n' Hk Hkk Hn Hnn. unfold ic_unlink. apply ic_unlink_fits; assumption.
Qed.

(** The modem lists one record of the dimmer and then falls silent: unlinking lists it, tries to take it out and reports the silence. *)
Example C85_library_case : forall fuel n, (5 <= fuel)%nat -> (5 <= n)%nat ->
  fst (unlink_all (member_lk fuel n ex_listed85 100000 PModem) (member_lk fuel n ex_listed85 100000 ex_dimmer85) (ex_memory85, ex_plm65)) = Ret (Some (EWrap EPlmReadTimeout)).
Proof.
  destruct (C85_library 3 ex_listed85 100000 ex_memory85 ex_plm65 ex_listed_at_most85) as (_ & _ & _ & _ & H & _). destruct (H PModem ex_dimmer85) as (r & w' & _ & H1).
  intros fuel n Hf Hn. rewrite (H1 fuel n Hf Hn). cbn [fst]. specialize (H1 5%nat 5%nat (Nat.le_refl _) (Nat.le_refl _)). apply (f_equal fst) in H1. cbn [fst] in H1. rewrite <- H1.
  vm_compute. reflexivity.
Qed.
(** The user doubles every line: the first record is written, and the silence is reported. *)
Example C85_edit_case : forall fuel n, (5 <= fuel)%nat -> (5 <= n)%nat ->
  fst (ic_edit (member_lk fuel n ex_listed85 100000 PModem) (fun t => pret (t ++ t, None)) (ex_memory85, ex_plm65)) = Ret (Some (EWrap EPlmReadTimeout)).
Proof.
  destruct (C85_edit 3 ex_listed85 100000 PModem (fun t => pret (t ++ t, None)) ex_memory85 ex_plm65 ex_listed_at_most85) as (r & w' & _ & H1).
  { intros t w. exists (t ++ t, None). reflexivity. }
  intros fuel n Hf Hn. rewrite (H1 fuel n Hf Hn). cbn [fst]. specialize (H1 5%nat 5%nat (Nat.le_refl _) (Nat.le_refl _)). apply (f_equal fst) in H1. cbn [fst] in H1. rewrite <- H1.
  vm_compute. reflexivity.
Qed.
Example C85_modem_commands_case : forall n, (5 <= n)%nat -> exists r,
  fst (plm_info_cmd (psnd (plm_info ex_listed85)) (psnd (plm_config ex_listed85)) (pdb_links n (plm_pw ex_listed85) 100000) (modem_db ex_plm65, ex_plm65)) = Ret r.
Proof.
  destruct (C85_modem_commands 3 ex_listed85 100000 (modem_db ex_plm65) ex_plm65 ex_listed_at_most85) as [(r & w' & _ & H1) _].
  assert (Hr : exists x, r = Ret x).
  { specialize (H1 5%nat 5%nat (Nat.le_refl _) (Nat.le_refl _)). apply (f_equal fst) in H1. cbn [fst] in H1. rewrite <- H1. vm_compute. eexists. reflexivity. }
  destruct Hr as [x ->]. intros n Hn. exists x. exact (f_equal fst (H1 5%nat n ltac:(lia) Hn)).
Qed.
Example C85_unlink_case : forall fuel n, (4 <= fuel)%nat -> (4 <= n)%nat ->
  fst (ic_unlink (open_lk n 100000 (db_opener fuel (mkOS None (0%nat, None)) (plm_mw fuel ex_two85) [])) (modem_lk n ex_two85 100000) (mkPlmCmd 1 [0x112233]) [] ((None, ex_db65), ex_plm65))
  = Ret (Some EPlmWrongPayload).
Proof.
  destruct (C85_unlink 2 ex_two85 (mkOS None (0%nat, None)) 100000 [] (mkPlmCmd 1 [0x112233]) [] None ex_db65 ex_plm65 ex_at_most85) as (r & w' & _ & H1).
  intros fuel n Hf Hn. refine (eq_trans (f_equal fst (H1 fuel n Hf Hn)) _). cbn [fst]. specialize (H1 4%nat 4%nat (Nat.le_refl _) (Nat.le_refl _)). apply (f_equal fst) in H1. cbn [fst] in H1. rewrite <- H1.
  vm_compute. reflexivity.
Qed.

Print Assumptions C85_library.
Print Assumptions C85_library_always_ends_refuted.
Print Assumptions C85_edit.
Print Assumptions C85_modem_commands.
Print Assumptions C85_unlink.
