(** C39-C42: the device database. *)
From Coq Require Import ZArith List Bool Lia ZifyBool ZifyNat Permutation.
From Verif Require Import GoBase GoLemmas GoText GoJson JsonProofs GoProg Address Command Message MsgWriter BasicDevice Query
  Filters Database DatabaseSpec DatabaseProofs.
Import ListNotations.
Open Scope Z_scope.
Ltac Zify.zify_post_hook ::= Z.div_mod_to_equations.

(* ------------------------------------------------------------------ C39 *)

(** C39: after any history of puts, gets, filters and (failed or successful) saves of a fresh database no call has panicked, a
    get returns the newest information put under the address (the zero value if there is none), and it reports the address as
    present exactly when information other than the zero value was ever put under it. *)
Theorem C39_get_last_put_partial : forall h, exists db sv, run_ops new_memdb new_memdb h = Ret (db, sv) /\
  forall a, fst (db_get db a) = match last_put (puts_of h) a with Some i => i | None => mkDI 0 0 0 0 0 end /\
            (snd (db_get db a) = true <-> some_real_put (puts_of h) a).
Proof.
  intros h. destruct (run_ops_spec h new_memdb new_memdb []) as (db & sv & E & A & B & C); try discriminate.
  - reflexivity.
  - intros a. cbn. split; [discriminate|]. intros (i & [] & _).
  - intros _ a. reflexivity.
  - exists db, sv. split; [exact E|]. intros a. split; [apply A|apply B].
Qed.

(** C39 is false for the zero value: a put of it under address 00.00.00 is lost. *)
Theorem C39_zero_info_refuted : exists i db, db_put new_memdb i = Ret db /\ last_put [i] (di_addr i) = Some i /\ snd (db_get db (di_addr i)) = false.
Proof. exists (mkDI 0 0 0 0 0), new_memdb. repeat split. Qed.

(** C39: for every other information a get after the history finds exactly the last one put. *)
Theorem C39_get_found : forall h db sv a i,
  run_ops new_memdb new_memdb h = Ret (db, sv) -> last_put (puts_of h) a = Some i -> i <> mkDI 0 0 0 0 0 ->
  db_get db a = (i, true).
Proof.
  intros h db sv a i R L Hi. destruct (C39_get_last_put_partial h) as (db1 & sv1 & R1 & S). rewrite R1 in R. inversion R; subst db1 sv1.
  destruct (S a) as [F T]. rewrite L in F. destruct (db_get db a) as [x b]. cbn in F. subst x. f_equal. apply T.
  exists i. unfold last_put in L. apply find_some in L. destruct L as [I E]. apply in_rev in I. repeat split; [exact I|lia|exact Hi].
Qed.

(** C39: an address nothing was put under is not found. *)
Theorem C39_get_absent : forall h db sv a,
  run_ops new_memdb new_memdb h = Ret (db, sv) -> last_put (puts_of h) a = None -> snd (db_get db a) = false.
Proof.
  intros h db sv a R L. destruct (C39_get_last_put_partial h) as (db1 & sv1 & R1 & S). rewrite R1 in R. inversion R; subst db1 sv1.
  destruct (S a) as [_ T]. destruct (snd (db_get db a)); [|reflexivity]. destruct T as [T _].
  destruct (T eq_refl) as (i & I & E & _). unfold last_put in L. apply in_rev in I. apply (find_none _ _ L) in I. cbn in I. lia.
Qed.

(** C39: whenever the database does not say it needs saving, its contents are those of the last successful save (of the empty
    database if there was none). *)
Theorem C39_needs_saving_sound : forall h db sv,
  run_ops new_memdb new_memdb h = Ret (db, sv) -> db_needs_saving db = false -> same_contents db sv.
Proof.
  intros h db sv R D. destruct (run_ops_spec h new_memdb new_memdb []) as (db1 & sv1 & E & A & B & C); try discriminate.
  - reflexivity.
  - intros a. cbn. split; [discriminate|]. intros (i & [] & _).
  - intros _ a. reflexivity.
  - rewrite E in R. inversion R; subst. apply C; exact D.
Qed.

(** C39: filtering by domains lists exactly the addresses whose information is in one of them, each once. *)
Theorem C39_filter : forall db ds a, NoDup (map fst (db_map db)) ->
  (In a (db_filter db ds) <-> exists i, db_get db a = (i, true) /\ In (di_dc0 i) ds) /\ NoDup (db_filter db ds).
Proof.
  intros db ds a Hn. unfold db_filter. split.
  - rewrite in_map_iff. split.
    + intros ((k & i) & E & I). cbn in E. subst k. apply filter_In in I. destruct I as [I D]. cbn in D.
      exists i. rewrite db_get_mget. apply (mget_In _ _ _ Hn) in I. rewrite I. split; [reflexivity|].
      unfold dc_in in D. apply existsb_exists in D. destruct D as (d & Hd & E). replace (di_dc0 i) with d by lia. exact Hd.
    + intros (i & G & D). rewrite db_get_mget in G. destruct (mget (db_map db) a) as [j|] eqn:E; [|inversion G]. inversion G; subst j.
      apply (mget_In _ _ _ Hn) in E. exists (a, i). split; [reflexivity|]. apply filter_In. split; [exact E|].
      unfold dc_in. apply existsb_exists. exists (di_dc0 i). split; [exact D|cbn; lia].
  - clear a. induction (db_map db) as [|[k i] m IH]; [constructor|]. cbn in Hn. inversion Hn as [|? ? Hk Hm]; subst. cbn.
    destruct (dc_in i ds); [|apply IH; exact Hm]. cbn. constructor; [|apply IH; exact Hm].
    intros I. apply Hk. apply in_map_iff in I. destruct I as (kv & E & I). apply filter_In in I. destruct I as [I _]. rewrite <- E. apply in_map. exact I.
Qed.

(** The distinct-keys hypothesis of [C39_filter] holds of every database reached by puts. *)
Theorem C39_put_keys : forall db i db1, NoDup (map fst (db_map db)) -> db_put db i = Ret db1 -> NoDup (map fst (db_map db1)).
Proof.
  intros db i db1 Hn E. unfold db_put in E. destruct (dinfo_eqb _ _); [inversion E; subst; exact Hn|].
  unfold db_map in *. destruct (db_values db) as [m|]; [|discriminate]. inversion E; subst. cbn. apply mset_nodup; exact Hn.
Qed.

(** C39 is false of histories with a load: a load that fails empties the database and the database does not say it needs saving. *)
Theorem C39_after_load_refuted : exists db content, db_needs_saving db = false /\ ~ same_contents db new_memdb /\
  match db_load db content None with
  | (db1, e) => e <> None /\ ~ same_contents db1 db /\ db_needs_saving db1 = false
  end.
Proof.
  exists (mkDB (Some [(1, mkDI 1 1 2 3 2)]) false), [123]. split; [reflexivity|]. split.
  - intros H. specialize (H 1). discriminate.
  - cbn. split; [discriminate|]. split; [|reflexivity]. intros H. specialize (H 1). discriminate.
Qed.

Definition ex_i1 : dinfo := mkDI 0x112233 0x01 0x20 0x41 2.
Definition ex_i1b : dinfo := mkDI 0x112233 0x01 0x20 0x42 2.
Definition ex_i2 : dinfo := mkDI 0x445566 0x02 0x08 0x10 1.
Example C39_ex :
  match run_ops new_memdb new_memdb [OpPut ex_i1; OpSave None; OpPut ex_i2; OpPut ex_i1b; OpSave (Some (EIO 28)); OpPut ex_i2] with
  | Ret (db, sv) => db_get db 0x112233 = (ex_i1b, true) /\ db_get db 0x445566 = (ex_i2, true) /\ db_get db 0x778899 = (mkDI 0 0 0 0 0, false) /\
                    db_needs_saving db = true /\ db_get sv 0x112233 = (ex_i1, true) /\ db_filter db [2; 5] = [0x445566]
  | _ => False
  end.
Proof. vm_compute. repeat split. Qed.
Definition ex_hist : list dbop := [OpPut ex_i1; OpSave None; OpPut ex_i2; OpPut ex_i1b].
Example C39_get_found_case : exists db sv, run_ops new_memdb new_memdb ex_hist = Ret (db, sv) /\ last_put (puts_of ex_hist) 0x112233 = Some ex_i1b /\
  db_get db 0x112233 = (ex_i1b, true) /\ last_put (puts_of ex_hist) 7 = None /\ snd (db_get db 7) = false.
Proof.
  eexists _, _. split; [reflexivity|]. split; [reflexivity|]. split; [eapply (C39_get_found ex_hist); [reflexivity|reflexivity|discriminate]|].
  split; [reflexivity|eapply (C39_get_absent ex_hist); reflexivity].
Qed.
Example C39_needs_saving_case : exists db sv, run_ops new_memdb new_memdb (ex_hist ++ [OpSave (Some (EIO 28)); OpSave None]) = Ret (db, sv) /\ db_needs_saving db = false /\ same_contents db sv.
Proof. eexists _, _. split; [reflexivity|]. split; [reflexivity|eapply (C39_needs_saving_sound (ex_hist ++ [OpSave (Some (EIO 28)); OpSave None])); reflexivity]. Qed.
Example C39_filter_case : let db := mkDB (Some [(0x112233, ex_i1); (0x445566, ex_i2)]) true in NoDup (map fst (db_map db)) /\ (In 0x445566 (db_filter db [2; 5]) <-> exists i, db_get db 0x445566 = (i, true) /\ In (di_dc0 i) [2; 5]).
Proof.
  intros db. assert (H : NoDup (map fst (db_map db))) by (cbn; repeat constructor; cbn; intuition discriminate).
  split; [exact H|]. apply (C39_filter db [2; 5] 0x445566 H).
Qed.

(* ------------------------------------------------------------------ C40 *)

(** C40: loading, into any database, the text a database with three-byte addresses was saved as succeeds and restores exactly its
    contents. *)
Theorem C40_load_saved_partial : forall db db0, db_ok db ->
  exists db1, db_load db0 (db_marshal db) None = (db1, None) /\ same_contents db1 db /\ db_ok db1.
Proof.
  intros [v d] db0 (m & Hv & Hn & Hf). cbn in Hv. subst v.
  destruct (db_unmarshal_marshal m d db0 Hn Hf) as (m1 & P & E). exists (mkDB (Some m1) (db_dirty db0)).
  split; [exact E|]. split.
  - intros a. rewrite !db_get_mget. unfold db_map. cbn. rewrite (mget_perm m m1 Hn P). reflexivity.
  - exists m1. split; [reflexivity|]. split; [apply (Permutation_NoDup (Permutation_map fst P)); exact Hn|apply (Permutation_Forall P); exact Hf].
Qed.

(** The hypothesis of [C40_load_saved_partial] holds of everything reached by putting well-formed information. *)
Theorem C40_puts_ok : forall db i db1, db_ok db -> info_ok i -> db_put db i = Ret db1 -> db_ok db1.
Proof.
  intros db i db1 (m & Hv & Hn & Hf) Hi E. unfold db_put in E. destruct (dinfo_eqb _ _); [inversion E; subst; exists m; auto|].
  rewrite Hv in E. inversion E; subst. exists (mset m (di_addr i) i). split; [reflexivity|]. split; [apply mset_nodup; exact Hn|].
  apply mset_forall; [exact Hf|]. cbn. split; [apply Hi|exact Hi].
Qed.

(** C40 is false of addresses above 2^24: they are written as their low three bytes. *)
Theorem C40_wide_address_refuted : exists i db, db_put new_memdb i = Ret db /\
  match db_load new_memdb (db_marshal db) None with (db1, e) => e = None /\ ~ same_contents db1 db end.
Proof.
  exists (mkDI 0x1112233 1 2 3 2). eexists. split; [reflexivity|]. vm_compute. split; [reflexivity|].
  intros H. specialize (H 0x1112233). vm_compute in H. discriminate.
Qed.

(** C40: an error of the reader leaves the database as it was. *)
Theorem C40_reader_error : forall db content e, db_load db content (Some e) = (db, Some e).
Proof. reflexivity. Qed.

(** C40 is false of malformed documents, and of every one of them: whatever was in the database is lost, and an error is returned. *)
Theorem C40_bad_document_empties : forall db content, json_parse content = None ->
  exists db1 e, db_load db content None = (db1, Some e) /\ forall a, db_get db1 a = (mkDI 0 0 0 0 0, false).
Proof. intros db content H. unfold db_load, db_unmarshal. rewrite H. eexists _, _. split; [reflexivity|]. intros a. reflexivity. Qed.

Theorem C40_failed_load_refuted : exists db content db1 e, db_load db content None = (db1, Some e) /\ ~ same_contents db1 db.
Proof.
  exists (mkDB (Some [(1, mkDI 1 1 2 3 2)]) false), [123]. eexists _, _. split; [reflexivity|]. intros H. specialize (H 1). discriminate.
Qed.

(** C40: what a load produces does not depend on what was in the database before; only the needs-saving flag is kept. *)
Theorem C40_load_replaces : forall db db0 content,
  db_values (fst (db_load db content None)) = db_values (fst (db_load db0 content None)) /\
  snd (db_load db content None) = snd (db_load db0 content None) /\ db_dirty (fst (db_load db content None)) = db_dirty db.
Proof.
  intros db db0 content. unfold db_load, db_unmarshal. destruct (json_parse content) as [[| | | | | |l]|]; repeat split; try reflexivity;
  destruct (decode_map [] None l); reflexivity.
Qed.

(** A document that is just null loads without error and leaves a nil map: the next put panics. *)
Theorem C40_null_document_refuted : exists db i, db_load new_memdb [110; 117; 108; 108] None = (db, None) /\ db_put db i = Panic.
Proof. exists (mkDB None false), (mkDI 1 1 2 3 2). split; reflexivity. Qed.

(** C40, the file: after a save in which every file operation succeeded, opening the file as a database gives the same contents,
    and the database no longer needs saving. *)
Theorem C40_file_roundtrip : forall os f db f1 db1 e, db_ok db -> db_dirty db = true -> os_fine os ->
  save_db os f db = (f1, db1, e) -> e = None /\ db_needs_saving db1 = false /\ same_contents db1 db /\ file_holds f1 db.
Proof.
  intros os f db f1 db1 e Hok Hd [Ho Hw] E. unfold save_db, db_needs_saving in E. rewrite Hd, Ho, Hw in E. cbn in E. inversion E; subst.
  repeat split. destruct (C40_load_saved_partial db new_memdb Hok) as (db2 & E2 & S & _). exists db2. split; [exact E2|exact S].
Qed.

(** C40, the file: while file operations succeed, a file database's put keeps the file holding the contents. *)
Theorem C40_filedb_put_sync : forall os f db i f1 db1 e, db_ok db -> info_ok i -> os_fine os -> (db_dirty db = false -> file_holds f db) ->
  filedb_put os f db i = Ret (f1, db1, e) -> e = None /\ db_ok db1 /\ db_dirty db1 = false /\ file_holds f1 db1.
Proof.
  intros os f db i f1 db1 e Hok Hi Hos Hs E. unfold filedb_put in E. destruct (db_put db i) as [db2| |] eqn:Ep; try discriminate.
  pose proof (C40_puts_ok db i db2 Hok Hi Ep) as Hok2. unfold filedb_save in E. destruct (db_dirty db2) eqn:Ed.
  - destruct (save_db os f db2) as [[f3 db3] e3] eqn:Es. inversion E; subst.
    pose proof (C40_file_roundtrip os f db2 f1 db1 e Hok2 Ed Hos Es) as (A & B & C & D). split; [exact A|]. split; [|split; [exact B|]].
    + unfold save_db, db_needs_saving in Es. destruct Hos as [Ho Hw]. rewrite Ed, Ho, Hw in Es. cbn in Es. inversion Es; subst. exact Hok2.
    + destruct D as (d & D1 & D2). exists d. split; [exact D1|]. intros a. rewrite D2, C. reflexivity.
  - inversion E; subst. assert (Hnn : db_values db <> None) by (destruct Hok as (m & Hm & _); rewrite Hm; discriminate).
    destruct (db_put_spec db i Hnn) as (db2 & E2 & _ & _ & _ & _ & Hdd). rewrite Ep in E2. inversion E2; subst db2.
    destruct (Hdd Ed) as [Hd ->]. repeat split; auto.
Qed.

(** C40, the file: whatever the file operations answer, a file database's put stores the information under its address and leaves
    every other address alone. *)
Theorem C40_filedb_put_stores : forall os f db i f1 db1 e, db_values db <> None -> i <> mkDI 0 0 0 0 0 -> filedb_put os f db i = Ret (f1, db1, e) ->
  db_get db1 (di_addr i) = (i, true) /\ forall a, a <> di_addr i -> db_get db1 a = db_get db a.
Proof.
  intros os f db i f1 db1 e Hv Hz E. destruct (db_put_spec db i Hv) as (db2 & E2 & _ & Ho & Hi & Hs & _). unfold filedb_put in E. rewrite E2 in E.
  assert (S : db_values db1 = db_values db2).
  { unfold filedb_save, save_db in E. destruct (db_dirty db2) eqn:Ed; [|inversion E; reflexivity]. unfold db_needs_saving in E. rewrite Ed in E.
    destruct (os_open os); [inversion E; reflexivity|]. destruct (os_write os) as [n [x|]]; inversion E; reflexivity. }
  assert (G : forall a, db_get db1 a = db_get db2 a) by (intro a; unfold db_get, db_map; rewrite S; reflexivity).
  split; [|intros a Ha; rewrite G; apply Ho, Ha]. rewrite G. destruct (db_get db2 (di_addr i)) as [x b]. cbn [fst snd] in Hi, Hs. f_equal; [exact Hi|]. apply Hs. right. exact Hz.
Qed.
Example C40_filedb_put_stores_case : exists f1 db1, filedb_put (mkOS None (3%nat, Some EDevNak)) None (mkDB (Some [(7, mkDI 7 1 2 3 2)]) false) (mkDI 5 1 2 3 2) = Ret (f1, db1, Some EDevNak) /\
  db_get db1 5 = (mkDI 5 1 2 3 2, true) /\ db_get db1 7 = (mkDI 7 1 2 3 2, true).
Proof.
  destruct (filedb_put (mkOS None (3%nat, Some EDevNak)) None (mkDB (Some [(7, mkDI 7 1 2 3 2)]) false) (mkDI 5 1 2 3 2)) as [[[f1 db1] e]| |] eqn:E; [|vm_compute in E; discriminate E..].
  assert (e = Some EDevNak) as -> by (vm_compute in E; congruence). exists f1, db1. split; [reflexivity|].
  apply C40_filedb_put_stores in E; [|discriminate..]. cbn [di_addr] in E. destruct E as [A B]. split; [exact A|]. rewrite (B 7) by discriminate. reflexivity.
Qed.

Example C40_ex :
  match run_ops new_memdb new_memdb [OpPut ex_i2; OpPut ex_i1] with
  | Ret (db, _) =>
      (* {"11.22.33":{"address":"11.22.33","devCat":"01.20","firmwareVersion":65,"engineVersion":2},"44.55.66":... *)
      firstn 40 (db_marshal db) = [123; 34; 49; 49; 46; 50; 50; 46; 51; 51; 34; 58; 123; 34; 97; 100; 100; 114; 101; 115; 115; 34; 58; 34; 49; 49; 46; 50; 50; 46; 51; 51; 34; 44; 34; 100; 101; 118; 67; 97] /\
      zlen (db_marshal db) = 181 /\
      match db_load (mkDB (Some [(7, ex_i1)]) false) (db_marshal db) None with
      | (db1, None) => db_get db1 0x112233 = (ex_i1, true) /\ db_get db1 0x445566 = (ex_i2, true) /\ db_get db1 7 = (mkDI 0 0 0 0 0, false)
      | _ => False
      end
  | _ => False
  end.
Proof. vm_compute. repeat split. Qed.
Definition ex_db40 : memdb := mkDB (Some [(0x112233, ex_i1); (0x445566, ex_i2)]) true.
Example C40_db_ok_case : db_ok ex_db40 /\ info_ok ex_i1b.
Proof.
  split.
  - exists [(0x112233, ex_i1); (0x445566, ex_i2)]. split; [reflexivity|]. split; [cbn; repeat constructor; cbn; intuition discriminate|].
    repeat (apply Forall_cons; [vm_compute; repeat split; (reflexivity || discriminate)|]). apply Forall_nil.
  - vm_compute; repeat split; (reflexivity || discriminate).
Qed.
Example C40_load_saved_case : exists db1, db_load (mkDB (Some [(7, ex_i1)]) false) (db_marshal ex_db40) None = (db1, None) /\ same_contents db1 ex_db40.
Proof. destruct (C40_load_saved_partial ex_db40 (mkDB (Some [(7, ex_i1)]) false) (proj1 C40_db_ok_case)) as (db1 & E & H & _). exists db1. split; assumption. Qed.
(** A text cut off inside. *)
Example C40_bad_document_case : json_parse [123; 34; 49] = None /\ exists db1 e, db_load ex_db40 [123; 34; 49] None = (db1, Some e) /\ forall a, db_get db1 a = (mkDI 0 0 0 0 0, false).
Proof. split; [reflexivity|apply C40_bad_document_empties; reflexivity]. Qed.
Example C40_file_roundtrip_case : exists f1 db1, save_db (mkOS None (181%nat, None)) (Some [1; 2]) ex_db40 = (f1, db1, None) /\ db_needs_saving db1 = false /\ file_holds f1 ex_db40.
Proof.
  destruct (save_db (mkOS None (181%nat, None)) (Some [1; 2]) ex_db40) as [[f1 db1] e] eqn:E.
  destruct (C40_file_roundtrip (mkOS None (181%nat, None)) (Some [1; 2]) ex_db40 f1 db1 e (proj1 C40_db_ok_case) eq_refl (conj eq_refl eq_refl) E) as (-> & H1 & _ & H2).
  exists f1, db1. repeat split; assumption.
Qed.
Example C40_filedb_put_case : exists f1 db1, filedb_put (mkOS None (0%nat, None)) None ex_db40 ex_i1b = Ret (f1, db1, None) /\ db_dirty db1 = false /\ file_holds f1 db1.
Proof.
  destruct (filedb_put (mkOS None (0%nat, None)) None ex_db40 ex_i1b) as [[[f1 db1] e]| |] eqn:E; try (vm_compute in E; discriminate E).
  destruct (C40_filedb_put_sync (mkOS None (0%nat, None)) None ex_db40 ex_i1b f1 db1 e (proj1 C40_db_ok_case) (proj2 C40_db_ok_case) (conj eq_refl eq_refl)) as (-> & _ & H1 & H2); [discriminate|exact E|].
  exists f1, db1. repeat split; assumption.
Qed.

(* ------------------------------------------------------------------ C41 *)

(** C41: whatever the moment of the crash, the file afterwards is as before or holds a beginning of the new document. *)
Theorem C41_crash_states_partial : forall n f db,
  crash_after n f db = f \/ exists k, crash_after n f db = Some (firstn k (db_marshal db)).
Proof.
  intros n f db. destruct (db_dirty db) eqn:D.
  - destruct n as [|n]; [left; reflexivity|]. right. exists n. apply crash_after_dirty; exact D.
  - left. apply crash_after_clean; exact D.
Qed.

(** C41 is false, and for every database to be saved and every old file that was not empty: a crash right after the file was
    opened leaves it empty, which is neither the old nor the new contents. *)
Theorem C41_crash_empties : forall f db, db_dirty db = true -> f <> Some [] ->
  exists n, crash_after n f db <> f /\ crash_after n f db <> Some (db_marshal db).
Proof.
  intros f db D Hf. exists 1%nat. rewrite crash_after_dirty by exact D. cbn [firstn]. split; [congruence|].
  intros E. inversion E as [E1]. unfold db_marshal in E1. destruct (db_values db) as [m|]; discriminate.
Qed.

Theorem C41_crash_safe_refuted : exists n f db, db_ok db /\ db_dirty db = true /\
  crash_after n f db <> f /\ crash_after n f db <> Some (db_marshal db).
Proof.
  exists 1%nat, (Some (db_marshal (mkDB (Some [(2, mkDI 2 1 2 3 2)]) false))), (mkDB (Some [(1, mkDI 1 1 2 3 2)]) true).
  split; [|vm_compute; repeat split; discriminate].
  eexists. split; [reflexivity|]. split; [repeat constructor; cbn; tauto|]. repeat constructor; cbn; lia.
Qed.

(** C41: a file torn by a crash is never mistaken for a database: if it is neither as before nor complete, opening it reports an error. *)
Theorem C41_torn_file_detected : forall n f db, db_ok db ->
  crash_after n f db = f \/ crash_after n f db = Some (db_marshal db) \/
  exists e, new_filedb (crash_after n f db) = (new_memdb, Some e).
Proof.
  intros n f db (m & Hv & Hn & Hf). destruct (db_dirty db) eqn:D; [|left; apply crash_after_clean; exact D].
  destruct n as [|n]; [left; reflexivity|]. right. rewrite crash_after_dirty by exact D.
  destruct (skipn n (db_marshal db)) as [|b x] eqn:Ex.
  - left. f_equal. rewrite <- (firstn_skipn n (db_marshal db)) at 2. rewrite Ex, app_nil_r. reflexivity.
  - right. destruct db as [v d]. cbn in Hv. subst v. exists EJsonSyntax.
    unfold new_filedb, load_db, db_load, db_unmarshal. rewrite (db_marshal_cut m d _ (b :: x)); [reflexivity| | |discriminate].
    + eapply Forall_impl; [|exact Hf]. intros kv [_ H]; exact H.
    + rewrite <- Ex. symmetry. apply firstn_skipn.
Qed.

(** The steps a crash interrupts are those of SaveDB: run to the end they leave what SaveDB leaves, and a failed write of [k] bytes
    leaves what they leave after the truncation and [k] bytes. *)
Theorem C41_steps_are_savedb : forall os f db f1 db1 e, db_dirty db = true -> os_open os = None -> save_db os f db = (f1, db1, e) ->
  (snd (os_write os) = None -> f1 = crash_after (length (save_db_steps db)) f db) /\
  (snd (os_write os) <> None -> f1 = crash_after (S (fst (os_write os))) f db).
Proof.
  intros os f db f1 db1 e D Ho E. unfold save_db, db_needs_saving in E. rewrite D, Ho in E. split; intros Hw.
  - rewrite Hw in E. cbn in E. inversion E; subst. unfold save_db_steps, db_needs_saving. rewrite D. cbn [length]. rewrite crash_after_dirty by exact D.
    rewrite map_length, firstn_all. reflexivity.
  - destruct (snd (os_write os)) as [x|]; [|contradiction]. cbn in E. inversion E; subst. rewrite crash_after_dirty by exact D. reflexivity.
Qed.

(** C41: a save that fails leaves the database saying it needs saving, so that nothing is silently lost from memory. *)
Theorem C41_failed_save_stays_dirty : forall os f db f1 db1 x, save_db os f db = (f1, db1, Some x) -> db1 = db /\ db_needs_saving db1 = true.
Proof.
  intros os f db f1 db1 x E. unfold save_db in E. destruct (db_needs_saving db) eqn:D; [|inversion E].
  destruct (os_open os); [inversion E; subst; auto|]. destruct (snd (os_write os)); cbn in E; inversion E; subst; auto.
Qed.

Example C41_ex :
  let db := mkDB (Some [(0x112233, ex_i1)]) true in
  let old := Some (db_marshal (mkDB (Some [(0x445566, ex_i2)]) false)) in
  crash_after 0 old db = old /\ crash_after 1 old db = Some [] /\ crash_after 3 old db = Some [123; 34] /\
  crash_after 200 old db = Some (db_marshal db) /\ new_filedb (crash_after 50 old db) = (new_memdb, Some EJsonSyntax).
Proof. vm_compute. repeat split. Qed.
(** A failed write of ten bytes, and a crash that tears the file. *)
Example C41_cases : exists f1, save_db (mkOS None (10%nat, Some (EIO 28))) (Some [1; 2]) ex_db40 = (f1, ex_db40, Some (EIO 28)) /\ f1 = crash_after 11 (Some [1; 2]) ex_db40 /\
  exists e, new_filedb (crash_after 11 (Some [1; 2]) ex_db40) = (new_memdb, Some e).
Proof.
  destruct (save_db (mkOS None (10%nat, Some (EIO 28))) (Some [1; 2]) ex_db40) as [[f1 db1] e] eqn:E.
  assert (Ee : e = Some (EIO 28)) by (apply (f_equal snd) in E; vm_compute in E; symmetry; exact E). subst e.
  destruct (C41_failed_save_stays_dirty _ _ _ _ _ _ E) as [-> _].
  destruct (C41_steps_are_savedb (mkOS None (10%nat, Some (EIO 28))) _ ex_db40 _ _ _ eq_refl eq_refl E) as [_ H]. exists f1. split; [reflexivity|]. split; [apply H; discriminate|].
  destruct (C41_torn_file_detected 11 (Some [1; 2]) ex_db40 (proj1 C40_db_ok_case)) as [H1|[H1|H1]]; [vm_compute in H1; discriminate H1|vm_compute in H1; discriminate H1|exact H1].
Qed.

(** A name of the file may be written with escapes or in other characters that fold to the same: [Addre\u017fs] with the long s. *)
Example C41_ex_wide :
  jstring [92; 117; 68; 56; 51; 68; 92; 117; 68; 69; 48; 48; 34] = Some ([0x1f600], []) /\
  jstring [92; 117; 68; 56; 51; 68; 65; 34] = Some ([0xfffd; 65], []) /\ jstring [0xe9; 34; 0x2003] = Some ([0xe9], [0x2003]) /\
  fold_char 0x17f = fold_char 83 /\ fold_char 0x212a = fold_char 75.
Proof. vm_compute. repeat split. Qed.

(** Which names of members are taken for which. *)
Theorem C40_member_names : forall a b, fold_eqb a b = true <-> Forall2 same_letter a b.
Proof.
  assert (H1 : forall c d, fold_char c = fold_char d <-> same_letter c d).
  { intros c d. unfold same_letter, fold_char. cbn [In].
    destruct ((65 <=? c) && (c <=? 90)) eqn:E1; destruct ((65 <=? d) && (d <=? 90)) eqn:E2;
      destruct (c =? 383) eqn:E3; destruct (c =? 8490) eqn:E4; destruct (d =? 383) eqn:E5; destruct (d =? 8490) eqn:E6; lia. }
  intro a. unfold fold_eqb. induction a as [|x a IH]; intros [|y b].
  - split; [constructor|reflexivity].
  - split; [discriminate|intro H; inversion H].
  - split; [discriminate|intro H; inversion H].
  - cbn [map]. rewrite bytes_eqb_eq. split.
    + intro H. injection H as Hx Hr. constructor; [apply H1; exact Hx|]. apply IH. apply bytes_eqb_eq. exact Hr.
    + intro H. inversion H as [|? ? ? ? Hx Hr]; subst. f_equal; [apply H1; exact Hx|]. apply bytes_eqb_eq. apply IH. exact Hr.
Qed.
Example C40_member_names_case : fold_eqb n_address [65; 68; 100; 82; 101; 0x17f; 83] = true /\ fold_eqb n_address [97; 100; 100; 114; 101; 115; 115; 115] = false /\
  Forall2 same_letter n_address [65; 68; 100; 82; 101; 0x17f; 83].
Proof. assert (H : fold_eqb n_address [65; 68; 100; 82; 101; 0x17f; 83] = true) by (vm_compute; reflexivity). split; [exact H|]. split; [vm_compute; reflexivity|]. apply C40_member_names. exact H. Qed.
Print Assumptions C40_member_names.

(* ------------------------------------------------------------------ C42 *)

(** C42: when the address is known the stored information is used, nothing is sent and nothing changes. *)
Theorem C42_uses_stored_info : forall W fuel db (mw : mwriter W) addr filters i w, db_get db addr = (i, true) ->
  exists dev, memdb_open fuel db mw addr filters w = (Ret (Some dev, db, None), w) /\ bd_info dev = i.
Proof. intros W fuel db mw addr filters i w H. unfold memdb_open. rewrite H. exists (mkBD i mw). split; reflexivity. Qed.

(** C42: when the address is unknown, a device that is returned (also one returned with an error) talks through the filters. *)
Theorem C42_new_device_filtered_partial : forall W fuel db (mw : mwriter W) addr filters w dev db1 err w1,
  snd (db_get db addr) = false ->
  memdb_open fuel db mw addr filters w = (Ret (Some dev, db1, err), w1) -> bd_writer dev = fold_left (fun m f => f m) filters mw.
Proof.
  intros W fuel db mw addr filters w dev db1 err w1 Hg H. unfold memdb_open in H. destruct (db_get db addr) as [x b]. cbn in Hg. subst b.
  unfold pbind in H at 1. unfold dev_open_filters in H. unfold pbind in H at 1.
  destruct (dev_open fuel (apply_filters filters mw) addr w) as [[[[d info] e]| |] w2]; try discriminate. unfold pret in H at 1.
  assert (forall i, d = Some i -> bd_writer dev = apply_filters filters mw).
  { intros i ->. destruct e as [e|]; [inversion H; reflexivity|]. unfold pbind, plift in H. destruct (db_put db info); inversion H. reflexivity. }
  destruct d as [i|]; [apply (H0 i eq_refl)|]. destruct e as [e|]; [inversion H|]. unfold pbind, plift in H. destruct (db_put db info); inversion H.
Qed.

(** C42 is false when the address is known: the device talks to the bare message writer, whatever the filters. *)
Theorem C42_known_device_unfiltered : forall W fuel db (mw : mwriter W) addr filters i w, db_get db addr = (i, true) ->
  exists dev, memdb_open fuel db mw addr filters w = (Ret (Some dev, db, None), w) /\ bd_writer dev = mw.
Proof. intros W fuel db mw addr filters i w H. unfold memdb_open. rewrite H. exists (mkBD i mw). split; reflexivity. Qed.

(** C42 is false of the file database, known address or not: no device it returns talks through any filter. *)
Theorem C42_filedb_unfiltered : forall W fuel os f db (mw : mwriter W) addr filters w dev x err w1,
  filedb_open fuel os f db mw addr filters w = (Ret (Some dev, x, err), w1) -> bd_writer dev = mw.
Proof.
  intros W fuel os f db mw addr filters w dev x err w1 H. unfold filedb_open in H. unfold pbind in H at 1.
  destruct (memdb_open fuel db mw addr [] w) as [[[[d db1] e]| |] w2] eqn:E; try discriminate.
  destruct (filedb_save os f db1 e) as [[f1 db2] e1]. inversion H; subst.
  destruct (db_get db addr) as [i b] eqn:G. destruct b.
  - destruct (C42_known_device_unfiltered W fuel db mw addr [] i w G) as (dev1 & E1 & Hm). rewrite E1 in E. inversion E; subst. reflexivity.
  - exact (C42_new_device_filtered_partial W fuel db mw addr [] w dev db1 e w1 ltac:(rewrite G; reflexivity) E).
Qed.

(** A device that answers the engine version request with version 2 and announces itself as a dimmer 01.20, firmware 0x41;
    the world is the list of messages still to be read. *)
Definition ex_open_mw : mwriter (list message) :=
  mkMW (fun w => match w with [] => (Ret (None, Some EDevReadTimeout), []) | m :: t => (Ret (Some m, None), t) end)
       (fun m w => (Ret (Some (mkMsg 0x112233 0 0x20 (Z.lor (m_cmd m) 2) []), None), w)).
Definition ex_announce : message := mkMsg 0x112233 0x012041 0x8b 0x000100 [].
(** A filter that lets nothing be written. *)
Definition ex_blocker : mfilter (list message) := fun next => mkMW (mw_read next) (fun _ => pret (None, Some EDevNak)).

Theorem C42_filters_refuted : exists db dev w,
  memdb_open 10 db ex_open_mw 0x112233 [ex_blocker] w = (Ret (Some dev, db, None), w) /\
  ~ same_writer (bd_writer dev) (fold_left (fun m f => f m) [ex_blocker] ex_open_mw).
Proof.
  exists (mkDB (Some [(0x112233, ex_i1)]) false). eexists _, []. split; [reflexivity|].
  intros [_ H]. specialize (H ex_announce []). discriminate.
Qed.
Theorem C42_filedb_filters_refuted : exists os f dev x w w1,
  filedb_open 10 os f new_memdb ex_open_mw 0x112233 [ex_blocker] w = (Ret (Some dev, x, None), w1) /\
  ~ same_writer (bd_writer dev) (fold_left (fun m f => f m) [ex_blocker] ex_open_mw).
Proof.
  exists (mkOS None (0%nat, None)), None. eexists _, _, [ex_announce], []. split; [reflexivity|].
  intros [_ H]. specialize (H ex_announce []). discriminate.
Qed.

(** C42: information is stored only when both queries of the device succeeded, and then it is what they answered; all other
    entries stay as they are.  In particular a device that answers "not linked" is never stored. *)
Theorem C42_stores_only_after_success : forall W fuel db (mw : mwriter W) addr filters w dev db1 err w1,
  memdb_open fuel db mw addr filters w = (Ret (dev, db1, err), w1) ->
  db1 = db \/
  (err = None /\ snd (db_get db addr) = false /\
   exists v fw dc w2,
     get_engine_version (fold_left (fun m f => f m) filters mw) addr w = (Ret (v, None), w2) /\
     id_request fuel (fold_left (fun m f => f m) filters mw) addr w2 = (Ret (fw, dc, None), w1) /\
     db_get db1 addr = (mkDI addr (fst dc) (snd dc) fw v, true) /\
     forall a, a <> addr -> db_get db1 a = db_get db a).
Proof.
  intros W fuel db mw addr filters w dev db1 err w1 H. unfold memdb_open in H. destruct (db_get db addr) as [x b] eqn:G. destruct b.
  { inversion H; subst. left; reflexivity. }
  unfold pbind in H at 1. unfold dev_open_filters in H. unfold pbind in H at 1.
  unfold apply_filters in H. set (mw1 := fold_left (fun m f => f m) filters mw) in *.
  unfold dev_open in H. unfold pbind in H at 1.
  destruct (get_engine_version mw1 addr w) as [[[v e]| |] w2] eqn:E1; try discriminate.
  destruct e as [e|]; [unfold pret in H; inversion H; left; reflexivity|].
  unfold pbind in H at 1. destruct (id_request fuel mw1 addr w2) as [[[[fw dc] e]| |] w3] eqn:E2; try discriminate.
  destruct e as [e|]; [unfold pret in H; inversion H; left; reflexivity|].
  unfold pret in H at 1 2. unfold pbind, plift in H. cbv beta iota in H.
  set (info := mkDI addr (fst dc) (snd dc) fw v) in *.
  destruct (db_put db info) as [db2| |] eqn:Ep; inversion H; subst.
  unfold db_put in Ep. change (di_addr info) with addr in Ep. rewrite G in Ep. cbn [fst] in Ep.
  destruct (dinfo_eqb x info) eqn:Ex; [inversion Ep; left; reflexivity|].
  right. split; [reflexivity|]. split; [reflexivity|]. exists v, fw, dc, w2. split; [first [exact E1|reflexivity]|]. split; [first [exact E2|reflexivity]|].
  destruct (db_values db) as [m|] eqn:Em; [|discriminate]. inversion Ep; subst.
  split.
  - rewrite db_get_mget. unfold db_map. cbn [db_values]. rewrite mget_mset, Z.eqb_refl. reflexivity.
  - intros a Ha. rewrite !db_get_mget. unfold db_map. cbn [db_values]. rewrite mget_mset, Em. replace (a =? addr) with false by lia. reflexivity.
Qed.

(** C42: an open that ends in an error leaves database and file alone. *)
Theorem C42_failed_open_stores_nothing : forall W fuel db (mw : mwriter W) addr filters w dev db1 e w1,
  memdb_open fuel db mw addr filters w = (Ret (dev, db1, Some e), w1) -> db1 = db /\
  forall os f, filedb_save os f db1 (Some e) = (f, db, Some e).
Proof.
  intros W fuel db mw addr filters w dev db1 e w1 H. apply C42_stores_only_after_success in H. destruct H as [->|(A & _)]; [|discriminate].
  split; reflexivity.
Qed.

Example C42_ex :
  (match memdb_open 10 new_memdb ex_open_mw 0x112233 [ttl_filter 3] [ex_announce] with
   | (Ret (Some dev, db, None), []) => bd_info dev = mkDI 0x112233 0x01 0x20 0x41 2 /\ db_get db 0x112233 = (mkDI 0x112233 0x01 0x20 0x41 2, true)
   | _ => False
   end) /\
  (* unknown device behind the blocking filter: refused, nothing stored; known device: the filter is ignored *)
  fst (memdb_open 10 new_memdb ex_open_mw 0x112233 [ex_blocker] [ex_announce]) = Panic /\
  (match memdb_open 10 (mkDB (Some [(0x112233, ex_i1)]) false) ex_open_mw 0x112233 [ex_blocker] [ex_announce] with
   | (Ret (Some dev, _, None), w) => fst (mw_write (bd_writer dev) ex_announce w) <> fst (mw_write (ex_blocker ex_open_mw) ex_announce w)
   | _ => False
   end).
Proof. vm_compute. repeat split. discriminate. Qed.
Example C42_known_case : let db := mkDB (Some [(0x112233, ex_i1)]) false in db_get db 0x112233 = (ex_i1, true) /\
  exists dev, memdb_open 10 db ex_open_mw 0x112233 [ttl_filter 3] [ex_announce] = (Ret (Some dev, db, None), [ex_announce]) /\ bd_info dev = ex_i1.
Proof. split; [reflexivity|]. apply C42_uses_stored_info. reflexivity. Qed.
Example C42_failed_open_case : exists dev e w1, memdb_open 10 new_memdb ex_open_mw 0x112233 [ttl_filter 3] [] = (Ret (dev, new_memdb, Some e), w1).
Proof. eexists _, _, _. reflexivity. Qed.

Print Assumptions C39_get_last_put_partial.
Print Assumptions C39_zero_info_refuted.
Print Assumptions C39_get_found.
Print Assumptions C39_get_absent.
Print Assumptions C39_needs_saving_sound.
Print Assumptions C39_filter.
Print Assumptions C39_put_keys.
Print Assumptions C39_after_load_refuted.
Print Assumptions C40_load_saved_partial.
Print Assumptions C40_puts_ok.
Print Assumptions C40_wide_address_refuted.
Print Assumptions C40_reader_error.
Print Assumptions C40_bad_document_empties.
Print Assumptions C40_failed_load_refuted.
Print Assumptions C40_load_replaces.
Print Assumptions C40_null_document_refuted.
Print Assumptions C40_file_roundtrip.
Print Assumptions C40_filedb_put_sync.
Print Assumptions C40_filedb_put_stores.
Print Assumptions C41_crash_states_partial.
Print Assumptions C41_crash_empties.
Print Assumptions C41_crash_safe_refuted.
Print Assumptions C41_torn_file_detected.
Print Assumptions C41_steps_are_savedb.
Print Assumptions C41_failed_save_stays_dirty.
Print Assumptions C42_uses_stored_info.
Print Assumptions C42_new_device_filtered_partial.
Print Assumptions C42_known_device_unfiltered.
Print Assumptions C42_filedb_unfiltered.
Print Assumptions C42_filters_refuted.
Print Assumptions C42_filedb_filters_refuted.
Print Assumptions C42_stores_only_after_success.
Print Assumptions C42_failed_open_stores_nothing.
