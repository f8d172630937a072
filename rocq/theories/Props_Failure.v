(** C88: failures are reported. *)
From Coq Require Import ZArith List Bool Lia ZifyBool ZifyNat.
From Verif Require Import GoBase GoProg Command Message Link MsgWriter BasicDevice Query Lights Thermostat DevLinkdb UtilLink UtilSnoop Filters MemFilters PlmPacket Plm PlmLinkdb FailureSpec FailureProofs FailureFilterProofs FailureModemProofs.
Import ListNotations.
Open Scope Z_scope.
Ltac Zify.zify_post_hook ::= Z.div_mod_to_equations.

(** Requests to a device through any message writer: at most one reading or writing fails, and the error returned is that one's. *)
Theorem C88_device : forall W (mw : mwriter W) i fuel,
  let n := noting_mw mw in
  let tells A := @reports (list failure * W) (A * option error) fst none_kept eq snd in
  let ends := @reports (list failure * W) (option error) fst none_kept eq same_error in
  (forall p, reports fst none_kept eq snd (read_match fuel n p)) /\
  (forall dst, tells _ (id_request fuel n dst)) /\
  (forall c p, tells _ (bd_send i n c p)) /\
  (forall c p, ends (bd_send_command i n c p)) /\
  (forall g, ends (bd_enter_linking i n g)) /\ (forall g, ends (bd_enter_unlinking i n g)) /\ ends (bd_exit_linking i n) /\
  tells _ (bd_product_data fuel i n) /\ (forall d, tells _ (bd_extended_get fuel i n d)) /\
  tells _ (switch_status i n) /\ tells _ (switch_config fuel i n) /\ tells _ (dimmer_config fuel i n) /\ tells _ (switch_operating_flags i n) /\
  (forall z, tells _ (therm_zone_info i n z)) /\ tells _ (therm_get_mode i n) /\ tells _ (therm_get_ambient i n) /\ tells _ (therm_get_equipment i n) /\
  tells _ (therm_get_fan_speed i n) /\ tells _ (therm_get_info fuel i n) /\ tells _ (therm_get_unit fuel i n) /\ tells _ (therm_status fuel i n) /\
  (forall m, ends (therm_set_mode i n m)) /\ (forall u, ends (therm_set_unit i n u)) /\ (forall s, ends (therm_set_fan_speed i n s)).
Proof.
  intros W mw i fuel n tells ends. unfold tells, ends.
  assert (Hr : fol fst none_kept eq None snd (mw_read n)) by apply noting_fol. assert (Hw : forall m, fol fst none_kept eq None snd (mw_write n m)) by (intro; apply noting_fol).
  pose proof (@eq_refl error) as Rf. pose proof (@eq_trans error) as Tr.
  assert (Hc : forall c p, fol fst none_kept eq None same_error (bd_send_command i n c p)) by (intros; apply command_fol; auto).
  repeat split; intros; apply fol_reports.
  - apply match_fol; auto.
  - apply id_fol; auto.
  - apply send_fol; auto.
  - apply Hc.
  - apply modes_fol; auto.
  - apply modes_fol; auto.
  - apply modes_fol; auto. exact 0.
  - apply product_fol; auto.
  - apply get_fol; auto.
  - apply question_fol; auto.
  - apply configs_fol; auto.
  - apply configs_fol; auto.
  - apply ask_fol; auto.
  - apply ask_fol; auto.
  - apply question_fol; auto.
  - apply question_fol; auto.
  - apply state_fol; auto.
  - apply state_fol; auto.
  - apply info_fol; auto.
  - apply unit_fol; auto.
  - apply status_fol; auto.
  - unfold therm_set_mode. repeat match goal with |- context [if ?b then _ else _] => destruct b end; first [apply Hc | rt].
  - unfold therm_set_unit. repeat match goal with |- context [if ?b then _ else _] => destruct b end; first [apply Hc | rt].
  - unfold therm_set_fan_speed. repeat match goal with |- context [if ?b then _ else _] => destruct b end; first [apply Hc | rt].
Qed.

(** Asking for the engine version, and opening a device, say of a refusal with 0xff that the device is not linked. *)
Theorem C88_open : forall W (mw : mwriter W) fuel dst,
  let says e e' := e' = e \/ (e = EDevNak /\ e' = EDevNotLinked) in
  reports fst none_kept says snd (get_engine_version (noting_mw mw) dst) /\ reports fst none_kept says snd (dev_open fuel (noting_mw mw) dst).
Proof.
  intros W mw fuel dst says. assert (Rf : forall e, says e e) by (intro; left; reflexivity).
  assert (Tr : forall a b c, says a b -> says b c -> says a c) by (intros a b c [->|[-> ->]] [->|[H ->]]; unfold says; auto; discriminate).
  assert (L : says EDevNak EDevNotLinked) by (right; auto).
  split; apply fol_reports; [apply version_fol|apply open_fol]; auto; intros; apply noting_says; exact Rf.
Qed.

(** The link database of a device. *)
Theorem C88_links : forall W (mw : mwriter W) i fuel now,
  let n := bd_mw i (noting_mw mw) in
  let notes (x : linkdb * (list failure * W)) := fst (snd x) in
  let ends := reports notes none_kept eq same_error in
  reports notes none_kept eq snd (ld_get_links fuel n now) /\
  (forall j l, ends (ld_write_link n j l)) /\
  (forall ls, ends (ld_write_links n now ls)) /\
  (forall ls, ends (ld_add_links fuel n now ls)) /\
  (forall ls, (length ls <= 1)%nat -> ends (ld_update_links fuel n now ls)) /\
  (forall ls, reports notes none_kept (fun e e' => e' = e \/ e' = EDevLinkIndexOutOfRange) same_error (ld_update_links fuel n now ls)).
Proof.
  intros W mw i fuel now n notes ends. unfold ends.
  assert (Hr : forall says : error -> error -> Prop, (forall e, says e e) -> fol fst none_kept says None snd (mw_read n)) by (intros; apply noting_says; auto).
  assert (Hw : forall says : error -> error -> Prop, (forall e, says e e) -> forall m, fol fst none_kept says None snd (mw_write n m)) by (intros; apply noting_says; auto).
  pose proof (@eq_refl error) as Rf. pose proof (@eq_trans error) as Tr.
  repeat split; intros; apply fol_reports.
  - apply (get_links_fol fst); auto.
  - apply (write_fol fst); auto.
  - apply (write_links_fol fst); auto.
  - apply (add_links_fol fst); auto.
  - apply (update_one_fol fst); auto.
  - apply (update_fol fst); auto. intros a b c [-> | ->] [-> | ->]; auto.
Qed.

(** The library's functions, whatever the devices do: which failures each keeps to itself. *)
Theorem C88_library : forall W (x y : linkable W),
  let ends kept := @reports (list failure * W) (option error) fst kept eq same_error in
  let doing ds : failure -> Prop := fun f => In (fst f) ds in
  (forall same, reports fst none_kept eq snd (find_duplicate_links (noting_lk x) same)) /\
  (forall c a g, reports fst none_kept eq snd (find_link_record (noting_lk x) c a g)) /\
  (forall g, ends (doing [DExit]) (force_link g (noting_lk x) (noting_lk y))) /\
  (forall g, ends (doing [DExit]) (unlink g (noting_lk x) (noting_lk y))) /\
  (forall ls, ends (doing [DWriteOne]) (remove_links (noting_lk x) ls)) /\
  (forall ls, ends (doing [DWriteOne]) (add_links (noting_lk x) ls)) /\
  ends (doing [DEnter; DUnlink; DExit]) (unlink_all (noting_lk x) (noting_lk y)) /\
  (forall g, ends (fun f => doing [DExit; DWriteOne] f \/ snd f = EUtilLinkNotFound) (link_devices g (noting_lk x) (noting_lk y))) /\
  (forall g, ends (fun f => doing [DExit; DWriteOne] f \/ snd f = EUtilLinkNotFound \/ errors_is (snd f) EUtilAlreadyLinked = true) (cross_link g (noting_lk x) (noting_lk y))) /\
  (forall g xs, ends (fun f => doing [DExit; DWriteOne] f \/ snd f = EUtilLinkNotFound \/ errors_is (snd f) EUtilAlreadyLinked = true) (cross_link_all g (map noting_lk xs))).
Proof.
  intros W x y ends doing. unfold ends, doing. repeat split; intros; apply fol_reports.
  - apply duplicates_fol.
  - apply find_fol.
  - apply force_fol. cbn; auto.
  - apply unlink_fol. cbn; auto.
  - apply remove_fol. cbn; auto.
  - apply add_fol. cbn; auto.
  - apply unlink_all_fol; cbn; auto.
  - apply link_fol; cbn; auto.
  - apply cross_fol; cbn; auto.
  - apply cross_all_fol; cbn; auto.
Qed.

(** Filters pass every failure on, in whatever order they are put; only a retrying one keeps time-outs, those it tried again after.  So do
    the device's requests and its link records through them.  The monitor ends with the failure, and carries on after silences only. *)
Theorem C88_filters : forall W (mw : mwriter W) fuel ch,
  let n := vchain fuel (noting_mw mw) ch in
  let notes := notes_below fst ch in
  let kept (f : failure) := snd f = EDevReadTimeout /\ exists tries, In (FRetry tries) ch in
  reports notes kept eq snd (mw_read n) /\ (forall m, reports notes kept eq snd (mw_write n m)) /\
  (forall i c p, reports notes kept eq same_error (bd_send_command i n c p)) /\
  (forall i, reports notes kept eq snd (therm_status fuel i n)) /\
  (forall i now, reports (fun x => notes (snd x)) kept eq snd (ld_get_links fuel (bd_mw i n) now)) /\
  (forall i now ls, reports (fun x => notes (snd x)) kept eq same_error (ld_write_links (bd_mw i n) now ls)) /\
  (forall k, reports notes (fun f => kept f \/ errors_is (snd f) EInsteonReadTimeout = true) eq same_error (monitor_loop k n)).
Proof.
  intros W mw fuel ch n notes kept. pose proof (@eq_refl error) as Rf. pose proof (@eq_trans error) as Tr.
  destruct (chain_fol _ fst kept fuel (noting_mw mw) (noting_fol _ _ _ _ _ _) (fun m => noting_fol _ _ _ _ _ _) ch) as [Hr Hw]; [intros He d; split; [reflexivity|exact He]|].
  repeat split; intros; apply fol_reports.
  - exact Hr.
  - apply Hw.
  - apply command_fol; auto.
  - apply status_fol; auto.
  - apply (get_links_fol notes); auto. intro m. apply Hw.
  - apply (write_links_fol notes); auto. intro m. apply Hw.
  - apply monitor_fol; [|intros d e He; right; exact He].
    destruct (chain_fol _ fst (fun f => kept f \/ errors_is (snd f) EInsteonReadTimeout = true) fuel (noting_mw mw) (noting_fol _ _ _ _ _ _) (fun m => noting_fol _ _ _ _ _ _) ch) as [Hr' _];
      [intros He d; left; split; [reflexivity|exact He]|exact Hr'].
Qed.

(** The modem's records through any packet writer: the linking modes keep nothing; reading the records and listing the devices keep
    refusals, which end the list, and time-outs that were tried again; writing the records keeps those and, of the failures
    for which the code has another way, replies with another payload.  Every other failure is the error returned. *)
Theorem C88_modem : forall W (pw : packet_writer W) fuel now,
  let n := noting_pw pw in
  let notes (x : plmdb * (list failure * W)) := fst (snd x) in
  let tried (f : failure) := snd f = EPlmNak \/ snd f = EPlmReadTimeout in
  (forall g, reports fst none_kept eq same_error (pdb_enter_linking n g) /\ reports fst none_kept eq same_error (pdb_enter_unlinking n g) /\
             reports fst none_kept eq same_error (pdb_exit_linking n)) /\
  (forall r nak p, reports fst tried eq snd (pw_write (retry n r nak) p)) /\
  (forall r p, reports fst (fun f => snd f = EPlmReadTimeout) eq snd (pw_write (retry n r false) p)) /\
  reports notes tried eq same_error (pdb_refresh fuel n now) /\
  reports notes tried eq snd (pdb_links fuel n now) /\
  reports notes tried eq snd (pdb_iterate fuel n now) /\
  (forall ls, reports notes (fun f => tried f \/ snd f = EPlmWrongPayload) eq same_error (pdb_write_links n ls)).
Proof.
  intros W pw fuel now n notes tried.
  assert (Hr : forall kept, fol fst kept eq None snd (pw_read n)) by (intro; apply noting_fol).
  assert (Hw : forall kept p, fol fst kept eq None snd (pw_write n p)) by (intros; apply noting_fol).
  assert (Kn : forall d, tried (d, EPlmNak)) by (left; reflexivity). assert (Kt : forall d, tried (d, EPlmReadTimeout)) by (right; reflexivity).
  split; [intro g; destruct (modes_pw_fol fst none_kept n (Hw _) g) as (A & B & C); repeat split; apply fol_reports; assumption|].
  split; [intros r nak p; apply fol_reports, retry_pw_fol; auto|]. split; [intros r p; apply fol_reports, retry_pw_fol'; auto; discriminate|].
  split; [apply fol_reports; apply (pdb_refresh_fol fst tried n (Hr _) (Hw _) Kt Kn)|]. split; [apply fol_reports; apply (pdb_links_fol fst tried n (Hr _) (Hw _) Kt Kn)|].
  split; [apply fol_reports; apply (pdb_iterate_fol fst tried n (Hr _) (Hw _) Kt Kn)|].
  intro ls. apply fol_reports. apply (pdb_write_fol fst (fun f => tried f \/ snd f = EPlmWrongPayload) n (Hw _)); intro d; [left; apply Kt|left; apply Kn|right; reflexivity].
Qed.

(** Trying again hides no last failure: the modem's packets and the retrying filter return what the last try returned, and tried again only
    after refusals, if asked to, and time-outs. *)
Theorem C88_last_try : forall W,
  (forall (pw : packet_writer W) rd r nak p, 0 <= r ->
     last_told (fun e => (e = EPlmNak /\ nak = true) \/ e = EPlmReadTimeout) r snd (pw_write (retry (mkPW (fun q => logging snd (pw_write pw q)) rd) r nak) p)) /\
  (forall (mw : mwriter W) rd tries m,
     last_told (fun e => e = EDevReadTimeout) (Z.max 0 (tries - 1)) snd (mw_write (retry_filter tries (mkMW rd (fun q => logging snd (mw_write mw q)))) m)).
Proof.
  intro W. split.
  - intros pw rd r nak p Hr w x w' H. cbn [retry pw_write] in H. assert (Z.to_nat (r + 1) = S (Z.to_nat r)) as E by lia. rewrite E in H. apply retry_last in H as (b & F & T & L). exists b. repeat split; auto; lia.
  - intros mw rd tries m w x w' H. exact (writes_last _ _ _ _ _ _ _ _ _ H).
Qed.

(** ** What is kept.  [ex_line88] answers writes from a list of results. *)
Definition ex_line88 : mwriter (list (option error)) :=
  mkMW (pret (None, Some EPlmReadTimeout)) (fun m w => match w with e :: t => (Ret (Some m, e), t) | [] => (Ret (Some m, None), []) end).
Definition ex_info88 : dinfo := mkDI 0x112233 1 0x0e 0x40 2.
Definition ex_l88 (g : Z) : link := mkLink 0xa2 g 0x445566 0 0 0.
(** UpdateLinks with two links and a first write that fails says that an index was out of range. *)
Theorem C88_update_refuted : exists (w : linkdb * (list failure * list (option error))) r w',
  ld_update_links 5 (bd_mw ex_info88 (noting_mw ex_line88)) 100 [ex_l88 1; ex_l88 2] w = (Ret r, w') /\
  fst (snd w) = [] /\ fst (snd w') = [(DWrite, EDevNak)] /\ r = Some EDevLinkIndexOutOfRange.
Proof. exists (mkLdb 90 [] [], ([], [Some EDevNak])). eexists _, _. split; [vm_compute; reflexivity|]. auto. Qed.
(** [ex_lk88]: a device with the given records; a single record cannot be written the first time, and leaving linking mode fails. *)
Definition ex_lk88 (wr : bool) (a : Z) (ls : list link) : linkable (list (option error)) :=
  let try : prog (list (option error)) (option error) := fun w => match w with e :: t => (Ret e, t) | [] => (Ret None, []) end in
  mkLk a (pret a) (fun _ => try) (fun _ => try) (pret (Some EDevNak)) (pret (ls, None)) (fun _ => try) (fun _ => try) (if wr then Some (fun _ _ => try) else None).
(** No error though leaving linking mode failed; though a record was not removed; though a link was not added; though a group was not
    unlinked. *)
Theorem C88_library_refuted : exists x y : linkable (list (option error)),
  (exists f w', force_link 1 (noting_lk x) (noting_lk y) ([], []) = (Ret None, (f, w')) /\ f = [(DExit, EDevNak); (DExit, EDevNak)]) /\
  (exists f w', remove_links (noting_lk x) [ex_l88 1] ([], [Some EDevNak]) = (Ret None, (f, w')) /\ f = [(DWriteOne, EDevNak)]) /\
  (exists f w', add_links (noting_lk x) [ex_l88 3; ex_l88 4] ([], [Some EDevNak]) = (Ret None, (f, w')) /\ f = [(DWriteOne, EDevNak)]) /\
  (exists f w', unlink_all (noting_lk x) (noting_lk y) ([], [Some EDevNak]) = (Ret None, (f, w')) /\ In (DEnter, EDevNak) f \/
                unlink_all (noting_lk x) (noting_lk y) ([], [Some EDevNak]) = (Ret None, (f, w')) /\ In (DUnlink, EDevNak) f).
Proof.
  exists (ex_lk88 true 0x112233 [ex_l88 1; ex_l88 2]), (ex_lk88 true 0x445566 []). 
  split; [eexists _, _; split; [vm_compute; reflexivity|reflexivity]|]. split; [eexists _, _; split; [vm_compute; reflexivity|reflexivity]|].
  split; [eexists _, _; split; [vm_compute; reflexivity|reflexivity]|]. eexists _, _. right. split; [vm_compute; reflexivity|cbn; auto].
Qed.

(** A switch that refuses the second of five questions: one failure, and it is the error returned.  A record that cannot be written ends
    writing the list. *)
Example C88_device_case : exists r w', switch_operating_flags ex_info88 (noting_mw ex_line88) ([], [None; Some EDevNak; Some EPlmReadTimeout]) = (Ret (r, Some EDevNak), w') /\
  w' = ([(DWrite, EDevNak)], [Some EPlmReadTimeout]).
Proof. eexists _, _. split; vm_compute; reflexivity. Qed.
Example C88_open_case : exists r w', dev_open 5 (noting_mw (mkMW (pret (None, Some EPlmReadTimeout)) (fun m => pret (Some (mkMsg 0 0 0 0x2fff []), Some EDevNak)))) 0x112233 ([], tt) = (Ret (r, Some EDevNotLinked), w') /\
  fst w' = [(DWrite, EDevNak)].
Proof. eexists _, _. split; vm_compute; reflexivity. Qed.
Example C88_links_case : exists w', ld_write_links (bd_mw ex_info88 (noting_mw ex_line88)) 100 [ex_l88 1; ex_l88 2; ex_l88 3] (linkdb_new, ([], [None; Some EDevNak])) = (Ret (Some EDevNak), w') /\
  snd w' = ([(DWrite, EDevNak)], []) /\ ld_links (fst w') = [ex_l88 1].
Proof. eexists. split; vm_compute; auto. Qed.
Example C88_library_case : exists w', force_link 1 (noting_lk (ex_lk88 true 1 [])) (noting_lk (ex_lk88 true 2 [])) ([], [None; Some EPlmReadTimeout]) = (Ret (Some EPlmReadTimeout), w') /\
  fst w' = [(DEnter, EPlmReadTimeout); (DExit, EDevNak); (DExit, EDevNak)].
Proof. eexists. split; vm_compute; reflexivity. Qed.

(** Two time-outs and then a refusal, through a retrying and a time-to-live filter: the time-outs are kept, the refusal is returned. *)
Example C88_filters_case : exists w', bd_send_command ex_info88 (vchain 5 (noting_mw ex_line88) [FRetry 3; FTtl 2; FDup]) c_LightOff []
    (vinit ([], [Some EDevReadTimeout; Some EDevReadTimeout; Some EDevNak]) [FRetry 3; FTtl 2; FDup]) = (Ret (Some EDevNak), w') /\
  notes_below fst [FRetry 3; FTtl 2; FDup] w' = [(DWrite, EDevReadTimeout); (DWrite, EDevReadTimeout); (DWrite, EDevNak)].
Proof. eexists. split; vm_compute; reflexivity. Qed.

(** A modem that answers reading its records with one record and then refuses: both failures kept.  [ex_modem88] answers writes from a
    list, reads with a record.  A third failure of another kind is returned. *)
Definition ex_modem88 : packet_writer (list (option error)) :=
  mkPW (fun p w => match w with e :: t => (Ret (Some p, e), t) | [] => (Ret (Some p, None), []) end)
       (pret (Some (mkPkt pc_AllLinkRecordResp [0xe2; 1; 0x11; 0x22; 0x33; 1; 2; 3] 0), None)).
Example C88_modem_case :
  (exists w', pdb_links 5 (noting_pw ex_modem88) 100 (mkPdb 0 [] 3 10, ([], [Some EPlmReadTimeout; None; Some EPlmNak])) = (Ret ([mkLink 0xe2 1 0x112233 1 2 3], None), w') /\
     fst (snd w') = [(DWrite, EPlmReadTimeout); (DWrite, EPlmNak)]) /\
  (exists w', pdb_write_links (noting_pw ex_modem88) [mkLink 0xa2 1 0x112233 1 2 3] (mkPdb 0 [] 3 10, ([], [Some EPlmWrongPayload; Some EPlmNak; None; Some EPlmNotImplemented])) = (Ret (Some EPlmNotImplemented), w') /\
     fst (snd w') = [(DWrite, EPlmWrongPayload); (DWrite, EPlmNak); (DWrite, EPlmNotImplemented)]).
Proof. split; eexists; split; vm_compute; reflexivity. Qed.

(** Asked to try again at most once, the modem is refused twice: the refusal is returned.  The filter's third try succeeds. *)
Example C88_last_try_case :
  (exists a w', pw_write (retry (mkPW (fun q => logging snd (pw_write ex_modem88 q)) (psnd (pw_read ex_modem88))) 1 true) (mkPkt pc_GetInfo [] 0) ([], [Some EPlmNak; Some EPlmNak; None]) = (Ret (a, Some EPlmNak), w') /\
     fst w' = [Some EPlmNak; Some EPlmNak]) /\
  (exists a w', mw_write (retry_filter 3 (mkMW (psnd (mw_read ex_line88)) (fun q => logging snd (mw_write ex_line88 q)))) msg_zero ([], [Some EDevReadTimeout; Some EDevReadTimeout; None]) = (Ret (a, None), w') /\
     fst w' = [Some EDevReadTimeout; Some EDevReadTimeout; None]).
Proof. split; eexists _, _; split; vm_compute; reflexivity. Qed.

Print Assumptions C88_device.
Print Assumptions C88_open.
Print Assumptions C88_links.
Print Assumptions C88_library.
Print Assumptions C88_update_refuted.
Print Assumptions C88_library_refuted.
Print Assumptions C88_filters.
Print Assumptions C88_modem.
Print Assumptions C88_last_try.
