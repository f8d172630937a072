(** C88: failures of the commands of the command-line tool are reported. *)
From Coq Require Import ZArith List Bool.
From Verif Require Import GoBase GoProg Message Link MsgWriter BasicDevice Database GoText LinkText Plm UtilLink IcDev IcCmd FailureSpec FailureProofs FailureIcProofs.
Import ListNotations.
Open Scope Z_scope.

(** The commands for a device, a dimmer (but for its configuration), a switch and a thermostat, and for the modem's description: whatever
    opening the device, its messages and its link records do, at most one of them fails, and it is the error returned. *)
Theorem C88_commands : forall W (o : Z -> prog W (option (bdev (list failure * W)) * option error)) (l : bdev (list failure * W) -> prog W (list link * option error)) fuel a,
  (forall w d e w', o a w = (Ret (Some d, e), w') -> exists i mw, d = mkBD i (noting_mw mw)) ->
  let open x := noting DOpen snd (o x) in
  let links d := noting DLinks snd (l d) in
  let tells := @reports (list failure * W) cmdres fst none_kept eq snd in
  (forall c, tells (ic_device open links a c)) /\
  (forall c, c <> MConfig -> tells (ic_dimmer fuel open a c)) /\
  (forall c, tells (ic_switch fuel open links a c)) /\
  (forall c, tells (ic_thermostat fuel open a c)) /\
  (forall get_info get_config ls, tells (plm_info_cmd (noting DRead snd get_info) (noting DRead snd get_config) (noting DLinks snd ls))).
Proof.
  intros W o l fuel a Ho open links tells. unfold tells.
  assert (Hv : forall w d e w', open a w = (Ret (Some d, e), w') -> exists i mw, d = mkBD i (noting_mw mw)).
  { intros w d e w' H. unfold open, noting in H. destruct (o a (snd w)) as [[x| |] w1] eqn:E; try discriminate. injection H as -> _. exact (Ho _ _ _ _ E). }
  split; [|split; [|split; [|split]]]; intros; apply fol_reports.
  1-4: apply then_fol with (V := fun d => exists i mw, d = mkBD i (noting_mw mw)); [apply noting_fol|exact Hv|intros d (i & mw & ->)].
  - apply device_sub_fol, noting_fol.
  - apply dimmer_sub_fol. assumption.
  - apply switch_sub_fol, noting_fol.
  - apply therm_sub_fol.
  - apply info_cmd_fol; apply noting_fol.
Qed.

(** The configuration of a dimmer asks two questions, and returns only a failure of the second. *)
Theorem C88_dimmer_config : forall W (mw : mwriter W) i fuel w r w', dim_config_cmd fuel i (noting_mw mw) w = (Ret r, w') ->
  exists first second, fst w' = fst w ++ first ++ second /\ (length first <= 1)%nat /\
    match snd r with None => second = [] | Some e => second = [] \/ exists d, second = [(d, e)] end.
Proof. intros W mw i fuel w r w' H. exact (dim_config_fol _ _ _ _ _ _ H). Qed.

(** The linking commands, whatever opening devices, the devices and the modem do: linking keeps failures to open a device, after which it
    tries the next one, and to leave linking mode; unlinking keeps those of leaving linking mode and that a device is not linked; editing the
    records keeps a failure to read them.  Every other failure is the error returned. *)
Theorem C88_linking_commands : forall W (o : Z -> prog W (option (linkable (list failure * W)) * option error)) (modem : linkable W),
  (forall a w d e w', o a w = (Ret (Some d, e), w') -> exists x, d = noting_lk x) ->
  let open a := noting DOpen snd (o a) in
  let ends kept := @reports (list failure * W) (option error) fst kept eq same_error in
  (forall controller responder g addrs, ends (fun f => In (fst f) [DOpen; DExit]) (ic_link open (noting_lk modem) controller responder g addrs)) /\
  (forall p args, ends (fun f => fst f = DExit \/ snd f = EDevNotLinked) (ic_unlink open (noting_lk modem) p args)) /\
  (forall edit, ends (fun f => fst f = DLinks) (ic_edit (noting_lk modem) (fun t => noting DEdit snd (edit t)))).
Proof.
  intros W o modem Ho open ends. unfold ends. repeat split; intros; apply fol_reports.
  - apply ic_link_fol; [cbn; auto|exact Ho|cbn; auto].
  - apply ic_unlink_fol; [cbn; auto|exact Ho|cbn; auto].
  - apply ic_edit_fol. cbn; auto.
Qed.

(** [ex_line88c] answers writes from a list of results, and has nothing to read. *)
Definition ex_line88c : mwriter (list (option error)) :=
  mkMW (pret (None, Some EPlmReadTimeout)) (fun m w => match w with e :: t => (Ret (Some m, e), t) | [] => (Ret (Some m, None), []) end).
Definition ex_dim88 : dinfo := mkDI 0x112233 1 0x0e 0x40 2.
Definition ex_open88 : Z -> prog (list (option error)) (option (bdev (list failure * list (option error))) * option error) :=
  fun _ => pret (Some (mkBD ex_dim88 (noting_mw ex_line88c)), None).
(** The dimmer's configuration is refused, and the command ends well. *)
Theorem C88_commands_refuted : exists W (mw : mwriter W) i r w w',
  ic_dimmer 5 (fun _ => pret (Some (mkBD i (noting_mw mw)), None)) 0x112233 MConfig ([], w) = (Ret (r, None), w') /\ fst w' = [(DWrite, EDevNak)].
Proof. exists (list (option error)), ex_line88c, ex_dim88. eexists _, [Some EDevNak], _. split; vm_compute; reflexivity. Qed.

(** Turning a dimmer off is refused; dumping the records of a device fails; the modem's configuration cannot be read. *)
Example C88_commands_case :
  (forall w d e w', ex_open88 0x112233 w = (Ret (Some d, e), w') -> exists i mw, d = mkBD i (noting_mw mw)) /\
  (exists w', ic_dimmer 5 (fun x => noting DOpen snd (ex_open88 x)) 0x112233 MOff ([], [Some EDevNak]) = (Ret (nothing_shown, Some EDevNak), w') /\ fst w' = [(DWrite, EDevNak)]) /\
  (exists w', ic_device (fun x => noting DOpen snd (ex_open88 x)) (fun _ => noting DLinks snd (pret ([], Some EPlmReadTimeout))) 0x112233 DDump ([], []) = (Ret (nothing_shown, Some EPlmReadTimeout), w') /\
     fst w' = [(DLinks, EPlmReadTimeout)]) /\
  (exists t w', plm_info_cmd (noting DRead snd (pret (Some (mkInfo 0x112233 3 0x15 0x9e), None))) (noting DRead snd (pret (0, Some EPlmNak))) (noting DLinks snd (pret ([], Some EDevNak))) ([], tt) = (Ret (t, Some EPlmNak), w') /\
     fst w' = [(DRead, EPlmNak)]).
Proof.
  split; [intros w d e w' H; injection H as <- _ _; eauto|]. split; [eexists; split; vm_compute; reflexivity|]. split; [eexists; split; vm_compute; reflexivity|].
  eexists _, _. split; vm_compute; reflexivity.
Qed.
Example C88_dimmer_config_case : exists r w', dim_config_cmd 5 ex_dim88 (noting_mw ex_line88c) ([], [Some EDevNak; Some EPlmAckTimeout]) = (Ret (r, Some EPlmAckTimeout), w') /\
  fst w' = [(DWrite, EDevNak); (DWrite, EPlmAckTimeout)].
Proof. eexists _, _. split; vm_compute; reflexivity. Qed.

(** [ex_lk88c]: a device that answers all calls from the list of results. *)
Definition ex_lk88c (a : Z) : linkable (list (option error)) :=
  let try : prog (list (option error)) (option error) := fun w => match w with e :: t => (Ret e, t) | [] => (Ret None, []) end in
  mkLk a (pret a) (fun _ => try) (fun _ => try) try (do e <- try ;; pret ([mkLink 0xa2 1 0x445566 0 0 0], e)) (fun _ => try) (fun _ => try) None.
Definition ex_opens88 : Z -> prog (list (option error)) (option (linkable (list failure * list (option error))) * option error) :=
  fun a w => match w with e :: t => (Ret (Some (noting_lk (ex_lk88c a)), e), t) | [] => (Ret (Some (noting_lk (ex_lk88c a)), None), []) end.
(** No error though no device could be opened; though the device was not linked; though the records could not be read. *)
Theorem C88_linking_commands_refuted : exists (o : Z -> prog (list (option error)) (option (linkable (list failure * list (option error))) * option error)) modem,
  (exists w', ic_link (fun a => noting DOpen snd (o a)) (noting_lk modem) true false 1 [0x112233] ([], [Some EPlmReadTimeout]) = (Ret None, w') /\ fst w' = [(DOpen, EPlmReadTimeout)]) /\
  (exists w', ic_unlink (fun a => noting DOpen snd (o a)) (noting_lk modem) (mkPlmCmd 1 [0x112233]) [] ([], [Some EDevNotLinked]) = (Ret None, w') /\ fst w' = [(DOpen, EDevNotLinked)]) /\
  (exists w', ic_edit (noting_lk modem) (fun t => noting DEdit snd (pret (t, None))) ([], [Some EPlmReadTimeout]) = (Ret None, w') /\ fst w' = [(DLinks, EPlmReadTimeout)]).
Proof. exists ex_opens88, (ex_lk88c 1). repeat split; eexists; split; vm_compute; reflexivity. Qed.
(** The first device cannot be opened, the second does not enter linking mode; unlinking fails; the first link of the records read with a
    failure is edited, and cannot be written. *)
Example C88_linking_commands_case :
  (forall a w d e w', ex_opens88 a w = (Ret (Some d, e), w') -> exists x, d = noting_lk x) /\
  (exists w', ic_link (fun a => noting DOpen snd (ex_opens88 a)) (noting_lk (ex_lk88c 1)) true false 1 [0x112233; 0x445566] ([], [Some EPlmReadTimeout; None; None; Some EDevNak]) = (Ret (Some EDevNak), w') /\
     fst w' = [(DOpen, EPlmReadTimeout); (DEnter, EDevNak)]) /\
  (exists w', ic_unlink (fun a => noting DOpen snd (ex_opens88 a)) (noting_lk (ex_lk88c 1)) (mkPlmCmd 1 [0x112233; 0x445566]) [] ([], [Some EDevNotLinked; None; Some EDevNak]) = (Ret (Some EDevNak), w') /\
     fst w' = [(DOpen, EDevNotLinked); (FailureSpec.DUnlink, EDevNak)]) /\
  (exists w', ic_edit (noting_lk (ex_lk88c 1)) (fun t => noting DEdit snd (pret (t ++ [10], None))) ([], [Some EPlmReadTimeout; Some EDevNak]) = (Ret (Some EDevNak), w') /\
     fst w' = [(DLinks, EPlmReadTimeout); (DWriteAll, EDevNak)]).
Proof.
  split; [intros a w d e w' H; destruct w as [|e0 w]; injection H as <- _ _; eauto|]. repeat split; eexists; split; vm_compute; reflexivity.
Qed.

Print Assumptions C88_commands.
Print Assumptions C88_dimmer_config.
Print Assumptions C88_commands_refuted.
Print Assumptions C88_linking_commands.
Print Assumptions C88_linking_commands_refuted.
