(** Properties C55, C56: subcommands of the command-line tool. *)
From Coq Require Import ZArith List Bool Lia ZifyBool ZifyNat.
From Verif Require Import GoBase GoLemmas GoProg GoText Link LinkSpec LinkText LinkProofs PlmPacket Plm PlmSpec UtilLink UtilLinkSpec UtilLinkProofs AnonymizeSpec AnonymizeProofs EditLineSpec EditLineProofs IcCmd IcCmdSpec IcCmdProofs.
Import ListNotations.
Open Scope Z_scope.
Ltac Zify.zify_post_hook ::= Z.div_mod_to_equations.

(* ------------------------------------------------------------------ C55 *)

(** * C55.  Full statement: [plm link] links the modem with every device named, and a failure is reported.  What it does: devices that
    cannot be opened are passed over in silence; the first one that opens (linked or not) is linked in the wanted directions, the result
    is the result of that, and the devices after it are not even opened. *)
Theorem C55_link_trace : forall W (open : opener W) (modem : linkable W) controller responder g addrs,
  adds (ic_link (open_logged open) (lk_logged modem) controller responder g addrs) (fun e t =>
    exists failed rest, addrs = map fst failed ++ rest /\ Forall (fun x => ~ usable (Some (snd x))) failed /\
      match rest with
      | [] => e = None /\ t = not_opened failed
      | a :: _ => exists oe dev t1, usable oe /\ t = not_opened failed ++ (a, OOpen oe) :: t1 /\
                    linking g (lk_id modem) dev controller responder e t1
      end).
Proof. exact ic_link_trace. Qed.
(** Missing for the full statement: only for a single device, and only when it opens. *)
Theorem C55_link_single_partial : forall W (open : opener W) (modem : linkable W) controller responder g a,
  adds (ic_link (open_logged open) (lk_logged modem) controller responder g [a]) (fun e t =>
    (exists x, ~ usable (Some x) /\ e = None /\ t = [(a, OOpen (Some x))]) \/
    (exists oe dev t1, usable oe /\ t = (a, OOpen oe) :: t1 /\ linking g (lk_id modem) dev controller responder e t1)).
Proof.
  intros W open modem c r g a. eapply adds_weaken; [apply ic_link_trace|]. cbn. intros e t (failed & rest & Ha & Hf & Hm).
  destruct rest as [|b rest].
  - left. destruct Hm as [-> ->]. destruct failed as [|[b x] [|y l]]; try discriminate Ha. cbn in Ha. injection Ha as <-.
    inversion Hf; subst. exists x. repeat split; assumption.
  - right. destruct failed as [|[x y] l].
    + cbn in Ha. injection Ha as <- <-. exact Hm.
    + cbn in Ha. injection Ha as _ Ha. destruct (map fst l); discriminate Ha.
Qed.

(** A device or modem that does whatever it is told. *)
Definition ex_dev (id : Z) : linkable unit :=
  mkLk id (pret id) (fun _ => pret None) (fun _ => pret None) (pret None) (pret ([], None)) (fun _ => pret None) (fun _ => pret None) None.
(** All devices open, except that those in [dead] do not answer. *)
Definition ex_opener (dead : list Z) : opener unit := fun a =>
  if existsb (Z.eqb a) dead then pret (None, Some EDevReadTimeout) else pret (Some (ex_dev a), None).

Theorem C55_only_first_linked_refuted : exists (open : opener unit) modem a b t, a <> b /\
  ic_link (open_logged open) (lk_logged modem) true true 1 [a; b] (tt, []) = (Ret None, (tt, t)) /\
  ~ In b (opened t) /\ forall o, ~ In (b, o) t.
Proof.
  exists (ex_opener []), (ex_dev 99), 5, 6. eexists. split; [lia|]. split; [vm_compute; reflexivity|]. split.
  - cbn. intros [H|[]]. discriminate.
  - cbn. intros o H. repeat (destruct H as [H|H]; [discriminate|]). exact H.
Qed.
Theorem C55_failure_hidden_refuted : exists (open : opener unit) modem a t,
  ic_link (open_logged open) (lk_logged modem) true false 1 [a] (tt, []) = (Ret None, (tt, t)) /\ t = [(a, OOpen (Some EDevReadTimeout))].
Proof. exists (ex_opener [5]), (ex_dev 99), 5. eexists. split; vm_compute; reflexivity. Qed.

(** [plm unlink] does nothing, whatever devices are named and whatever state everything is in. *)
Theorem C55_unlink_inert : forall W (open : opener W) (modem : linkable W) args w, ic_unlink open modem the_plmcmd args w = (Ret None, w).
Proof. reflexivity. Qed.
Theorem C55_unlink_refuted : exists (open : opener unit) modem a t,
  ic_unlink (open_logged open) (lk_logged modem) the_plmcmd [a] (tt, []) = (Ret None, (tt, t)) /\ unlinks t = [] /\
  exists d, open a tt = (Ret (Some d, None), tt).
Proof. exists (ex_opener []), (ex_dev 99), 5, []. split; [reflexivity|]. split; [reflexivity|]. exists (ex_dev 5). reflexivity. Qed.

(** If the addresses did reach it: for one device, success means that the device and the modem were each asked to unlink the group,
    in this order, unless the device was not linked to begin with. *)
Theorem C55_unlink_both_sides : forall W (open : opener W) (modem : linkable W) g a args,
  adds (ic_unlink (open_logged open) (lk_logged modem) (mkPlmCmd g [a]) args) (fun e t => e = None ->
    t = [(a, OOpen (Some EDevNotLinked))] \/ exists d, unlinks t = [(d, g); (lk_id modem, g)]).
Proof. exact unlink_both_sides. Qed.
(** [plm reset] sends nothing unless the answer was yes; then the reset request and nothing else. *)
Theorem C55_reset_only_if_asked : forall sc yes st e st', 0 <= p_retries st -> ic_reset sc yes st = (Ret e, st') ->
  (yes = false -> e = None /\ st' = st) /\
  (yes = true -> exists k, 1 <= Z.of_nat k <= p_retries st + 1 /\ p_sent st' = p_sent st ++ repeat [0x02; 0x67] k).
Proof. exact reset_only_if_asked. Qed.

Example C55_ex_unlink : exists t, ic_unlink (open_logged (ex_opener [])) (lk_logged (ex_dev 99)) (mkPlmCmd 1 [5]) [] (tt, []) = (Ret None, (tt, t)) /\ unlinks t = [(5, 1); (99, 1)].
Proof. eexists. split; vm_compute; reflexivity. Qed.
Example C55_ex_reset : exists st', ic_reset (fun _ => mkStep [] [EvPacket (mkPkt 0x67 [] 6)] false None) true (mkPlm [] [] false [] [] 0 3 3 0) = (Ret None, st') /\ p_sent st' = [[0x02; 0x67]].
Proof. eexists. split; vm_compute; reflexivity. Qed.
(** [open]: without a question or with the answer no, nothing but the opening happens and its result is returned. *)
Theorem C55_open_quiet : forall W (raw : opener W) (modem : linkable W) ask yes a, ask = false \/ yes = pret false ->
  adds (ic_open (open_logged raw) (lk_logged modem) ask yes a) (fun r t => t = [(a, OOpen (snd r))]).
Proof. exact open_quiet. Qed.
(** With the answer yes a device that is not linked is opened once more and linked in group 1; the modem is the controller. *)
Theorem C55_open_links : forall W (raw : opener W) (modem : linkable W) a,
  adds (ic_open (open_logged raw) (lk_logged modem) true (pret true) a) (fun r t =>
    (snd r <> Some EDevNotLinked /\ t = [(a, OOpen (snd r))]) \/
    (exists x, ~ usable (Some x) /\ snd r = None /\ t = [(a, OOpen (Some EDevNotLinked)); (a, OOpen (Some x))]) \/
    (exists oe dev t1, usable oe /\ t = (a, OOpen (Some EDevNotLinked)) :: (a, OOpen oe) :: t1 /\ linking 1 (lk_id modem) dev true false (snd r) t1)).
Proof. exact open_links. Qed.
(** The middle case: [open] reports success though nothing was linked. *)
Theorem C55_open_success_without_link_refuted : exists (raw : opener bool) (modem : linkable bool) d w t,
  ic_open (open_logged raw) (lk_logged modem) true (pret true) 5 (true, []) = (Ret (d, None), (w, t)) /\
  t = [(5, OOpen (Some EDevNotLinked)); (5, OOpen (Some EDevReadTimeout))].
Proof.
  exists (fun a w => if (w : bool) then (Ret (Some lk_nil, Some EDevNotLinked), false) else (Ret (None, Some EDevReadTimeout), false)), lk_nil.
  eexists _, _, _. split; vm_compute; reflexivity.
Qed.

(** [plm setflag] and [plm clearflag]: the configuration is asked for; then, if the flag is known and the modem answered, a byte is
    written back in which that flag is changed and the other three are as the modem reported them.  In all other cases nothing is written
    and an error is reported. *)
Theorem C55_flag : forall sc st set flag e st', sched_all byte_packet sc -> queues_all byte_packet st -> 0 <= p_retries st ->
  ic_flag sc set flag st = (Ret e, st') ->
  exists j written, 1 <= Z.of_nat j <= p_retries st + 1 /\ p_sent st' = p_sent st ++ repeat [0x02; 0x73] j ++ written /\
    ((written = [] /\ e <> None) \/
     exists k p c rest c' n, flag_bit flag k /\ p_cmd p = 0x73 /\ p_ack p = 0x06 /\ p_payload p = c :: rest /\
       bit_changed set k c c' /\ c' mod 16 = 0 /\ 1 <= Z.of_nat n <= p_retries st + 1 /\ written = repeat [0x02; 0x6b; c'] n).
Proof. exact flag_cmd_correct. Qed.
(** Once the configuration [c] is known, a known flag is written and the verdict of SetConfig is the result. *)
Theorem C55_flag_written : forall sc st set flag k c st1, is_byte c -> plm_config sc st = (Ret (c, None), st1) -> flag_bit flag k ->
  exists c', is_byte c' /\ bit_changed set k c (c' / 16 * 16) /\ ic_flag sc set flag st = plm_set_config sc c' st1.
Proof.
  intros sc st set flag k c st1 Hc E Hk. destruct (flag_config_bits set flag k c Hc Hk) as (c' & HE & Hb & Hch).
  exists c'. split; [exact Hb|]. split; [exact Hch|]. unfold ic_flag, pbind. rewrite E, HE. reflexivity.
Qed.

Definition ex_steps (l : list step) : schedule := fun t => nth t l (mkStep [] [] false None).
Example C55_ex :
  snd (snd (ic_link (open_logged (ex_opener [5])) (lk_logged (ex_dev 99)) true true 3 [5; 6; 7] (tt, []))) =
    [(5, OOpen (Some EDevReadTimeout)); (6, OOpen None); (99, OEnter 3 None); (6, OEnter 3 None); (99, OExit); (6, OExit);
     (6, OEnter 3 None); (99, OEnter 3 None); (6, OExit); (99, OExit)] /\
  (let quiet := mkStep [] [] false None in
   let st := mkPlm [] [] false [] [] 0 3 3 0 in
   let r := ic_flag (ex_steps [quiet; mkStep [] [EvPacket (mkPkt 0x73 [0x60; 0; 0] 6)] false None; quiet; mkStep [] [EvPacket (mkPkt 0x6b [0xe0] 6)] false None]) true [76] st in
   fst r = Ret None /\ p_sent (snd r) = [[0x02; 0x73]; [0x02; 0x6b; 0xe0]]).
Proof. vm_compute. auto. Qed.
(** The modem of [C55_ex] sends only bytes; there the flag L is set. *)
Definition ex_sched55 : schedule := ex_steps [mkStep [] [] false None; mkStep [] [EvPacket (mkPkt 0x73 [0x60; 0; 0] 6)] false None; mkStep [] [] false None; mkStep [] [EvPacket (mkPkt 0x6b [0xe0] 6)] false None].
Example C55_flag_case : sched_all byte_packet ex_sched55 /\ queues_all byte_packet (mkPlm [] [] false [] [] 0 3 3 0) /\ exists st', ic_flag ex_sched55 true [76] (mkPlm [] [] false [] [] 0 3 3 0) = (Ret None, st').
Proof.
  split; [|split; [split; constructor|eexists; vm_compute; reflexivity]].
  intros t p. unfold ex_sched55, ex_steps. do 4 (destruct t as [|t]; [cbn; intros [[]|H]; try contradiction; destruct H as [H|[]]; inversion H; subst; clear H;
    unfold byte_packet; cbn; repeat constructor; unfold is_byte; lia|]). destruct t; cbn; intros [[]|[]].
Qed.
Example C55_flag_written_case : exists c' st1, is_byte c' /\ bit_changed true 7 0x60 (c' / 16 * 16) /\ ic_flag ex_sched55 true [76] (mkPlm [] [] false [] [] 0 3 3 0) = plm_set_config ex_sched55 c' st1.
Proof.
  destruct (plm_config ex_sched55 (mkPlm [] [] false [] [] 0 3 3 0)) as [r st1] eqn:E.
  assert (Er : r = Ret (0x60, None)) by (apply (f_equal fst) in E; vm_compute in E; symmetry; exact E). subst r.
  destruct (C55_flag_written ex_sched55 (mkPlm [] [] false [] [] 0 3 3 0) true [76] 7 0x60 st1 ltac:(unfold is_byte; lia) E fb_L) as (c' & H1 & H2 & H3). exists c', st1. auto.
Qed.
Print Assumptions C55_link_trace.
Print Assumptions C55_link_single_partial.
Print Assumptions C55_only_first_linked_refuted.
Print Assumptions C55_failure_hidden_refuted.
Print Assumptions C55_unlink_inert.
Print Assumptions C55_unlink_refuted.
Print Assumptions C55_unlink_both_sides.
Print Assumptions C55_reset_only_if_asked.
Print Assumptions C55_open_quiet.
Print Assumptions C55_open_links.
Print Assumptions C55_open_success_without_link_refuted.
Print Assumptions C55_flag.
Print Assumptions C55_flag_written.

(* ------------------------------------------------------------------ C56 *)

(** * C56.  The text left by the editor: if it is the text that was given out, or the editor failed, nothing is written. *)
Theorem C56_unchanged_writes_nothing : forall W (lk : linkable W) edit w l0 links le w1 out err w2,
  lk_links lk w = (Ret (l0 :: links, le), w1) -> edit (links_to_text (l0 :: links) true) w1 = (Ret (out, err), w2) ->
  err <> None \/ out = links_to_text (l0 :: links) true -> ic_edit lk edit w = (Ret err, w2).
Proof.
  intros W lk edit w l0 links le w1 out err w2 E1 E2 H. unfold ic_edit, pbind. rewrite E1, E2. destruct err as [e|]; [reflexivity|].
  destruct H as [H| ->]; [contradiction|]. rewrite (proj2 (bytes_eqb_eq _ _) eq_refl). reflexivity.
Qed.
(** Otherwise, if every line is blank, a comment or a record, exactly the records are written, in order, and the result is that of
    writing. *)
Theorem C56_writes_the_edited_records : forall W (lk : linkable W) edit w l0 links le w1 out lines rs w2,
  lk_links lk w = (Ret (l0 :: links, le), w1) -> edit (links_to_text (l0 :: links) true) w1 = (Ret (out, None), w2) ->
  out <> links_to_text (l0 :: links) true -> consists_of lines out -> read_lines record_line lines rs ->
  ic_edit lk edit w = lk_write lk rs w2.
Proof.
  intros W lk edit w l0 links le w1 out lines rs w2 E1 E2 Hne Hc Hr. unfold ic_edit, pbind. rewrite E1, E2.
  destruct (bytes_eqb (links_to_text (l0 :: links) true) out) eqn:EB; [apply bytes_eqb_eq in EB; congruence|].
  rewrite (proj2 (text_accepted_iff out rs)); [reflexivity|]. exists lines. auto.
Qed.
(** If some line is none of these, nothing is written and an error is reported. *)
Theorem C56_bad_line_writes_nothing : forall W (lk : linkable W) edit w l0 links le w1 out lines bad w2,
  lk_links lk w = (Ret (l0 :: links, le), w1) -> edit (links_to_text (l0 :: links) true) w1 = (Ret (out, None), w2) ->
  out <> links_to_text (l0 :: links) true -> consists_of lines out -> In bad lines -> ~ ignored_line bad -> (~ exists r, record_line bad r) ->
  exists e, ic_edit lk edit w = (Ret (Some e), w2).
Proof.
  intros W lk edit w l0 links le w1 out lines bad w2 E1 E2 Hne Hc Hin Hi Hb. unfold ic_edit, pbind. rewrite E1, E2.
  destruct (bytes_eqb (links_to_text (l0 :: links) true) out) eqn:EB; [apply bytes_eqb_eq in EB; congruence|].
  destruct (text_to_links out) as [rs [e|]] eqn:ET; [exists e; reflexivity|].
  exfalso. apply text_accepted_iff in ET. destruct ET as (lines' & Hc' & Hr). apply consists_split in Hc, Hc'. rewrite Hc in Hc'. subst lines'.
  clear - Hin Hi Hb Hr. induction Hr as [|l ls rs Hl Hr IH|l ls r rs Hl Hm Hr IH]; [destruct Hin| |]; destruct Hin as [->|Hin]; auto. apply Hb. exists r. exact Hm.
Qed.
(** Full statement: changing one line changes that record only.  Missing: holds for records without flag bits other than bits 7, 6 and 1. *)
Theorem C56_one_line_partial : forall W (lk : linkable W) edit w links le w1 n line new w2,
  links <> [] -> lk_links lk w = (Ret (links, le), w1) -> Forall link_wf links -> Forall (fun l => l_flags l mod 64 = 2) links ->
  ~ In 10 line -> ~ ignored_line line -> record_line line new -> nth_error links n <> Some new -> (n < length links)%nat ->
  edit (links_to_text links true) w1 = (Ret (unlines (text_heading ++ list_set (map link_marshal_text links) n line), None), w2) ->
  ic_edit lk edit w = lk_write lk (list_set links n new) w2.
Proof.
  intros W lk edit w links le w1 n line new w2 Hne E1 Hwf Hp Hl0 Hi Hm0 Hnew Hn E2. unfold ic_edit, pbind. rewrite E1.
  assert (Hl : no_nl line) by (apply Forall_forall; intros c Hc Hx; subst c; exact (Hl0 Hc)).
  assert (Hm : line_means line (Some new)).
  { apply record_line_iff in Hm0. rewrite ignored_iff in Hi. destruct (drop_space line) as [|c t] eqn:Ed; [exfalso; apply Hi; left; reflexivity|].
    apply (lm_record _ c t); auto. intro Hx. subst c. apply Hi. right. exists t. reflexivity. }
  destruct links as [|l0 links]; [contradiction|]. rewrite E2. pose proof (edited_record _ n _ _ Hwf Hp Hl Hm) as HT.
  match goal with |- context [bytes_eqb ?a ?b] => destruct (bytes_eqb a b) eqn:EB end; [|rewrite HT; reflexivity].
  apply bytes_eqb_eq in EB. rewrite <- EB in HT. rewrite (CodecProofs.text_roundtrip_plain _ true Hwf Hp) in HT. apply (f_equal fst) in HT; unfold fst in HT.
  exfalso. apply Hnew. rewrite HT. apply nth_error_list_set_eq. exact Hn.
Qed.

(** The world is what was last written. *)
Definition ex_store (links : list link) (err : option error) : linkable (option (list link)) :=
  mkLk 1 (pret 1) (fun _ => pret None) (fun _ => pret None) (pret None) (pret (links, err)) (fun _ => pret None)
    (fun ls _ => (Ret None, Some ls)) None.
(** An editor that changes the group of the record in the last line to 9. *)
Definition ex_editor (links : list link) : list Z -> prog (option (list link)) (list Z * option error) :=
  fun _ => pret (unlines (text_heading ++ map link_marshal_text (removelast links ++ [mkLink 0xe2 9 (l_addr (last links link_zero)) 0 0 0])), None).
Definition ex_links3 : list link := [mkLink 0xa2 1 0x111111 0x1f 0x1c 1; mkLink 0xe2 3 0x222222 3 0x1c 1].

(** Records that were not touched are written back with other flags. *)
Theorem C56_untouched_record_refuted : exists links edit ls w, Forall link_wf links /\ length links = 2%nat /\
  edit (links_to_text links true) None = (Ret (unlines (text_heading ++ map link_marshal_text (removelast links ++ [mkLink 0xe2 9 0x222222 0 0 0])), None), None) /\
  ic_edit (ex_store links None) edit None = (Ret None, w) /\ w = Some ls /\ hd_error ls <> hd_error links.
Proof.
  exists ex_links3, (ex_editor ex_links3). eexists _, _.
  split; [unfold ex_links3; repeat constructor; cbn; lia|]. repeat split; try (vm_compute; reflexivity).
  vm_compute. discriminate.
Qed.
(** A failed read is not noticed: the part that was read is edited, and then replaces the whole database. *)
Theorem C56_partial_read_refuted : exists links edit w, lk_links (ex_store links (Some EDevReadTimeout)) None = (Ret (links, Some EDevReadTimeout), None) /\
  ic_edit (ex_store links (Some EDevReadTimeout)) edit None = (Ret None, Some w) /\ length w = 2%nat.
Proof. exists ex_links3, (ex_editor ex_links3). eexists. split; [reflexivity|]. split; vm_compute; reflexivity. Qed.
Example C56_ex : let links := [mkLink 0xc2 7 0x0a0b0c 1 2 0xff; mkLink 0x82 1 0x222222 3 4 5] in
  ic_edit (ex_store links None) (ex_editor links) None = (Ret None, Some [mkLink 0xc2 7 0x0a0b0c 1 2 0xff; mkLink 0xc2 9 0x222222 0 0 0]) /\
  ic_edit (ex_store links None) (fun t => pret (t, None)) None = (Ret None, None) /\
  ic_edit (ex_store [] None) (fun t => pret (t, None)) None = (Ret (Some err_no_links), None).
Proof. vm_compute. auto. Qed.
Lemma ex_not_ignored : forall line, (forall t, drop_space line <> 35 :: t) -> drop_space line <> [] -> ~ ignored_line line.
Proof. intros line H1 H2 H. apply ignored_iff in H. destruct H as [H|[t H]]; [exact (H2 H)|exact (H1 t H)]. Qed.
(** Two records; the text is replaced by a comment and one record. *)
Example C56_writes_case : let links := [mkLink 0xc2 7 0x0a0b0c 1 2 0xff; mkLink 0x82 1 0x222222 3 4 5] in
  ic_edit (ex_store links None) (fun _ => pret ([35; 10] ++ link_marshal_text (mkLink 0xc2 9 0x222222 0 0 0), None)) None = (Ret None, Some [mkLink 0xc2 9 0x222222 0 0 0]).
Proof.
  cbv zeta. refine (C56_writes_the_edited_records _ (ex_store _ None) _ None _ _ _ _ _ [[35]; link_marshal_text (mkLink 0xc2 9 0x222222 0 0 0)] [mkLink 0xc2 9 0x222222 0 0 0] _ eq_refl eq_refl _ _ _).
  - vm_compute. discriminate.
  - apply AnonymizeProofs.consists_split. vm_compute. reflexivity.
  - apply rl_skip; [right; exists [], []; split; [constructor|reflexivity]|].
    apply rl_rec; [apply ex_not_ignored; vm_compute; discriminate|apply record_line_iff; vm_compute; reflexivity|constructor].
Qed.
(** One line says "x". *)
Example C56_bad_line_case : let links := [mkLink 0xc2 7 0x0a0b0c 1 2 0xff; mkLink 0x82 1 0x222222 3 4 5] in
  exists e, ic_edit (ex_store links None) (fun _ => pret (link_marshal_text (mkLink 0xc2 9 0x222222 0 0 0) ++ [10; 120], None)) None = (Ret (Some e), None).
Proof.
  cbv zeta. refine (C56_bad_line_writes_nothing _ (ex_store _ None) _ None _ _ _ _ _ [link_marshal_text (mkLink 0xc2 9 0x222222 0 0 0); [120]] [120] _ eq_refl eq_refl _ _ _ _ _).
  - vm_compute. discriminate.
  - apply AnonymizeProofs.consists_split. vm_compute. reflexivity.
  - cbn. auto.
  - apply ex_not_ignored; vm_compute; discriminate.
  - intros [r H]. apply record_line_iff in H. vm_compute in H. discriminate H.
Qed.
(** The line of the second record is replaced. *)
Example C56_one_line_case : let links := [mkLink 0xc2 7 0x0a0b0c 1 2 0xff; mkLink 0x82 1 0x222222 3 4 5] in
  ic_edit (ex_store links None) (ex_editor links) None = (Ret None, Some [mkLink 0xc2 7 0x0a0b0c 1 2 0xff; mkLink 0xc2 9 0x222222 0 0 0]).
Proof.
  cbv zeta. refine (C56_one_line_partial _ (ex_store _ None) _ None [mkLink 0xc2 7 0x0a0b0c 1 2 0xff; mkLink 0x82 1 0x222222 3 4 5] _ _ 1 (link_marshal_text (mkLink 0xc2 9 0x222222 0 0 0)) (mkLink 0xc2 9 0x222222 0 0 0) _ _ eq_refl _ _ _ _ _ _ _ _).
  - discriminate.
  - repeat (apply Forall_cons; [vm_compute; repeat split; (reflexivity || discriminate)|]). apply Forall_nil.
  - repeat constructor.
  - vm_compute. intuition discriminate.
  - apply ex_not_ignored; vm_compute; discriminate.
  - apply record_line_iff. vm_compute. reflexivity.
  - cbn. discriminate.
  - cbn. lia.
  - vm_compute. reflexivity.
Qed.
Print Assumptions C56_unchanged_writes_nothing.
Print Assumptions C56_writes_the_edited_records.
Print Assumptions C56_bad_line_writes_nothing.
Print Assumptions C56_one_line_partial.
Print Assumptions C56_untouched_record_refuted.
Print Assumptions C56_partial_read_refuted.
