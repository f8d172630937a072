(** C82: several runs of the tools sharing the device file. *)
From Coq Require Import ZArith List Bool Lia ZifyBool ZifyNat.
From Verif Require Import GoBase GoLemmas GoText GoJson JsonProofs GoProg MsgWriter BasicDevice Database DatabaseSpec DatabaseProofs
  SharedDb SharedDbSpec SharedDbProofs.
Import ListNotations.
Open Scope Z_scope.

(** C82: when every save is finished before anything else happens to the file, then whatever the runs do otherwise the file can be
    loaded and answers with what the run that saved last knows: what the file held when that run started and what it put itself. *)
Theorem C82_saves_apart_partial : forall db0 h0 l, db_ok db0 -> answers db0 h0 -> Forall call_fine l ->
  file_answers (sh_file (shared_run (at_rest (Some (db_marshal db0))) (flat_map call_events l)))
               (kn_file (fold_left known_step l (mkKn h0 (fun _ => None)))).
Proof.
  intros db0 h0 l Hd Ha Hl.
  destruct (apart_run l (at_rest (Some (db_marshal db0))) (mkKn h0 (fun _ => None))) as [(d & Ef & O & A) _]; [|exact Hl|].
  - split; [exists db0; auto|]. intros i. reflexivity.
  - rewrite Ef. destruct (load_whole d O) as (db & E & S & _). exists db. split; [exact E|]. intros a. rewrite S. apply A.
Qed.

(** C82: if moreover no run puts anything after another one did since it started, nothing is ever lost: the file answers with the
    newest information of all that was put. *)
Theorem C82_nothing_lost : forall db0 h0 l, db_ok db0 -> answers db0 h0 -> Forall call_fine l -> up_to_date (fun _ => None) l ->
  file_answers (sh_file (shared_run (at_rest (Some (db_marshal db0))) (flat_map call_events l))) (h0 ++ calls_puts l).
Proof.
  intros db0 h0 l Hd Ha Hl Hu. destruct (C82_saves_apart_partial db0 h0 l Hd Ha Hl) as (db & E & A). exists db. split; [exact E|].
  intros a. rewrite A. rewrite (fresh_run l (fun _ => None) (mkKn h0 (fun _ => None)) h0); [reflexivity| |exact Hu].
  split; [reflexivity|]. intros i. reflexivity.
Qed.

(** One run of a tool from beginning to end. *)
Definition session (puts : list dinfo) : list call := CStart 0 :: map (CPut 0) puts ++ [CEnd 0].
Lemma session_up : forall puts st l, st 0%nat = Some true -> (forall j, (j > 0)%nat -> st j = None) ->
  up_to_date (fun _ => None) l ->
  (forall st1 st2 l, (forall j, st1 j = st2 j) -> up_to_date st1 l -> up_to_date st2 l) ->
  up_to_date st (map (CPut 0) puts ++ CEnd 0 :: l).
Proof.
  induction puts as [|x puts IH]; intros st l H0 Hj Hl Hext; cbn [map app up_to_date].
  - apply (Hext (fun _ => None)); [|exact Hl]. intros j. destruct (Nat.eqb j 0) eqn:E; [reflexivity|]. apply Nat.eqb_neq in E. symmetry. apply Hj. lia.
  - split; [exact H0|]. apply IH; [reflexivity| |exact Hl|exact Hext]. intros j H. replace (Nat.eqb j 0) with false by (symmetry; apply Nat.eqb_neq; lia).
    rewrite Hj by exact H. reflexivity.
Qed.
Lemma up_to_date_ext : forall l st1 st2, (forall j, st1 j = st2 j) -> up_to_date st1 l -> up_to_date st2 l.
Proof.
  induction l as [|c l IH]; intros st1 st2 E H; [exact I|]. destruct c as [i|i x|i]; cbn [up_to_date] in *.
  - destruct H as [A B]. split; [rewrite <- E; exact A|]. eapply IH; [|exact B]. intros j. cbn. rewrite E. reflexivity.
  - destruct H as [A B]. split; [rewrite <- E; exact A|]. eapply IH; [|exact B]. intros j. cbn. rewrite E. reflexivity.
  - eapply IH; [|exact H]. intros j. cbn. rewrite E. reflexivity.
Qed.

(** C82: runs one after the other lose nothing. *)
Theorem C82_one_after_another : forall db0 h0 runs, db_ok db0 -> answers db0 h0 ->
  Forall (Forall (fun x => info_ok x /\ x <> mkDI 0 0 0 0 0)) runs ->
  file_answers (sh_file (shared_run (at_rest (Some (db_marshal db0))) (flat_map call_events (flat_map session runs)))) (h0 ++ List.concat runs).
Proof.
  intros db0 h0 runs Hd Ha Hr.
  replace (List.concat runs) with (calls_puts (flat_map session runs)).
  - apply C82_nothing_lost; [exact Hd|exact Ha| |].
    + apply Forall_flat_map. eapply Forall_impl; [|exact Hr]. intros puts Hp. unfold session. constructor; [exact I|].
      apply Forall_app. split; [|repeat constructor]. apply Forall_map. exact Hp.
    + clear. induction runs as [|puts runs IH]; [exact I|]. cbn [flat_map]. unfold session at 1. cbn [app up_to_date]. split; [reflexivity|].
      rewrite <- app_assoc. cbn [app]. apply session_up; [reflexivity| |exact IH|intros; eapply up_to_date_ext; eauto].
      intros j H. replace (Nat.eqb j 0) with false by (symmetry; apply Nat.eqb_neq; lia). reflexivity.
  - clear. induction runs as [|puts runs IH]; [reflexivity|]. cbn [flat_map List.concat]. unfold calls_puts in *. rewrite flat_map_app, IH. f_equal.
    unfold session. cbn [flat_map app]. rewrite flat_map_app. cbn [flat_map]. rewrite app_nil_r. clear.
    induction puts as [|x puts IH]; [reflexivity|]. cbn [map flat_map app]. rewrite IH. reflexivity.
Qed.

Ltac each := repeat (apply Forall_cons || apply Forall_nil); cbn [put_fine call_fine]; auto; try (split; [assumption|discriminate]).

(** Three pieces of information, and what the file holds at first. *)
Definition ex_a82 : dinfo := mkDI 0x112233 1 32 65 2.
Definition ex_a82b : dinfo := mkDI 0x112233 1 32 66 2.
Definition ex_b82 : dinfo := mkDI 0x445566 2 31 67 1.
Definition ex_b82b : dinfo := mkDI 0x445566 2 31 68 1.
Definition ex_db82 : memdb := mkDB (Some [(0x112233, ex_a82)]) false.
Lemma ex_ok82 : info_ok ex_a82 /\ info_ok ex_a82b /\ info_ok ex_b82 /\ info_ok ex_b82b /\ db_ok ex_db82.
Proof.
  assert (A : info_ok ex_a82 /\ info_ok ex_a82b /\ info_ok ex_b82 /\ info_ok ex_b82b) by (unfold info_ok, is_byte; cbn; lia).
  destruct A as (A & B & C & D). repeat (split; [assumption|]). exists [(0x112233, ex_a82)]. split; [reflexivity|].
  split; [repeat constructor; intros []|]. constructor; [|constructor]. cbn [fst snd]. split; [lia|exact A].
Qed.
Lemma ex_answers82 : answers ex_db82 [ex_a82].
Proof.
  intros a. unfold last_put. cbn [rev app find]. change (di_addr ex_a82) with 0x112233. rewrite db_get_mget. unfold db_map, mget. cbn [db_values ex_db82 find fst].
  destruct (0x112233 =? a) eqn:E; reflexivity.
Qed.

(** C82 is false of runs that overlap: both puts are saved without an error, and the first is gone. *)
Theorem C82_lost_update_refuted : exists es x,
  In (CPut 0 x) es /\ Forall call_fine es /\
  let s := shared_run (at_rest (Some (db_marshal ex_db82))) (flat_map call_events es) in
  (exists db, sh_runs s 0%nat = RRun db /\ db_get db (di_addr x) = (x, true) /\ db_dirty db = false) /\
  (exists db, new_filedb (sh_file s) = (db, None) /\ db_get db (di_addr x) <> (x, true)).
Proof.
  destruct ex_ok82 as (A & B & C & D & _).
  exists [CStart 0; CStart 1; CPut 0 ex_a82b; CPut 1 ex_b82], ex_a82b.
  split; [cbn; auto|]. split; [each|]. cbn [flat_map call_events app].
  split; eexists; vm_compute; (split; [reflexivity|]); [split; reflexivity|discriminate].
Qed.

(** C82: whatever the runs do, also inside each other's saves and killed at any moment: while each write goes out in one piece, the
    file is empty or begins with the whole text of the newest completed save, and it either is exactly that text and loads as that
    save's database, or cannot be loaded at all. It is never mistaken for anything else. *)
Theorem C82_newest_save_or_unreadable : forall db0 es, db_ok db0 -> Forall in_one_piece es -> Forall put_fine es ->
  let s := shared_run (at_rest (Some (db_marshal db0))) es in
  let d := newest_saved (at_rest (Some (db_marshal db0))) es db0 in
  (sh_file s = Some [] \/ exists rest, sh_file s = Some (db_marshal d ++ rest)) /\
  (sh_file s = Some (db_marshal d) /\ file_holds (sh_file s) d \/ sh_file s <> Some (db_marshal d) /\ unreadable (sh_file s)).
Proof.
  intros db0 es Hd Hw Hp s d. destruct (whole_run es _ db0 (whole_start db0 Hd) Hw Hp) as (Ho & _ & Hf). fold s d in Ho, Hf. split.
  - destruct Hf as [H|(rest & H & _)]; [left; exact H|right; exists rest; exact H].
  - destruct (file_fine_load _ _ Ho Hf) as [(E & db & L & S & _)|(E & L)].
    + left. split; [exact E|]. exists db. split; [exact L|exact S].
    + right. split; [exact E|]. eexists _, _. exact L.
Qed.

(** C82 is false of saves that overlap: a shorter text written after a longer one leaves the end of the longer one behind it. Both
    saves succeed and the file cannot be loaded. *)
Definition ex_over82 : list event :=
  [EvStart 0; EvStart 1; EvPut 0 ex_b82; EvPut 1 ex_a82b; EvOpen 0; EvOpen 1; EvWrite 0 None; EvWrite 1 None].
Theorem C82_two_saves_refuted : exists es, Forall in_one_piece es /\ Forall put_fine es /\
  let s := shared_run (at_rest (Some (db_marshal ex_db82))) es in
  (forall i, In i [0; 1]%nat -> exists db, sh_runs s i = RRun db /\ db_dirty db = false) /\ unreadable (sh_file s).
Proof.
  destruct ex_ok82 as (A & B & C & D & _). exists ex_over82. split; [repeat constructor|]. split; [each|]. cbv zeta. split.
  - intros i [<-|[<-|[]]]; eexists; vm_compute; split; reflexivity.
  - eexists _, _. vm_compute. reflexivity.
Qed.

(** C82 is false of writes the operating system takes in pieces: here two runs change different devices, both save without error,
    and the file loads but has neither change. *)
Definition ex_pieces82 : list event :=
  [EvStart 0; EvPut 0 ex_b82; EvOpen 0; EvWrite 0 None; EvStart 1; EvPut 0 ex_a82b; EvPut 1 ex_b82b; EvOpen 0; EvOpen 1;
   EvWrite 0 (Some 90%nat); EvWrite 1 None; EvWrite 0 None].
Theorem C82_pieces_refuted : exists es, Forall put_fine es /\
  let s := shared_run (at_rest (Some (db_marshal ex_db82))) es in
  (exists db, sh_runs s 0%nat = RRun db /\ db_dirty db = false /\ db_get db 0x112233 = (ex_a82b, true)) /\
  (exists db, sh_runs s 1%nat = RRun db /\ db_dirty db = false /\ db_get db 0x445566 = (ex_b82b, true)) /\
  (exists db, new_filedb (sh_file s) = (db, None) /\ db_get db 0x112233 = (ex_a82, true) /\ db_get db 0x445566 = (ex_b82, true)).
Proof.
  destruct ex_ok82 as (A & B & C & D & _). exists ex_pieces82. split; [each|]. cbv zeta.
  split; [|split]; eexists; vm_compute; repeat split.
Qed.

(** C82 is false of a start during a save, and of every one between the opening and the first byte: the tool refuses to run. *)
Theorem C82_start_while_saving : forall s i j db, sh_runs s i = RRun db -> db_dirty db = true -> sh_runs s j = ROff ->
  sh_runs (shared_run s [EvOpen i; EvStart j]) j = RRefused EJsonSyntax.
Proof.
  intros s i j db Hi Hd Hj. unfold shared_run. cbn [fold_left shared_step]. rewrite Hi, Hd. cbn [sh_runs sh_file].
  assert (E : Nat.eqb j i = false) by (apply Nat.eqb_neq; intros ->; congruence).
  unfold set_run at 1. rewrite E, Hj. cbn [sh_runs]. rewrite set_run_eq. reflexivity.
Qed.

(** C82: once the file cannot be loaded and no tool is running, no tool ever gets to run and the file stays as it is. *)
Theorem C82_unreadable_forever : forall f es, unreadable f ->
  sh_file (shared_run (at_rest f) es) = f /\ forall i db k, sh_runs (shared_run (at_rest f) es) i <> RRun db /\ sh_runs (shared_run (at_rest f) es) i <> RSaving db k.
Proof.
  intros f es H. destruct (stuck_run es (at_rest f) H) as [A B]; [intros i; exact I|]. split; [exact A|].
  intros i db k. specialize (B i). split; intros E; rewrite E in B; exact B.
Qed.
(** C82, the first use: while there is no file no tool runs, and none ever makes one. *)
Theorem C82_first_use : forall es,
  sh_file (shared_run (at_rest None) es) = None /\ forall i db, sh_runs (shared_run (at_rest None) es) i <> RRun db.
Proof.
  intros es. destruct (C82_unreadable_forever None es) as [A B]; [eexists _, _; reflexivity|]. split; [exact A|]. intros i db. apply (B i db 0%nat).
Qed.
Theorem C82_first_use_refuted : exists i, sh_runs (shared_run (at_rest None) [EvStart i]) i = RRefused (EIO 2).
Proof. exists 0%nat. reflexivity. Qed.

(** C82: a tool killed between opening the file and writing it leaves a file that stops every later run for good, whatever was known. *)
Theorem C82_killed_while_saving : forall db0 x es, db_ok db0 -> info_ok x -> fst (db_get db0 (di_addr x)) <> x ->
  sh_file (shared_run (at_rest (Some (db_marshal db0))) ([EvStart 0; EvPut 0 x; EvOpen 0; EvEnd 0] ++ es)) = Some [].
Proof.
  intros db0 x es Hd Hx Hn. destruct (load_whole db0 Hd) as (db & E & S & O & C).
  assert (P : exists db1, db_put db x = Ret db1 /\ db_dirty db1 = true).
  { unfold db_put. rewrite S. replace (dinfo_eqb (fst (db_get db0 (di_addr x))) x) with false by (symmetry; apply dinfo_eqb_neq; exact Hn).
    destruct O as (m & Em & _). rewrite Em. eexists. split; reflexivity. }
  destruct P as (db1 & P & D). unfold shared_run. rewrite fold_left_app.
  assert (F : exists rs, (forall i, idle (rs i)) /\
    fold_left shared_step [EvStart 0; EvPut 0 x; EvOpen 0; EvEnd 0] (at_rest (Some (db_marshal db0))) = mkSh (Some []) rs).
  { cbn [fold_left]. unfold at_rest. rewrite step_start by reflexivity. unfold ev_start. rewrite E.
    rewrite (step_put _ _ 0 x db) by (exact C || apply set_run_eq). unfold ev_put. rewrite P.
    rewrite (step_open _ _ 0 db1) by apply set_run_eq. rewrite D.
    cbn [shared_step sh_runs sh_file]. eexists. split; [|reflexivity]. intros i. unfold set_run. destruct (Nat.eqb i 0); exact I. }
  destruct F as (rs & Hi & F). rewrite F. apply (stuck_run es (mkSh (Some []) rs)); [eexists _, _; reflexivity|exact Hi].
Qed.

(** The events of one undisturbed put are a call of fileDB.Put whose file operations all succeed. *)
Theorem C82_events_are_put : forall s i db x db1, sh_runs s i = RRun db -> db_dirty db = false -> db_put db x = Ret db1 ->
  exists db2, filedb_put (mkOS None (0%nat, None)) (sh_file s) db x =
    Ret (sh_file (shared_run s [EvPut i x; EvOpen i; EvWrite i None]), db2, None) /\
  sh_runs (shared_run s [EvPut i x; EvOpen i; EvWrite i None]) i = RRun db2.
Proof.
  intros [f rs] i db x db1 Hi Hc Hp. cbn [sh_runs] in Hi. unfold filedb_put. rewrite Hp. unfold shared_run. cbn [fold_left sh_file].
  rewrite (step_put f rs i x db Hi Hc). unfold ev_put. rewrite Hp. rewrite (step_open _ _ i db1) by apply set_run_eq.
  unfold filedb_save. destruct (db_dirty db1) eqn:D.
  - rewrite (step_write _ i db1) by apply set_run_eq. cbn [sh_runs sh_file]. rewrite set_run_eq.
    unfold save_db, db_needs_saving. rewrite D. cbn [os_open os_write snd db_save]. eexists. split; reflexivity.
  - cbn [shared_step sh_runs sh_file]. rewrite !set_run_eq. cbn [sh_runs sh_file]. exists db1. split; [reflexivity|]. apply set_run_eq.
Qed.

(** C82: however the operating system cuts the write of an undisturbed save into pieces, the file holds as much of the text as the
    pieces make up, and exactly when that is all of it the save is over. *)
Theorem C82_pieces_alone : forall s i db ns, sh_runs s i = RRun db -> db_dirty db = true -> db_ok db ->
  let s1 := shared_run s (EvOpen i :: map (fun n => EvWrite i (Some n)) ns) in
  let n := list_sum ns in
  sh_file s1 = Some (firstn n (db_marshal db)) /\
  ((n < length (db_marshal db))%nat -> sh_runs s1 i = RSaving db n) /\
  ((n >= length (db_marshal db))%nat -> sh_runs s1 i = RRun (mkDB (db_values db) false) /\ file_holds (sh_file s1) db).
Proof.
  intros [f rs] i db ns Hi Hd Ho s1 n. cbn [sh_runs] in Hi.
  assert (L : (0 < length (db_marshal db))%nat).
  { pose proof (marshal_nonempty db Ho). destruct (db_marshal db); [contradiction|cbn; lia]. }
  destruct (write_pieces ns (set_run rs i (RSaving db 0)) i db 0) as [A B]; [apply set_run_eq|exact L|]. cbn zeta in A, B. cbn [firstn Nat.add] in A, B.
  assert (E : s1 = shared_run (mkSh (Some []) (set_run rs i (RSaving db 0))) (map (fun n => EvWrite i (Some n)) ns)).
  { unfold s1, shared_run. cbn [fold_left]. rewrite (step_open f rs i db Hi), Hd. reflexivity. }
  rewrite <- E in A, B. fold n in A, B.
  assert (F : sh_file s1 = Some (firstn n (db_marshal db))).
  { rewrite A. f_equal. destruct (Nat.le_ge_cases n (length (db_marshal db))); [rewrite Nat.min_l by lia; reflexivity|].
    rewrite Nat.min_r by lia. rewrite !firstn_all2 by lia. reflexivity. }
  split; [exact F|]. split; intros H; rewrite B.
  - rewrite Nat.min_l by lia. replace (length (db_marshal db) <=? n)%nat with false by lia. reflexivity.
  - rewrite Nat.min_r by lia. rewrite Nat.leb_refl. split; [reflexivity|]. rewrite F, firstn_all2 by lia.
    destruct (load_whole db Ho) as (db1 & E1 & S & _). exists db1. split; [exact E1|exact S].
Qed.

(** A run that starts while another is running and puts nothing, one that puts twice and one after it. *)
Definition ex_calls82 : list call :=
  [CStart 0; CStart 1; CPut 0 ex_b82; CPut 0 ex_b82; CPut 0 ex_a82b; CEnd 0; CStart 2; CPut 2 ex_b82b; CEnd 1].
Example C82_nothing_lost_case : Forall call_fine ex_calls82 /\ up_to_date (fun _ => None) ex_calls82 /\
  file_answers (sh_file (shared_run (at_rest (Some (db_marshal ex_db82))) (flat_map call_events ex_calls82))) ([ex_a82] ++ [ex_b82; ex_b82; ex_a82b; ex_b82b]).
Proof.
  destruct ex_ok82 as (A & B & C & D & E).
  assert (F : Forall call_fine ex_calls82) by (each).
  assert (G : up_to_date (fun _ => None) ex_calls82) by (cbn; repeat split).
  split; [exact F|]. split; [exact G|]. exact (C82_nothing_lost _ _ _ E ex_answers82 F G).
Qed.
(** The history the lost update leaves: what run 1 knew. *)
Example C82_saves_apart_case : let l := [CStart 0; CStart 1; CPut 0 ex_a82b; CPut 1 ex_b82] in
  Forall call_fine l /\ kn_file (fold_left known_step l (mkKn [ex_a82] (fun _ => None))) = [ex_a82; ex_b82] /\
  file_answers (sh_file (shared_run (at_rest (Some (db_marshal ex_db82))) (flat_map call_events l))) [ex_a82; ex_b82].
Proof.
  destruct ex_ok82 as (A & B & C & D & E). intros l.
  assert (F : Forall call_fine l) by (each).
  split; [exact F|]. split; [reflexivity|]. exact (C82_saves_apart_partial _ _ l E ex_answers82 F).
Qed.
Example C82_one_after_another_case :
  file_answers (sh_file (shared_run (at_rest (Some (db_marshal ex_db82))) (flat_map call_events (flat_map session [[ex_b82; ex_a82b]; []; [ex_b82b]]))))
    [ex_a82; ex_b82; ex_a82b; ex_b82b].
Proof.
  destruct ex_ok82 as (A & B & C & D & E).
  apply (C82_one_after_another ex_db82 [ex_a82] [[ex_b82; ex_a82b]; []; [ex_b82b]] E ex_answers82).
  each.
Qed.
(** Overlapping saves, the longer text last: the file is the newest save; and a run killed in the middle. *)
Example C82_newest_save_case :
  let es := [EvStart 0; EvStart 1; EvPut 0 ex_b82; EvPut 1 ex_a82b; EvOpen 0; EvOpen 1; EvWrite 1 None; EvWrite 0 None] in
  Forall in_one_piece es /\ Forall put_fine es /\
  let s := shared_run (at_rest (Some (db_marshal ex_db82))) es in
  let d := newest_saved (at_rest (Some (db_marshal ex_db82))) es ex_db82 in
  sh_file s = Some (db_marshal d) /\ db_get d 0x445566 = (ex_b82, true) /\ db_get d 0x112233 = (ex_a82, true) /\ file_holds (sh_file s) d.
Proof.
  destruct ex_ok82 as (A & B & C & D & E). intros es.
  assert (F : Forall in_one_piece es) by repeat constructor. assert (G : Forall put_fine es) by each.
  split; [exact F|]. split; [exact G|]. intros s d.
  destruct (C82_newest_save_or_unreadable ex_db82 es E F G) as [_ [[X Y]|[X _]]]; fold s d in X.
  - split; [exact X|]. split; [reflexivity|]. split; [reflexivity|]. exact Y.
  - exfalso. apply X. vm_compute. reflexivity.
Qed.
Example C82_unreadable_case : unreadable (sh_file (shared_run (at_rest (Some (db_marshal ex_db82))) ex_over82)) /\ unreadable None /\ unreadable (Some []).
Proof. repeat split; eexists _, _; vm_compute; reflexivity. Qed.
Example C82_start_while_saving_case : exists db, sh_runs (shared_run (at_rest (Some (db_marshal ex_db82))) [EvStart 0; EvPut 0 ex_b82]) 0%nat = RRun db /\ db_dirty db = true /\
  sh_runs (shared_run (at_rest (Some (db_marshal ex_db82))) [EvStart 0; EvPut 0 ex_b82]) 1%nat = ROff.
Proof. eexists. vm_compute. repeat split. Qed.
Example C82_killed_case : db_ok ex_db82 /\ info_ok ex_b82 /\ fst (db_get ex_db82 (di_addr ex_b82)) <> ex_b82.
Proof. destruct ex_ok82 as (A & B & C & D & E). split; [exact E|]. split; [exact C|]. discriminate. Qed.
Example C82_events_are_put_case : exists db db1, sh_runs (shared_run (at_rest (Some (db_marshal ex_db82))) [EvStart 0]) 0%nat = RRun db /\ db_dirty db = false /\ db_put db ex_b82 = Ret db1.
Proof. eexists _, _. vm_compute. repeat split. Qed.

Example C82_pieces_alone_case : exists db, sh_runs (shared_run (at_rest (Some (db_marshal ex_db82))) [EvStart 0; EvPut 0 ex_b82]) 0%nat = RRun db /\ db_dirty db = true /\ db_ok db /\
  list_sum [90; 0; 7; 100]%nat = 197%nat /\ List.length (db_marshal db) = 181%nat.
Proof.
  destruct ex_ok82 as (A & B & C & D & E). exists (mkDB (Some [(0x112233, ex_a82); (0x445566, ex_b82)]) true).
  split; [vm_compute; reflexivity|]. split; [reflexivity|]. split; [|vm_compute; split; reflexivity].
  apply (db_ok_flag (Some [(0x112233, ex_a82); (0x445566, ex_b82)]) true true).
  destruct (put_ok ex_db82 ex_b82 E C) as (db1 & P & O). vm_compute in P. inversion P. subst. exact O.
Qed.

Print Assumptions C82_saves_apart_partial.
Print Assumptions C82_pieces_alone.
Print Assumptions C82_nothing_lost.
Print Assumptions C82_one_after_another.
Print Assumptions C82_lost_update_refuted.
Print Assumptions C82_newest_save_or_unreadable.
Print Assumptions C82_two_saves_refuted.
Print Assumptions C82_pieces_refuted.
Print Assumptions C82_start_while_saving.
Print Assumptions C82_unreadable_forever.
Print Assumptions C82_first_use.
Print Assumptions C82_first_use_refuted.
Print Assumptions C82_killed_while_saving.
Print Assumptions C82_events_are_put.
