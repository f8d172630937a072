(** C83: the device file loaded in several reads while other runs of the tools save it. *)
From Coq Require Import ZArith List Bool Lia ZifyBool ZifyNat.
From Verif Require Import GoBase GoLemmas GoText GoJson JsonProofs GoProg MsgWriter BasicDevice Database DatabaseSpec DatabaseProofs
  SharedDb SharedDbSpec SharedDbProofs Props_SharedDb SharedLoad SharedLoadSpec SharedLoadProofs.
Import ListNotations.
Open Scope Z_scope.

(* ------------------------------------------------------------------ nobody touches the file *)
(** A read that begins at the end of a file of [n] bytes is among the reads that ask for these numbers of bytes. *)
Definition over (n : nat) (ns : list nat) : Prop := ns <> [] /\ (n <= list_sum (removelast ns))%nat.

Lemma quiet_step : forall s e, leaves_file e -> sh_file (ls_sh (lstep s e)) = sh_file (ls_sh s).
Proof.
  intros s e H. destruct e as [e|i|i n].
  - destruct e as [i|i x|i|i n|i]; cbn [leaves_file] in H; try contradiction; cbn [lstep].
    + destruct (ls_got s i); [reflexivity|]. cbn [ls_sh shared_step]. destruct (sh_runs (ls_sh s) i); reflexivity.
    + cbn [ls_sh shared_step]. destruct (sh_runs (ls_sh s) i); try reflexivity. destruct (db_dirty db); reflexivity.
    + reflexivity.
  - cbn [lstep]. unfold load_open. destruct (ls_got s i); [reflexivity|]. destruct (sh_runs (ls_sh s) i); try reflexivity.
    destruct (sh_file (ls_sh s)) eqn:E; cbn [ls_sh sh_file]; [exact E|reflexivity].
  - cbn [lstep]. unfold load_read. destruct (ls_got s i); [|reflexivity]. destruct (firstn _ _); reflexivity.
Qed.
Lemma quiet_run : forall es s, Forall leaves_file es -> sh_file (ls_sh (lrun s es)) = sh_file (ls_sh s).
Proof.
  induction es as [|e es IH]; intros s H; [reflexivity|]. inversion H; subst. change (lrun s (e :: es)) with (lrun (lstep s e) es).
  rewrite (IH (lstep s e)) by assumption. apply quiet_step. assumption.
Qed.
(** An event that is not a read of run [i] leaves what it has read and where it stands. *)
Lemma others_step : forall s i e, only_reads i e -> asked i [e] = [] ->
  ls_got (lstep s e) i = ls_got s i /\ sh_runs (ls_sh (lstep s e)) i = sh_runs (ls_sh s) i.
Proof.
  intros s i e H Ha. assert (R : forall rs j r, j <> i -> set_run rs j r i = rs i) by (intros; unfold set_run; replace (Nat.eqb i j) with false by (symmetry; apply Nat.eqb_neq; auto); reflexivity).
  assert (G : forall gs j r, j <> i -> set_got gs j r i = gs i) by (intros; unfold set_got; replace (Nat.eqb i j) with false by (symmetry; apply Nat.eqb_neq; auto); reflexivity).
  destruct e as [e|j|j n].
  - destruct e as [j|j x|j|j n|j]; cbn [only_reads] in H; cbn [lstep].
    + destruct (ls_got s j); [auto|]. cbn [ls_sh ls_got shared_step]. destruct (sh_runs (ls_sh s) j); cbn [sh_runs]; rewrite ?R by exact H; auto.
    + cbn [ls_sh ls_got shared_step]. destruct (sh_runs (ls_sh s) j); try (split; reflexivity). destruct (db_dirty db); cbn [sh_runs]; rewrite ?R by exact H; auto.
    + cbn [ls_sh ls_got shared_step]. destruct (sh_runs (ls_sh s) j); try (split; reflexivity). destruct (db_dirty db); cbn [sh_runs]; rewrite ?R by exact H; auto.
    + cbn [ls_sh ls_got shared_step]. destruct (sh_runs (ls_sh s) j); cbn [sh_runs]; rewrite ?R by exact H; auto.
    + cbn [ls_sh ls_got shared_step sh_runs]. rewrite R, G by exact H. auto.
  - cbn [only_reads] in H. cbn [lstep]. unfold load_open. destruct (ls_got s j); [auto|]. destruct (sh_runs (ls_sh s) j); auto.
    destruct (sh_file (ls_sh s)); cbn [ls_sh ls_got sh_runs]; rewrite ?R, ?G by exact H; auto.
  - cbn [asked flat_map] in Ha. destruct (Nat.eqb j i) eqn:E; [discriminate|]. apply Nat.eqb_neq in E.
    cbn [lstep]. unfold load_read. destruct (ls_got s j); [|auto].
    destruct (firstn _ _); cbn [ls_sh ls_got sh_runs]; rewrite ?R, ?G by exact E; auto.
Qed.
Lemma asked_cons : forall i e es, asked i (e :: es) = asked i [e] ++ asked i es.
Proof. intros. unfold asked. cbn [flat_map]. rewrite app_nil_r. reflexivity. Qed.
Lemma done_run : forall es s i, Forall (only_reads i) es -> ls_got s i = None ->
  ls_got (lrun s es) i = None /\ sh_runs (ls_sh (lrun s es)) i = sh_runs (ls_sh s) i.
Proof.
  induction es as [|e es IH]; intros s i H Hg; [auto|]. inversion H; subst. unfold lrun. cbn [fold_left].
  assert (A : ls_got (lstep s e) i = None /\ sh_runs (ls_sh (lstep s e)) i = sh_runs (ls_sh s) i).
  { destruct (asked i [e]) as [|n0 l0] eqn:Ea; [destruct (others_step s i e) as [A B]; auto; rewrite A; auto|].
    destruct e as [e|j|j n]; try discriminate. cbn [asked flat_map] in Ea. destruct (Nat.eqb j i) eqn:E; [|discriminate]. apply Nat.eqb_eq in E. subst j.
    cbn [lstep]. unfold load_read. rewrite Hg. auto. }
  destruct A as [A B]. destruct (IH (lstep s e) i) as [C D]; [assumption|exact A|]. split; [exact C|]. unfold lrun in D. rewrite D. exact B.
Qed.
Lemma firstn_more : forall (A : Type) (l : list A) k n, (k <= length l)%nat -> firstn k l ++ firstn n (skipn k l) = firstn (k + n) l.
Proof.
  intros A l k. revert l. induction k as [|k IH]; intros l n H; [reflexivity|]. destruct l as [|x l]; [cbn in H; lia|].
  cbn [firstn skipn Nat.add app]. rewrite IH; [reflexivity|]. cbn in H. lia.
Qed.
Lemma reading_run : forall es s i c k, Forall leaves_file es -> Forall (only_reads i) es -> sh_file (ls_sh s) = Some c ->
  ls_got s i = Some (firstn k c) ->
  let s1 := lrun s es in let ns := asked i es in
  (~ over (length c) (k :: ns) \/ ns = [] -> ls_got s1 i = Some (firstn (k + list_sum ns) c) /\ sh_runs (ls_sh s1) i = sh_runs (ls_sh s) i) /\
  (over (length c) (k :: ns) /\ ns <> [] -> ls_got s1 i = None /\ sh_runs (ls_sh s1) i = ev_start (Some c)).
Proof.
  induction es as [|e es IH]; intros s i c k Hq Ho Hf Hg s1 ns.
  - subst s1 ns. cbn [asked flat_map lrun fold_left list_sum fold_right]. rewrite Nat.add_0_r. split; [auto|]. intros [_ H]. contradiction.
  - inversion Hq as [|? ? Q1 Q2]; subst. inversion Ho as [|? ? O1 O2]; subst. pose proof (quiet_step s e Q1) as Ef. rewrite Hf in Ef.
    subst ns s1. rewrite asked_cons. unfold lrun. cbn [fold_left].
    destruct (asked i [e]) as [|n0 [|n1 l1]] eqn:Ea.
    + destruct (others_step s i e O1 Ea) as [G R]. cbn [app].
      specialize (IH (lstep s e) i c k Q2 O2 Ef ltac:(rewrite G; exact Hg)). cbv zeta in IH. unfold lrun in IH. rewrite R in IH. exact IH.
    + destruct e as [e|j|j n]; try discriminate. cbn [asked flat_map] in Ea. destruct (Nat.eqb j i) eqn:E; [|discriminate]. apply Nat.eqb_eq in E. subst j.
      cbn [app] in Ea. injection Ea as <-. cbn [app]. cbn [lstep] in *. unfold load_read in *. rewrite Hg in *. rewrite (contents_file s c Hf) in *.
      destruct (le_lt_dec (length c) k) as [L|L].
      * (* at the end *)
        rewrite (firstn_all2 c L) in *. rewrite skipn_all in *. cbn [firstn] in *.
        match goal with |- context [fold_left lstep es ?x] => destruct (done_run es x i O2) as [D1 D2]; [cbn [ls_got]; unfold set_got; rewrite Nat.eqb_refl; reflexivity|] end.
        unfold lrun in D1, D2. split.
        { intros [H|H]; [|discriminate]. destruct H. split; [discriminate|]. cbn [removelast]. destruct (asked i es) as [|a l] eqn:?; cbn [removelast list_sum fold_right]; lia. }
        { intros _. split; [exact D1|]. rewrite D2. cbn [ls_sh sh_runs]. unfold set_run. rewrite Nat.eqb_refl. reflexivity. }
      * rewrite firstn_length_le in * by lia.
        destruct (firstn (Datatypes.S n) (skipn k c)) as [|b bs] eqn:Eb.
        { apply (f_equal (@length Z)) in Eb. rewrite firstn_length, skipn_length in Eb. cbn [length] in Eb. lia. }
        rewrite <- Eb, firstn_more in * by lia.
        match goal with |- context [fold_left lstep es ?x] => specialize (IH x i c (k + Datatypes.S n)%nat Q2 O2 Hf ltac:(cbn [ls_got]; unfold set_got; rewrite Nat.eqb_refl; reflexivity)) end.
        cbv zeta in IH. unfold lrun in IH. cbn [ls_sh] in IH. destruct IH as [I1 I2].
        replace (k + list_sum (Datatypes.S n :: asked i es))%nat with (k + Datatypes.S n + list_sum (asked i es))%nat by (cbn [list_sum fold_right]; fold (list_sum (asked i es)); lia).
        assert (Ov : asked i es <> [] -> over (length c) (k :: Datatypes.S n :: asked i es) <-> over (length c) ((k + Datatypes.S n)%nat :: asked i es)).
        { intro Hne. unfold over. destruct (asked i es) as [|a l]; [contradiction|]. cbn [removelast]. fold (removelast (a :: l)).
          cbn [list_sum fold_right]. split; intros [_ H]; (split; [discriminate|]); unfold list_sum in *; cbn [fold_right] in *; lia. }
        destruct (asked i es) as [|a l] eqn:El.
        { split; [intros _; apply I1; right; reflexivity|]. intros [[_ H] _]. cbn [removelast list_sum fold_right] in H. lia. }
        { specialize (Ov ltac:(discriminate)). split; intros H.
          - apply I1. destruct H as [H|H]; [left; rewrite <- Ov; exact H|discriminate].
          - apply I2. destruct H as [H _]. split; [apply Ov; exact H|discriminate]. }
    + destruct e as [e|j|j n]; try discriminate. cbn [asked flat_map] in Ea. destruct (Nat.eqb j i); discriminate.
Qed.

(** C83: while nobody opens or writes the file for saving, loading it in reads of any sizes, whatever the other runs do in between, is
    loading it in one step: as soon as a read begins at the end of the file, the run is where starting it would have put it. *)
Theorem C83_undisturbed : forall s i c es, ls_got s i = None -> sh_runs (ls_sh s) i = ROff -> sh_file (ls_sh s) = Some c ->
  Forall leaves_file es -> Forall (only_reads i) es ->
  let s1 := lrun s (LOpen i :: es) in
  sh_file (ls_sh s1) = Some c /\
  (over (length c) (asked i es) -> ls_got s1 i = None /\ sh_runs (ls_sh s1) i = sh_runs (shared_step (ls_sh s) (EvStart i)) i) /\
  (~ over (length c) (asked i es) -> ls_got s1 i = Some (firstn (list_sum (asked i es)) c) /\ sh_runs (ls_sh s1) i = ROff).
Proof.
  intros s i c es Hg Hr Hf Hq Ho s1. subst s1. unfold lrun. cbn [fold_left lstep]. unfold load_open. rewrite Hg, Hr, Hf.
  set (s0 := mkLsh (ls_sh s) (set_got (ls_got s) i (Some []))).
  pose proof (reading_run es s0 i c 0 Hq Ho Hf ltac:(unfold s0; cbn [ls_got firstn]; unfold set_got; rewrite Nat.eqb_refl; reflexivity)) as [A B].
  cbv zeta in A, B. unfold lrun in A, B. split; [pose proof (quiet_run es s0 Hq) as Q; unfold lrun in Q; rewrite Q; exact Hf|].
  cbn [Nat.add] in A. cbn [ls_sh s0] in A. rewrite Hr in A.
  assert (Ov : asked i es <> [] -> over (length c) (0%nat :: asked i es) <-> over (length c) (asked i es)).
  { intro Hne. unfold over. destruct (asked i es) as [|a l]; [contradiction|]. cbn [removelast]. fold (removelast (a :: l)). unfold list_sum. cbn [fold_right Nat.add].
    split; intros [_ H]; (split; [discriminate|exact H]). }
  split; intro H.
  - destruct B as [B1 B2]; [split; [apply Ov; [apply H|exact H]|apply H]|]. split; [exact B1|]. rewrite B2. cbn [shared_step]. rewrite Hr. cbn [sh_runs]. rewrite set_run_eq, Hf. reflexivity.
  - apply A. destruct (asked i es) as [|a l] eqn:E; [right; reflexivity|]. left. rewrite Ov by discriminate. exact H.
Qed.

(** C83: with no file the run is refused when it opens it, whatever it would go on to read. *)
Theorem C83_no_file : forall s i es, ls_got s i = None -> sh_runs (ls_sh s) i = ROff -> sh_file (ls_sh s) = None -> Forall (only_reads i) es ->
  sh_runs (ls_sh (lrun s (LOpen i :: es))) i = RRefused (EIO 2).
Proof.
  intros s i es Hg Hr Hf Ho. unfold lrun. cbn [fold_left lstep]. unfold load_open. rewrite Hg, Hr, Hf.
  match goal with |- context [fold_left lstep es ?x] => destruct (done_run es x i Ho) as [_ D]; [exact Hg|] end.
  unfold lrun in D. rewrite D. cbn [ls_sh sh_runs]. apply set_run_eq.
Qed.
(** C83: a run killed while it loads leaves no trace: the file is as it was and the run can load again from the beginning. *)
Theorem C83_killed_loading : forall s i c es ks, ls_got s i = None -> sh_runs (ls_sh s) i = ROff -> sh_file (ls_sh s) = Some c ->
  Forall leaves_file es -> Forall (only_reads i) es -> Forall leaves_file ks -> Forall (only_reads i) ks -> over (length c) (asked i ks) ->
  let s1 := lrun s (LOpen i :: es ++ LEv (EvEnd i) :: LOpen i :: ks) in
  sh_file (ls_sh s1) = Some c /\ sh_runs (ls_sh s1) i = sh_runs (shared_step (ls_sh s) (EvStart i)) i.
Proof.
  intros s i c es ks Hg Hr Hf Hq Ho Kq Ko Hov s1. subst s1.
  replace (LOpen i :: es ++ LEv (EvEnd i) :: LOpen i :: ks) with (((LOpen i :: es) ++ [LEv (EvEnd i)]) ++ (LOpen i :: ks)) by (rewrite <- app_assoc; reflexivity).
  unfold lrun at 1 2. rewrite !fold_left_app. fold (lrun s (LOpen i :: es)). destruct (C83_undisturbed s i c es Hg Hr Hf Hq Ho) as (F & _).
  cbn [fold_left lstep]. set (s2 := mkLsh _ _).
  destruct (C83_undisturbed s2 i c ks) as (F2 & D & _); try assumption.
  - unfold s2. cbn [ls_got]. unfold set_got. rewrite Nat.eqb_refl. reflexivity.
  - unfold s2. cbn [ls_sh shared_step sh_runs]. apply set_run_eq.
  - split; [exact F2|]. destruct (D Hov) as [_ E]. unfold lrun in E. cbn [fold_left lstep] in E. rewrite E.
    cbn [shared_step]. rewrite Hr. unfold s2. cbn [ls_sh shared_step sh_runs]. rewrite set_run_eq. cbn [sh_runs sh_file]. rewrite !set_run_eq, F, Hf. reflexivity.
Qed.

(* ------------------------------------------------------------------ beside saves *)
(** C83: whatever the runs do, with writes in one piece, every byte a run has read stands at its place in the text that was there first
    or in that of a completed save. *)
Theorem C83_bytes_of_saves : forall db0 es i g, db_ok db0 -> Forall lin_one_piece es -> Forall lput_fine es ->
  let s := lrun (l_at_rest (Some (db_marshal db0))) es in
  ls_got s i = Some g ->
  forall p b, nth_error g p = Some b ->
    exists d, In d (db0 :: all_saved (l_at_rest (Some (db_marshal db0))) es) /\ nth_error (db_marshal d) p = Some b.
Proof.
  intros db0 es i g Hd Hw Hp s Hg p b E. destruct (load_inv_run es _ [db0] (load_inv_start db0 Hd) Hw Hp) as (_ & _ & _ & H).
  exact (H i g Hg p b E).
Qed.

(** The events of [SharedDb] alone do here what they do there. *)
Theorem C83_without_loads : forall es s, (forall i, ls_got s i = None) -> ls_sh (lrun s (map LEv es)) = shared_run (ls_sh s) es.
Proof.
  induction es as [|e es IH]; intros s Hn; [reflexivity|]. cbn [map]. change (lrun s (LEv e :: map LEv es)) with (lrun (lstep s (LEv e)) (map LEv es)).
  change (shared_run (ls_sh s) (e :: es)) with (shared_run (shared_step (ls_sh s) e) es). rewrite IH.
  - f_equal. destruct e as [i|i x|i|i n|i]; cbn [lstep]; try reflexivity. rewrite Hn. reflexivity.
  - intros j. destruct e as [i|i x|i|i n|i]; cbn [lstep ls_got]; try apply Hn.
    + rewrite Hn. cbn [ls_got]. apply Hn.
    + unfold set_got. destruct (Nat.eqb j i); [reflexivity|apply Hn].
Qed.

Lemma newest_step : forall s S d e, load_inv s S -> whole_inv (ls_sh s) d -> lin_one_piece e -> lput_fine e ->
  whole_inv (ls_sh (lstep s e)) (last (saved_now s e) d).
Proof.
  intros s S d e H Hd Hw Hp. destruct e as [e|i|i n].
  - assert (E : last (saved_now s (LEv e)) d = saved_by (ls_sh s) e d).
    { destruct e as [i|i x|i|i [n|]|i]; try reflexivity. cbn [saved_now saved_by]. destruct (sh_runs (ls_sh s) i); reflexivity. }
    rewrite E. pose proof (whole_step (ls_sh s) d e Hd Hw Hp) as G. destruct e as [i|i x|i|i n|i]; cbn [lstep]; try exact G.
    destruct (ls_got s i); [exact Hd|exact G].
  - cbn [saved_now last lstep]. unfold load_open. destruct (ls_got s i); [exact Hd|]. destruct (sh_runs (ls_sh s) i); try exact Hd.
    destruct Hd as (A & B & C). destruct (sh_file (ls_sh s)) eqn:Ef; [split; [exact A|split; [exact B|cbn [ls_sh]; rewrite Ef; exact C]]|].
    destruct C as [C|(rest & C & _)]; discriminate.
  - cbn [saved_now last]. destruct (load_inv_step s S (LRead i n) H Hw Hp) as (_ & (d1 & _ & R & _) & _).
    destruct Hd as (A & _ & C). split; [exact A|]. split; [exact R|]. rewrite (quiet_step s (LRead i n) I). exact C.
Qed.
Lemma last_app : forall (A : Type) (l m : list A) d, last (l ++ m) d = last m (last l d).
Proof.
  intros A l m d. induction m as [|x m IH] using rev_ind; [rewrite app_nil_r; reflexivity|]. rewrite app_assoc, !last_last. reflexivity.
Qed.
(** C83: also when runs load in pieces, and whatever they took for the database: with writes in one piece the file is exactly the text of
    the newest completed save and loads as that save's database, or cannot be loaded at all. *)
Theorem C83_file_newest_or_unreadable : forall db0 es, db_ok db0 -> Forall lin_one_piece es -> Forall lput_fine es ->
  let s0 := l_at_rest (Some (db_marshal db0)) in
  let f := sh_file (ls_sh (lrun s0 es)) in
  let d := last (all_saved s0 es) db0 in
  f = Some (db_marshal d) /\ file_holds f d \/ f <> Some (db_marshal d) /\ unreadable f.
Proof.
  intros db0 es Hd Hw Hp s0 f d.
  assert (G : forall es s S d, load_inv s S -> whole_inv (ls_sh s) d -> Forall lin_one_piece es -> Forall lput_fine es -> whole_inv (ls_sh (lrun s es)) (last (all_saved s es) d)).
  { clear. induction es as [|e es IH]; intros s S d H Hd Hw Hp; [exact Hd|]. inversion Hw; subst. inversion Hp; subst.
    rewrite all_saved_cons, last_app. change (lrun s (e :: es)) with (lrun (lstep s e) es).
    eapply IH; [apply load_inv_step; eassumption|eapply newest_step; eassumption|assumption|assumption]. }
  destruct (G es s0 [db0] db0 (load_inv_start db0 Hd) (whole_start db0 Hd) Hw Hp) as (Ho & _ & Hf).
  destruct (file_fine_load _ _ Ho Hf) as [(E & db & L & Sm & _)|(E & L)].
  - left. split; [exact E|]. exists db. split; [exact L|exact Sm].
  - right. split; [exact E|]. eexists _, _. exact L.
Qed.

(** C83: a run that has read the whole text of a save by the time the next one begins loads exactly that save, or is refused; it never
    takes anything else for the database. *)
Theorem C83_whole_text_read : forall db0 es0 d i es, db_ok db0 -> Forall lin_one_piece (es0 ++ es) -> Forall lput_fine (es0 ++ es) ->
  let s := lrun (l_at_rest (Some (db_marshal db0))) es0 in
  In d (db0 :: all_saved (l_at_rest (Some (db_marshal db0))) es0) -> ls_got s i = Some (db_marshal d) -> sh_runs (ls_sh s) i = ROff ->
  Forall (only_reads i) es ->
  let s1 := lrun s es in
  (exists rest, ls_got s1 i = Some (db_marshal d ++ rest)) \/
  ls_got s1 i = None /\ ((exists db, sh_runs (ls_sh s1) i = RRun db /\ same_contents db d) \/ sh_runs (ls_sh s1) i = RRefused EJsonSyntax).
Proof.
  intros db0 es0 d i es Hd Hw Hp s Hin Hg Hr Ho. apply Forall_app in Hw, Hp. destruct Hw as [W0 W], Hp as [P0 P].
  assert (Hinv := load_inv_run es0 _ [db0] (load_inv_start db0 Hd) W0 P0). fold s in Hinv. cbn [app] in Hinv.
  set (S := db0 :: all_saved (l_at_rest (Some (db_marshal db0))) es0) in *.
  assert (Hdd : db_ok d) by (destruct Hinv as (Hs & _); rewrite Forall_forall in Hs; apply Hs; exact Hin).
  assert (Hex : exists rest, ls_got s i = Some (db_marshal d ++ rest)) by (exists []; rewrite app_nil_r; exact Hg).
  clear Hg Hin. clearbody S s. revert s S Hinv Hex Hr. induction es as [|e es IH]; intros s S Hinv Hex Hr s1; [left; exact Hex|].
  subst s1. inversion W; subst. inversion P; subst. inversion Ho as [|? ? O1 O2]; subst. unfold lrun. cbn [fold_left].
  pose proof (load_inv_step s S e Hinv ltac:(assumption) ltac:(assumption)) as Hinv1.
  destruct (asked i [e]) as [|n0 l] eqn:Ea.
  - destruct (others_step s i e O1 Ea) as [G R]. eapply IH; try eassumption; [rewrite G; exact Hex|rewrite R; exact Hr].
  - destruct e as [e|j|j n]; try discriminate. cbn [asked flat_map] in Ea. destruct (Nat.eqb j i) eqn:E; [|discriminate]. apply Nat.eqb_eq in E. subst j.
    destruct Hex as (rest & Hg). cbn [lstep] in *. unfold load_read in *. rewrite Hg in *.
    destruct (firstn (Datatypes.S n) (skipn (length (db_marshal d ++ rest)) (contents s))) as [|b bs] eqn:Eb.
    + match goal with |- context [fold_left lstep es ?x] => destruct (done_run es x i O2) as [D1 D2]; [cbn [ls_got]; unfold set_got; rewrite Nat.eqb_refl; reflexivity|] end.
      unfold lrun in D1, D2. right. split; [exact D1|]. rewrite D2. cbn [ls_sh sh_runs]. rewrite set_run_eq.
      destruct rest as [|r rest].
      * left. rewrite app_nil_r. destruct (load_whole d Hdd) as (db & L & Sm & _). exists db. unfold ev_start. rewrite L. auto.
      * right. apply load_longer; [exact Hdd| |discriminate]. destruct Hinv as (Hs & _ & _ & Hgs).
        pose proof (placed_solid _ S Hs (Hgs i _ Hg)) as Hsol. apply Forall_app in Hsol. apply Hsol.
    + eapply IH; try eassumption. exists (rest ++ b :: bs). cbn [ls_got]. unfold set_got. rewrite Nat.eqb_refl, app_assoc. reflexivity.
Qed.

(** C83 is false of a load during a save: one that has read part of the text when the file is opened for saving, and reads again before it
    is written, is refused. *)
Theorem C83_emptied_refused : forall s i j n db d g rest, ls_got s i = Some g -> db_ok d -> db_marshal d = g ++ rest -> rest <> [] ->
  sh_runs (ls_sh s) j = RRun db -> db_dirty db = true -> sh_runs (ls_sh s) i = ROff ->
  sh_runs (ls_sh (lrun s [LEv (EvOpen j); LRead i n])) i = RRefused EJsonSyntax.
Proof.
  intros s i j n db d g rest Hg Hd Em Hr Hj Hdy Hi. unfold lrun. cbn [fold_left lstep shared_step]. rewrite Hj, Hdy.
  unfold load_read, contents. cbn [ls_got ls_sh sh_file]. rewrite Hg, skipn_nil. cbn [firstn sh_runs ls_sh]. rewrite set_run_eq.
  eapply load_shorter; eassumption.
Qed.

(** C83 is false of a save between two reads: information is loaded that no text ever held - the firmware read before the save, the
    engine version after it - though the save went out in one piece, nothing failed, and only this one save happened. *)
Definition ex_a83 : dinfo := mkDI 0x112233 1 32 66 1.
Definition ex_torn83 : list levent :=
  [LEv (EvStart 0); LEv (EvPut 0 ex_a83); LOpen 1; LRead 1 79; LEv (EvOpen 0); LEv (EvWrite 0 None); LRead 1 511; LRead 1 511].
Theorem C83_torn_refuted : exists es i x, Forall lin_one_piece es /\ Forall lput_fine es /\
  let s0 := l_at_rest (Some (db_marshal ex_db82)) in
  let s := lrun s0 es in
  (exists db, sh_runs (ls_sh s) i = RRun db /\ db_get db (di_addr x) = (x, true)) /\
  Forall (fun d => db_get d (di_addr x) <> (x, true)) (ex_db82 :: all_saved s0 es) /\ length (all_saved s0 es) = 1%nat.
Proof.
  assert (A : info_ok ex_a83) by (unfold info_ok, is_byte; cbn; lia).
  exists ex_torn83, 1%nat, (mkDI 0x112233 1 32 65 1). split; [repeat constructor|]. split; [repeat (apply Forall_cons || apply Forall_nil); cbn [lput_fine put_fine]; auto|].
  cbv zeta. split; [eexists; vm_compute; split; reflexivity|].
  split; [|vm_compute; reflexivity]. vm_compute. repeat (apply Forall_cons || apply Forall_nil); discriminate.
Qed.
(** And it stays: the next put of the run that loaded it, of another device, writes it to the file for all later runs. *)
Theorem C83_torn_for_good_refuted : exists es x, Forall lin_one_piece es /\ Forall lput_fine es /\
  Forall (fun e => match e with LEv (EvPut _ y) => di_addr y = di_addr x -> y <> x | _ => True end) es /\
  (forall a, db_get ex_db82 a <> (x, true)) /\
  exists db, new_filedb (sh_file (ls_sh (lrun (l_at_rest (Some (db_marshal ex_db82))) es))) = (db, None) /\ db_get db (di_addr x) = (x, true).
Proof.
  assert (A : info_ok ex_a83) by (unfold info_ok, is_byte; cbn; lia). destruct ex_ok82 as (_ & _ & B & _).
  exists (ex_torn83 ++ [LEv (EvPut 1 ex_b82); LEv (EvOpen 1); LEv (EvWrite 1 None)]), (mkDI 0x112233 1 32 65 1).
  split; [repeat constructor|]. split; [unfold ex_torn83; cbn [app]; repeat (apply Forall_cons || apply Forall_nil); cbn [lput_fine put_fine]; auto|].
  split; [unfold ex_torn83; cbn [app]; repeat (apply Forall_cons || apply Forall_nil); try exact I; intros _; discriminate|].
  split.
  - intros a H. rewrite ex_answers82 in H. unfold last_put in H. cbn [rev app find] in H. destruct (di_addr ex_a82 =? a); discriminate.
  - eexists. vm_compute. split; reflexivity.
Qed.

(* ------------------------------------------------------------------ cases *)
(** Three reads beside a run that starts and puts without getting to save. *)
Example C83_undisturbed_case : let es := [LRead 1 49; LEv (EvStart 0); LRead 1 499; LEv (EvPut 0 ex_b82); LRead 1 0] in
  Forall leaves_file es /\ Forall (only_reads 1) es /\ asked 1 es = [50; 500; 1]%nat /\ over (length (db_marshal ex_db82)) (asked 1 es) /\
  exists db, sh_runs (ls_sh (lrun (l_at_rest (Some (db_marshal ex_db82))) (LOpen 1 :: es))) 1%nat = RRun db /\ db_get db 0x112233 = (ex_a82, true).
Proof.
  cbv zeta. split; [repeat constructor|]. split; [repeat (apply Forall_cons || apply Forall_nil); cbn [only_reads]; auto|]. split; [reflexivity|].
  split; [split; [discriminate|apply Nat.leb_le; vm_compute; reflexivity]|]. eexists. vm_compute. split; reflexivity.
Qed.
(** The torn load in the middle: what has been read when the save is done. *)
Example C83_bytes_of_saves_case : exists g, ls_got (lrun (l_at_rest (Some (db_marshal ex_db82))) (firstn 7 ex_torn83)) 1%nat = Some g /\
  length g = 91%nat /\ g <> db_marshal ex_db82 /\ Forall (fun d => g <> db_marshal d) (all_saved (l_at_rest (Some (db_marshal ex_db82))) ex_torn83).
Proof.
  eexists. split; [vm_compute; reflexivity|]. split; [reflexivity|]. split; [vm_compute; discriminate|].
  replace (all_saved (l_at_rest (Some (db_marshal ex_db82))) ex_torn83) with [mkDB (Some [(0x112233, ex_a83)]) true] by (vm_compute; reflexivity).
  apply Forall_cons; [vm_compute; discriminate|apply Forall_nil].
Qed.
(** The whole text in the first read; then a save of a text of the same length, and one of a longer text. *)
Example C83_whole_text_case :
  let es0 := [LEv (EvStart 0); LEv (EvPut 0 ex_a83); LOpen 1; LRead 1 511] in
  let s := lrun (l_at_rest (Some (db_marshal ex_db82))) es0 in
  ls_got s 1%nat = Some (db_marshal ex_db82) /\ sh_runs (ls_sh s) 1%nat = ROff /\
  (exists db, sh_runs (ls_sh (lrun s [LEv (EvOpen 0); LEv (EvWrite 0 None); LRead 1 511])) 1%nat = RRun db /\ db_get db 0x112233 = (ex_a82, true)) /\
  sh_runs (ls_sh (lrun s [LEv (EvOpen 0); LEv (EvWrite 0 None); LEv (EvPut 0 ex_b82); LEv (EvOpen 0); LEv (EvWrite 0 None); LRead 1 511; LRead 1 511])) 1%nat = RRefused EJsonSyntax.
Proof.
  cbv zeta. split; [vm_compute; reflexivity|]. split; [reflexivity|]. split; [eexists; vm_compute; split; reflexivity|vm_compute; reflexivity].
Qed.
(** After the torn load was saved by the run that loaded it: the newest save is what the file holds. *)
Example C83_file_newest_case : let es := ex_torn83 ++ [LEv (EvPut 1 ex_b82); LEv (EvOpen 1); LEv (EvWrite 1 None)] in
  let s0 := l_at_rest (Some (db_marshal ex_db82)) in
  length (all_saved s0 es) = 2%nat /\ sh_file (ls_sh (lrun s0 es)) = Some (db_marshal (last (all_saved s0 es) ex_db82)) /\
  db_get (last (all_saved s0 es) ex_db82) 0x445566 = (ex_b82, true).
Proof. cbv zeta. split; [|split]; vm_compute; reflexivity. Qed.
Example C83_without_loads_case : forall i, ls_got (l_at_rest (Some (db_marshal ex_db82))) i = None.
Proof. reflexivity. Qed.
Example C83_no_file_case : sh_runs (ls_sh (lrun (l_at_rest None) [LOpen 0; LRead 0 511])) 0%nat = RRefused (EIO 2) /\
  Forall (only_reads 0) [LRead 0 511] /\ sh_file (ls_sh (l_at_rest None)) = None.
Proof. split; [reflexivity|]. split; [repeat constructor|reflexivity]. Qed.
Example C83_killed_case : exists db, sh_runs (ls_sh (lrun (l_at_rest (Some (db_marshal ex_db82))) [LOpen 0; LRead 0 40; LEv (EvEnd 0); LOpen 0; LRead 0 90; LRead 0 99])) 0%nat = RRun db /\
  db_get db 0x112233 = (ex_a82, true) /\ over (length (db_marshal ex_db82)) (asked 0 [LRead 0 90; LRead 0 99]).
Proof. eexists. split; [vm_compute; reflexivity|]. split; [vm_compute; reflexivity|]. split; [discriminate|]. apply Nat.leb_le. vm_compute. reflexivity. Qed.
Example C83_emptied_case : let s := lrun (l_at_rest (Some (db_marshal ex_db82))) [LEv (EvStart 0); LEv (EvPut 0 ex_a83); LOpen 1; LRead 1 79] in
  exists db g rest, ls_got s 1%nat = Some g /\ db_marshal ex_db82 = g ++ rest /\ rest <> [] /\ sh_runs (ls_sh s) 0%nat = RRun db /\ db_dirty db = true /\ sh_runs (ls_sh s) 1%nat = ROff.
Proof.
  cbv zeta. exists (mkDB (Some [(0x112233, ex_a83)]) true), (firstn 80 (db_marshal ex_db82)), (skipn 80 (db_marshal ex_db82)).
  split; [vm_compute; reflexivity|]. split; [symmetry; apply firstn_skipn|]. split; [vm_compute; discriminate|]. split; [vm_compute; reflexivity|]. split; reflexivity.
Qed.

Print Assumptions C83_undisturbed.
Print Assumptions C83_no_file.
Print Assumptions C83_killed_loading.
Print Assumptions C83_without_loads.
Print Assumptions C83_file_newest_or_unreadable.
Print Assumptions C83_bytes_of_saves.
Print Assumptions C83_whole_text_read.
Print Assumptions C83_emptied_refused.
Print Assumptions C83_torn_refuted.
Print Assumptions C83_torn_for_good_refuted.
