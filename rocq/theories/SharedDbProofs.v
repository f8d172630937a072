(** Lemmas about several runs of the tools sharing the device file. *)
From Coq Require Import ZArith List Bool Lia ZifyBool ZifyNat Permutation.
From Verif Require Import GoBase GoLemmas GoText GoJson JsonProofs GoProg Address AddressSpec MsgWriter BasicDevice Database DatabaseSpec DatabaseProofs
  SharedDb SharedDbSpec.
Import ListNotations.
Open Scope Z_scope.
Ltac Zify.zify_post_hook ::= Z.div_mod_to_equations.

(** A printed object followed by anything but white space is refused. *)
Lemma json_parse_more : forall l x, jwf (JObj l) -> jws x <> [] -> json_parse (jprint (JObj l) ++ x) = None.
Proof.
  intros l x Hw Hx. unfold json_parse.
  pose proof (jvalue_print (JObj l) Hw (S (length (jprint (JObj l)))) [] ltac:(lia) I) as R. rewrite app_nil_r in R.
  destruct (jparsers_app (S (length (jprint (JObj l))))) as (A & _ & _).
  specialize (A _ _ _ x R (or_intror eq_refl)). cbn [app] in A.
  destruct (jparsers_mono (S (length (jprint (JObj l))))) as (M & _ & _).
  specialize (M _ _ _ A (2 * length (jprint (JObj l) ++ x) + 2)%nat). rewrite M by (rewrite app_length; lia).
  destruct (jws x); [contradiction|reflexivity].
Qed.

Lemma jws_last : forall x c, jspace c = false -> jws (x ++ [c]) <> [].
Proof.
  induction x as [|b x IH]; intros c Hc; cbn [app jws].
  - rewrite Hc. discriminate.
  - destruct (jspace b); [apply IH; exact Hc|discriminate].
Qed.

Lemma marshal_ends : forall m d, exists t, db_marshal (mkDB (Some m) d) = t ++ [125].
Proof.
  intros m d. unfold db_marshal. cbn [db_values]. unfold map_json. cbn [jprint]. rewrite app_assoc. eexists. reflexivity.
Qed.
Lemma marshal_more : forall m d x, Forall (fun kv => info_ok (snd kv)) m ->
  json_parse (db_marshal (mkDB (Some m) d) ++ x ++ [125]) = None.
Proof.
  intros m d x Hf. unfold db_marshal. cbn [db_values]. unfold map_json.
  apply json_parse_more; [apply (map_json_wf m); exact Hf|]. apply jws_last. reflexivity.
Qed.

(** The bytes of a file that come from whole writes only. *)
Definition brace_end (c : list Z) : Prop := c = [] \/ exists t, c = t ++ [125].
Lemma brace_end_skipn : forall n c, brace_end c -> brace_end (skipn n c).
Proof.
  intros n c [->|(t & ->)]; [left; apply skipn_nil|]. destruct (le_lt_dec n (length t)) as [L|L].
  - right. exists (skipn n t). rewrite skipn_app. replace (n - length t)%nat with 0%nat by lia. reflexivity.
  - left. apply skipn_all2. rewrite app_length. cbn. lia.
Qed.
Lemma brace_end_marshal : forall d, db_ok d -> brace_end (db_marshal d).
Proof. intros [v f] (m & E & _). cbn in E. subst v. right. apply marshal_ends. Qed.
Lemma marshal_nonempty : forall d, db_ok d -> db_marshal d <> [].
Proof. intros [v f] (m & E & _). cbn in E. subst v. destruct (marshal_ends m f) as (t & ->). destruct t; discriminate. Qed.

Lemma load_none : new_filedb (Some []) = (new_memdb, Some EJsonSyntax).
Proof. reflexivity. Qed.
Lemma load_more : forall d rest, db_ok d -> brace_end rest -> rest <> [] ->
  new_filedb (Some (db_marshal d ++ rest)) = (new_memdb, Some EJsonSyntax).
Proof.
  intros [v f] rest (m & E & _ & F) Hb Hr. cbn in E. subst v. destruct Hb as [->|(t & ->)]; [contradiction|].
  unfold new_filedb, load_db, db_load, db_unmarshal. rewrite marshal_more; [reflexivity|].
  eapply Forall_impl; [|exact F]. intros kv [_ H]. exact H.
Qed.
Lemma load_whole : forall d, db_ok d -> exists db, new_filedb (Some (db_marshal d)) = (db, None) /\ same_contents db d /\ db_ok db /\ db_dirty db = false.
Proof.
  intros [v f] (m & E & N & F). cbn in E. subst v. destruct (db_unmarshal_marshal m f new_memdb N F) as (m1 & P & E).
  exists (mkDB (Some m1) false). split; [exact E|]. split; [|split; [|reflexivity]].
  - intros a. rewrite !db_get_mget. unfold db_map. cbn [db_values]. rewrite (mget_perm m m1 N P). reflexivity.
  - exists m1. split; [reflexivity|]. split; [apply (Permutation_NoDup (Permutation_map fst P)); exact N|apply (Permutation_Forall P); exact F].
Qed.

Lemma put_ok : forall db x, db_ok db -> info_ok x -> exists db1, db_put db x = Ret db1 /\ db_ok db1.
Proof.
  intros db x (m & E & N & F) Hx. unfold db_put. destruct (dinfo_eqb _ _).
  - exists db. split; [reflexivity|]. exists m. auto.
  - rewrite E. eexists. split; [reflexivity|]. exists (mset m (di_addr x) x). split; [reflexivity|].
    split; [apply mset_nodup; exact N|]. apply mset_forall; [exact F|]. cbn. split; [apply Hx|exact Hx].
Qed.
Lemma db_ok_flag : forall v f g, db_ok (mkDB v f) -> db_ok (mkDB v g).
Proof. intros v f g (m & E & R). exists m. auto. Qed.

(* ------------------------------------------------------------------ whole writes *)
Definition run_fine (r : trun) : Prop :=
  match r with
  | RRun db => db_ok db
  | RSaving db k => db_ok db /\ k = 0%nat
  | _ => True
  end.
Definition file_fine (f : fstate) (d : memdb) : Prop :=
  f = Some [] \/ exists rest, f = Some (db_marshal d ++ rest) /\ brace_end rest.
Definition whole_inv (s : shared) (d : memdb) : Prop :=
  db_ok d /\ (forall i, run_fine (sh_runs s i)) /\ file_fine (sh_file s) d.

Lemma set_run_fine : forall rs i r, (forall j, run_fine (rs j)) -> run_fine r -> forall j, run_fine (set_run rs i r j).
Proof. intros rs i r H Hr j. unfold set_run. destruct (Nat.eqb j i); [exact Hr|apply H]. Qed.

Lemma file_fine_load : forall f d, db_ok d -> file_fine f d ->
  (f = Some (db_marshal d) /\ exists db, new_filedb f = (db, None) /\ same_contents db d /\ db_ok db /\ db_dirty db = false) \/
  (f <> Some (db_marshal d) /\ new_filedb f = (new_memdb, Some EJsonSyntax)).
Proof.
  intros f d Hd [->|(rest & -> & Hb)].
  - right. split; [|reflexivity]. intros E. inversion E as [E1]. apply (marshal_nonempty d Hd). symmetry. exact E1.
  - destruct rest as [|b rest].
    + left. rewrite app_nil_r. split; [reflexivity|]. apply load_whole; exact Hd.
    + right. split; [|apply load_more; [exact Hd|exact Hb|discriminate]].
      intros E. inversion E as [E1]. apply (f_equal (@length Z)) in E1. rewrite app_length in E1. cbn in E1. lia.
Qed.

Definition saved_by (s : shared) (e : event) (d : memdb) : memdb :=
  match e with
  | EvWrite i None => match sh_runs s i with RSaving db _ => db | _ => d end
  | _ => d
  end.

Lemma whole_step : forall s d e, whole_inv s d -> in_one_piece e -> put_fine e -> whole_inv (shared_step s e) (saved_by s e d).
Proof.
  intros s d e (Hd & Hr & Hf) Hw Hp. destruct e as [i|i x|i|i n|i]; cbn [shared_step saved_by in_one_piece put_fine] in *.
  - pose proof (Hr i) as Hi. destruct (sh_runs s i) eqn:Ei; try (repeat split; assumption).
    split; [exact Hd|]. split; [|exact Hf]. cbn [sh_runs]. apply set_run_fine; [exact Hr|].
    unfold ev_start. destruct (file_fine_load _ _ Hd Hf) as [(_ & db & E & _ & O & _)|(_ & E)]; rewrite E; cbn; auto.
  - pose proof (Hr i) as Hi. destruct (sh_runs s i) as [| |db|db k|] eqn:Ei; try (repeat split; assumption).
    destruct (db_dirty db); [repeat split; assumption|]. split; [exact Hd|]. split; [|exact Hf]. cbn [sh_runs].
    apply set_run_fine; [exact Hr|]. unfold ev_put. destruct (put_ok db x Hi Hp) as (db1 & E & O). rewrite E. exact O.
  - pose proof (Hr i) as Hi. destruct (sh_runs s i) as [| |db|db k|] eqn:Ei; try (repeat split; assumption).
    destruct (db_dirty db); [|repeat split; assumption]. split; [exact Hd|]. split; [|left; reflexivity]. cbn [sh_runs].
    apply set_run_fine; [exact Hr|]. split; [exact Hi|reflexivity].
  - destruct n as [n|]; [contradiction|].
    pose proof (Hr i) as Hi. destruct (sh_runs s i) as [| |db|db k|] eqn:Ei; try (repeat split; assumption).
    destruct Hi as [Hi ->]. cbn [skipn Nat.add]. split; [exact Hi|]. split; cbn [sh_runs sh_file].
    + apply set_run_fine; [exact Hr|]. unfold ev_written. rewrite Nat.leb_refl. cbn. destruct db as [v f]. apply (db_ok_flag v f). exact Hi.
    + right. unfold write_at. cbn [firstn app Nat.sub repeat Nat.add]. eexists. split; [reflexivity|]. apply brace_end_skipn.
      destruct Hf as [->|(rest & -> & Hb)]; [left; reflexivity|].
      destruct Hb as [->|(t & ->)]; [rewrite app_nil_r; apply brace_end_marshal; exact Hd|]. right. rewrite app_assoc. eexists; reflexivity.
  - split; [exact Hd|]. split; [|exact Hf]. cbn [sh_runs]. apply set_run_fine; [exact Hr|exact I].
Qed.
Lemma whole_run : forall es s d, whole_inv s d -> Forall in_one_piece es -> Forall put_fine es ->
  whole_inv (shared_run s es) (newest_saved s es d).
Proof.
  induction es as [|e es IH]; intros s d H Hw Hp; [exact H|]. inversion Hw; subst. inversion Hp; subst.
  unfold shared_run. cbn [fold_left newest_saved]. apply (IH (shared_step s e) (saved_by s e d)); [|assumption|assumption].
  apply whole_step; assumption.
Qed.
Lemma whole_start : forall db, db_ok db -> whole_inv (at_rest (Some (db_marshal db))) db.
Proof.
  intros db H. split; [exact H|]. split; [intros i; exact I|]. right. exists []. rewrite app_nil_r. split; [reflexivity|left; reflexivity].
Qed.

(* ------------------------------------------------------------------ a file that cannot be loaded stays so *)
Definition idle (r : trun) : Prop := match r with ROff | RRefused _ | RPanicked => True | _ => False end.
Lemma stuck_step : forall s e, unreadable (sh_file s) -> (forall i, idle (sh_runs s i)) ->
  sh_file (shared_step s e) = sh_file s /\ (forall i, idle (sh_runs (shared_step s e) i)).
Proof.
  intros s e (db & err & E) Hi.
  assert (G : forall i r, idle r -> forall j, idle (set_run (sh_runs s) i r j)).
  { intros i r Hr j. unfold set_run. destruct (Nat.eqb j i); [exact Hr|apply Hi]. }
  destruct e as [i|i x|i|i n|i]; cbn [shared_step]; pose proof (Hi i) as H; destruct (sh_runs s i) eqn:Ei; cbn in H; try contradiction;
    (split; [reflexivity|]); try exact Hi; cbn [sh_runs]; apply G; try exact I.
  unfold ev_start. rewrite E. exact I.
Qed.
Lemma stuck_run : forall es s, unreadable (sh_file s) -> (forall i, idle (sh_runs s i)) ->
  sh_file (shared_run s es) = sh_file s /\ (forall i, idle (sh_runs (shared_run s es) i)).
Proof.
  induction es as [|e es IH]; intros s Hu Hi; [split; [reflexivity|exact Hi]|].
  destruct (stuck_step s e Hu Hi) as [A B]. unfold shared_run. cbn [fold_left]. destruct (IH (shared_step s e)) as [C D]; [rewrite A; exact Hu|exact B|].
  split; [rewrite <- A; exact C|exact D].
Qed.

(* ------------------------------------------------------------------ saves that do not overlap *)
Definition kept (r : trun) (k : option (list dinfo)) : Prop :=
  match k with
  | None => r = ROff
  | Some h => exists db, r = RRun db /\ db_ok db /\ db_dirty db = false /\ answers db h
  end.
Definition apart_inv (s : shared) (k : known) : Prop :=
  (exists d, sh_file s = Some (db_marshal d) /\ db_ok d /\ answers d (kn_file k)) /\ (forall i, kept (sh_runs s i) (kn_run k i)).

Lemma put_answers : forall db h x, db_ok db -> info_ok x -> x <> mkDI 0 0 0 0 0 -> db_dirty db = false -> answers db h ->
  exists db1, db_put db x = Ret db1 /\ db_ok db1 /\
    if knows_already h x then db1 = db else db_dirty db1 = true /\ answers db1 (h ++ [x]).
Proof.
  intros db h x Ho Hx Hz Hc Ha. destruct (put_ok db x Ho Hx) as (db1 & E & O). exists db1. split; [exact E|]. split; [exact O|].
  destruct Ho as (m & Em & _ & _).
  unfold db_put in E. rewrite Ha in E. unfold knows_already.
  destruct (last_put h (di_addr x)) as [y|] eqn:Ey.
  - cbn [fst] in E. destruct (dinfo_eqb y x) eqn:Eq; [inversion E; reflexivity|]. rewrite Em in E. inversion E; subst db1. split; [reflexivity|].
    intros a. rewrite last_put_snoc. rewrite db_get_mget. unfold db_map. cbn [db_values]. rewrite mget_mset. pose proof (Ha a) as Hg. rewrite db_get_mget in Hg. unfold db_map in Hg. rewrite Em in Hg.
    replace (di_addr x =? a) with (a =? di_addr x) by lia. destruct (a =? di_addr x); [reflexivity|exact Hg].
  - cbn [fst] in E. replace (dinfo_eqb (mkDI 0 0 0 0 0) x) with false in E by (symmetry; apply dinfo_eqb_neq; congruence).
    rewrite Em in E. inversion E; subst db1. split; [reflexivity|].
    intros a. rewrite last_put_snoc. rewrite db_get_mget. unfold db_map. cbn [db_values]. rewrite mget_mset. pose proof (Ha a) as Hg. rewrite db_get_mget in Hg. unfold db_map in Hg. rewrite Em in Hg.
    replace (di_addr x =? a) with (a =? di_addr x) by lia. destruct (a =? di_addr x); [reflexivity|exact Hg].
Qed.

Lemma set_run_eq : forall rs i r, set_run rs i r i = r.
Proof. intros. unfold set_run. rewrite Nat.eqb_refl. reflexivity. Qed.

Lemma apart_step : forall s k c, apart_inv s k -> call_fine c -> apart_inv (shared_run s (call_events c)) (known_step k c).
Proof.
  intros s k c ((d & Ef & Hd & Ha) & Hr) Hc. destruct c as [i|i x|i]; cbn [call_events known_step call_fine] in *; unfold shared_run; cbn [fold_left].
  - pose proof (Hr i) as Hi. cbn [shared_step]. destruct (kn_run k i) as [h|] eqn:Ek; cbn [kept] in Hi.
    + destruct Hi as (db & E & _). rewrite E. split; [exists d; auto|exact Hr].
    + rewrite Hi. split; [exists d; auto|]. intros j. cbn [sh_runs kn_run]. unfold set_run. destruct (Nat.eqb j i); [|apply Hr].
      destruct (load_whole d Hd) as (db & E & S & O & C). unfold ev_start. rewrite Ef, E. exists db. repeat split; auto.
      intros a. rewrite S. apply Ha.
  - destruct Hc as [Hx Hz]. pose proof (Hr i) as Hi. destruct (kn_run k i) as [h|] eqn:Ek; cbn [kept] in Hi.
    + destruct Hi as (db & E & O & C & A). destruct (put_answers db h x O Hx Hz C A) as (db1 & Ep & O1 & K).
      cbn [shared_step]. rewrite E, C. cbn [sh_runs sh_file]. rewrite !set_run_eq. unfold ev_put. rewrite Ep.
      destruct (knows_already h x).
      * subst db1. rewrite !C. cbn [sh_runs sh_file]. rewrite !set_run_eq. split; [exists d; auto|]. cbn [sh_runs].
        intros j. unfold set_run. destruct (Nat.eqb j i) eqn:Ej; [|apply Hr]. apply Nat.eqb_eq in Ej. subst j. rewrite Ek. exists db. auto.
      * destruct K as [K1 K2]. rewrite !K1. cbn [sh_runs sh_file]. rewrite !set_run_eq. cbn [skipn Nat.add].
        unfold write_at. rewrite skipn_nil. cbn [firstn app repeat Nat.sub length Nat.add]. rewrite app_nil_r. split.
        -- exists db1. cbn [sh_file kn_file]. auto.
        -- cbn [sh_runs kn_run]. intros j. unfold set_run. destruct (Nat.eqb j i); [|apply Hr].
           unfold ev_written. rewrite Nat.leb_refl. eexists. split; [reflexivity|]. destruct db1 as [v f]. cbn [db_values].
           split; [apply (db_ok_flag v f); exact O1|]. split; [reflexivity|]. exact K2.
    + cbn [shared_step]. rewrite Hi. cbn [shared_step]. rewrite Hi. cbn [shared_step]. rewrite Hi. split; [exists d; auto|exact Hr].
  - cbn [shared_step]. split; [exists d; auto|]. intros j. cbn [sh_runs kn_run]. unfold set_run. destruct (Nat.eqb j i); [reflexivity|apply Hr].
Qed.
Lemma apart_run : forall l s k, apart_inv s k -> Forall call_fine l ->
  apart_inv (shared_run s (flat_map call_events l)) (fold_left known_step l k).
Proof.
  induction l as [|c l IH]; intros s k H Hf; [exact H|]. inversion Hf; subst. cbn [flat_map fold_left].
  unfold shared_run. rewrite fold_left_app. apply IH; [|assumption]. apply apart_step; assumption.
Qed.

Lemma dinfo_eqb_sym_eq : forall x y, dinfo_eqb x y = true -> x = y.
Proof. intros x y H. apply dinfo_eqb_eq. exact H. Qed.

(** While nobody puts from an old copy, the file and the runs that are up to date know everything put so far. *)
Definition fresh_inv (st : nat -> option bool) (k : known) (h : list dinfo) : Prop :=
  (forall a, last_put (kn_file k) a = last_put h a) /\
  (forall i, match st i with
             | None => kn_run k i = None
             | Some true => exists g, kn_run k i = Some g /\ forall a, last_put g a = last_put h a
             | Some false => exists g, kn_run k i = Some g
             end).
Lemma fresh_run : forall l st k h, fresh_inv st k h -> up_to_date st l ->
  forall a, last_put (kn_file (fold_left known_step l k)) a = last_put (h ++ calls_puts l) a.
Proof.
  induction l as [|c l IH]; intros st k h (Hf & Hs) Hu a; [cbn; rewrite app_nil_r; apply Hf|].
  destruct c as [i|i x|i]; cbn [up_to_date fold_left calls_puts flat_map known_step] in *.
  - destruct Hu as [E Hu]. pose proof (Hs i) as Hi. rewrite E in Hi. rewrite Hi. cbn [app].
    apply (IH _ _ h) with (2 := Hu). split; [exact Hf|]. intros j. cbn [kn_run]. destruct (Nat.eqb j i); [|apply Hs].
    eexists. split; [reflexivity|exact Hf].
  - destruct Hu as [E Hu]. pose proof (Hs i) as Hi. rewrite E in Hi. destruct Hi as (g & Eg & Hg). rewrite Eg.
    change (flat_map _ l) with (calls_puts l). rewrite app_assoc. apply (IH _ _ (h ++ [x])) with (2 := Hu).
    unfold knows_already. rewrite Hg. destruct (last_put h (di_addr x)) as [y|] eqn:Ey; [destruct (dinfo_eqb y x) eqn:Eq|].
    + apply dinfo_eqb_eq in Eq. subst y.
      assert (Hh : forall b, last_put (h ++ [x]) b = last_put h b).
      { intros b. rewrite last_put_snoc. destruct (di_addr x =? b) eqn:Eb; [|reflexivity]. apply Z.eqb_eq in Eb. subst b. symmetry. exact Ey. }
      split; [intros b; rewrite Hh; apply Hf|]. intros j. destruct (Nat.eqb j i) eqn:Ej.
      * apply Nat.eqb_eq in Ej. subst j. exists g. split; [exact Eg|]. intros b. rewrite Hh. apply Hg.
      * pose proof (Hs j) as Hj. destruct (st j) as [[|]|]; [destruct Hj as (g1 & E1 & _); exists g1; exact E1|exact Hj|exact Hj].
    + split; [intros b; cbn [kn_file]; rewrite !last_put_snoc, Hg; reflexivity|]. intros j. cbn [kn_run]. destruct (Nat.eqb j i) eqn:Ej.
      * eexists. split; [reflexivity|]. intros b. rewrite !last_put_snoc, Hg. reflexivity.
      * pose proof (Hs j) as Hj. destruct (st j) as [[|]|]; [destruct Hj as (g1 & E1 & _); exists g1; exact E1|exact Hj|exact Hj].
    + split; [intros b; cbn [kn_file]; rewrite !last_put_snoc, Hg; reflexivity|]. intros j. cbn [kn_run]. destruct (Nat.eqb j i) eqn:Ej.
      * eexists. split; [reflexivity|]. intros b. rewrite !last_put_snoc, Hg. reflexivity.
      * pose proof (Hs j) as Hj. destruct (st j) as [[|]|]; [destruct Hj as (g1 & E1 & _); exists g1; exact E1|exact Hj|exact Hj].
  - cbn [app]. apply (IH _ _ h) with (2 := Hu). split; [exact Hf|]. intros j. cbn [kn_run]. destruct (Nat.eqb j i); [reflexivity|apply Hs].
Qed.

(* ------------------------------------------------------------------ single steps *)
Lemma step_start : forall f rs i, rs i = ROff -> shared_step (mkSh f rs) (EvStart i) = mkSh f (set_run rs i (ev_start f)).
Proof. intros f rs i H. cbn [shared_step sh_runs sh_file]. rewrite H. reflexivity. Qed.
Lemma step_put : forall f rs i x db, rs i = RRun db -> db_dirty db = false -> shared_step (mkSh f rs) (EvPut i x) = mkSh f (set_run rs i (ev_put db x)).
Proof. intros f rs i x db H D. cbn [shared_step sh_runs sh_file]. rewrite H, D. reflexivity. Qed.
Lemma step_open : forall f rs i db, rs i = RRun db ->
  shared_step (mkSh f rs) (EvOpen i) = if db_dirty db then mkSh (Some []) (set_run rs i (RSaving db 0)) else mkSh f rs.
Proof. intros f rs i db H. cbn [shared_step sh_runs sh_file]. rewrite H. reflexivity. Qed.
Lemma step_write : forall rs i db, rs i = RSaving db 0 ->
  shared_step (mkSh (Some []) rs) (EvWrite i None) = mkSh (Some (db_marshal db)) (set_run rs i (RRun (mkDB (db_values db) false))).
Proof.
  intros rs i db H. cbn [shared_step sh_runs sh_file]. rewrite H. cbn [skipn Nat.add]. unfold ev_written. rewrite Nat.leb_refl.
  unfold write_at. rewrite skipn_nil. cbn [firstn app repeat Nat.sub length]. rewrite app_nil_r. reflexivity.
Qed.

(** Pieces of a write that nothing disturbs. *)
Lemma write_piece : forall (t : list Z) k n, (k <= length t)%nat ->
  write_at (firstn k t) k (firstn n (skipn k t)) = firstn (k + length (firstn n (skipn k t)))%nat t.
Proof.
  intros t k n Hk. unfold write_at. rewrite firstn_firstn, Nat.min_id. rewrite firstn_length_le by exact Hk. rewrite Nat.sub_diag. cbn [repeat app].
  rewrite (skipn_all2 (firstn k t)) by (rewrite firstn_length_le by exact Hk; lia). rewrite app_nil_r.
  set (b := firstn n (skipn k t)).
  assert (E : b = firstn (length b) (skipn k t)).
  { unfold b. rewrite firstn_length. destruct (Nat.le_ge_cases n (length (skipn k t))) as [L|L].
    - rewrite Nat.min_l by exact L. reflexivity.
    - rewrite Nat.min_r by exact L. rewrite !firstn_all2 by lia. reflexivity. }
  rewrite E at 1. clearbody b. clear E.
  transitivity (firstn (k + length b) (firstn k t ++ skipn k t)); [|rewrite firstn_skipn; reflexivity].
  rewrite firstn_app. rewrite (firstn_length_le t Hk). replace (k + length b - k)%nat with (length b) by lia.
  rewrite (firstn_all2 (firstn k t)) by (rewrite (firstn_length_le t Hk); lia). reflexivity.
Qed.
Lemma write_pieces : forall ns rs i db k, rs i = RSaving db k -> (k < length (db_marshal db))%nat ->
  let s := shared_run (mkSh (Some (firstn k (db_marshal db))) rs) (map (fun n => EvWrite i (Some n)) ns) in
  let done := Nat.min (k + list_sum ns) (length (db_marshal db)) in
  sh_file s = Some (firstn done (db_marshal db)) /\
  sh_runs s i = if (length (db_marshal db) <=? done)%nat then RRun (mkDB (db_values db) false) else RSaving db done.
Proof.
  induction ns as [|n ns IH]; intros rs i db k Hi Hk; cbn zeta.
  - cbn [map list_sum fold_right]. unfold shared_run. cbn [fold_left sh_file sh_runs]. rewrite Nat.add_0_r, Nat.min_l by lia.
    split; [reflexivity|]. rewrite Hi. replace (length (db_marshal db) <=? k)%nat with false by lia. reflexivity.
  - cbn [map]. unfold shared_run. cbn [fold_left shared_step sh_runs sh_file]. rewrite Hi. rewrite write_piece by lia.
    set (b := firstn n (skipn k (db_marshal db))).
    assert (Lb : length b = Nat.min n (length (db_marshal db) - k)) by (unfold b; rewrite firstn_length, skipn_length; reflexivity).
    change (list_sum (n :: ns)) with (n + list_sum ns)%nat. unfold ev_written.
    destruct (length (db_marshal db) <=? k + length b)%nat eqn:E.
    + assert (D : Nat.min (k + (n + list_sum ns)) (length (db_marshal db)) = length (db_marshal db)) by lia. rewrite D.
      assert (G : forall ms f, let s := fold_left shared_step (map (fun n0 => EvWrite i (Some n0)) ms)
        (mkSh f (set_run rs i (RRun (mkDB (db_values db) false)))) in sh_file s = f /\ sh_runs s i = RRun (mkDB (db_values db) false)).
      { induction ms as [|m ms IHm]; intros f; cbn [map fold_left]; [split; [reflexivity|apply set_run_eq]|].
        cbn [shared_step sh_runs sh_file]. rewrite set_run_eq. apply IHm. }
      destruct (G ns (Some (firstn (k + length b) (db_marshal db)))) as [A B]. cbn zeta in A, B. rewrite A, B. rewrite Nat.leb_refl. split; [|reflexivity].
      f_equal. rewrite firstn_all. apply firstn_all2. lia.
    + destruct (IH (set_run rs i (RSaving db (k + length b))) i db (k + length b)%nat) as [A B]; [apply set_run_eq|lia|].
      cbn zeta in A, B. unfold shared_run in A, B. rewrite A, B.
      replace (Nat.min (k + length b + list_sum ns) (length (db_marshal db))) with (Nat.min (k + (n + list_sum ns)) (length (db_marshal db))) by lia.
      split; reflexivity.
Qed.
