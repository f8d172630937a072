(** C88: following the failures through the commands of the command-line tool. *)
From Coq Require Import ZArith List Bool Lia ZifyBool ZifyNat String.
From Verif Require Import GoBase GoProg GoText GoJson Command Message Link MsgWriter BasicDevice Query Database Lights Thermostat LinkText Plm Display IcDev UtilLink IcCmd FailureSpec FailureProofs.
Import ListNotations.
Open Scope Z_scope.

Section Commands.
  Context {W : Type}.
  Notation W' := (list failure * W)%type.
  Notation fol := (fol (@fst (list failure) W) none_kept eq).
  Notation then_ := (fol_then (@fst (list failure) W) none_kept eq (@eq_trans error)).
  Lemma silent_cmd : forall (p : prog W' (option error)), fol None same_error p -> fol None snd (IcDev.silent p).
  Proof. intros p Hp. apply (then_ _ _ same_error); [exact Hp|]. intros [e|]; unfold same_error; rt. Qed.
  Lemma print_cmd : forall name i extra (links : prog W' (list link * option error)), fol None snd links -> fol None snd (print_dev_info name i extra links).
  Proof. intros name i extra links Hl. unfold print_dev_info. cbv zeta. apply (then_ _ _ snd); [exact Hl|]. intros [ls [e|]]; cbn [snd]; rt. Qed.
  Variable mw : mwriter W.
  Notation n := (noting_mw mw).
  Variable i : dinfo.
  Lemma hr : fol None snd (mw_read n).
  Proof. apply noting_fol. Qed.
  Lemma hw : forall m, fol None snd (mw_write n m).
  Proof. intro. apply noting_fol. Qed.
  Lemma hc : forall c p, fol None same_error (bd_send_command i n c p).
  Proof. intros. pose proof (@eq_trans error). apply command_fol; auto using hw. Qed.
  Ltac tests := repeat match goal with |- context [if ?b then _ else _] => destruct b end.
  Lemma device_sub_fol : forall links c, (fol None snd (links (mkBD i n))) -> fol None snd (device_sub links c (mkBD i n)).
  Proof.
    intros links c Hl. assert (Hm : forall g, fol None same_error (bd_enter_linking i n g) /\ fol None same_error (bd_enter_unlinking i n g) /\ fol None same_error (bd_exit_linking i n)) by (pose proof (@eq_trans error); intro; apply modes_fol; auto using hw). destruct c; cbn [device_sub bd_info bd_writer].
    - apply print_cmd, Hl.
    - apply silent_cmd, Hm.
    - apply silent_cmd, Hm.
    - apply silent_cmd, Hm. exact 0.
    - apply (then_ _ _ snd); [exact Hl|]. intros [ls [e|]]; cbn [snd]; rt.
    - rt.
    - apply silent_cmd, hc.
    - apply silent_cmd, hc.
  Qed.
  Lemma dimmer_sub_fol : forall k c, c <> MConfig -> fol None snd (dimmer_sub k c (mkBD i n)).
  Proof.
    intros k c Hc. destruct c; cbn [dimmer_sub bd_info bd_writer]; try (apply silent_cmd, hc).
    - congruence.
    - pose proof (@eq_trans error). apply (then_ _ _ snd); [apply question_fol; auto using hw|]. intros [x [e|]]; cbn [snd]; rt.
    - unfold switch_set_backlight. tests; apply silent_cmd, hc.
    - unfold switch_set_load_sense. tests; apply silent_cmd, hc.
  Qed.
  Lemma switch_sub_fol : forall k links c, fol None snd (links (mkBD i n)) -> fol None snd (switch_sub k links c (mkBD i n)).
  Proof.
    intros k links c Hl. destruct c; cbn [switch_sub sw_assign sw_start sw_Switch sw_bound on_receiver bd_info bd_writer].
    - pose proof (@eq_trans error). apply (then_ _ _ snd); [apply configs_fol; auto using hr, hw|]. intros [x [e|]]; cbn [snd]; [rt|apply print_cmd, Hl].
    - pose proof (@eq_trans error). apply (then_ _ _ snd); [apply question_fol; auto using hw|]. intros [x [e|]]; cbn [snd]; rt.
    - apply silent_cmd, fol_panic.
    - apply silent_cmd, fol_panic.
    - apply silent_cmd, fol_panic.
    - apply silent_cmd, fol_panic.
  Qed.
  Lemma therm_sub_fol : forall k c, fol None snd (therm_sub k c (mkBD i n)).
  Proof.
    intros k c. pose proof (@eq_trans error). destruct c; cbn [therm_sub bd_info bd_writer].
    - unfold therm_status_cmd. apply (then_ _ _ same_error); [unfold therm_set_unit; tests; first [apply hc | rt]|]. intros [e|]; cbn [same_error]; [rt|].
      apply (then_ _ _ snd); [apply status_fol; auto using hr, hw|]. intros [x [e|]]; cbn [snd]; rt.
    - unfold therm_set_status_message. tests; apply silent_cmd, hc.
  Qed.
  (** The command, once its device is open. *)
  Lemma then_fol : forall (open : prog W' (option (bdev W') * option error)) accept refusal sub (V : bdev W' -> Prop),
    fol None snd open -> (forall w d e w', open w = (Ret (Some d, e), w') -> V d) -> (forall d, V d -> fol None snd (sub d)) -> fol None snd (ic_then (ic_init open accept refusal) sub).
  Proof.
    intros open accept refusal sub V Ho HV Hs w r w' H.
    assert (G : forall w, ic_then (ic_init open accept refusal) sub w = pbind open (fun x => match snd x with Some e => pret (nothing_shown, Some e) | None => match fst x with None => ppanic
      | Some d => if accept (dev_lookup (bd_info d)) then sub d else pret (nothing_shown, Some refusal) end end) w).
    { intro w0. unfold ic_then, ic_init, pbind. destruct (open w0) as [[[d e]| |] w1]; try reflexivity. cbn [fst snd]. destruct e; [reflexivity|]. destruct d; [|reflexivity]. destruct (accept _); reflexivity. }
    rewrite G in H. revert w r w' H. apply (fol_bind (@fst (list failure) W) none_kept eq (@eq_trans error) _ _ (fun x => forall d, fst x = Some d -> V d) snd); [exact Ho| |].
    - intros w [d e] w' H d0 E. cbn [fst] in E. subst d. exact (HV _ _ _ _ H).
    - intros [d e] Hd. left. cbn [fst snd] in *. destruct e as [e|]; [rt|]. destruct d as [d|]; [|apply fol_panic]. destruct (accept _); [apply Hs, Hd; reflexivity|rt].
  Qed.
  (** The configuration of a dimmer: the first question's failure is overwritten. *)
  Lemma dim_config_fol : forall k w r w', dim_config_cmd k i n w = (Ret r, w') ->
    exists a b, fst w' = fst w ++ a ++ b /\ (List.length a <= 1)%nat /\ match snd r with None => b = [] | Some e => b = [] \/ exists d, b = [(d, e)] end.
  Proof.
    intros k w r w' H. unfold dim_config_cmd, pbind in H. pose proof (@eq_trans error) as Tr. pose proof (@eq_refl error) as Rf.
    destruct (dimmer_config k i n w) as [[[c e]| |] w1] eqn:E1; try discriminate. cbv zeta in H. destruct (switch_operating_flags i n w1) as [[[lf e1]| |] w2] eqn:E2; try discriminate. injection H as <- <-.
    assert (F1 : fol None snd (dimmer_config k i n)) by (apply configs_fol; auto using hr, hw). assert (F2 : fol None snd (switch_operating_flags i n)) by (apply ask_fol; auto using hw).
    assert (N : forall l, Forall none_kept l -> l = []) by (intros [|x l] Hl; [reflexivity|inversion Hl; contradiction]).
    destruct (F1 _ _ _ E1) as (a & A1 & A2). destruct (F2 _ _ _ E2) as (b & B1 & B2). exists a, b. split; [rewrite B1, A1, app_assoc; reflexivity|]. cbn [snd] in *. split.
    - destruct e as [e|]; [destruct A2 as [A2|(x & d & e0 & y & -> & A2 & _)]|]; try (rewrite (N _ A2); cbn; lia). apply N, app_eq_nil in A2 as [-> ->]. cbn. lia.
    - destruct e1 as [e1|]; [destruct B2 as [B2|(x & d & e0 & y & -> & B2 & ->)]; [left; apply N, B2|right]|apply N, B2]. apply N, app_eq_nil in B2 as [-> ->]. exists d. reflexivity.
  Qed.
End Commands.

(** plm info. *)
Lemma info_cmd_fol : forall W (notes : W -> list failure) kept get_info get_config links,
  fol notes kept eq None snd get_info -> fol notes kept eq None snd get_config -> fol notes kept eq None snd links -> fol notes kept eq None snd (plm_info_cmd get_info get_config links).
Proof.
  intros W notes kept gi gc li Hi Hg Hl. pose proof (@eq_trans error) as Tr. unfold plm_info_cmd. cbv zeta. apply (fol_then _ _ _ Tr _ _ snd); [exact Hi|]. intros [x [e|]]; cbn [snd]; [rt|]. destruct x as [x|]; [|apply fol_panic].
  apply (fol_then _ _ _ Tr _ _ snd); [exact Hg|]. intros [c [e|]]; cbn [snd]; [rt|]. apply (fol_then _ _ _ Tr _ _ snd); [exact Hl|]. intros [ls [e|]]; cbn [snd]; rt.
Qed.

(** ** Linking commands *)
Section Linking.
  Context {W : Type}.
  Variable kept : failure -> Prop.
  Notation W' := (list failure * W)%type.
  Notation fol := (@fol (list failure * W) fst kept eq).
  Notation then_ := (fol_then fst kept eq (@eq_trans error)).
  Notation bind_ := (fol_bind fst kept eq (@eq_trans error)).
  Implicit Types m : linkable W.
  Definition noted (d : linkable W') : Prop := exists x, d = noting_lk x.
  Hypothesis Ke : forall e, kept (DExit, e).
  Lemma nil_force : forall g m, fol None same_error (force_link g (noting_lk m) lk_nil) /\ fol None same_error (force_link g lk_nil (noting_lk m)).
  Proof. intros g m. split; [|apply fol_panic]. apply (then_ _ _ same_error); [apply noting_fol|]. intros [e|]; cbn [same_error]; [rt|apply fol_panic]. Qed.
  Lemma nil_unlink : forall g m, fol None same_error (unlink g (noting_lk m) lk_nil) /\ fol None same_error (unlink g lk_nil (noting_lk m)).
  Proof. intros g m. split; [|apply fol_panic]. apply (then_ _ _ same_error); [apply noting_fol|]. intros [e|]; cbn [same_error]; [rt|apply fol_panic]. Qed.
  Lemma or_nil_force : forall g m d, (forall x, d = Some x -> noted x) -> fol None same_error (force_link g (noting_lk m) (lk_or_nil d)) /\ fol None same_error (force_link g (lk_or_nil d) (noting_lk m)).
  Proof. intros g m [d|] Hd; [|apply nil_force]. destruct (Hd d eq_refl) as [x ->]. cbn [lk_or_nil]. split; apply force_fol; exact Ke. Qed.
  Lemma or_nil_unlink : forall g m d, (forall x, d = Some x -> noted x) -> fol None same_error (unlink g (noting_lk m) (lk_or_nil d)) /\ fol None same_error (unlink g (lk_or_nil d) (noting_lk m)).
  Proof. intros g m [d|] Hd; [|apply nil_unlink]. destruct (Hd d eq_refl) as [x ->]. cbn [lk_or_nil]. split; apply unlink_fol; exact Ke. Qed.
  Variable o : Z -> prog W (option (linkable W') * option error).
  Hypothesis Ho : forall a w d e w', o a w = (Ret (Some d, e), w') -> noted d.
  Notation op := (fun a => noting DOpen snd (o a)).
  Lemma opened : forall a w r w', op a w = (Ret r, w') -> forall d, fst r = Some d -> noted d.
  Proof. intros a w [x e] w' H d Hd. cbn [fst] in Hd. subst x. unfold noting in H. destruct (o a (snd w)) as [[y| |] w1] eqn:E; try discriminate. injection H as -> _. exact (Ho _ _ _ _ _ E). Qed.
  Lemma link_one_fol : forall m c r g d, (forall x, d = Some x -> noted x) -> fol None same_error (ic_link_one (noting_lk m) c r g (lk_or_nil d)).
  Proof.
    intros m c r g d Hd. unfold ic_link_one. apply (then_ _ _ same_error); [destruct c; [apply or_nil_force, Hd|rt]|]. intros [e|]; cbn [same_error]; [rt|]. destruct r; [apply or_nil_force, Hd|rt].
  Qed.
  Lemma ic_unlink_fol : (forall d, kept (d, EDevNotLinked)) -> forall m g addrs last, fol None same_error (ic_unlink_loop op (noting_lk m) g addrs last).
  Proof.
    intros Kl m g. induction addrs as [|a addrs IH]; intro last; cbn [ic_unlink_loop]; [rt|]. apply (bind_ _ _ (fun x => forall d, fst x = Some d -> noted d) snd); [apply noting_fol|apply opened|].
    intros [d e] Hd. cbn [fst snd] in *. assert (G : fol None same_error (do e1 <- unlink g (lk_or_nil d) (noting_lk m) ;; match e1 with None | Some EDevNotLinked => unlink g (noting_lk m) (lk_or_nil d) | Some e0 => pret (Some e0) end)).
    { apply (bind_ _ _ (fun _ => True) same_error); [apply or_nil_unlink, Hd|trivial|]. intros [e1|] _; cbn [same_error]; [|left; apply or_nil_unlink, Hd].
      destruct e1; try (left; rt). right. eexists. split; [reflexivity|]. split; [intros d0 e0 ->; apply Kl|apply or_nil_unlink, Hd]. }
    destruct e as [e|]; [|left; exact G]. destruct e; try (left; rt). right. eexists. split; [reflexivity|]. split; [intros d0 e0 ->; apply Kl|apply IH].
  Qed.
  Lemma ic_edit_fol : (forall e, kept (DLinks, e)) -> forall m (ed : list Z -> prog W (list Z * option error)), fol None same_error (ic_edit (noting_lk m) (fun t => noting DEdit snd (ed t))).
  Proof.
    intros Kl m ed. unfold ic_edit. apply fol_silent; [apply noting_silent, Kl|]. intros [ls x]. destruct ls as [|l ls]; [rt|]. cbv zeta. apply (then_ _ _ snd); [apply noting_fol|].
    intros [out [e|]]; cbn [snd]; [rt|]. destruct (bytes_eqb _ _); [rt|]. destruct (text_to_links out) as [ls' [e|]]; [rt|apply noting_fol].
  Qed.
  Lemma ic_link_fol : (forall e, kept (DOpen, e)) -> forall m c r g addrs, fol None same_error (ic_link op (noting_lk m) c r g addrs).
  Proof.
    intros Kl m c r g. induction addrs as [|a addrs IH]; cbn [ic_link]; [rt|].
    intros w x w' H. unfold pbind in H. destruct (op a w) as [[[d e]| |] w1] eqn:E; try discriminate. destruct (noting_silent _ _ DOpen snd (o a) kept Kl _ _ _ E) as (n1 & N1 & K1).
    assert (F : fol None same_error (match e with None | Some EDevNotLinked => ic_link_one (noting_lk m) c r g (lk_or_nil d) | Some _ => ic_link op (noting_lk m) c r g addrs end)).
    { destruct e as [e|]; [destruct e; try exact IH|]; apply link_one_fol; intros y ->; exact (opened _ _ _ _ E _ eq_refl). }
    destruct (F _ _ _ H) as (n2 & N2 & P2). exists (n1 ++ n2). split; [rewrite N2, N1, app_assoc; reflexivity|]. cbv iota in *.
    destruct (same_error x) as [ex|]; [|apply Forall_app; auto]. destruct P2 as [P2|(b & d0 & e0 & a0 & -> & P2 & P3)]; [left; apply Forall_app; auto|right].
    exists (n1 ++ b), d0, e0, a0. split; [rewrite app_assoc; reflexivity|]. split; [rewrite <- app_assoc; apply Forall_app; auto|exact P3].
  Qed.
End Linking.
