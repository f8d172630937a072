(** C88: filters. *)
From Coq Require Import ZArith List Bool Lia.
From Verif Require Import GoBase GoLemmas GoProg Command Message Link MsgWriter BasicDevice Query Filters UtilSnoop MemFilters FailureSpec FailureProofs.
Import ListNotations.
Open Scope Z_scope.

Section Filter.
  Context {W S : Type}.
  Variable notes : W -> list failure.
  Variable kept : failure -> Prop.
  Variable mw : mwriter W.
  Notation below := (fun x : cache * W => notes (snd x)).
  Notation below2 := (fun x : list sn_line * (cache * W) => notes (snd (snd x))).
  Hypothesis Hr : fol notes kept eq None snd (mw_read mw).
  Hypothesis Hw : forall m, fol notes kept eq None snd (mw_write mw m).
  Lemma below_fol : forall A pend (E : A -> option error) (p : prog W A), fol notes kept eq pend E p -> fol below kept eq pend E (psnd p).
  Proof. intros A pend E p Hp w r w' H. unfold psnd in H. destruct (p (snd w)) as [o w1] eqn:Ep. injection H as -> <-. exact (Hp _ _ _ Ep). Qed.
  Lemma own_silent : forall A (p : prog cache A), silent below kept (pfst p).
  Proof. intros A p. apply silent_same. intro w. unfold pfst. destruct (p (fst w)). reflexivity. Qed.
  Lemma out_silent : forall A (o : outcome A), silent below kept (plift o).
  Proof. intros A o. apply silent_same. reflexivity. Qed.
  Lemma cache_read_fol : fol below kept eq None snd (cache_read mw).
  Proof.
    unfold cache_read. apply (fol_then _ _ _ (@eq_trans error) _ _ snd); [apply below_fol; exact Hr|]. intros [m e]. cbn [snd].
    apply fol_silent; [apply own_silent|]. intro. apply fol_silent; [apply out_silent|]. intro. apply fol_silent; [apply own_silent|]. intro. destruct e; rt.
  Qed.
  Lemma cache_write_fol : forall m, fol below kept eq None snd (cache_write mw m).
  Proof.
    intro m. unfold cache_write. apply fol_silent; [apply own_silent|]. intro. apply fol_silent; [apply out_silent|]. intro. apply fol_silent; [apply own_silent|]. intro. apply below_fol. apply Hw.
  Qed.
  Lemma dup_read_fol : forall k, fol below kept eq None snd (dup_read k mw).
  Proof.
    induction k as [|k IH]; cbn [dup_read]; [apply fol_nofuel|]. apply (fol_then _ _ _ (@eq_trans error) _ _ snd); [apply cache_read_fol|]. intros [m [e|]]; cbn [snd]; [rt|].
    apply fol_silent; [apply own_silent|]. intro c. destruct m as [m|]; [|destruct (c_msgs c); [rt|apply fol_panic]]. apply fol_silent; [apply out_silent|]. intros [x|]; [apply IH|rt].
  Qed.
  Lemma retry_fol : (forall d, kept (d, EDevReadTimeout)) -> forall k t m, fol notes kept eq None snd (retry_writes k mw t m).
  Proof.
    intro Hk. induction k as [|k IH]; intros t m; cbn [retry_writes]; [apply fol_nofuel|]. apply (fol_bind _ _ _ (@eq_trans error) _ _ (fun _ => True) snd); [apply Hw|trivial|].
    intros [a e] _. cbn [snd]. destruct (negb (err_is e EDevReadTimeout)) eqn:En; [left; destruct e; rt|]. destruct (1 <? t); [|left; destruct e; rt].
    destruct e as [e|]; [|discriminate]. right. exists e. split; [reflexivity|]. split; [|apply IH]. intros d e0 ->. cbn [err_is] in En. apply negb_false_iff in En. apply error_eqb_eq in En as ->. apply Hk.
  Qed.
  Lemma print_silent : forall db m, silent below2 kept (snoop_print (W := W) db m).
  Proof.
    intros db m. apply silent_same. intros [ls [c w]]. unfold snoop_print, pbind, pfst, psnd, pget, pput, plift. cbn [fst snd].
    destruct (if fl_ack (m_flags m) then _ else _) as [x| |]; reflexivity.
  Qed.
  Lemma above_fol : forall A pend (E : A -> option error) (p : prog (cache * W) A), fol below kept eq pend E p -> fol below2 kept eq pend E (psnd p).
  Proof. intros A pend E p Hp w r w' H. unfold psnd in H. destruct (p (snd w)) as [o w1] eqn:Ep. injection H as -> <-. exact (Hp _ _ _ Ep). Qed.
  Lemma snoop_read_fol : forall db, fol below2 kept eq None snd (snoop_read db mw).
  Proof.
    intro db. unfold snoop_read. apply (fol_then _ _ _ (@eq_trans error) _ _ snd); [apply above_fol; apply cache_read_fol|]. intros [m [e|]]; cbn [snd]; [rt|].
    destruct m as [m|]; [|apply fol_panic]. apply fol_silent; [apply print_silent|]. intro. rt.
  Qed.
  Lemma snoop_write_fol : forall db m, fol below2 kept eq None snd (snoop_write db mw m).
  Proof.
    intros db m. unfold snoop_write. apply fol_silent; [apply print_silent|]. intro. apply (fol_then _ _ _ (@eq_trans error) _ _ snd); [apply above_fol; apply cache_write_fol|].
    intros [a e]; cbn [snd]. destruct a as [a|]; [apply fol_silent; [apply print_silent|]; intro|]; destruct e; rt.
  Qed.
  Lemma monitor_fol : (forall d e, errors_is e EInsteonReadTimeout = true -> kept (d, e)) -> forall k, fol notes kept eq None same_error (monitor_loop k mw).
  Proof.
    intro Hk. induction k as [|k IH]; cbn [monitor_loop]; [apply fol_nofuel|]. apply (fol_bind _ _ _ (@eq_trans error) _ _ (fun _ => True) snd); [exact Hr|trivial|].
    intros [m [e|]] _; cbn [snd]; [|left; exact IH]. destruct (errors_is e EInsteonReadTimeout) eqn:Ee; [right; exists e; split; [reflexivity|]; split; [intros d e0 ->; apply Hk; exact Ee|exact IH]|left; rt].
  Qed.
End Filter.

Lemma chain_fol : forall W (notes : W -> list failure) (kept : failure -> Prop) fuel (mw : mwriter W), fol notes kept eq None snd (mw_read mw) -> (forall m, fol notes kept eq None snd (mw_write mw m)) ->
  forall ch, ((exists n, In (FRetry n) ch) -> forall d, kept (d, EDevReadTimeout)) ->
  fol (notes_below notes ch) kept eq None snd (mw_read (vchain fuel mw ch)) /\ forall m, fol (notes_below notes ch) kept eq None snd (mw_write (vchain fuel mw ch) m).
Proof.
  intros W notes kept fuel mw Hr Hw. induction ch as [|f ch IH]; intro Hk; [split; assumption|].
  assert (Hk' : (exists n, In (FRetry n) ch) -> forall d, kept (d, EDevReadTimeout)) by (intros [n Hn]; apply Hk; exists n; right; exact Hn). destruct (IH Hk') as [I1 I2].
  destruct f as [t| |t|db]; cbn [vchain notes_below].
  - split; [exact I1|]. intro m. apply I2.
  - split; [apply (dup_read_fol (notes_below notes ch)); auto|intro m; apply (cache_write_fol (notes_below notes ch)); auto].
  - split; [exact I1|]. intro m. apply (retry_fol (notes_below notes ch)); auto. apply Hk. exists t. left. reflexivity.
  - split; [apply (snoop_read_fol (notes_below notes ch)); auto|intro m; apply (snoop_write_fol (notes_below notes ch)); auto].
Qed.
