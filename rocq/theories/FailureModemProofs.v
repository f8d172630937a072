(** C88: the modem's records over any packet writer. *)
From Coq Require Import ZArith List Bool Lia.
From Verif Require Import GoBase GoLemmas GoProg Message Link MsgWriter Filters PlmPacket Plm PlmLinkdb FailureSpec FailureProofs.
Import ListNotations.
Open Scope Z_scope.

Section Modem.
  Context {W : Type}.
  Variable notes : W -> list failure.
  Variable kept : failure -> Prop.
  Variable pw : packet_writer W.
  Notation fol := (fol notes kept eq).
  Notation notes2 := (fun x : plmdb * W => notes (snd x)).
  Notation fol2 := (FailureProofs.fol notes2 kept eq).
  Notation then_ := (fol_then notes kept eq (@eq_trans error)).
  Notation then2 := (fol_then notes2 kept eq (@eq_trans error)).
  Hypothesis Hr : fol None snd (pw_read pw).
  Hypothesis Hw : forall p, fol None snd (pw_write pw p).
  Lemma modes_pw_fol : forall g, fol None same_error (pdb_enter_linking pw g) /\ fol None same_error (pdb_enter_unlinking pw g) /\ fol None same_error (pdb_exit_linking pw).
  Proof. intro g. repeat split; (apply (then_ _ _ snd); [apply Hw|]); intros [a [e|]]; cbn [snd]; rt. Qed.
  Hypothesis Kt : forall d, kept (d, EPlmReadTimeout).
  Lemma retry_pw_fol' : forall n nak pkt last, (nak = true -> forall d, kept (d, EPlmNak)) -> fol None snd (retry_loop pw n nak pkt last).
  Proof.
    intros n nak pkt last Kn. revert last. induction n as [|n IH]; intro last; [apply (fol_ret notes kept eq _ None snd last); left; reflexivity|].
    assert (G : forall w, retry_loop pw (S n) nak pkt last w = pbind (pw_write pw pkt)
      (fun x => if (err_is (snd x) EPlmNak && nak) || err_is (snd x) EPlmReadTimeout then retry_loop pw n nak pkt x else pret x) w).
    { intro w. cbn [retry_loop]. unfold pbind. destruct (pw_write pw pkt w) as [[[a e]| |] w1]; cbn [snd]; try reflexivity. destruct (_ || _); reflexivity. }
    intros w r w' H. rewrite G in H. revert w r w' H. apply (fol_bind notes kept eq (@eq_trans error) _ _ (fun _ => True) snd); [apply Hw|trivial|].
    intros [a e] _. cbn [snd]. destruct ((err_is e EPlmNak && nak) || err_is e EPlmReadTimeout) eqn:Eb; [|left; destruct e; rt].
    destruct e as [e|]; [|discriminate]. right. exists e. split; [reflexivity|]. split; [|apply IH]. intros d e0 ->. cbn [err_is] in Eb. apply orb_true_iff in Eb as [Eb|Eb].
    - apply andb_true_iff in Eb as [Eb En]. apply error_eqb_eq in Eb as ->. apply Kn, En.
    - apply error_eqb_eq in Eb as ->. apply Kt.
  Qed.
  Hypothesis Kn : forall d, kept (d, EPlmNak).
  Lemma retry_pw_fol : forall n nak pkt last, fol None snd (retry_loop pw n nak pkt last).
  Proof. intros. apply retry_pw_fol'. intros _. exact Kn. Qed.
  Lemma refresh_pw_fol : forall k n links err, fol err snd (refresh_loop k pw n links err).
  Proof.
    induction k as [|k IH]; intros n links [e|]; cbn [refresh_loop]; try rt; [apply fol_nofuel|]. apply (then_ _ _ snd); [exact Hr|]. intros [p [e|]]; cbn [snd]; [rt|].
    destruct p as [p|]; [|apply fol_panic]. destruct (_ =? _); [|apply IH]. destruct (link_unmarshal _ _) as [l [e|]]; [rt|].
    apply (then_ _ _ snd); [apply retry_pw_fol|]. intros [a e]. apply IH.
  Qed.
  Lemma db_silent : forall A (p : prog plmdb A), silent notes2 kept (pfst p).
  Proof. intros A p. apply silent_same. intro w. unfold pfst. destruct (p (fst w)). reflexivity. Qed.
  Lemma pw_fol : forall A pend (E : A -> option error) (p : prog W A), fol pend E p -> fol2 pend E (psnd p).
  Proof. intros A pend E p Hp w r w' H. unfold psnd in H. destruct (p (snd w)) as [o w1] eqn:Ep. injection H as -> <-. exact (Hp _ _ _ Ep). Qed.
  Lemma pdb_refresh_fol : forall k now, fol2 None same_error (pdb_refresh k pw now).
  Proof.
    intros k now. unfold pdb_refresh. apply fol_silent; [apply db_silent|]. intro db. destruct (negb _); [rt|]. apply (fol_bind notes2 kept eq (@eq_trans error) _ _ (fun _ => True) snd); [apply pw_fol; apply retry_pw_fol|trivial|].
    intros [a err] _. cbn [snd]. destruct err as [e|].
    - destruct (err_is (Some e) EPlmNak) eqn:Ee.
      + right. exists e. cbn [err_is] in Ee. split; [reflexivity|]. split; [intros d e0 ->; apply error_eqb_eq in Ee as ->; apply Kn|].
        intros w r w' H. unfold pbind at 1, psnd in H. destruct k; cbn [refresh_loop] in H; unfold pret at 1 in H; cbn [fst snd] in H; cbn [err_is] in H; rewrite Ee in H;
          unfold pbind, pfst, pput, pret in H; cbn [fst snd] in H; injection H as <- <-; exists []; rewrite app_nil_r; cbn [snd]; split; auto; constructor.
      + left. intros w r w' H. unfold pbind at 1, psnd in H. destruct k; cbn [refresh_loop] in H; unfold pret at 1 in H; cbn [fst snd] in H; rewrite Ee in H;
          unfold pret in H; injection H as <- <-; exists []; rewrite app_nil_r; cbn [snd]; split; [destruct w; reflexivity|split; [constructor|exists e; auto]|destruct w; reflexivity|split; [constructor|exists e; auto]].
    - left. apply (fol_bind notes2 kept eq (@eq_trans error) _ _ (fun _ => True) snd); [apply pw_fol; apply refresh_pw_fol|trivial|]. intros [links err] _. cbn [snd]. destruct (err_is err EPlmNak) eqn:Ee; [|left; destruct err; rt].
      destruct err as [e|]; [|discriminate]. right. exists e. split; [reflexivity|]. split; [intros d e0 ->; cbn [err_is] in Ee; apply error_eqb_eq in Ee as ->; apply Kn|]. apply fol_silent; [apply db_silent|]. intro. rt.
  Qed.
  Lemma pdb_links_fol : forall k now, fol2 None snd (pdb_links k pw now).
  Proof. intros k now. unfold pdb_links. apply (then2 _ _ same_error); [apply pdb_refresh_fol|]. intro err. unfold same_error. apply fol_silent; [apply db_silent|]. intro. destruct err; rt. Qed.
  Lemma pdb_iterate_fol : forall k now, fol2 None snd (pdb_iterate k pw now).
  Proof. intros k now. unfold pdb_iterate. apply (then2 _ _ snd); [apply pdb_links_fol|]. intros [ls [e|]]; cbn [snd]; rt. Qed.
  Lemma delete_fol : forall ls, fol None same_error (delete_all pw ls).
  Proof. induction ls as [|l ls IH]; cbn [delete_all]; [rt|]. apply (then_ _ _ snd); [apply retry_pw_fol|]. intros [a [e|]]; cbn [snd]; [rt|exact IH]. Qed.
  Hypothesis Kp : forall d, kept (d, EPlmWrongPayload).
  Lemma one_fol : forall l, fol None same_error (write_one pw l).
  Proof.
    intro l. unfold write_one. apply (fol_bind notes kept eq (@eq_trans error) _ _ (fun _ => True) snd); [apply retry_pw_fol|trivial|]. intros [a [e|]] _; cbn [snd]; [|left; rt].
    destruct (error_eqb e EPlmWrongPayload) eqn:Ee; [|left; rt]. right. exists e. split; [reflexivity|]. split; [intros d e0 ->; apply error_eqb_eq in Ee as ->; apply Kp|].
    destruct a as [a|]; [|apply fol_panic]. apply (then_ _ _ snd); [apply retry_pw_fol|]. intros [a1 [e1|]]; cbn [snd]; [rt|]. apply (then_ _ _ snd); [apply retry_pw_fol|]. intros [a2 [e2|]]; cbn [snd]; rt.
  Qed.
  Lemma pdb_write_fol : forall ls, fol2 None same_error (pdb_write_links pw ls).
  Proof.
    intro ls. unfold pdb_write_links. apply fol_silent; [apply db_silent|]. intro db. apply (then2 _ _ same_error); [apply pw_fol; apply delete_fol|]. intros [e|]; cbn [same_error]; [rt|].
    apply fol_silent; [apply db_silent|]. intro. induction ls as [|l ls IH]; cbn [write_all]; [rt|]. apply (then2 _ _ same_error); [apply pw_fol; apply one_fol|]. intros [e|]; cbn [same_error]; [rt|].
    apply fol_silent; [apply db_silent|]. intro. apply fol_silent; [apply db_silent|]. intro. exact IH.
  Qed.
End Modem.

(** ** The last try *)
Lemma logged : forall W A (E : A -> option error) (p : prog W A) w x w', logging E p w = (Ret x, w') -> fst w' = fst w ++ [E x].
Proof. intros W A E p w x w' H. unfold logging in H. destruct (p (snd w)) as [[a| |] w1]; try discriminate. injection H as <- <-. reflexivity. Qed.
Lemma retry_last : forall W (pw : packet_writer W) rd nak pkt k last w r w',
  retry_loop (mkPW (fun p => logging snd (pw_write pw p)) rd) (S k) nak pkt last w = (Ret r, w') ->
  exists before, fst w' = fst w ++ map Some before ++ [snd r] /\ Forall (fun e => (e = EPlmNak /\ nak = true) \/ e = EPlmReadTimeout) before /\ Z.of_nat (length before) <= Z.of_nat k.
Proof.
  intros W pw rd nak pkt. induction k as [|k IH]; intros last w r w' H.
  - cbn [retry_loop pw_write] in H. destruct (logging snd (pw_write pw pkt) w) as [[[a e]| |] w1] eqn:El; try discriminate. apply logged in El. exists []. cbn [snd] in El. cbn.
    destruct (_ || _); injection H as <- <-; cbn [snd]; repeat split; auto; lia.
  - remember (S k) as k1. cbn [retry_loop pw_write] in H. destruct (logging snd (pw_write pw pkt) w) as [[[a e]| |] w1] eqn:El; try discriminate. apply logged in El. cbn [snd] in El.
    destruct ((err_is e EPlmNak && nak) || err_is e EPlmReadTimeout) eqn:Eb.
    + subst k1. destruct (IH _ _ _ _ H) as (b & F & T & L). destruct e as [e|]; [|discriminate]. exists (e :: b). split; [|split; [constructor; [|exact T]|cbn [length]; lia]].
      * rewrite F, El, <- app_assoc. reflexivity.
      * cbn [err_is] in Eb. apply orb_true_iff in Eb as [Eb|Eb]; [apply andb_true_iff in Eb as [Eb ->]|]; apply error_eqb_eq in Eb as ->; auto.
    + injection H as <- <-. exists []. cbn. repeat split; auto; lia.
Qed.
Lemma writes_last : forall W (mw : mwriter W) rd m fuel t w r w',
  retry_writes fuel (mkMW rd (fun m => logging snd (mw_write mw m))) t m w = (Ret r, w') ->
  exists before, fst w' = fst w ++ map Some before ++ [snd r] /\ Forall (fun e => e = EDevReadTimeout) before /\ Z.of_nat (length before) <= Z.max 0 (t - 1).
Proof.
  intros W mw rd m. induction fuel as [|k IH]; intros t w r w' H; [discriminate|]. cbn [retry_writes mw_write] in H. unfold pbind in H.
  destruct (logging snd (mw_write mw m) w) as [[[a e]| |] w1] eqn:El; try discriminate. apply logged in El. cbn [snd] in El.
  destruct (err_is e EDevReadTimeout) eqn:Ee; cbn [negb] in H.
  - destruct (1 <? t) eqn:Et.
    + destruct (IH _ _ _ _ H) as (b & F & T & L). destruct e as [e|]; [|discriminate]. cbn [err_is] in Ee. apply error_eqb_eq in Ee as ->. apply Z.ltb_lt in Et.
      exists (EDevReadTimeout :: b). split; [rewrite F, El, <- app_assoc; reflexivity|]. split; [constructor; auto|cbn [length]; lia].
    + injection H as <- <-. exists []. cbn. repeat split; auto; lia.
  - injection H as <- <-. exists []. cbn. repeat split; auto; lia.
Qed.
