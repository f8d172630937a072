(** C88: following the failures through the programs. *)
From Coq Require Import ZArith List Bool Lia ZifyBool ZifyNat.
From Verif Require Import GoBase GoLemmas GoProg Command Message Link MsgWriter BasicDevice Query Lights Thermostat DevLinkdb UtilLink FailureSpec.
Import ListNotations.
Open Scope Z_scope.
Ltac Zify.zify_post_hook ::= Z.div_mod_to_equations.

Section Follow.
  Context {W : Type}.
  Variable notes : W -> list failure.
  Variable kept : failure -> Prop.
  Variable says : error -> error -> Prop.
  Hypothesis says_refl : forall e, says e e.
  Hypothesis says_trans : forall a b c, says a b -> says b c -> says a c.
  (** [fol pend]: with a failure still to be reported, or without one. *)
  Definition fol {A} (pend : option error) (E : A -> option error) (p : prog W A) : Prop :=
    forall w r w', p w = (Ret r, w') ->
      exists new, notes w' = notes w ++ new /\
        match pend with
        | Some e0 => Forall kept new /\ exists e, E r = Some e /\ says e0 e
        | None => match E r with
                  | None => Forall kept new
                  | Some e => Forall kept new \/ exists before d e0 after, new = before ++ (d, e0) :: after /\ Forall kept (before ++ after) /\ says e0 e
                  end
        end.
  Lemma fol_reports : forall A (E : A -> option error) p, fol None E p -> reports notes kept says E p.
  Proof. intros A E p H. exact H. Qed.
  Definition silent {A} (p : prog W A) : Prop := forall w r w', p w = (Ret r, w') -> exists new, notes w' = notes w ++ new /\ Forall kept new.
  Lemma fol_bind : forall A B (V : A -> Prop) (Ep : A -> option error) (E : B -> option error) p k, fol None Ep p -> (forall w r w', p w = (Ret r, w') -> V r) ->
    (forall x, V x -> fol (Ep x) E (k x) \/ exists e, Ep x = Some e /\ (forall d e0, says e0 e -> kept (d, e0)) /\ fol None E (k x)) -> fol None E (pbind p k).
  Proof.
    intros A B V Ep E p k Hp HV Hk w r w' H. unfold pbind in H. destruct (p w) as [[x| |] w1] eqn:Ex; try discriminate.
    destruct (Hp _ _ _ Ex) as (n1 & N1 & P1). pose proof (HV _ _ _ Ex) as Vx. cbv iota in P1.
    assert (G : Forall kept n1 -> fol None E (k x) -> exists new, notes w' = notes w ++ new /\ match E r with None => Forall kept new
      | Some e => Forall kept new \/ exists before d e0 after, new = before ++ (d, e0) :: after /\ Forall kept (before ++ after) /\ says e0 e end).
    { intros K F. destruct (F _ _ _ H) as (n2 & N2 & P2). exists (n1 ++ n2). split; [rewrite N2, N1, app_assoc; reflexivity|]. cbv iota in P2.
      destruct (E r) as [e|]; [|apply Forall_app; auto]. destruct P2 as [P2|(b & d & e0 & a & -> & P2 & P3)]; [left; apply Forall_app; auto|right].
      exists (n1 ++ b), d, e0, a. split; [rewrite app_assoc; reflexivity|]. split; [rewrite <- app_assoc; apply Forall_app; auto|exact P3]. }
    destruct (Hk x Vx) as [F|(e & Ee & Hh & F)].
    - destruct (Ep x) as [e|] eqn:Ee; [|exact (G P1 F)]. destruct (F _ _ _ H) as (n2 & N2 & P2 & e' & E1 & E2). exists (n1 ++ n2). split; [rewrite N2, N1, app_assoc; reflexivity|]. rewrite E1.
      destruct P1 as [P1|(b & d & e0 & a & -> & P1 & P3)]; [left; apply Forall_app; auto|right]. exists b, d, e0, (a ++ n2). rewrite <- app_assoc. split; [reflexivity|].
      split; [rewrite app_assoc; apply Forall_app; auto|exact (says_trans _ _ _ P3 E2)].
    - apply G; [|exact F]. rewrite Ee in P1. destruct P1 as [P1|(b & d & e0 & a & -> & P1 & P3)]; [exact P1|]. apply Forall_app in P1 as [P1 P2]. apply Forall_app. split; [exact P1|]. constructor; [apply Hh; exact P3|exact P2].
  Qed.
  Lemma fol_then : forall A B (Ep : A -> option error) (E : B -> option error) p k, fol None Ep p -> (forall x, fol (Ep x) E (k x)) -> fol None E (pbind p k).
  Proof. intros A B Ep E p k Hp Hk. apply (fol_bind _ _ (fun _ => True) Ep); auto. Qed.
  Lemma fol_silent : forall A B pend (E : B -> option error) (p : prog W A) k, silent p -> (forall x, fol pend E (k x)) -> fol pend E (pbind p k).
  Proof.
    intros A B pend E p k Hp Hk w r w' H. unfold pbind in H. destruct (p w) as [[x| |] w1] eqn:Ex; try discriminate. destruct (Hp _ _ _ Ex) as (n1 & N1 & P1).
    destruct (Hk x _ _ _ H) as (n2 & N2 & P2). exists (n1 ++ n2). split; [rewrite N2, N1, app_assoc; reflexivity|]. destruct pend as [e|].
    - destruct P2 as [P2 P3]. split; [apply Forall_app; auto|exact P3].
    - destruct (E r) as [e|]; [|apply Forall_app; auto]. destruct P2 as [P2|(b & d & e0 & a & -> & P2 & P3)]; [left; apply Forall_app; auto|right].
      exists (n1 ++ b), d, e0, a. split; [rewrite app_assoc; reflexivity|]. split; [rewrite <- app_assoc; apply Forall_app; auto|exact P3].
  Qed.
  Lemma fol_ret : forall A pend (E : A -> option error) x, (pend = None \/ exists e e', pend = Some e /\ E x = Some e' /\ says e e') -> fol pend E (pret x).
  Proof.
    intros A pend E x Hx w r w' H. injection H as <- <-. exists []. rewrite app_nil_r. split; [reflexivity|]. destruct Hx as [->|(e & e' & -> & H1 & H2)]; [destruct (E x); auto|]. split; [constructor|]. exists e'. auto.
  Qed.
  Lemma ret_bind_fol : forall A B pend (E : B -> option error) (x : A) k, fol pend E (k x) -> fol pend E (pbind (pret x) k).
  Proof. intros A B pend E x k H. exact H. Qed.
  Lemma fol_panic : forall A pend (E : A -> option error), fol pend E ppanic.
  Proof. intros A pend E w r w' H. discriminate. Qed.
  Lemma fol_nofuel : forall A pend (E : A -> option error), fol pend E pnofuel.
  Proof. intros A pend E w r w' H. discriminate. Qed.
  Lemma silent_fol : forall A (E : A -> option error) p, silent p -> fol None E p.
  Proof. intros A E p Hp w r w' H. destruct (Hp _ _ _ H) as (n & N & K). exists n. split; [exact N|]. destruct (E r); auto. Qed.
  Lemma silent_same : forall A (p : prog W A), (forall w, notes (snd (p w)) = notes w) -> silent p.
  Proof. intros A p Hp w r w' H. exists []. specialize (Hp w). rewrite H in Hp. cbn [snd] in Hp. rewrite app_nil_r. auto. Qed.
  Lemma silent_ret : forall A (x : A), silent (pret x).
  Proof. intros. apply silent_same. reflexivity. Qed.
  Lemma silent_bind : forall A B (p : prog W A) (k : A -> prog W B), silent p -> (forall x, silent (k x)) -> silent (pbind p k).
  Proof.
    intros A B p k Hp Hk w r w' H. unfold pbind in H. destruct (p w) as [[x| |] w1] eqn:Ex; try discriminate. destruct (Hp _ _ _ Ex) as (n1 & N1 & P1). destruct (Hk _ _ _ _ H) as (n2 & N2 & P2).
    exists (n1 ++ n2). split; [rewrite N2, N1, app_assoc; reflexivity|apply Forall_app; auto].
  Qed.
End Follow.

(** Steps of the proofs: an error in hand is passed on, a panic ends, anything else goes on. *)
Ltac rt := apply fol_ret; first [left; reflexivity | right; eexists _, _; split; [reflexivity|split; [reflexivity|auto]]].

(** ** Programs over a message writer *)
Section Writer.
  Context {W : Type}.
  Variable notes : W -> list failure.
  Variable kept : failure -> Prop.
  Variable says : error -> error -> Prop.
  Hypothesis says_refl : forall e, says e e.
  Hypothesis says_trans : forall a b c, says a b -> says b c -> says a c.
  Hypothesis says_linked : says EDevNak EDevNotLinked.
  Variable mw : mwriter W.
  Notation fol := (fol notes kept says).
  Notation then_ := (fol_then notes kept says says_trans).
  Hypothesis Hr : fol None snd (mw_read mw).
  Hypothesis Hw : forall m, fol None snd (mw_write mw m).
  Lemma match_fol : forall k p, fol None snd (read_match k mw p).
  Proof.
    induction k as [|k IH]; intro p; cbn [read_match]; [apply fol_nofuel|]. apply (then_ _ _ snd); [exact Hr|]. intros [m [e|]]; cbn [snd]; [rt|].
    destruct m as [m|]; [|apply fol_panic]. destruct (p m); [rt|apply IH].
  Qed.
  Lemma version_fol : forall dst, fol None snd (get_engine_version mw dst).
  Proof.
    intro dst. unfold get_engine_version. apply (then_ _ _ snd); [apply Hw|]. intros [a [e|]]; cbn [snd].
    - destruct (error_eqb e EDevNak) eqn:Ee; [|rt]. apply error_eqb_eq in Ee as ->. destruct a as [a|]; [|apply fol_panic]. destruct (_ =? _); rt.
    - destruct a; [rt|apply fol_panic].
  Qed.
  Lemma id_fol : forall k dst, fol None snd (id_request k mw dst).
  Proof.
    intros k dst. unfold id_request. apply (then_ _ _ snd); [apply Hw|]. intros [a [e|]]; cbn [snd]; [rt|]. apply (then_ _ _ snd); [apply match_fol|].
    intros [m [e|]]; cbn [snd]; [rt|]. destruct m; [rt|apply fol_panic].
  Qed.
  Lemma open_fol : forall k dst, fol None snd (dev_open k mw dst).
  Proof.
    intros k dst. unfold dev_open. apply (then_ _ _ snd); [apply version_fol|]. intros [v [e|]]; cbn [snd]; [rt|]. apply (then_ _ _ snd); [apply id_fol|].
    intros [[fw dc] [e|]]; cbn [snd]; cbv zeta; rt.
  Qed.
End Writer.

Section Device.
  Context {W : Type}.
  Variable notes : W -> list failure.
  Variable kept : failure -> Prop.
  Variable says : error -> error -> Prop.
  Hypothesis says_refl : forall e, says e e.
  Hypothesis says_trans : forall a b c, says a b -> says b c -> says a c.
  Variable mw : mwriter W.
  Variable i : dinfo.
  Notation fol := (fol notes kept says).
  Notation then_ := (fol_then notes kept says says_trans).
  Hypothesis Hr : fol None snd (mw_read mw).
  Hypothesis Hw : forall m, fol None snd (mw_write mw m).
  Lemma bd_w_fol : forall m, fol None snd (bd_write i mw m).
  Proof. intro m. apply Hw. Qed.
  Lemma bd_m_fol : forall k p, fol None snd (read_match k (bd_mw i mw) p).
  Proof. intros k p. apply match_fol; auto. Qed.
  Lemma send_fol : forall c p, fol None snd (bd_send i mw c p).
  Proof. intros c p. unfold bd_send. apply (then_ _ _ snd); [apply bd_w_fol|]. intros [a [e|]]; cbn [snd]; [rt|]. destruct a; [rt|apply fol_panic]. Qed.
  Lemma command_fol : forall c p, fol None same_error (bd_send_command i mw c p).
  Proof. intros c p. unfold bd_send_command. apply (then_ _ _ snd); [apply send_fol|]. intros [a [e|]]; cbn [snd]; rt. Qed.
  Lemma modes_fol : forall g, fol None same_error (bd_enter_linking i mw g) /\ fol None same_error (bd_enter_unlinking i mw g) /\ fol None same_error (bd_exit_linking i mw).
  Proof. intro g. unfold bd_enter_linking, bd_enter_unlinking, bd_exit_linking. repeat split; try apply command_fol. destruct (_ =? _); apply command_fol. Qed.
  Lemma product_fol : forall k, fol None snd (bd_product_data k i mw).
  Proof.
    intro k. unfold bd_product_data. apply (then_ _ _ snd); [apply bd_w_fol|]. intros [a [e|]]; cbn [snd]; [rt|]. apply (then_ _ _ snd); [apply bd_m_fol|].
    intros [m [e|]]; cbn [snd]; [rt|]. destruct m as [m|]; [|apply fol_panic]. destruct (pd_unmarshal _ _); rt.
  Qed.
  Lemma get_fol : forall k d, fol None snd (bd_extended_get k i mw d).
  Proof.
    intros k d. unfold bd_extended_get. apply (then_ _ _ snd); [apply bd_w_fol|]. intros [a [e|]]; cbn [snd]; [rt|]. apply (then_ _ _ snd); [apply bd_m_fol|].
    intros [m [e|]]; cbn [snd]; [rt|]. destruct m as [m|]; [rt|apply fol_panic].
  Qed.
  Lemma payload_fol : forall k, fol None (fun x => match fst x with Some _ => None | None => snd x end) (config_payload k i mw).
  Proof.
    intro k. unfold config_payload. apply (then_ _ _ snd); [apply bd_w_fol|]. intros [a [e|]]; cbn [snd]; [rt|]. apply (then_ _ _ snd); [apply bd_m_fol|].
    intros [m [e|]]; cbn [snd]; [rt|]. destruct m as [m|]; [rt|apply fol_panic].
  Qed.
  Lemma configs_fol : forall k, fol None snd (switch_config k i mw) /\ fol None snd (dimmer_config k i mw).
  Proof.
    intro k. unfold switch_config, dimmer_config. split; (eapply (then_ _ _ (fun x => match fst x with Some _ => None | None => snd x end)); [apply payload_fol|]);
      intros [[p|] [e|]]; cbn [fst snd]; rt.
  Qed.
  Lemma ask_fol : forall cmds n acc, fol None snd (ask_all i mw cmds n acc).
  Proof. induction cmds as [|c cmds IH]; intros n acc; cbn [ask_all]; [rt|]. apply (then_ _ _ snd); [apply bd_w_fol|]. intros [a [e|]]; cbn [snd]; [rt|]. destruct a; [apply IH|apply fol_panic]. Qed.
  Lemma question_fol : forall c, fol None snd (do (ack, err) <- bd_send i mw c [] ;; match err with Some e => pret (0, Some e) | None => pret (command2 ack, None) end).
  Proof. intro c. apply (then_ _ _ snd); [apply send_fol|]. intros [a [e|]]; cbn [snd]; rt. Qed.
  Lemma state_fol : forall c, fol None snd (do (ack, err) <- bd_send i mw c [] ;; pret (command2 ack, err)).
  Proof. intro c. apply (then_ _ _ snd); [apply send_fol|]. intros [a [e|]]; cbn [snd]; rt. Qed.
  Lemma info_fol : forall k sets ti, fol None snd (therm_info_loop k i mw sets ti).
  Proof.
    intros k. induction sets as [|s sets IH]; intro ti; cbn [therm_info_loop]; [rt|]. apply (then_ _ _ snd); [apply get_fol|]. intros [b [e|]]; cbn [snd]; [rt|].
    destruct (ti_unmarshal ti b) as [ti1 [e|]]; [rt|apply IH].
  Qed.
  Lemma unit_fol : forall k, fol None snd (therm_get_unit k i mw).
  Proof. intro k. unfold therm_get_unit. apply (then_ _ _ snd); [apply info_fol|]. intros [ti [e|]]; cbn [snd]; rt. Qed.
  Lemma status_fol : forall k, fol None snd (therm_status k i mw).
  Proof.
    intro k. unfold therm_status. apply (then_ _ _ snd); [apply ask_fol|]. intros [z [e|]]; cbn [snd]; cbv zeta; [rt|]. apply (then_ _ _ snd); [apply unit_fol|].
    intros [u [e|]]; cbn [snd]; [rt|]. apply (then_ _ _ snd); [apply question_fol|]. intros [m [e|]]; cbn [snd]; [rt|]. apply (then_ _ _ snd); [apply state_fol|].
    intros [s [e|]]; cbn [snd]; rt.
  Qed.
End Device.

(** ** The link database of a device *)
Section Links.
  Context {W : Type}.
  Variable notes : W -> list failure.
  Variable kept : failure -> Prop.
  Variable says : error -> error -> Prop.
  Hypothesis says_refl : forall e, says e e.
  Hypothesis says_trans : forall a b c, says a b -> says b c -> says a c.
  Variable mw : mwriter W.
  Notation notes2 := (fun x : linkdb * W => notes (snd x)).
  Notation fol := (fol notes kept says).
  Notation fol2 := (FailureProofs.fol notes2 kept says).
  Notation then_ := (fol_then notes2 kept says says_trans).
  Hypothesis Hr : fol None snd (mw_read mw).
  Hypothesis Hw : forall m, fol None snd (mw_write mw m).
  Lemma snd_fol : forall A pend (E : A -> option error) p, fol pend E p -> fol2 pend E (psnd p).
  Proof. intros A pend E p Hp w r w' H. unfold psnd in H. destruct (p (snd w)) as [o w1] eqn:Ep. injection H as -> <-. exact (Hp _ _ _ Ep). Qed.
  Lemma fst_silent : forall A (p : prog linkdb A), silent notes2 kept (pfst p).
  Proof. intros A p. apply silent_same. intro w. unfold pfst. destruct (p (fst w)). reflexivity. Qed.
  Lemma lift_silent : forall A (o : outcome A), silent notes2 kept (plift o).
  Proof. intros A o. apply silent_same. reflexivity. Qed.
  Lemma loop_fol : forall k last, fol2 None same_error (ld_refresh_loop k mw last).
  Proof.
    induction k as [|k IH]; intro last; cbn [ld_refresh_loop]; [apply fol_nofuel|]. apply (then_ _ _ snd); [apply snd_fol; apply match_fol; auto|].
    intros [m [e|]]; cbn [snd]; [rt|]. destruct m as [m|]; [|apply fol_panic]. destruct (lr_unmarshal _ _) as [lr [e|]]; [rt|]. destruct (_ =? _); [apply IH|].
    destruct (lr_link lr) as [l|]; [|apply fol_panic]. destruct (rcf_last_record _); [rt|]. apply fol_silent; [apply fst_silent|]. intro db. apply fol_silent; [apply fst_silent|]. intro. apply IH.
  Qed.
  Lemma refresh_fol : forall k now, fol2 None same_error (ld_refresh k mw now).
  Proof.
    intros k now. unfold ld_refresh. apply fol_silent; [apply fst_silent|]. intro db. destruct (negb _); [rt|]. apply fol_silent; [apply fst_silent|]. intro. apply fol_silent; [apply lift_silent|]. intro buf.
    apply (then_ _ _ snd); [apply snd_fol; apply Hw|]. intros [a [e|]]; cbn [snd].
    - intros w r w' H. injection H as <- <-. exists []. rewrite app_nil_r. split; [reflexivity|]. split; [constructor|]. exists e. auto.
    - apply (then_ _ _ same_error); [apply loop_fol|]. intros [e|]; cbn [same_error]; [rt|]. apply fol_silent; [apply fst_silent|]. intro. apply fol_silent; [apply fst_silent|]. intro. rt.
  Qed.
  Lemma get_links_fol : forall k now, fol2 None snd (ld_get_links k mw now).
  Proof. intros k now. unfold ld_get_links. apply (then_ _ _ same_error); [apply refresh_fol|]. intros [e|]; cbn [same_error]; [rt|]. apply fol_silent; [apply fst_silent|]. intro. rt. Qed.
  Lemma write_fol : forall j l, fol2 None same_error (ld_write_link mw j l).
  Proof.
    intros j l. unfold ld_write_link. apply fol_silent; [apply fst_silent|]. intro db. destruct (_ <? _); [rt|]. apply fol_silent; [apply lift_silent|]. intro buf.
    apply (then_ _ _ snd); [apply snd_fol; apply Hw|]. intros [a [e|]]; cbn [snd]; [rt|]. 
    repeat match goal with |- context [if ?b then _ else _] => destruct b end; first [rt | apply fol_panic | apply fol_silent; [apply fst_silent|intro; rt]].
  Qed.
  Lemma write_loop_fol : forall ls j, fol2 None same_error (ld_write_loop mw j ls).
  Proof. induction ls as [|l ls IH]; intro j; cbn [ld_write_loop]; [rt|]. apply (then_ _ _ same_error); [apply write_fol|]. intros [e|]; cbn [same_error]; [rt|apply IH]. Qed.
  Lemma write_links_fol : forall now ls, fol2 None same_error (ld_write_links mw now ls).
  Proof.
    intros now ls. unfold ld_write_links. apply (then_ _ _ same_error); [apply write_loop_fol|]. intros [e|]; cbn [same_error]; [rt|]. apply fol_silent; [apply fst_silent|]. intro.
    apply (then_ _ _ same_error); [apply write_fol|]. intros [e|]; cbn [same_error]; [rt|]. apply fol_silent; [apply fst_silent|]. intro. apply fol_silent; [apply fst_silent|]. intro. rt.
  Qed.
  Lemma add_fill_fol : forall ls j add, fol2 None snd (ld_add_fill mw j ls add).
  Proof.
    induction ls as [|l ls IH]; intros j [|a add]; cbn [ld_add_fill]; try rt. apply (then_ _ _ same_error).
    - destruct (rcf_available _); [|rt]. apply (then_ _ _ same_error); [apply write_fol|]. intros [e|]; cbn [same_error]; [rt|]. apply fol_silent; [apply fst_silent|]. intro db.
      destruct (_ <=? _); [apply fol_panic|]. apply fol_silent; [apply fst_silent|]. intro. rt.
    - intros [e|]; cbn [same_error]; [rt|]. destruct add; [rt|apply IH].
  Qed.
  Lemma add_append_fol : forall add, fol2 None same_error (ld_add_append mw add).
  Proof. induction add as [|a add IH]; cbn [ld_add_append]; [rt|]. apply fol_silent; [apply fst_silent|]. intro. apply (then_ _ _ same_error); [apply write_fol|]. intros [e|]; cbn [same_error]; [rt|apply IH]. Qed.
  Lemma add_links_fol : forall k now add, fol2 None same_error (ld_add_links k mw now add).
  Proof.
    intros k now [|a add]; unfold ld_add_links; [rt|]. apply (then_ _ _ same_error); [apply refresh_fol|]. intros [e|]; cbn [same_error]; [rt|]. apply fol_silent; [apply fst_silent|]. intro.
    apply (then_ _ _ snd); [apply add_fill_fol|]. intros [rest [e|]]; cbn [snd]; [rt|apply add_append_fol].
  Qed.
  Lemma update_match_fol : forall todo sofar, fol2 None snd (ld_update_match mw sofar todo).
  Proof.
    induction todo as [|l todo IH]; intro sofar; cbn [ld_update_match]; [rt|]. apply fol_silent; [apply fst_silent|]. intro db. destruct (index_find _ _) as [j|]; [|apply IH].
    destruct (nth_error _ _); [|apply fol_panic]. apply (then_ _ _ same_error); [destruct (negb _); [apply write_fol|rt]|]. intros [e|]; cbn [same_error]; [rt|apply IH].
  Qed.
  Lemma update_fill_fol : forall n j links, fol2 None snd (ld_update_fill mw n j links).
  Proof.
    induction n as [|n IH]; intros j links; cbn [ld_update_fill]; [rt|]. apply fol_silent; [apply fst_silent|]. intro db. apply fol_silent; [apply lift_silent|]. intro x. destruct links as [|l links]; [rt|].
    destruct (rcf_available _); [|apply IH]. apply (then_ _ _ same_error); [apply write_fol|]. intros [e|]; cbn [same_error]; [rt|apply IH].
  Qed.
End Links.

(** ** The last loop of UpdateLinks: once a write has failed the next position is out of range. *)
Section Update.
  Context {W : Type}.
  Variable notes : W -> list failure.
  Variable kept : failure -> Prop.
  Variable says : error -> error -> Prop.
  Hypothesis says_refl : forall e, says e e.
  Hypothesis says_trans : forall a b c, says a b -> says b c -> says a c.
  Variable mw : mwriter W.
  Notation notes2 := (fun x : linkdb * W => notes (snd x)).
  Notation fol2 := (fol notes2 kept says).
  Notation then_ := (fol_then notes2 kept says says_trans).
  Hypothesis Hr : fol notes kept says None snd (mw_read mw).
  Hypothesis Hw : forall m, fol notes kept says None snd (mw_write mw m).
  Lemma clear_not_last : forall l, rcf_last_record (l_flags (with_flags rcf_clear_last_record l)) = false.
  Proof.
    intro l. cbn [with_flags l_flags]. unfold rcf_last_record, rcf_clear_last_record, rcf_set_bit. change (Z.shiftl 1 1) with 2. apply Z.eqb_neq. intro H.
    apply (f_equal (fun x => Z.testbit x 1)) in H. rewrite Z.land_spec, Z.lor_spec in H. change (Z.testbit 2 1) with true in H. rewrite orb_true_r, Z.bits_0 in H. discriminate H.
  Qed.
  Lemma append_late : forall links j err (w : linkdb * W), zlen (ld_links (fst w)) < j -> links <> [] ->
    ld_update_append mw j links err w = (Ret (j + zlen links, Some EDevLinkIndexOutOfRange), w).
  Proof.
    induction links as [|l links IH]; intros j err w Hj Hl; [congruence|]. cbn [ld_update_append]. unfold pbind at 1.
    assert (E : forall l, ld_write_link mw j l w = (Ret (Some EDevLinkIndexOutOfRange), w)).
    { intro x. unfold ld_write_link, pbind at 1, pfst, pget. cbn [fst snd]. apply Z.ltb_lt in Hj. destruct w as [db st]. cbn [fst snd] in *. rewrite Hj. reflexivity. }
    rewrite E. destruct links as [|x links].
    - reflexivity.
    - rewrite IH; [|lia|discriminate]. replace (j + zlen (l :: x :: links)) with (j + 1 + zlen (x :: links)) by (unfold zlen; cbn [List.length]; lia). reflexivity.
  Qed.
  Lemma write_ends : forall l (db : linkdb) (st : W) r w', ld_write_link mw (zlen (ld_links db)) (with_flags rcf_clear_last_record l) (db, st) = (Ret r, w') ->
    match r with None => zlen (ld_links (fst w')) = zlen (ld_links db) + 1 | Some _ => fst w' = db end.
  Proof.
    intros l db st r w' H. unfold ld_write_link in H. rewrite clear_not_last in H. unfold pbind, pfst, pget, pput, psnd, pret, plift in H. cbn [fst snd] in H.
    destruct (_ <? _); [injection H as <- <-; reflexivity|]. destruct (lr_marshal _) as [buf| |]; try discriminate. cbn [fst snd] in H. destruct (mw_write mw _ st) as [[[a [e|]]| |] st1]; try discriminate.
    - injection H as <- <-. reflexivity.
    - rewrite Z.eqb_refl in H. injection H as <- <-. cbn [fst set_ld_links ld_links]. unfold zlen. rewrite app_length. cbn [List.length]. lia.
  Qed.
  Lemma append_on : (forall e, says e EDevLinkIndexOutOfRange) -> forall links, fol2 None snd (pbind (pfst pget) (fun db => ld_update_append mw (zlen (ld_links db)) links None)).
  Proof.
    intros Hs links w r w' H. unfold pbind, pfst at 1, pget at 1 in H. cbn [fst snd] in H. destruct w as [db st]. cbn [fst snd] in H. revert db st r w' H.
    induction links as [|l links IH]; intros db st r w' H.
    - injection H as <- <-. exists []. rewrite app_nil_r. split; [reflexivity|constructor].
    - cbn [ld_update_append] in H. unfold pbind at 1 in H. destruct (ld_write_link mw _ _ (db, st)) as [[o| |] w1] eqn:E; try discriminate.
      pose proof (write_ends _ _ _ _ _ E) as G. destruct (write_fol notes kept says says_refl says_trans mw Hw _ _ _ _ _ E) as (n1 & N1 & P1). cbv iota in P1. unfold same_error in P1.
      destruct o as [e|].
      + assert (Q : w' = w1 /\ (snd r = Some e \/ snd r = Some EDevLinkIndexOutOfRange)).
        { destruct links as [|x links]; [injection H as <- <-; auto|]. rewrite append_late in H; [injection H as <- <-; auto|rewrite G; lia|discriminate]. }
        destruct Q as [-> Q]. exists n1. split; [exact N1|]. destruct P1 as [P1|(b & d & e0 & a & -> & P1 & P2)]; [destruct Q as [-> | ->]; left; exact P1|].
        destruct Q as [-> | ->]; right; exists b, d, e0, a; repeat split; auto.
      + destruct w1 as [db1 st1]. cbn [fst snd] in G, N1. rewrite <- G in H. destruct (IH _ _ _ _ H) as (n2 & N2 & P2). exists (n1 ++ n2). cbn [snd]. cbn [snd] in N2. split; [rewrite N2, N1, app_assoc; reflexivity|].
        destruct (snd r) as [e|]; [|apply Forall_app; auto]. destruct P2 as [P2|(b & d & e0 & a & -> & P2 & P3)]; [left; apply Forall_app; auto|right].
        exists (n1 ++ b), d, e0, a. split; [rewrite app_assoc; reflexivity|]. split; [rewrite <- app_assoc; apply Forall_app; auto|exact P3].
  Qed.
  Lemma assoc_fol : forall A B C pend (E : C -> option error) (p : prog (linkdb * W) A) (q : A -> prog (linkdb * W) B) k,
    fol2 pend E (pbind (pbind p q) k) -> fol2 pend E (pbind p (fun x => pbind (q x) k)).
  Proof. intros A B C pend E p q k H w r w' G. apply (H w r w'). unfold pbind in *. destruct (p w) as [[x| |] w1]; exact G. Qed.
  Lemma update_fol : (forall e, says e EDevLinkIndexOutOfRange) -> forall k now links, fol2 None same_error (ld_update_links k mw now links).
  Proof.
    intros Hs k now links. unfold ld_update_links. apply (then_ _ _ same_error); [apply refresh_fol; auto|]. intros [e|]; cbn [same_error]; [rt|].
    apply (then_ _ _ snd); [apply update_match_fol; auto|]. intros [l1 [e|]]; cbn [snd]; [rt|]. apply fol_silent; [apply fst_silent|]. intro db.
    apply (then_ _ _ snd); [apply update_fill_fol; auto|]. intros [l2 [e|]]; cbn [snd]; [rt|]. destruct l2 as [|x l2]; [rt|]. apply assoc_fol.
    apply (then_ _ _ snd); [apply append_on; exact Hs|]. intros [j [e|]]; cbn [snd]; [rt|apply write_fol; auto].
  Qed.
  (** With a single link nothing is out of range. *)
  Lemma match_length : forall todo sofar w r w', ld_update_match mw sofar todo w = (Ret r, w') -> (List.length (fst r) <= List.length sofar + List.length todo)%nat.
  Proof.
    induction todo as [|l todo IH]; intros sofar w r w' H; cbn [ld_update_match] in H; [injection H as <- <-; cbn [fst]; rewrite rev_length; cbn; lia|].
    unfold pbind at 1, pfst, pget in H. destruct w as [db st]. cbn [fst snd] in H. destruct (index_find _ _) as [j|]; [|apply IH in H; cbn [List.length] in *; lia].
    destruct (nth_error _ _); [|discriminate]. unfold pbind at 1 in H. match type of H with match ?p with _ => _ end = _ => destruct p as [[[e|]| |] w1] end; try discriminate.
    - injection H as <- <-. cbn [fst]. rewrite app_length, rev_length. cbn [List.length]. lia.
    - apply IH in H. cbn [List.length]. lia.
  Qed.
  Lemma fill_length : forall n j links w r w', ld_update_fill mw n j links w = (Ret r, w') -> (List.length (fst r) <= List.length links)%nat.
  Proof.
    induction n as [|n IH]; intros j links w r w' H; cbn [ld_update_fill] in H; [injection H as <- <-; cbn; lia|].
    unfold pbind at 1, pfst, pget in H. destruct w as [db st]. cbn [fst snd] in H. unfold pbind at 1, plift in H. destruct (go_index _ _) as [x| |]; try discriminate.
    destruct links as [|l links]; [injection H as <- <-; cbn; lia|]. destruct (rcf_available _); [|apply IH in H; exact H].
    unfold pbind at 1 in H. match type of H with match ?p with _ => _ end = _ => destruct p as [[[e|]| |] w1] end; try discriminate.
    - injection H as <- <-. cbn. lia.
    - apply IH in H. cbn [List.length]. lia.
  Qed.
  Lemma update_one_fol : forall k now links, (List.length links <= 1)%nat -> fol2 None same_error (ld_update_links k mw now links).
  Proof.
    intros k now links Hl. unfold ld_update_links. apply (then_ _ _ same_error); [apply refresh_fol; auto|]. intros [e|]; cbn [same_error]; [rt|].
    apply (fol_bind notes2 kept says says_trans _ _ (fun x => (List.length (fst x) <= 1)%nat) snd); [apply update_match_fol; auto|intros w r w' H; apply match_length in H; cbn [List.length] in H; lia|].
    intros [l1 [e|]] V1; cbn [fst snd] in *; left; [rt|]. apply fol_silent; [apply fst_silent|]. intro db.
    apply (fol_bind notes2 kept says says_trans _ _ (fun x => (List.length (fst x) <= 1)%nat) snd); [apply update_fill_fol; auto|intros w r w' H; apply fill_length in H; lia|].
    intros [l2 [e|]] V2; cbn [fst snd] in *; left; [rt|]. destruct l2 as [|x [|y l2]]; [rt| |cbn [List.length] in V2; lia].
    apply fol_silent; [apply fst_silent|]. intro db1. apply (then_ _ _ snd).
    - cbn [ld_update_append]. apply (then_ _ _ same_error); [apply write_fol; auto|]. intros [e|]; cbn [same_error]; rt.
    - intros [j [e|]]; cbn [snd]; [rt|apply write_fol; auto].
  Qed.
End Update.

(** ** The library's functions, over any devices *)
Lemma noting_fol : forall W A d (E : A -> option error) (p : prog W A) kept, fol fst kept eq None E (noting d E p).
Proof.
  intros W A d E p kept w r w' H. unfold noting in H. destruct (p (snd w)) as [[x| |] w1]; try discriminate. injection H as <- <-. cbn [fst].
  destruct (E x) as [e|]; [|exists []; rewrite app_nil_r; auto]. exists [(d, e)]. split; [reflexivity|]. right. exists [], d, e, []. split; [reflexivity|]. split; [constructor|reflexivity].
Qed.
Lemma noting_silent : forall W A d (E : A -> option error) (p : prog W A) (kept : failure -> Prop), (forall e, kept (d, e)) -> silent fst kept (noting d E p).
Proof.
  intros W A d E p kept Hk w r w' H. unfold noting in H. destruct (p (snd w)) as [[x| |] w1]; try discriminate. injection H as <- <-. cbn [fst].
  destruct (E x) as [e|]; [exists [(d, e)]; auto|exists []; rewrite app_nil_r; auto].
Qed.
Section Library.
  Context {W : Type}.
  Variable kept : failure -> Prop.
  Notation fol := (@fol (list failure * W) fst kept eq).
  Notation then_ := (fol_then fst kept eq (@eq_trans error)).
  Notation silent := (@silent (list failure * W) fst kept).
  Implicit Types x y : linkable W.
  Lemma links_fol : forall x, fol None snd (lk_links (noting_lk x)).
  Proof. intro. apply noting_fol. Qed.
  Lemma addr_silent : forall x, silent (lk_address (noting_lk x)).
  Proof. intro x. apply silent_same. intro w. cbn [noting_lk lk_address]. unfold psnd. destruct (lk_address x (snd w)). reflexivity. Qed.
  Lemma duplicates_fol : forall x same, fol None snd (find_duplicate_links (noting_lk x) same).
  Proof. intros x same. unfold find_duplicate_links. apply (then_ _ _ snd); [apply links_fol|]. intros [ls [e|]]; cbn [snd]; rt. Qed.
  Lemma find_fol : forall x c a g, fol None snd (find_link_record (noting_lk x) c a g).
  Proof. intros x c a g. unfold find_link_record. apply (then_ _ _ snd); [apply links_fol|]. intros [ls [e|]]; cbn [snd]; [rt|]. destruct (find _ ls); rt. Qed.
  Lemma force_fol : (forall e, kept (DExit, e)) -> forall g x y, fol None same_error (force_link g (noting_lk x) (noting_lk y)).
  Proof.
    intros He g x y. unfold force_link. apply (then_ _ _ same_error); [apply noting_fol|]. intros [e|]; cbn [same_error]; [rt|]. apply (then_ _ _ same_error); [apply noting_fol|]. intro err.
    apply fol_silent; [apply noting_silent; exact He|]. intro. apply fol_silent; [apply noting_silent; exact He|]. intro. destruct err; cbn [same_error]; rt.
  Qed.
  Lemma unlink_fol : (forall e, kept (DExit, e)) -> forall g x y, fol None same_error (unlink g (noting_lk x) (noting_lk y)).
  Proof.
    intros He g x y. unfold unlink. apply (then_ _ _ same_error); [apply noting_fol|]. intros [e|]; cbn [same_error]; [rt|]. apply (then_ _ _ same_error); [apply noting_fol|]. intro err.
    apply fol_silent; [apply noting_silent; exact He|]. intro. apply fol_silent; [apply noting_silent; exact He|]. intro. destruct err; cbn [same_error]; rt.
  Qed.
  Lemma remove_fol : (forall e, kept (DWriteOne, e)) -> forall x ls, fol None same_error (remove_links (noting_lk x) ls).
  Proof.
    intros Hk x ls. unfold remove_links. apply (then_ _ _ snd); [apply links_fol|]. intros [links [e|]]; cbn [snd]; [rt|]. apply fol_silent.
    - cbn [noting_lk lk_write_one]. generalize 0. destruct (lk_write_one x) as [wr|]; induction links as [|l links IH]; intro j; cbn [remove_loop]; try apply silent_ret;
        (destruct (removes ls l); [|apply IH]); apply silent_bind; intros; auto; try apply silent_ret; try apply IH. apply noting_silent. exact Hk.
    - intros [|l rl]; [rt|]. apply noting_fol.
  Qed.
  Lemma add_fol : (forall e, kept (DWriteOne, e)) -> forall x ls, fol None same_error (add_links (noting_lk x) ls).
  Proof.
    intros Hk x ls. unfold add_links. apply (then_ _ _ snd); [apply links_fol|]. intros [links [e|]]; cbn [snd]; [rt|]. cbn [noting_lk lk_write_one]. destruct (lk_write_one x) as [wr|].
    - apply (then_ _ _ snd).
      + generalize 0. revert ls. induction links as [|l links IH]; intros ls j; cbn [add_fill]; [rt|]. destruct ls as [|a ls]; [rt|]. destruct (rcf_available _); [|apply IH].
        apply (then_ _ _ same_error); [apply noting_fol|]. intros [e|]; cbn [same_error]; [rt|apply IH].
      + intros [rest [e|]]; cbn [snd]; [rt|]. enough (G : forall err j, fol None same_error (add_append (fun i l => noting DWriteOne same_error (wr i l)) j rest err)) by apply G. induction rest as [|a rest IH]; intros err j; cbn [add_append]; [rt|].
        apply fol_silent; [apply noting_silent; exact Hk|]. intro. apply IH.
    - destruct (add_merge links ls) as [n r]. destruct (n ++ r); [rt|]. apply noting_fol.
  Qed.
  Lemma link_fol : (forall e, kept (DExit, e)) -> (forall e, kept (DWriteOne, e)) -> (forall d, kept (d, EUtilLinkNotFound)) ->
    forall g x y, fol None same_error (link_devices g (noting_lk x) (noting_lk y)).
  Proof.
    intros K1 K2 K3 g x y. unfold link_devices. apply fol_silent; [apply addr_silent|]. intro ra.
    assert (K4 : forall e, error_eqb e EUtilLinkNotFound = true -> forall (d : deed) e0, e0 = e -> kept (d, e0)) by (intros e He d e0 ->; apply error_eqb_eq in He as ->; apply K3).
    apply (fol_bind fst kept eq (@eq_trans error) _ _ (fun _ => True) snd); [apply find_fol|trivial|]. intros [cl [e|]] _; cbn [snd].
    - destruct (error_eqb e EUtilLinkNotFound) eqn:Ee; [right; exists e; split; [reflexivity|]; split; [exact (K4 e Ee)|]|left; rt]. apply fol_silent; [apply addr_silent|]. intro ca.
      assert (G : fol None same_error (do (rlink, err1) <- find_link_record (noting_lk y) false ca g ;;
        do err2 <- match err1 with None => remove_links (noting_lk y) [rlink] | Some _ => pret err1 end ;;
        match err2 with None => force_link g (noting_lk x) (noting_lk y) | Some e2 => if error_eqb e2 EUtilLinkNotFound then force_link g (noting_lk x) (noting_lk y) else pret (Some e2) end)).
      { apply (fol_bind fst kept eq (@eq_trans error) _ _ (fun _ => True) snd); [apply find_fol|trivial|]. intros [rl [e1|]] _; cbn [snd].
        - destruct (error_eqb e1 EUtilLinkNotFound) eqn:E1.
          + right. exists e1. split; [reflexivity|]. split; [exact (K4 e1 E1)|]. apply ret_bind_fol. rewrite E1. apply force_fol. exact K1.
          + left. apply ret_bind_fol. rewrite E1. rt.
        - left. apply (fol_bind fst kept eq (@eq_trans error) _ _ (fun _ => True) same_error); [apply remove_fol; exact K2|trivial|]. intros [e2|] _; cbn [same_error]; [|left; apply force_fol; exact K1].
          destruct (error_eqb e2 EUtilLinkNotFound) eqn:E2; [right; exists e2; split; [reflexivity|]; split; [exact (K4 e2 E2)|apply force_fol; exact K1]|left; rt]. }
      exact G.
    - left. apply fol_silent; [apply addr_silent|]. intro ca. apply (fol_bind fst kept eq (@eq_trans error) _ _ (fun _ => True) snd); [apply find_fol|trivial|]. intros [rl [e|]] _; cbn [snd]; [|left; rt].
      destruct (error_eqb e EUtilLinkNotFound) eqn:Ee; [right; exists e; split; [reflexivity|]; split; [exact (K4 e Ee)|]|left; rt].
      apply (then_ _ _ same_error); [apply remove_fol; exact K2|]. intros [e2|]; cbn [same_error]; [rt|apply force_fol; exact K1].
  Qed.
  Section Cross.
    Hypothesis K1 : forall e, kept (DExit, e).
    Hypothesis K2 : forall e, kept (DWriteOne, e).
    Hypothesis K3 : forall d, kept (d, EUtilLinkNotFound).
    Hypothesis K4 : forall d e, errors_is e EUtilAlreadyLinked = true -> kept (d, e).
    Lemma cross_fol : forall g x y, fol None same_error (cross_link g (noting_lk x) (noting_lk y)).
    Proof.
      intros g x y. unfold cross_link.
      assert (S : fol None same_error (do err1 <- link_devices g (noting_lk y) (noting_lk x) ;; match err1 with Some e => if errors_is e EUtilAlreadyLinked then pret None else pret (Some e) | None => pret None end)).
      { apply (fol_bind fst kept eq (@eq_trans error) _ _ (fun _ => True) same_error); [apply link_fol; auto|trivial|]. intros [e|] _; cbn [same_error]; [|left; rt].
        destruct (errors_is e EUtilAlreadyLinked) eqn:Ee; [right; exists e; split; [reflexivity|]; split; [intros d e0 ->; apply K4; exact Ee|rt]|left; rt]. }
      apply (fol_bind fst kept eq (@eq_trans error) _ _ (fun _ => True) same_error); [apply link_fol; auto|trivial|]. intros [e|] _; cbn [same_error]; [|left; exact S].
      destruct (errors_is e EUtilAlreadyLinked) eqn:Ee; [right; exists e; split; [reflexivity|]; split; [intros d e0 ->; apply K4; exact Ee|exact S]|left; rt].
    Qed.
    Lemma cross_one_fol : forall g x ys, fol None same_error (cross_link_one g (noting_lk x) (map noting_lk ys)).
    Proof.
      intros g x. induction ys as [|y ys IH]; cbn [map cross_link_one]; [rt|]. destruct (_ =? _); [exact IH|]. apply (then_ _ _ same_error); [apply cross_fol|]. intros [e|]; cbn [same_error]; [rt|exact IH].
    Qed.
    Lemma cross_all_fol : forall g xs, fol None same_error (cross_link_all g (map noting_lk xs)).
    Proof.
      intros g. induction xs as [|x xs IH]; [cbn [map cross_link_all]; rt|]. cbn [map cross_link_all]. apply (then_ _ _ same_error); [apply (cross_one_fol g x (x :: xs))|].
      intros [e|]; cbn [same_error]; [rt|exact IH].
    Qed.
  End Cross.
  Lemma unlink_all_fol : (forall e, kept (DExit, e)) -> (forall e, kept (DEnter, e)) -> (forall e, kept (DUnlink, e)) ->
    forall x y, fol None same_error (unlink_all (noting_lk x) (noting_lk y)).
  Proof.
    intros K1 K2 K3 x y. unfold unlink_all. apply (then_ _ _ snd); [apply links_fol|]. intros [ls [e|]]; cbn [snd]; [rt|].
    assert (U : forall g x y, silent (unlink g (noting_lk x) (noting_lk y))).
    { intros g a b. unfold unlink. apply silent_bind; [apply noting_silent; auto|]. intros [e|]; [apply silent_ret|]. apply silent_bind; [apply noting_silent; auto|]. intro.
      apply silent_bind; [apply noting_silent; auto|]. intro. apply silent_bind; [apply noting_silent; auto|]. intro. apply silent_ret. }
    enough (G : forall err, fol None same_error (unlink_loop (noting_lk x) (noting_lk y) ls err)) by apply G. induction ls as [|l ls IH]; intro err; cbn [unlink_loop]; [rt|]. apply fol_silent; [apply addr_silent|]. intro a. destruct (_ =? _); [|apply IH].
    apply fol_silent; [destruct (rcf_controller _); apply U|]. intro. apply IH.
  Qed.
End Library.

Lemma noting_says : forall W A d (E : A -> option error) (p : prog W A) kept (says : error -> error -> Prop), (forall e, says e e) -> fol fst kept says None E (noting d E p).
Proof.
  intros W A d E p kept says Hs w r w' H. destruct (noting_fol W A d E p kept w r w' H) as (n & N & P). exists n. split; [exact N|]. cbv iota in *.
  destruct (E r) as [e|]; [|exact P]. destruct P as [P|(b & f & e0 & a & P1 & P2 & ->)]; [left; exact P|right; exists b, f, e, a; auto].
Qed.
