(** What programs cost, in units of one message written with all its retries. *)
From Coq Require Import ZArith List Bool Lia ZifyBool ZifyNat.
From Verif Require Import GoBase GoProg Command Message Link MsgWriter BasicDevice Lights Thermostat Query PlmPacket Plm PlmProofs PlmLinkdb Database DevLinkdb UtilLink IcCmd IcDev IcLine IcWalk IcLink
  EndsSpec EndsProofs EndsNetProofs CostSpec.
Import ListNotations.
Open Scope Z_scope.
Ltac Zify.zify_post_hook ::= Z.div_mod_to_equations.

(** [X k w w']: the way from [w] to [w'] costs at most [k] units. *)
Definition adds {W} (X : nat -> W -> W -> Prop) : Prop :=
  (forall k w, X k w w) /\ (forall a b x y z, X a x y -> X b y z -> X (a + b)%nat x z) /\ (forall a b x y, (a <= b)%nat -> X a x y -> X b x y).
Definition cost_by {W A} (X : nat -> W -> W -> Prop) (k : nat) (V : A -> Prop) (p : prog W A) : Prop :=
  forall w r w', p w = (r, w') -> X k w w' /\ forall a, r = Ret a -> V a.
Definition cost {W A} (X : nat -> W -> W -> Prop) (k : nat) (p : prog W A) : Prop := cost_by X k (fun _ => True) p.
(** Reading costs a unit unless a message is read, writing costs one. *)
Definition mw_cost {W} (X : nat -> W -> W -> Prop) (mw : mwriter W) : Prop :=
  (forall w r w', mw_read mw w = (r, w') -> X 1%nat w w' /\ forall m, r = Ret (m, None) -> X O w w') /\ forall m, cost X 1 (mw_write mw m).

Section Costs.
  Variable W : Type.
  Variable X : nat -> W -> W -> Prop.
  Hypothesis HX : adds X.

  Lemma X_refl : forall k w, X k w w. Proof. apply HX. Qed.
  Lemma X_le : forall a b x y, (a <= b)%nat -> X a x y -> X b x y. Proof. apply HX. Qed.
  Lemma X_then : forall a b k x y z, (a + b <= k)%nat -> X a x y -> X b y z -> X k x z.
  Proof. intros a b k x y z Hk H1 H2. apply (X_le (a + b)); [exact Hk|]. exact (proj1 (proj2 HX) _ _ _ _ _ H1 H2). Qed.

  Lemma kb_ret : forall k A (V : A -> Prop) a, V a -> cost_by X k V (pret a).
  Proof. intros k A V a Ha w r w' H. injection H as <- <-. split; [apply X_refl|]. intros x Hx. injection Hx as <-. exact Ha. Qed.
  Lemma kb_panic : forall k A (V : A -> Prop), cost_by X k V (@ppanic W A).
  Proof. intros k A V w r w' H. injection H as <- <-. split; [apply X_refl|discriminate]. Qed.
  Lemma kb_nofuel : forall k A (V : A -> Prop), cost_by X k V (@pnofuel W A).
  Proof. intros k A V w r w' H. injection H as <- <-. split; [apply X_refl|discriminate]. Qed.
  Lemma kb_lift : forall k A (o : outcome A), cost X k (plift o).
  Proof. intros k A o w r w' H. injection H as <- <-. split; [apply X_refl|trivial]. Qed.
  Lemma kb_bind : forall a k A B (V : A -> Prop) (V2 : B -> Prop) (m : prog W A) f, cost_by X a V m -> (a <= k)%nat -> (forall x, V x -> cost_by X (k - a) V2 (f x)) -> cost_by X k V2 (pbind m f).
  Proof.
    intros a k A B V V2 m f Hm Hk Hf w r w' H. unfold pbind in H. destruct (m w) as [[x| |] w1] eqn:E; destruct (Hm _ _ _ E) as [H1 H2].
    - destruct (Hf x (H2 _ eq_refl) _ _ _ H) as [H3 H4]. split; [eapply X_then; [|exact H1|exact H3]; lia|exact H4].
    - injection H as <- <-. split; [apply (X_le a); assumption|discriminate].
    - injection H as <- <-. split; [apply (X_le a); assumption|discriminate].
  Qed.
  Lemma k_bind : forall a k A B (m : prog W A) (f : A -> prog W B), cost X a m -> (a <= k)%nat -> (forall x, cost X (k - a) (f x)) -> cost X k (pbind m f).
  Proof. intros a k A B m f Hm Hk Hf. apply (kb_bind a k A B (fun _ => True) (fun _ => True)); [exact Hm|exact Hk|]. intros x _. apply Hf. Qed.
  Lemma k_le : forall a k A (p : prog W A), cost X a p -> (a <= k)%nat -> cost X k p.
  Proof. intros a k A p Hp Hk w r w' H. destruct (Hp _ _ _ H) as [H1 _]. split; [apply (X_le a); assumption|trivial]. Qed.
  Lemma k_ret : forall k A (a : A), cost X k (pret a). Proof. intros. apply kb_ret. exact I. Qed.
  Lemma k_panic : forall k A, cost X k (@ppanic W A). Proof. intros. apply kb_panic. Qed.
  Lemma k_nofuel : forall k A, cost X k (@pnofuel W A). Proof. intros. apply kb_nofuel. Qed.

  (** Reading until a message matches: free if one does. *)
  Lemma read_match_cost : forall mw p, mw_cost X mw -> forall fuel,
    cost X 1 (read_match fuel mw p) /\ forall w m w', read_match fuel mw p w = (Ret (m, None), w') -> X O w w'.
  Proof.
    intros mw p [Hr _]. assert (H : forall fuel w r w', read_match fuel mw p w = (r, w') -> X 1%nat w w' /\ forall m, r = Ret (m, None) -> X O w w').
    { induction fuel as [|k IH]; intros w r w' H; [injection H as <- <-; split; [apply X_refl|discriminate]|].
      cbn [read_match] in H. unfold pbind in H. destruct (mw_read mw w) as [o w1] eqn:E. destruct (Hr _ _ _ E) as [H1 H2].
      destruct o as [[msg [e|]]| |]; [injection H as <- <-; split; [exact H1|discriminate]| |injection H as <- <-; split; [exact H1|discriminate]|injection H as <- <-; split; [exact H1|discriminate]].
      destruct msg as [m|]; [|injection H as <- <-; split; [exact H1|discriminate]].
      destruct (p m); [injection H as <- <-; split; [exact H1|intros; exact (H2 _ eq_refl)]|].
      destruct (IH _ _ _ H) as [H3 H4]. split; [apply (X_then 0 1 1 w w1); [lia|exact (H2 _ eq_refl)|exact H3]|]. intros x Hx.
      apply (X_then 0 0 0 w w1); [lia|exact (H2 _ eq_refl)|exact (H4 _ Hx)]. }
    intro fuel. split; [intros w r w' E; split; [apply (H _ _ _ _ E)|trivial]|]. intros w m w' E. exact (proj2 (H _ _ _ _ E) _ eq_refl).
  Qed.
End Costs.

Ltac co1 := lazymatch goal with
  | |- cost _ _ (pret _) => apply k_ret; assumption
  | |- cost _ _ ppanic => apply k_panic; assumption
  | |- cost _ _ pnofuel => apply k_nofuel; assumption
  | |- cost _ _ (plift _) => apply kb_lift; assumption
  | |- cost _ _ (match ?x with _ => _ end) => destruct x
  | |- forall _, _ => intro
  end.

Section Device.
  Variable W : Type.
  Variable X : nat -> W -> W -> Prop.
  Hypothesis HX : adds X.
  Variable i : dinfo.
  Variable mw : mwriter W.
  Hypothesis Hmw : mw_cost X mw.
  Variable n : nat.

  Lemma k_write : forall m, cost X 1 (bd_write i mw m).
  Proof. intro m. apply Hmw. Qed.
  Lemma bd_mw_cost : mw_cost X (bd_mw i mw).
  Proof. split; [apply Hmw|exact k_write]. Qed.
  Lemma k_matched : forall p, cost X 1 (read_match n (bd_mw i mw) p).
  Proof. intro p. apply (read_match_cost W X HX _ p bd_mw_cost n). Qed.
  Hint Resolve k_write k_matched : co.
  Ltac go := repeat first [co1 | eapply k_bind; [assumption|solve [eauto with co]|lia|cbn [Nat.sub]] | eapply k_le; [assumption|solve [eauto with co]|lia]].

  Lemma k_send : forall c p, cost X 1 (bd_send i mw c p).
  Proof. intros. unfold bd_send. go. Qed.
  Hint Resolve k_send : co.
  Lemma k_command : forall c p, cost X 1 (bd_send_command i mw c p).
  Proof. intros. unfold bd_send_command. go. Qed.
  Hint Resolve k_command : co.
  Lemma k_enter : forall g, cost X 1 (bd_enter_linking i mw g).
  Proof. intros. unfold bd_enter_linking. go. Qed.
  Lemma k_unenter : forall g, cost X 1 (bd_enter_unlinking i mw g).
  Proof. intros. unfold bd_enter_unlinking. go. Qed.
  Lemma k_exit : cost X 1 (bd_exit_linking i mw).
  Proof. intros. unfold bd_exit_linking. go. Qed.
  Lemma k_extended : forall d, cost X 2 (bd_extended_get n i mw d).
  Proof. intros. unfold bd_extended_get. go. Qed.
  Hint Resolve k_enter k_unenter k_exit k_extended : co.
  Lemma k_status : cost X 1 (switch_status i mw).
  Proof. unfold switch_status. go. Qed.
  Lemma k_config : cost X 2 (config_payload n i mw).
  Proof. unfold config_payload. go. Qed.
  Hint Resolve k_status k_config : co.
  Lemma k_sconfig : cost X 2 (switch_config n i mw).
  Proof. unfold switch_config. go. Qed.
  Lemma k_dconfig : cost X 2 (dimmer_config n i mw).
  Proof. unfold dimmer_config. go. Qed.
  Lemma k_ask_all : forall cmds k acc, cost X (List.length cmds) (ask_all i mw cmds k acc).
  Proof.
    intro cmds. induction cmds as [|c cmds IH]; intros; cbn [ask_all List.length]; [go|].
    eapply k_bind; [assumption|solve [eauto with co]|lia|]. intros [a [e|]]; [apply k_ret; assumption|]. replace (S (List.length cmds) - 1)%nat with (List.length cmds) by lia. destruct a; [apply IH|apply k_panic; assumption].
  Qed.
  Lemma k_flags : cost X 5 (switch_operating_flags i mw).
  Proof. unfold switch_operating_flags. eapply k_le; [assumption|apply k_ask_all|cbn; lia]. Qed.
  Hint Resolve k_sconfig k_dconfig k_flags : co.
  Lemma k_tinfo : forall sets ti, cost X (2 * List.length sets) (therm_info_loop n i mw sets ti).
  Proof.
    intros sets. induction sets as [|s sets IH]; intros; cbn [therm_info_loop List.length]; [go|].
    eapply k_bind; [assumption|solve [eauto with co]|lia|]. intros [b [e|]]; [apply k_ret; assumption|]. destruct (ti_unmarshal ti b) as [ti1 [e|]]; [apply k_ret; assumption|].
    replace (2 * S (List.length sets) - 2)%nat with (2 * List.length sets)%nat by lia. apply IH.
  Qed.
  Lemma k_zone : forall z, cost X 4 (therm_zone_info i mw z).
  Proof. intro. unfold therm_zone_info. eapply k_le; [assumption|apply k_ask_all|cbn; lia]. Qed.
  Lemma k_tget : cost X 4 (therm_get_info n i mw).
  Proof. unfold therm_get_info. eapply k_le; [assumption|apply k_tinfo|cbn; lia]. Qed.
  Hint Resolve k_zone k_tget : co.
  Lemma k_unit : cost X 4 (therm_get_unit n i mw).
  Proof. unfold therm_get_unit. go. Qed.
  Lemma k_mode : cost X 1 (therm_get_mode i mw).
  Proof. unfold therm_get_mode. go. Qed.
  Lemma k_equipment : cost X 1 (therm_get_equipment i mw).
  Proof. unfold therm_get_equipment. go. Qed.
  Hint Resolve k_unit k_mode k_equipment : co.
  Lemma k_tstatus : cost X 10 (therm_status n i mw).
  Proof. unfold therm_status. cbv zeta. go. Qed.
  Lemma k_set_unit : forall u, cost X 1 (therm_set_unit i mw u).
  Proof. intro. unfold therm_set_unit. go. Qed.

  (** The links of the device; its database is the other half of the world. *)
  Let X2 : nat -> linkdb * W -> linkdb * W -> Prop := fun k x y => X k (snd x) (snd y).
  Lemma HX2 : adds X2.
  Proof. destruct HX as (H1 & H2 & H3). split; [|split]; unfold X2; [intros; apply H1|intros a b x y z; apply H2|intros a b x y; apply H3]. Qed.
  Lemma k_psnd : forall k A (p : prog W A), cost X k p -> cost X2 k (psnd p).
  Proof.
    intros k A p Hp w r w' H. unfold psnd in H. destruct (p (snd w)) as [o w1] eqn:E. injection H as <- <-. split; [apply (Hp _ _ _ E)|trivial].
  Qed.
  Lemma k_pget : forall k, cost X2 k (@pfst linkdb W _ pget).
  Proof. intros k w r w' H. injection H as <- <-. split; [apply HX|trivial]. Qed.
  Lemma k_pput : forall k x, cost X2 k (@pfst linkdb W _ (pput x)).
  Proof. intros k x w r w' H. injection H as <- <-. split; [apply HX|trivial]. Qed.
  Lemma k_refresh_loop : forall k last, cost X2 1 (ld_refresh_loop k (bd_mw i mw) last).
  Proof.
    pose proof HX2 as H2X. induction k as [|k IH]; intro last; [intros w r w' H; injection H as <- <-; split; [apply HX|trivial]|]. cbn [ld_refresh_loop].
    destruct (read_match_cost W X HX _ (cmd_matcher c_ReadWriteALDB) bd_mw_cost k) as [F1 F2].
    intros w r w' H. split; [|trivial]. unfold pbind at 1, psnd at 1 in H.
    destruct (read_match k (bd_mw i mw) (cmd_matcher c_ReadWriteALDB) (snd w)) as [o v] eqn:E.
    destruct (F1 _ _ _ E) as [F3 _]. destruct o as [[msg [e|]]| |]; try (injection H as <- <-; exact F3). specialize (F2 _ _ _ E).
    match type of H with ?g _ = _ => assert (Hg : cost X2 1 g) end.
    { destruct msg as [m|]; [|apply k_panic; assumption]. destruct (lr_unmarshal linkreq_zero (m_payload m)) as [lr [e|]]; [apply k_ret; assumption|].
      destruct (lr_mem lr =? last); [apply IH|]. destruct (lr_link lr) as [l|]; [|apply k_panic; assumption]. destruct (rcf_last_record (l_flags l)); [apply k_ret; assumption|].
      apply (k_bind _ _ H2X O); [apply k_pget|lia|]. intro db. apply (k_bind _ _ H2X O); [apply k_pput|lia|]. intros _. apply IH. }
    destruct (Hg _ _ _ H) as [H1 _]. apply (X_then _ _ H2X 0 1 1 w (fst w, v)); [lia|exact F2|exact H1].
  Qed.
  Lemma k_get_links : forall now, cost X2 2 (ld_get_links n (bd_mw i mw) now).
  Proof.
    pose proof HX2 as H2X. intro now. unfold ld_get_links, ld_refresh.
    apply (k_bind _ _ H2X 2); [|lia|intros [e|]; [apply k_ret; exact H2X|]; apply (k_bind _ _ H2X O); [apply k_pget|lia|intro; apply k_ret; exact H2X]].
    apply (k_bind _ _ H2X O); [apply k_pget|lia|]. intro db. destruct (negb (ld_old now db)); [apply k_ret; exact H2X|].
    apply (k_bind _ _ H2X O); [apply k_pput|lia|]. intros _. apply (k_bind _ _ H2X O); [apply kb_lift; exact H2X|lia|]. intro buf.
    apply (k_bind _ _ H2X 1); [apply k_psnd, k_write|lia|]. intros [a err]. apply (k_bind _ _ H2X 1); [destruct err; [apply k_ret; exact H2X|apply k_refresh_loop]|lia|].
    intros [e|]; [apply k_ret; exact H2X|]. apply (k_bind _ _ H2X O); [apply k_pget|lia|]. intro. apply (k_bind _ _ H2X O); [apply k_pput|lia|]. intro. apply k_ret; exact H2X.
  Qed.
End Device.

(** The subcommands, over a device whose writer keeps to the costs. *)
Section Commands.
  Variable W : Type.
  Variable X : nat -> W -> W -> Prop.
  Hypothesis HX : adds X.
  Variable n : nat.
  Variable d : bdev W.
  Hypothesis Hd : mw_cost X (bd_writer d).

  Lemma k_device_links : forall now, cost X 2 (device_links n now d).
  Proof.
    intros now w r w' H. unfold device_links in H.
    match type of H with context [ld_get_links ?f ?m ?t ?s] => destruct (ld_get_links f m t s) as [o [db w1]] eqn:E end.
    injection H as <- <-. destruct (k_get_links W X HX (bd_info d) _ Hd n now _ _ _ E) as [H1 _]. cbn [snd] in H1. split; [exact H1|trivial].
  Qed.
  Lemma k_silent : forall k (p : prog W (option error)), cost X k p -> cost X k (silent p).
  Proof. intros k p H. unfold silent. eapply k_bind; [assumption|exact H|lia|]. intro. apply k_ret; assumption. Qed.
  Ltac known := solve [eauto using k_write, k_matched, k_send, k_command, k_enter, k_unenter, k_exit, k_status, k_dconfig, k_sconfig, k_flags, k_tstatus, k_set_unit, k_device_links].
  Ltac go := repeat first [co1 | apply k_silent | eapply k_bind; [assumption|known|lia|cbn [Nat.sub]] | eapply k_le; [assumption|known|lia]].
  Lemma k_device_sub : forall now c, cost X 2 (device_sub (device_links n now) c d).
  Proof. intros now c. destruct c; cbn [device_sub]; cbv zeta; unfold print_dev_info; cbv zeta; go. Qed.
  Lemma k_dimmer_sub : forall c, cost X 7 (dimmer_sub n c d).
  Proof.
    intros c. destruct c; cbn [dimmer_sub]; cbv zeta; unfold dim_config_cmd, dim_status_cmd, switch_turn_on, switch_turn_off, switch_set_backlight, switch_set_load_sense,
      dimmer_brighten, dimmer_dim, dimmer_start_brighten, dimmer_start_dim, dimmer_stop_manual, dimmer_on_fast, dimmer_instant_change, dimmer_set_status,
      dimmer_on_at_ramp, dimmer_off_at_ramp; cbv zeta; go.
  Qed.
  Lemma k_switch_sub : forall now c, cost X 7 (switch_sub n (device_links n now) c d).
  Proof.
    intros now c. destruct c; cbn [switch_sub sw_assign sw_start sw_Switch sw_bound on_receiver]; cbv zeta; unfold sw_config_cmd, sw_status_cmd, print_dev_info; cbv zeta; go.
  Qed.
  Lemma k_therm_sub : forall c, cost X 11 (therm_sub n c d).
  Proof. intros c. destruct c; cbn [therm_sub]; cbv zeta; unfold therm_status_cmd, therm_set_status_message; go. Qed.
  Definition lk_cost (l : linkable W) : Prop := (forall g, cost X 1 (lk_enter l g)) /\ cost X 1 (lk_exit l).
  Lemma bdev_lk_cost : forall now, lk_cost (bdev_lk n now d).
  Proof. intros now. unfold bdev_lk. cbv zeta. split; cbn [lk_enter lk_exit]; [intro g; apply k_enter; assumption|apply k_exit; assumption]. Qed.
End Commands.

(** ** The modem *)
(** Units: a message or a packet written with all its retries.  Apart from that each packet used up pays for one wait and, if
    [heavy], for a packet written with all its retries. *)
Definition spent (heavy : bool) (sc : schedule) (k : nat) (st st' : plm) : Prop :=
  p_retries st' = p_retries st /\ p_timeout st' = p_timeout st /\
  exists u fs ws, used sc u st st' /\ p_sent st' = p_sent st ++ fs /\ p_waits st' = p_waits st ++ ws /\ Forall (eq (p_timeout st)) ws /\
    let per := if heavy then tries st else O in
    (List.length fs <= u * per + k * tries st)%nat /\ (List.length ws <= u * S per + k * S (tries st))%nat.

Lemma tries_same : forall st st', p_retries st' = p_retries st -> tries st' = tries st.
Proof. intros st st' H. unfold tries. rewrite H. reflexivity. Qed.
Lemma spent_adds : forall h sc, adds (spent h sc).
Proof.
  intros h sc. destruct (used_counts sc) as (Hr & Ht & _). split; [|split].
  - intros k w. split; [reflexivity|]. split; [reflexivity|]. exists O, [], []. split; [apply Hr|]. rewrite !app_nil_r. split; [reflexivity|]. split; [reflexivity|]. split; [constructor|].
    cbv zeta. cbn [List.length]. split; lia.
  - intros a b x y z (R1 & T1 & u & fs & ws & U1 & F1 & W1 & A1 & B1) (R2 & T2 & v & gs & vs & U2 & F2 & W2 & A2 & B2). split; [congruence|]. split; [congruence|].
    exists (u + v)%nat, (fs ++ gs), (ws ++ vs). split; [exact (Ht _ _ _ _ _ U1 U2)|]. split; [rewrite F2, F1, app_assoc; reflexivity|]. split; [rewrite W2, W1, app_assoc; reflexivity|].
    split; [apply Forall_app; split; [exact A1|rewrite <- T1; exact A2]|]. cbv zeta in *. rewrite (tries_same _ _ R1) in B2. rewrite !app_length. generalize dependent (tries x). clear.
    intros t H1 H2. set (per := if h then t else O) in *. clearbody per. split; nia.
  - intros a b x y Hab (R1 & T1 & u & fs & ws & U1 & F1 & W1 & A1 & B1). split; [exact R1|]. split; [exact T1|]. exists u, fs, ws. do 4 (split; [assumption|]). cbv zeta in *.
    generalize dependent (tries x). clear - Hab. intros t H1. set (per := if h then t else O) in *. clearbody per. split; nia.
Qed.
(** The same with the frames and waits themselves; the packets used up pay for waits only. *)
Definition raw (sc : schedule) (f w : nat) (st st' : plm) : Prop :=
  p_retries st' = p_retries st /\ p_timeout st' = p_timeout st /\
  exists u fs ws, used sc u st st' /\ p_sent st' = p_sent st ++ fs /\ p_waits st' = p_waits st ++ ws /\ Forall (eq (p_timeout st)) ws /\
    (List.length fs <= f)%nat /\ (List.length ws <= u + w)%nat.
Lemma raw_refl : forall sc f w st, raw sc f w st st.
Proof.
  intros. split; [reflexivity|]. split; [reflexivity|]. exists O, [], []. rewrite !app_nil_r. split; [apply used_counts|]. split; [reflexivity|]. split; [reflexivity|]. split; [constructor|]. cbn. split; lia.
Qed.
Lemma raw_then : forall sc f1 w1 f2 w2 f w x y z, (f1 + f2 <= f)%nat -> (w1 + w2 <= w)%nat -> raw sc f1 w1 x y -> raw sc f2 w2 y z -> raw sc f w x z.
Proof.
  intros sc f1 w1 f2 w2 f w x y z Hf Hw (R & T & u & fs & ws & B1 & B2 & B3 & B4 & B5 & B6) (R' & T' & v & gs & vs & C1 & C2 & C3 & C4 & C5 & C6).
  split; [congruence|]. split; [congruence|]. exists (u + v)%nat, (fs ++ gs), (ws ++ vs). split; [exact (proj1 (proj2 (used_counts sc)) _ _ _ _ _ B1 C1)|].
  split; [rewrite C2, B2, app_assoc; reflexivity|]. split; [rewrite C3, B3, app_assoc; reflexivity|]. split; [apply Forall_app; split; [exact B4|rewrite <- T; exact C4]|]. rewrite !app_length. split; lia.
Qed.
Lemma raw_le : forall sc f1 w1 f w x y, (f1 <= f)%nat -> (w1 <= w)%nat -> raw sc f1 w1 x y -> raw sc f w x y.
Proof. intros sc f1 w1 f w x y Hf Hw H. apply (raw_then sc f1 w1 0 0 f w x y y); [lia|lia|exact H|apply raw_refl]. Qed.
Lemma raw_spent : forall h sc f w k st st', raw sc f w st st' -> (f <= k * tries st)%nat -> (w <= k * S (tries st))%nat -> spent h sc k st st'.
Proof.
  intros h sc f w k st st' (R & T & u & fs & ws & B1 & B2 & B3 & B4 & B5 & B6) Hf Hw. split; [exact R|]. split; [exact T|]. exists u, fs, ws. do 4 (split; [assumption|]). cbv zeta.
  set (per := if h then tries st else O). clearbody per. split; nia.
Qed.

Lemma receive_raw : forall sc q st r st', receive sc q st = (r, st') -> raw sc 0 (1 - one r) st st'.
Proof.
  intros sc q st r st' H. destruct (receive_fields _ _ _ _ _ H) as (F1 & F2 & F3 & F4 & F5 & F6). apply receive_used in H. split; [exact F5|]. split; [exact F4|].
  exists (one r), [], [p_timeout st]. split; [exact H|]. split; [rewrite app_nil_r; exact F1|]. split; [exact F2|]. split; [auto|]. cbn [List.length]. destruct r; cbn [one]; split; lia.
Qed.
Lemma read_raw : forall sc st r st', plm_read sc st = (r, st') -> raw sc 0 1 st st' /\ forall m, r = Ret (m, None) -> raw sc 0 0 st st'.
Proof.
  intros sc st r st' H. unfold plm_read in H. destruct (receive sc QMsg st) as [x st1] eqn:E. apply receive_raw in E.
  assert (E0 : raw sc 0 1 st st1) by (eapply raw_le; [| |exact E]; lia). destruct x as [p| |].
  - destruct (msg_unmarshal msg_zero (p_payload p)) as [m e]. injection H as <- <-. split; [exact E0|]. intros. exact E.
  - injection H as <- <-. split; [exact E0|discriminate].
  - injection H as <- <-. split; [exact E0|discriminate].
Qed.
Lemma packet_raw : forall sc pkt st r st', plm_write_packet sc pkt st = (r, st') -> raw sc 1 1 st st'.
Proof.
  intros sc pkt st r st' H. assert (P : forall e s1, port_write sc st (pkt_marshal pkt) = (e, s1) -> raw sc 1 0 st s1).
  { intros e s1 E1. destruct (port_write_fields _ _ _ _ _ E1) as (G1 & G2 & G3 & G4 & G5 & G6 & G7). apply port_used in E1. split; [exact G5|]. split; [exact G4|].
    exists O, [pkt_marshal pkt], []. split; [exact E1|]. split; [exact G1|]. split; [rewrite app_nil_r; exact G2|]. split; [constructor|]. cbn; split; lia. }
  destruct (write_packet_cases _ _ _ _ _ H) as [e s1 E1|s1 s2 E1 E2|s1 s2 E1 E2|p s1 s2 E1 E2]; apply P in E1; [apply (raw_le _ 1 0); [lia|lia|exact E1]|..];
    apply receive_raw in E2; (eapply raw_then; [| |exact E1|exact E2]; lia).
Qed.
Lemma retry_raw : forall sc n nak pkt last st r st', retry_loop (plm_pw sc) n nak pkt last st = (r, st') -> raw sc n n st st'.
Proof.
  intros sc n nak pkt. induction n as [|n IH]; intros last st r st' H; cbn [retry_loop] in H; [injection H as _ <-; apply raw_refl|].
  cbn [plm_pw pw_write] in H. destruct (plm_write_packet sc pkt st) as [o st1] eqn:E. apply packet_raw in E.
  assert (E1 : raw sc (S n) (S n) st st1) by (apply (raw_le _ 1 1); [lia|lia|exact E]).
  destruct o as [[a e]| |]; [|injection H as _ <-; exact E1|injection H as _ <-; exact E1].
  destruct ((err_is e EPlmNak && nak) || err_is e EPlmReadTimeout); [|injection H as _ <-; exact E1]. apply IH in H. apply (raw_then sc 1 1 n n _ _ _ st1); [lia|lia|exact E|exact H].
Qed.
Lemma await_raw : forall sc dst k st r st', await_ack k sc dst st = (r, st') -> raw sc 0 1 st st'.
Proof.
  intros sc dst. induction k as [|k IH]; intros st r st' H; [injection H as <- <-; apply raw_refl|].
  cbn [await_ack] in H. destruct (plm_read sc st) as [o st1] eqn:E. destruct (read_raw _ _ _ _ E) as [H1 H2].
  destruct o as [[[m|] [e|]]| |]; try (injection H as <- <-; exact H1).
  destruct ((m_src m =? dst) && (fl_ack (m_flags m) || fl_nak (m_flags m))); [injection H as <- <-; exact H1|].
  apply (raw_then sc 0 0 0 1 0 1 _ st1); [lia|lia|exact (H2 _ eq_refl)|exact (IH _ _ _ H)].
Qed.
Lemma write_raw : forall sc k m st r st', plm_write k sc m st = (r, st') -> raw sc (tries st) (S (tries st)) st st'.
Proof.
  intros sc k m st r st' H. unfold plm_write in H. unfold retry in H. cbn [pw_write] in H.
  match type of H with context [retry_loop ?a ?b ?c ?d ?e ?f] => destruct (retry_loop a b c d e f) as [x st1] eqn:E end. apply retry_raw in E.
  assert (Hn : (Z.to_nat (p_retries st + 1) <= tries st)%nat) by (unfold tries; lia).
  assert (E1 : raw sc (tries st) (tries st) st st1) by (eapply raw_le; [| |exact E]; lia). assert (E2 : raw sc (tries st) (S (tries st)) st st1) by (eapply raw_le; [| |exact E1]; lia).
  destruct x as [[a [e|]]| |]; [injection H as <- <-; exact E2| |injection H as <- <-; exact E2|injection H as <- <-; exact E2].
  apply await_raw in H. eapply raw_then; [| |exact E1|exact H]; lia.
Qed.
Lemma plm_cost : forall h sc k, mw_cost (spent h sc) (plm_mw k sc).
Proof.
  intros h sc k. split; [|intros m st r st' H; cbn [plm_mw mw_write] in H; split; [|trivial]; apply write_raw in H; eapply raw_spent; [exact H|lia|lia]].
  intros st r st' H. cbn [plm_mw mw_read] in H. destruct (read_raw _ _ _ _ H) as [H1 H2]. split; [eapply raw_spent; [exact H1|lia|lia]|]. intros m Hm. eapply raw_spent; [exact (H2 _ Hm)|lia|lia].
Qed.
Lemma retry_cost : forall h sc nak pkt st r st', pw_write (retry (plm_pw sc) (p_retries st) nak) pkt st = (r, st') -> spent h sc 1 st st'.
Proof.
  intros h sc nak pkt st r st' H. unfold retry in H. cbn [pw_write] in H. apply retry_raw in H. assert (Hn : (Z.to_nat (p_retries st + 1) <= tries st)%nat) by (unfold tries; lia).
  eapply raw_spent; [exact H|lia|lia].
Qed.
Lemma packet_cost : forall h sc pkt, cost (spent h sc) 1 (plm_write_packet sc pkt).
Proof. intros h sc pkt st r st' H. split; [|trivial]. apply packet_raw in H. eapply raw_spent; [exact H|unfold tries; lia|unfold tries; lia]. Qed.

(** ** The world with the device file *)
Definition spent2 {S} (h : bool) (sc : schedule) (k : nat) (x y : S * plm) : Prop := spent h sc k (snd x) (snd y).
Lemma spent2_adds : forall S h sc, adds (@spent2 S h sc).
Proof. intros S h sc. destruct (spent_adds h sc) as (H1 & H2 & H3). split; [|split]; unfold spent2; [intros; apply H1|intros a b x y z; apply H2|intros a b x y; apply H3]. Qed.
Lemma psnd_cost : forall S h sc k A (p : prog plm A), cost (spent h sc) k p -> cost (@spent2 S h sc) k (psnd p).
Proof. intros S h sc k A p Hp w r w' H. unfold psnd in H. destruct (p (snd w)) as [o w1] eqn:E. injection H as <- <-. split; [apply (Hp _ _ _ E)|trivial]. Qed.
Lemma lift_cost : forall S h sc mw, mw_cost (spent h sc) mw -> mw_cost (@spent2 S h sc) (lift_mw mw).
Proof.
  intros S h sc mw [Hr Hw]. split; [|intro m; cbn [lift_mw mw_write]; apply psnd_cost, Hw].
  intros w r w' H. cbn [lift_mw mw_read] in H. unfold psnd in H. destruct (mw_read mw (snd w)) as [o w1] eqn:E. injection H as <- <-. exact (Hr _ _ _ E).
Qed.

(** ** Opening and linking *)
Lemma dev_open_cost : forall W (X : nat -> W -> W -> Prop) n mw a, adds X -> mw_cost X mw -> cost X 3 (dev_open n mw a).
Proof.
  intros W X n mw a HX Hmw. unfold dev_open. cbv zeta. apply (k_bind _ _ HX 1); [|lia|].
  - unfold get_engine_version. apply (k_bind _ _ HX 1); [apply Hmw|lia|]. repeat co1.
  - intros [v [e|]]; [apply k_ret; exact HX|]. apply (k_bind _ _ HX 2); [|lia|repeat co1].
    unfold id_request. apply (k_bind _ _ HX 1); [apply Hmw|lia|]. intros [x [e|]]; [apply k_ret; exact HX|]. apply (k_bind _ _ HX 1); [apply (read_match_cost _ _ HX _ _ Hmw)|lia|repeat co1].
Qed.
Definition dev_cost {W} (X : nat -> W -> W -> Prop) (x : option (bdev W) * option error) : Prop := forall d, fst x = Some d -> mw_cost X (bd_writer d).
Lemma opener_cost : forall h sc k os filters a, cost_by (spent2 h sc) 3 (dev_cost (spent2 h sc)) (db_opener k os (plm_mw k sc) filters a).
Proof.
  intros h sc k os filters a [[f db] st] r w' H. pose proof (spent_adds h sc) as HX. pose proof (plm_cost h sc k) as Hmw. pose proof (lift_cost (fstate * memdb) _ _ _ Hmw) as Hmw2.
  unfold db_opener, filedb_open, memdb_open in H. destruct (db_get db a) as [i []] eqn:Eg.
  - unfold pbind, pret in H. destruct (filedb_save os f db None) as [[f1 db2] e1]. injection H as <- <-. split; [apply HX|]. intros x Hx. injection Hx as <-. intros d Hd. cbn [fst] in Hd. injection Hd as <-. exact Hmw2.
  - unfold dev_open_filters in H. cbn [apply_filters fold_left] in H. unfold pbind in H.
    match type of H with context [dev_open ?x ?y ?z ?u] => destruct (dev_open x y z u) as [o w2] eqn:E2 end.
    destruct (dev_open_cost plm (spent h sc) k _ a HX Hmw _ _ _ E2) as [G _].
    destruct o as [[[dv inf] er]| |]; [|injection H as <- <-; split; [exact G|discriminate]|injection H as <- <-; split; [exact G|discriminate]].
    unfold pret, plift in H. destruct er as [er|].
    + destruct (filedb_save os f db (Some er)) as [[f1 db2] e1]. injection H as <- <-. split; [exact G|]. intros x Hx. injection Hx as <-. intros d Hd. destruct dv as [i0|]; cbn in Hd; [injection Hd as <-; exact Hmw2|discriminate].
    + destruct (db_put db inf) as [db1| |]; [|injection H as <- <-; split; [exact G|discriminate]|injection H as <- <-; split; [exact G|discriminate]].
      destruct (filedb_save os f db1 None) as [[f1 db2] e1]. injection H as <- <-. split; [exact G|]. intros x Hx. injection Hx as <-. intros d Hd. destruct dv as [i0|]; cbn in Hd; [injection Hd as <-; exact Hmw2|discriminate].
Qed.

Definition lks_cost {W} (X : nat -> W -> W -> Prop) (x : option (linkable W) * option error) : Prop := lk_cost W X (lk_or_nil (fst x)).
Lemma nil_cost : forall W (X : nat -> W -> W -> Prop), adds X -> lk_cost W X lk_nil.
Proof. intros W X HX. split; [intro g|]; apply k_panic; exact HX. Qed.
Lemma open_lk_cost : forall h sc k n os now filters a, cost_by (spent2 h sc) 3 (lks_cost (spent2 h sc)) (open_lk n now (db_opener k os (plm_mw k sc) filters) a).
Proof.
  intros h sc k n os now filters a. pose proof (spent2_adds (fstate * memdb) h sc) as HX. unfold open_lk.
  eapply (kb_bind _ _ HX); [apply opener_cost|lia|]. intros [x e] H. apply kb_ret; [exact HX|]. unfold lks_cost. cbn [fst].
  destruct x as [d|]; cbn [option_map lk_or_nil]; [|apply nil_cost; exact HX]. apply bdev_lk_cost; [exact HX|]. apply H. reflexivity.
Qed.
Lemma modem_lk_cost : forall S h sc n now, lk_cost _ (@spent2 S h sc) (modem_lk n sc now).
Proof.
  intros S h sc n now. pose proof (spent_adds h sc) as HX. split; cbn [modem_lk lk_enter lk_exit]; [intro g|]; apply psnd_cost; unfold pdb_enter_linking, pdb_exit_linking; cbn [plm_pw pw_write];
    (apply (k_bind _ _ HX 1); [apply packet_cost|lia|intros [x e]; apply k_ret; exact HX]).
Qed.
Lemma force_cost : forall W (X : nat -> W -> W -> Prop) g c r, adds X -> lk_cost W X c -> lk_cost W X r -> cost X 4 (force_link g c r).
Proof.
  intros W X g c r HX [C1 C2] [R1 R2]. unfold force_link. apply (k_bind _ _ HX 1); [apply C1|lia|]. intros [e|]; [apply k_ret; exact HX|].
  apply (k_bind _ _ HX 1); [apply R1|lia|]. intro. apply (k_bind _ _ HX 1); [apply C2|lia|]. intros _. apply (k_bind _ _ HX 1); [apply R2|lia|]. intros _. apply k_ret; exact HX.
Qed.
Definition link_units (c r : bool) : nat := ((if c then 4 else 0) + (if r then 4 else 0))%nat.
Lemma net_link_cost : forall h sc k n os now filters c r g addrs, cost (spent2 h sc) (3 * List.length addrs + link_units c r) (net_link k n os sc now filters c r g addrs).
Proof.
  intros h sc k n os now filters c r g. pose proof (spent2_adds (fstate * memdb) h sc) as HX. unfold net_link.
  induction addrs as [|a addrs IH]; cbn [ic_link List.length]; [apply k_ret; exact HX|].
  eapply (kb_bind _ _ HX); [apply open_lk_cost|lia|]. intros [x e] H. unfold lks_cost in H. cbn [fst] in H.
  assert (Hone : cost (spent2 h sc) (3 * S (List.length addrs) + link_units c r - 3) (ic_link_one (modem_lk n sc now) c r g (lk_or_nil x))).
  { pose proof (modem_lk_cost (fstate * memdb) h sc n now) as HM. unfold ic_link_one, link_units. apply (k_le _ _ HX ((if c then 4 else 0) + (if r then 4 else 0))); [|lia].
    apply (k_bind _ _ HX (if c then 4 else 0)); [destruct c; [apply force_cost; assumption|apply k_ret; exact HX]|lia|].
    intros [e0|]; [apply k_ret; exact HX|]. destruct r; [|apply k_ret; exact HX]. apply (k_le _ _ HX 4); [apply force_cost; assumption|lia]. }
  assert (Hrest : cost (spent2 h sc) (3 * S (List.length addrs) + link_units c r - 3) (ic_link (open_lk n now (db_opener k os (plm_mw k sc) filters)) (modem_lk n sc now) c r g addrs))
    by (eapply (k_le _ _ HX); [exact IH|lia]).
  destruct e as [e|]; [destruct e|]; first [exact Hone|exact Hrest].
Qed.
(** Opening with the question; the answer is the user's. *)
Lemma open_net_cost : forall h sc k n os now filters (ask : bool) yes a, (forall w, exists b, yes w = (Ret b, w)) ->
  cost_by (spent2 h sc) (if ask then 10 else 3) (dev_cost (spent2 h sc)) (ic_open_net k n os sc now filters ask yes a).
Proof.
  intros h sc k n os now filters ask yes a Hy. pose proof (spent2_adds (fstate * memdb) h sc) as HX. unfold ic_open_net, ic_open_dev.
  eapply (kb_bind _ _ HX); [apply opener_cost|destruct ask; lia|]. intros [x e] Hx.
  assert (Hret : forall j e0, cost_by (spent2 h sc) j (dev_cost (spent2 h sc)) (pret (x, e0))) by (intros j e0; apply kb_ret; [exact HX|exact Hx]).
  assert (Hyes : cost (spent2 h sc) O yes) by (intros w r w' H; destruct (Hy w) as [b Hb]; rewrite Hb in H; injection H as <- <-; split; [apply HX|trivial]).
  destruct e as [e|]; [destruct e|]; try apply Hret. destruct ask; [|apply Hret].
  eapply (kb_bind _ _ HX); [exact Hyes|lia|]. intros b _. destruct b; [|apply Hret].
  eapply (kb_bind _ _ HX); [apply net_link_cost|cbn; lia|]. intros e1 _. apply Hret.
Qed.
Lemma then_cost : forall W (X : nat -> W -> W -> Prop) a b (open : prog W (option (bdev W) * option error)) accept refusal sub, adds X ->
  cost_by X a (dev_cost X) open -> (forall d, mw_cost X (bd_writer d) -> cost X b (sub d)) -> cost X (a + b) (ic_then (ic_init open accept refusal) sub).
Proof.
  intros W X a b open accept refusal sub HX Ho Hs. unfold ic_then, ic_init.
  apply (kb_bind _ _ HX a (a + b) _ _ (fun x => match x with inl d => mw_cost X (bd_writer d) | inr _ => True end)); [|lia|].
  - eapply (kb_bind _ _ HX); [exact Ho|lia|]. intros [x e] Hx. destruct e as [e|]; [apply kb_ret; [exact HX|exact I]|].
    destruct x as [d|]; [|apply kb_panic; exact HX]. destruct (accept (dev_lookup (bd_info d))); apply kb_ret; [exact HX|apply Hx; reflexivity|exact HX|exact I].
  - replace (a + b - a)%nat with b by lia. intros [d|e] Hx; [exact (Hs _ Hx)|apply k_ret; exact HX].
Qed.

(** ** The modem's own link database: each record pays for asking for the next one. *)
Lemma refresh_cost : forall sc k links err st r st', refresh_loop k (plm_pw sc) (p_retries st) links err st = (r, st') -> spent true sc 1 st st'.
Proof.
  intros sc. pose proof (spent_adds true sc) as HX. induction k as [|k IH]; intros links err st r st' H.
  { destruct err as [e|]; cbn [refresh_loop] in H; injection H as <- <-; apply HX. }
  destruct err as [e|]; cbn [refresh_loop] in H; [injection H as <- <-; apply HX|]. cbn [plm_pw pw_read] in H. unfold pbind at 1, plm_read_packet in H.
  destruct (receive sc QPkt st) as [x st1] eqn:E. assert (R1 : p_retries st1 = p_retries st) by apply (receive_fields _ _ _ _ _ E).
  assert (E1 : spent true sc 1 st st1) by (apply receive_raw in E; eapply raw_spent; [exact E|lia|lia]).
  destruct x as [p| |]; [|injection H as <- <-; exact E1|injection H as <- <-; exact E1].
  assert (E0 : spent true sc O st st1) by (apply receive_raw in E; eapply raw_spent; [exact E|lia|cbn; lia]).
  destruct (p_cmd p =? pc_AllLinkRecordResp); [|rewrite <- R1 in H; apply (X_then _ _ HX 0 1 1 _ st1); [lia|exact E0|exact (IH _ _ _ _ _ H)]].
  destruct (link_unmarshal link_zero (p_payload p)) as [l [e|]]; [injection H as <- <-; exact E1|].
  (** the packet pays for the wait and for asking again *)
  unfold pbind in H. rewrite <- R1 in H.
  match type of H with context [pw_write ?a ?b st1] => destruct (pw_write a b st1) as [o st2] eqn:E2 end.
  assert (E3 : spent true sc O st st2).
  { pose proof (receive_fields _ _ _ _ _ E) as (F1 & F2 & F3 & F4 & F5 & F6). apply receive_used in E. cbn [one] in E. unfold retry in E2. cbn [pw_write] in E2. apply retry_raw in E2.
    destruct E2 as (R & T & u & fs & ws & B1 & B2 & B3 & B4 & B5 & B6).
    assert (Hn : (Z.to_nat (p_retries st1 + 1) <= tries st)%nat) by (rewrite R1; unfold tries; lia).
    split; [congruence|]. split; [congruence|]. exists (S u), fs, (p_timeout st :: ws). split; [exact (proj1 (proj2 (used_counts sc)) _ _ _ _ _ E B1)|].
    split; [rewrite B2, F1; reflexivity|]. split; [rewrite B3, F2, <- app_assoc; reflexivity|]. split; [constructor; [reflexivity|rewrite <- F4; exact B4]|]. cbv zeta. cbn [List.length]. split; nia. }
  assert (R2 : p_retries st2 = p_retries st1) by (destruct E3 as [R3 _]; congruence).
  destruct o as [[y e]| |]; [|injection H as <- <-; apply (X_le _ _ HX 0); [lia|exact E3]|injection H as <- <-; apply (X_le _ _ HX 0); [lia|exact E3]].
  rewrite <- R2 in H. apply (X_then _ _ HX 0 1 1 _ st2); [lia|exact E3|exact (IH _ _ _ _ _ H)].
Qed.
Lemma pdb_links_cost : forall sc n now db st r w', pd_retries db = p_retries st -> pdb_links n (plm_pw sc) now (db, st) = (r, w') -> spent true sc 2 st (snd w').
Proof.
  intros sc n now db st r w' Hr H. pose proof (spent_adds true sc) as HX. unfold pdb_links, pdb_refresh, pbind, pfst, psnd, pget, pput, pret in H. cbn [fst snd] in H.
  destruct (negb (pdb_old now db)); [injection H as <- <-; apply HX|]. rewrite Hr in H.
  match type of H with context [pw_write ?a ?b ?c] => destruct (pw_write a b c) as [o st1] eqn:E end. cbn [fst snd] in H, E. pose proof E as E1. apply (retry_cost true) in E1.
  assert (E2 : spent true sc 2 st st1) by (apply (X_le _ _ HX 1); [lia|exact E1]).
  destruct o as [[a err]| |]; [|injection H as <- <-; exact E2|injection H as <- <-; exact E2].
  rewrite <- (proj1 E1) in H. match type of H with context [refresh_loop ?a ?b ?c ?d ?e ?f] => destruct (refresh_loop a b c d e f) as [x st2] eqn:E3 end. apply refresh_cost in E3.
  pose proof (X_then _ _ HX 1 1 2 _ _ _ ltac:(lia) E1 E3) as E4. cbn [fst snd] in H.
  destruct x as [[ls err1]| |]; [|injection H as <- <-; exact E4|injection H as <- <-; exact E4]. destruct (err_is err1 EPlmNak); injection H as <- <-; exact E4.
Qed.

(** ** With so many packets *)
Lemma spent_costs : forall h sc P k st st', at_most P sc st -> spent h sc k st st' ->
  let per := if h then tries st else O in at_cost (P * per + k * tries st) (P * S per + k * S (tries st)) st st'.
Proof.
  intros h sc P k st st' Hm (_ & _ & u & fs & ws & U1 & F1 & W1 & A1 & B1 & B2) per. exists fs, ws. split; [exact F1|]. split; [exact W1|].
  assert (Hu : (u <= P)%nat) by (destruct (Nat.le_gt_cases u P) as [|Hgt]; [assumption|destruct (never_used P sc st st' u Hm Hgt U1)]).
  fold per in B1, B2. clearbody per. split; [nia|]. split; [nia|exact A1].
Qed.
Lemma costs_light : forall S sc P k A (p : nat -> nat -> prog (S * plm) A) w, at_most P sc (snd w) -> (forall fuel n, cost (spent2 false sc) k (p fuel n)) ->
  costs (k * tries (snd w)) (P + k * (tries (snd w) + 1)) p w.
Proof.
  intros S sc P k A p w Hm Hp fuel n r w' H. destruct (Hp fuel n _ _ _ H) as [H1 _]. pose proof (spent_costs false sc P k _ _ Hm H1) as H2. cbv zeta in H2.
  destruct H2 as (fs & ws & G1 & G2 & G3 & G4 & G5). exists fs, ws. split; [exact G1|]. split; [exact G2|]. split; [lia|]. split; [lia|exact G5].
Qed.
Lemma info_cost : forall h sc, cost (spent h sc) 1 (plm_info sc).
Proof.
  intros h sc st r st' H. split; [|trivial]. unfold plm_info in H. match type of H with context [pw_write ?a ?b ?c] => destruct (pw_write a b c) as [o st1] eqn:E end. apply (retry_cost h) in E.
  destruct o as [[[a|] [e|]]| |]; injection H as <- <-; exact E.
Qed.
Lemma config_cost : forall h sc, cost (spent h sc) 1 (plm_config sc).
Proof.
  intros h sc st r st' H. split; [|trivial]. unfold plm_config in H. match type of H with context [pw_write ?a ?b ?c] => destruct (pw_write a b c) as [o st1] eqn:E end. apply (retry_cost h) in E.
  destruct o as [[[a|] [e|]]| |]; injection H as <- <-; exact E.
Qed.
Lemma set_config_cost : forall h sc c, cost (spent h sc) 1 (plm_set_config sc c).
Proof.
  intros h sc c st r st' H. split; [|trivial]. unfold plm_set_config in H. match type of H with context [pw_write ?a ?b ?c] => destruct (pw_write a b c) as [o st1] eqn:E end. apply (retry_cost h) in E.
  destruct o as [[a e]| |]; injection H as <- <-; exact E.
Qed.
Lemma flag_cost : forall h sc set flag, cost (spent h sc) 2 (ic_flag sc set flag).
Proof.
  intros h sc set flag. pose proof (spent_adds h sc) as HX. unfold ic_flag.
  repeat first [co1 | eapply k_bind; [assumption|apply config_cost|lia|cbn [Nat.sub]] | eapply k_bind; [assumption|apply set_config_cost|lia|cbn [Nat.sub]] | apply set_config_cost].
Qed.
Lemma info_cmd_cost : forall sc n now db st r w', pd_retries db = p_retries st ->
  plm_info_cmd (psnd (plm_info sc)) (psnd (plm_config sc)) (pdb_links n (plm_pw sc) now) (db, st) = (r, w') -> spent true sc 4 st (snd w').
Proof.
  intros sc n now db st r w' Hr H. pose proof (spent_adds true sc) as HX. unfold plm_info_cmd in H. cbv zeta in H. unfold pbind at 1, psnd at 1 in H. cbn [fst snd] in H.
  destruct (plm_info sc st) as [o st1] eqn:E. destruct (info_cost true sc _ _ _ E) as [E1 _].
  assert (F1 : spent true sc 4 st st1) by (apply (X_le _ _ HX 1); [lia|exact E1]).
  destruct o as [[inf [e|]]| |]; try (injection H as <- <-; exact F1). destruct inf as [i|]; [|injection H as <- <-; exact F1].
  unfold pbind at 1, psnd at 1 in H. cbn [fst snd] in H. destruct (plm_config sc st1) as [o st2] eqn:G. destruct (config_cost true sc _ _ _ G) as [G1 _].
  pose proof (X_then _ _ HX 1 1 2 _ _ _ ltac:(lia) E1 G1) as E2. assert (F2 : spent true sc 4 st st2) by (apply (X_le _ _ HX 2); [lia|exact E2]).
  destruct o as [[c [e|]]| |]; try (injection H as <- <-; exact F2).
  unfold pbind in H. destruct (pdb_links n (plm_pw sc) now (db, st2)) as [o w3] eqn:K. apply pdb_links_cost in K; [|rewrite Hr; symmetry; apply E2].
  pose proof (X_then _ _ HX 2 2 4 _ _ _ ltac:(lia) E2 K) as E3. destruct o as [[ls [e|]]| |]; injection H as <- <-; exact E3.
Qed.
