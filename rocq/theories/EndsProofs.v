(** Programs that run out of fuel only after using up packets, and that do the same with more fuel: generic in what is counted. *)
From Coq Require Import ZArith List Bool Lia.
From Verif Require Import GoBase GoProg Command Message Link MsgWriter BasicDevice Lights Thermostat Query Database DevLinkdb UtilLink IcCmd IcDev IcLine IcLink.
Import ListNotations.
Open Scope Z_scope.

(** [U k w w']: on the way from [w] to [w'] at least [k] packets were used up. *)
Definition counts {W} (U : nat -> W -> W -> Prop) : Prop :=
  (forall w, U O w w) /\ (forall a b x y z, U a x y -> U b y z -> U (a + b)%nat x z) /\ (forall a b x y, (a <= b)%nat -> U b x y -> U a x y).
(** The first program runs out of fuel only after [N] packets; if it does not, the second one does the same and their results are related. *)
Definition fits_by {W A} (U : nat -> W -> W -> Prop) (N : nat) (V : A -> A -> Prop) (p p' : prog W A) : Prop :=
  forall w r w', p w = (r, w') -> U O w w' /\
    match r with NoFuel => U N w w' | Panic => p' w = (Panic, w') | Ret a => exists a', p' w = (Ret a', w') /\ V a a' end.
Definition fits {W A} (U : nat -> W -> W -> Prop) (N : nat) (p p' : prog W A) : Prop := fits_by U N eq p p'.
(** Reading a message uses up a packet and needs no fuel. *)
Definition mw_fits {W} (U : nat -> W -> W -> Prop) (N : nat) (mw mw' : mwriter W) : Prop :=
  (forall w r w', mw_read mw w = (r, w') -> U O w w' /\ mw_read mw' w = (r, w') /\ r <> NoFuel /\ forall m, r = Ret (m, None) -> U 1%nat w w') /\
  forall m, fits U N (mw_write mw m) (mw_write mw' m).

Section Fits.
  Variable W : Type.
  Variable U : nat -> W -> W -> Prop.
  Hypothesis HU : counts U.

  Lemma U_refl : forall w, U O w w. Proof. apply HU. Qed.
  Lemma U_step : forall k x y z, U O x y -> U k y z -> U k x z.
  Proof. intros k x y z H1 H2. exact (proj1 (proj2 HU) O k x y z H1 H2). Qed.
  Lemma U_more : forall k x y z, U 1%nat x y -> U k y z -> U (S k) x z.
  Proof. intros k x y z H1 H2. exact (proj1 (proj2 HU) 1%nat k x y z H1 H2). Qed.
  Lemma U_le : forall a b x y, (a <= b)%nat -> U b x y -> U a x y. Proof. apply HU. Qed.

  Lemma by_ret : forall N A (V : A -> A -> Prop) a a', V a a' -> fits_by U N V (pret a) (pret a').
  Proof. intros N A V a a' HV w r w' H. injection H as <- <-. split; [apply U_refl|]. exists a'. split; [reflexivity|exact HV]. Qed.
  Lemma by_bind : forall N A B (V : A -> A -> Prop) (V2 : B -> B -> Prop) m m' f f', fits_by U N V m m' ->
    (forall a a', V a a' -> fits_by U N V2 (f a) (f' a')) -> fits_by U N V2 (pbind m f) (pbind m' f').
  Proof.
    intros N A B V V2 m m' f f' Hm Hf w r w' H. unfold pbind in H |- *. destruct (m w) as [[a| |] w1] eqn:E; destruct (Hm _ _ _ E) as [H1 H2].
    - destruct H2 as (a' & H2 & HV). rewrite H2. destruct (Hf _ _ HV _ _ _ H) as [H3 H4]. split; [eapply U_step; eassumption|].
      destruct r; [exact H4|exact H4|eapply U_step; eassumption].
    - injection H as <- <-. rewrite H2. auto.
    - injection H as <- <-. auto.
  Qed.
  Lemma by_panic : forall N A (V : A -> A -> Prop), fits_by U N V (@ppanic W A) (@ppanic W A).
  Proof. intros N A V w r w' H. injection H as <- <-. split; [apply U_refl|reflexivity]. Qed.
  Lemma ft_ret : forall N A (a : A), fits U N (pret a) (pret a). Proof. intros. apply by_ret. reflexivity. Qed.
  Lemma ft_panic : forall N A, fits U N (@ppanic W A) (@ppanic W A). Proof. intros. apply by_panic. Qed.
  Lemma ft_bind : forall N A B (m m' : prog W A) (f f' : A -> prog W B), fits U N m m' -> (forall a, fits U N (f a) (f' a)) -> fits U N (pbind m f) (pbind m' f').
  Proof. intros N A B m m' f f' Hm Hf. apply (by_bind N A B eq eq); [exact Hm|]. intros a a' <-. exact (Hf a). Qed.
  Lemma ft_lift : forall N A (o : outcome A), o <> NoFuel -> fits U N (plift o) (plift o).
  Proof. intros N A o Ho w r w' H. injection H as <- <-. split; [apply U_refl|]. destruct o; [eexists; split; reflexivity|reflexivity|congruence]. Qed.
  Lemma ft_le : forall N M A (p p' : prog W A), (N <= M)%nat -> fits U M p p' -> fits U N p p'.
  Proof. intros N M A p p' HN H w r w' E. destruct (H _ _ _ E) as [H1 H2]. split; [exact H1|]. destruct r; try exact H2. eapply U_le; eassumption. Qed.

  (** When the first part uses up a packet, the rest may last for one less. *)
  Lemma bind_more : forall k A B (m m' : prog W A) (f f' : A -> prog W B), fits U k m m' ->
    (forall w a w1, m w = (Ret a, w1) -> fits U k (f a) (f' a) \/ (U 1%nat w w1 /\ fits U (k - 1) (f a) (f' a))) -> fits U k (pbind m f) (pbind m' f').
  Proof.
    intros k A B m m' f f' Hm Hf w r w' H. unfold pbind in H |- *. destruct (m w) as [[a| |] w1] eqn:E; destruct (Hm _ _ _ E) as [H1 H2].
    - destruct H2 as (a' & H2 & <-). rewrite H2. destruct (Hf _ _ _ E) as [F|[F0 F]]; destruct (F _ _ _ H) as [H3 H4]; (split; [eapply U_step; eassumption|]);
        destruct r; try exact H4; [eapply U_step; eassumption|]. apply (U_le k (S (k - 1))); [lia|]. eapply U_more; eassumption.
    - injection H as <- <-. rewrite H2. auto.
    - injection H as <- <-. auto.
  Qed.

  (** Reading until a message matches: fuel [k] lasts for [k] messages; a match is itself a message. *)
  Lemma read_match_fits : forall N mw mw' p, mw_fits U N mw mw' -> forall k k', (k <= k')%nat ->
    fits U k (read_match k mw p) (read_match k' mw' p) /\
    forall w m w', read_match k mw p w = (Ret (m, None), w') -> U 1%nat w w'.
  Proof.
    intros N mw mw' p [Hr _]. induction k as [|k IH]; intros k' Hk.
    - split; [|intros w m w' H; discriminate]. intros w r w' H. injection H as <- <-. split; apply U_refl.
    - destruct k' as [|k']; [lia|]. destruct (IH k') as [IH1 IH2]; [lia|]. cbn [read_match]. split.
      + intros w r w' H. unfold pbind in H |- *. destruct (mw_read mw w) as [o w1] eqn:E. destruct (Hr _ _ _ E) as (H1 & H2 & H3 & H4). rewrite H2.
        destruct o as [[msg [e|]]| |]; [injection H as <- <-; split; [exact H1|eexists; split; reflexivity]| |injection H as <- <-; auto|congruence].
        destruct msg as [m|]; [|injection H as <- <-; split; [exact H1|reflexivity]].
        destruct (p m); [injection H as <- <-; split; [exact H1|eexists; split; reflexivity]|].
        destruct (IH1 _ _ _ H) as [H5 H6]. split; [eapply U_step; eassumption|]. destruct r; [exact H6|exact H6|]. eapply U_more; [exact (H4 _ eq_refl)|exact H6].
      + intros w m w' H. unfold pbind in H. destruct (mw_read mw w) as [o w1] eqn:E. destruct (Hr _ _ _ E) as (H1 & H2 & H3 & H4).
        destruct o as [[msg [e|]]| |]; try discriminate. destruct msg as [x|]; [|discriminate].
        destruct (p x); [injection H as <- <-; exact (H4 _ eq_refl)|]. eapply U_step; [exact H1|exact (IH2 _ _ _ H)].
  Qed.
End Fits.

Ltac ft1 := lazymatch goal with
  | |- fits _ _ (pret _) (pret _) => apply ft_ret; assumption
  | |- fits _ _ ppanic ppanic => apply ft_panic; assumption
  | |- fits _ _ (pbind _ _) (pbind _ _) => apply ft_bind; [assumption| |]
  | |- fits _ _ (match ?x with _ => _ end) (match ?x with _ => _ end) => destruct x
  | |- forall _, _ => intro
  end.
Ltac ft := repeat first [assumption | ft1].

Section Device.
  Variable W : Type.
  Variable U : nat -> W -> W -> Prop.
  Hypothesis HU : counts U.
  Variable N : nat.
  Variable i : dinfo.
  Variables mw mw' : mwriter W.
  Hypothesis Hmw : mw_fits U N mw mw'.
  (** Fuel of the commands. *)
  Variables n n' : nat.
  Hypothesis Hn : (N < n)%nat.
  Hypothesis Hnn : (n <= n')%nat.

  Lemma ft_write : forall m, fits U N (bd_write i mw m) (bd_write i mw' m).
  Proof. intro m. apply Hmw. Qed.
  Lemma bd_mw_fits : mw_fits U N (bd_mw i mw) (bd_mw i mw').
  Proof. split; [apply Hmw|exact ft_write]. Qed.
  Lemma ft_matched : forall p, fits U N (read_match n (bd_mw i mw) p) (read_match n' (bd_mw i mw') p).
  Proof. intro p. apply (ft_le W U HU N n); [lia|]. apply (read_match_fits W U HU N _ _ p bd_mw_fits n n' Hnn). Qed.
  Hint Resolve ft_write ft_matched : ft.
  Ltac go := repeat first [progress ft | solve [eauto with ft]].

  Lemma ft_send : forall c p, fits U N (bd_send i mw c p) (bd_send i mw' c p).
  Proof. intros. unfold bd_send. go. Qed.
  Hint Resolve ft_send : ft.
  Lemma ft_command : forall c p, fits U N (bd_send_command i mw c p) (bd_send_command i mw' c p).
  Proof. intros. unfold bd_send_command. go. Qed.
  Hint Resolve ft_command : ft.
  Lemma ft_enter : forall g, fits U N (bd_enter_linking i mw g) (bd_enter_linking i mw' g).
  Proof. intros. unfold bd_enter_linking. go. Qed.
  Lemma ft_unenter : forall g, fits U N (bd_enter_unlinking i mw g) (bd_enter_unlinking i mw' g).
  Proof. intros. unfold bd_enter_unlinking. go. Qed.
  Lemma ft_exit : fits U N (bd_exit_linking i mw) (bd_exit_linking i mw').
  Proof. intros. unfold bd_exit_linking. go. Qed.
  Lemma ft_extended : forall d, fits U N (bd_extended_get n i mw d) (bd_extended_get n' i mw' d).
  Proof. intros. unfold bd_extended_get. go. Qed.
  Hint Resolve ft_enter ft_unenter ft_exit ft_extended : ft.
  Lemma ft_status : fits U N (switch_status i mw) (switch_status i mw').
  Proof. unfold switch_status. go. Qed.
  Lemma ft_config : fits U N (config_payload n i mw) (config_payload n' i mw').
  Proof. intros. unfold config_payload. go. Qed.
  Hint Resolve ft_status ft_config : ft.
  Lemma ft_sconfig : fits U N (switch_config n i mw) (switch_config n' i mw').
  Proof. intros. unfold switch_config. go. Qed.
  Lemma ft_dconfig : fits U N (dimmer_config n i mw) (dimmer_config n' i mw').
  Proof. intros. unfold dimmer_config. go. Qed.
  Lemma ft_ask_all : forall cmds k acc, fits U N (ask_all i mw cmds k acc) (ask_all i mw' cmds k acc).
  Proof. intro cmds. induction cmds; intros; cbn [ask_all]; go. Qed.
  Lemma ft_flags : fits U N (switch_operating_flags i mw) (switch_operating_flags i mw').
  Proof. apply ft_ask_all. Qed.
  Hint Resolve ft_sconfig ft_dconfig ft_flags ft_ask_all : ft.
  Lemma ft_tinfo : forall sets ti, fits U N (therm_info_loop n i mw sets ti) (therm_info_loop n' i mw' sets ti).
  Proof. intros sets. induction sets; intros; cbn [therm_info_loop]; go. Qed.
  Hint Resolve ft_tinfo : ft.
  Lemma ft_tstatus : fits U N (therm_status n i mw) (therm_status n' i mw').
  Proof. intros. unfold therm_status, therm_zone_info, therm_get_unit, therm_get_info, therm_get_mode, therm_get_equipment. cbv zeta. go. Qed.
  Hint Resolve ft_tstatus : ft.

  (** The links of the device; its database is the other half of the world. *)
  Let U2 : nat -> linkdb * W -> linkdb * W -> Prop := fun k x y => U k (snd x) (snd y).
  Lemma HU2 : counts U2.
  Proof.
    destruct HU as (H1 & H2 & H3). split; [|split]; unfold U2; [intro; apply H1| |].
    - intros a b x y z. apply H2.
    - intros a b x y. apply H3.
  Qed.
  Lemma ft_psnd : forall M A (p p' : prog W A), fits U M p p' -> fits U2 M (psnd p) (psnd p').
  Proof.
    intros M A p p' Hp w r w' H. unfold psnd in H |- *. destruct (p (snd w)) as [o w1] eqn:E. injection H as <- <-. destruct (Hp _ _ _ E) as [H1 H2].
    split; [exact H1|]. destruct o; [|rewrite H2; reflexivity|exact H2]. destruct H2 as (a' & H2 & ->). rewrite H2. eexists. split; reflexivity.
  Qed.
  Lemma ft_pget : forall M, fits U2 M (@pfst linkdb W _ pget) (pfst pget).
  Proof. intros M w r w' H. injection H as <- <-. split; [apply HU|]. eexists. split; reflexivity. Qed.
  Lemma ft_pput : forall M x, fits U2 M (@pfst linkdb W _ (pput x)) (pfst (pput x)).
  Proof. intros M x w r w' H. injection H as <- <-. split; [apply HU|]. eexists. split; reflexivity. Qed.
  (** One round of the loop uses up a message, but gives the fuel of the next one to the search for it: one packet less than the fuel. *)
  Lemma ft_refresh_loop : forall k k' last, (k <= k')%nat -> fits U2 (k - 1) (ld_refresh_loop k (bd_mw i mw) last) (ld_refresh_loop k' (bd_mw i mw') last).
  Proof.
    pose proof HU2 as H2U. induction k as [|k IH]; intros k' last Hk.
    - intros w r w' H. injection H as <- <-. split; apply HU.
    - destruct k' as [|k']; [lia|]. cbn [ld_refresh_loop].
      destruct (read_match_fits W U HU N _ _ (cmd_matcher c_ReadWriteALDB) bd_mw_fits k k') as [F1 F2]; [lia|].
      replace (S k - 1)%nat with k by lia. apply bind_more; [exact H2U|apply ft_psnd; exact F1|].
      intros w [msg err] w1 E. unfold psnd in E. destruct (read_match k (bd_mw i mw) (cmd_matcher c_ReadWriteALDB) (snd w)) as [o v] eqn:E2.
      injection E as -> <-.
      destruct err as [e|]; [left; ft|]. destruct msg as [m|]; [|left; ft]. destruct (lr_unmarshal linkreq_zero (m_payload m)) as [lr [e|]]; [left; ft|].
      pose proof (F2 _ _ _ E2) as X. destruct (lr_mem lr =? last); [right; split; [exact X|apply IH; lia]|].
      destruct (lr_link lr) as [l|]; [|left; ft]. destruct (rcf_last_record (l_flags l)); [left; ft|]. right. split; [exact X|].
      apply ft_bind; [exact H2U|apply ft_pget|]. intro db. apply ft_bind; [exact H2U|apply ft_pput|]. intros _. apply IH. lia.
  Qed.
  Lemma ft_get_links : forall now, fits U2 N (ld_get_links n (bd_mw i mw) now) (ld_get_links n' (bd_mw i mw') now).
  Proof.
    pose proof HU2. intros. unfold ld_get_links, ld_refresh. ft; try apply ft_pget; try apply ft_pput; try (apply ft_psnd; apply ft_write).
    - apply ft_lift; [assumption|discriminate].
    - apply (ft_le _ U2 HU2 N (n - 1)); [lia|]. apply ft_refresh_loop. lia.
  Qed.
End Device.

(** The subcommands, over two devices that are the same but for the fuel of their writer. *)
Definition bdev_fits {W} (U : nat -> W -> W -> Prop) (N : nat) (d d' : bdev W) : Prop := bd_info d = bd_info d' /\ mw_fits U N (bd_writer d) (bd_writer d').
Section Commands.
  Variable W : Type.
  Variable U : nat -> W -> W -> Prop.
  Hypothesis HU : counts U.
  Variable N : nat.
  Variables n n' : nat.
  Hypothesis Hn : (N < n)%nat.
  Hypothesis Hnn : (n <= n')%nat.
  Variables d d' : bdev W.
  Hypothesis Hd : bdev_fits U N d d'.

  Lemma ft_device_links : forall now, fits U N (device_links n now d) (device_links n' now d').
  Proof.
    destruct Hd as [Hi Hw]. intros now w r w' H. unfold device_links in H |- *. rewrite <- Hi.
    match type of H with context [ld_get_links ?f ?m ?t ?s] => destruct (ld_get_links f m t s) as [o [db w1]] eqn:E end.
    injection H as <- <-. destruct (ft_get_links W U HU N (bd_info d) _ _ Hw n n' Hn Hnn now _ _ _ E) as [H1 H2]. cbn [snd] in H1, H2. split; [exact H1|].
    destruct o; [|rewrite H2; reflexivity|exact H2]. destruct H2 as (a' & H2 & ->). rewrite H2. eexists. split; reflexivity.
  Qed.

  Lemma ft_silent : forall p p' : prog W (option error), fits U N p p' -> fits U N (silent p) (silent p').
  Proof. intros p p' H. unfold silent. ft. Qed.
  Ltac go := ft; try (apply ft_silent); ft;
    try solve [eauto using ft_write, ft_matched, ft_command, ft_enter, ft_unenter, ft_exit, ft_status, ft_dconfig, ft_sconfig, ft_flags, ft_tstatus, ft_device_links].
  Lemma ft_device_sub : forall now c, fits U N (device_sub (device_links n now) c d) (device_sub (device_links n' now) c d').
  Proof.
    intros now c. pose proof (ft_device_links now) as HL. destruct Hd as [Hi Hw]. destruct c; cbn [device_sub]; cbv zeta; rewrite <- ?Hi; unfold print_dev_info; cbv zeta; go.
  Qed.
  Lemma ft_dimmer_sub : forall c, fits U N (dimmer_sub n c d) (dimmer_sub n' c d').
  Proof.
    intros c. destruct Hd as [Hi Hw]. destruct c; cbn [dimmer_sub]; cbv zeta; rewrite <- ?Hi; unfold dim_config_cmd, dim_status_cmd, switch_turn_on, switch_turn_off, switch_set_backlight, switch_set_load_sense,
      dimmer_brighten, dimmer_dim, dimmer_start_brighten, dimmer_start_dim, dimmer_stop_manual, dimmer_on_fast, dimmer_instant_change, dimmer_set_status,
      dimmer_on_at_ramp, dimmer_off_at_ramp; cbv zeta; go.
  Qed.
  Lemma ft_switch_sub : forall now c, fits U N (switch_sub n (device_links n now) c d) (switch_sub n' (device_links n' now) c d').
  Proof.
    intros now c. pose proof (ft_device_links now) as HL. destruct Hd as [Hi Hw]. destruct c; cbn [switch_sub sw_assign sw_start sw_Switch sw_bound on_receiver]; cbv zeta; rewrite <- ?Hi;
      unfold sw_config_cmd, sw_status_cmd, print_dev_info; cbv zeta; go.
  Qed.
  Lemma ft_therm_sub : forall c, fits U N (therm_sub n c d) (therm_sub n' c d').
  Proof. intros c. destruct Hd as [Hi Hw]. destruct c; cbn [therm_sub]; cbv zeta; rewrite <- ?Hi; unfold therm_status_cmd, therm_set_unit, therm_set_status_message; go. Qed.

  (** As a party of linking. *)
  Definition lk_fits (l l' : linkable W) : Prop :=
    (forall g, fits U N (lk_enter l g) (lk_enter l' g)) /\ fits U N (lk_exit l) (lk_exit l').
  Lemma bdev_lk_fits : forall now, lk_fits (bdev_lk n now d) (bdev_lk n' now d').
  Proof.
    intros now. destruct Hd as [Hi Hw]. unfold bdev_lk. cbv zeta. rewrite <- ?Hi. split; cbn [lk_enter lk_exit]; [intro g; apply ft_enter; assumption|apply ft_exit; assumption].
  Qed.
End Commands.
