(** How programs built from reads and writes to one device move the world: generic in a reflexive and transitive relation. *)
From Coq Require Import ZArith List Bool.
From Verif Require Import GoBase GoProg Command Message Link MsgWriter BasicDevice Lights Thermostat Query Database DevLinkdb IcDev IcLine.
Import ListNotations.
Open Scope Z_scope.

(** Whatever the program does, it leads from a state to a related one. *)
Definition moves {W A} (R : W -> W -> Prop) (p : prog W A) : Prop := forall w r w', p w = (r, w') -> R w w'.
Definition preorder {W} (R : W -> W -> Prop) : Prop := (forall w, R w w) /\ (forall x y z, R x y -> R y z -> R x z).
(** A message such as a device sends to [a]. *)
Definition direct_to (a : Z) (m : message) : Prop := m_dst m = a /\ (m_flags m = 10 \/ m_flags m = 15 \/ m_flags m = 26).
(** Reads, and writes of messages to [a], are such programs. *)
Definition mw_moves {W} (R : W -> W -> Prop) (a : Z) (mw : mwriter W) : Prop :=
  moves R (mw_read mw) /\ forall m, direct_to a m -> moves R (mw_write mw m).

Section Moves.
  Variable W : Type.
  Variable R : W -> W -> Prop.
  Hypothesis HR : preorder R.

  Lemma mv_ret : forall A (a : A), moves R (pret a).
  Proof. intros A a w r w' H. injection H as _ <-. apply HR. Qed.
  Lemma mv_panic : forall A, moves R (@ppanic W A).
  Proof. intros A w r w' H. injection H as _ <-. apply HR. Qed.
  Lemma mv_nofuel : forall A, moves R (@pnofuel W A).
  Proof. intros A w r w' H. injection H as _ <-. apply HR. Qed.
  Lemma mv_lift : forall A (o : outcome A), moves R (plift o).
  Proof. intros A o w r w' H. injection H as _ <-. apply HR. Qed.
  Lemma mv_bind : forall A B (m : prog W A) (f : A -> prog W B), moves R m -> (forall a, moves R (f a)) -> moves R (pbind m f).
  Proof.
    intros A B m f Hm Hf w r w' H. unfold pbind in H. destruct (m w) as [[a| |] w1] eqn:E.
    - eapply (proj2 HR); [exact (Hm _ _ _ E)|exact (Hf _ _ _ _ H)].
    - injection H as _ <-. exact (Hm _ _ _ E).
    - injection H as _ <-. exact (Hm _ _ _ E).
  Qed.

  Section Writer.
    Variable mw : mwriter W.
    Hypothesis Hread : moves R (mw_read mw).
    Lemma mv_read_match : forall p fuel, moves R (read_match fuel mw p).
    Proof.
      intros p fuel. induction fuel as [|k IH]; cbn [read_match]; [apply mv_nofuel|]. apply mv_bind; [exact Hread|]. intros [msg [e|]]; [apply mv_ret|].
      destruct msg as [m|]; [|apply mv_panic]. destruct (p m); [apply mv_ret|exact IH].
    Qed.
  End Writer.

  (** A device's own writer: every message it writes is addressed to it. *)
  Lemma outgoing_direct : forall info m, direct_to (di_addr info) (outgoing info m).
  Proof.
    intros info m. unfold outgoing, with_checksum, direct_to.
    destruct (0 <? zlen (m_payload m)) eqn:E; cbn [m_payload]; destruct (di_engine info =? ver_I2Cs); rewrite ?E; cbn [m_dst m_flags]; auto.
  Qed.
End Moves.

Ltac mv1 := lazymatch goal with
  | |- moves _ (pret _) => apply mv_ret; assumption
  | |- moves _ ppanic => apply mv_panic; assumption
  | |- moves _ pnofuel => apply mv_nofuel; assumption
  | |- moves _ (plift _) => apply mv_lift; assumption
  | |- moves _ (pbind _ _) => apply mv_bind; [assumption| |]
  | |- moves _ (match ?x with _ => _ end) => destruct x
  | |- forall _, _ => intro
  end.
Ltac mv := repeat first [assumption | mv1].

Section Device.
  Variable W : Type.
  Variable R : W -> W -> Prop.
  Hypothesis HR : preorder R.
  Variable i : dinfo.
  Variable mw : mwriter W.
  Hypothesis Hmw : mw_moves R (di_addr i) mw.

  Lemma mv_read : moves R (mw_read mw). Proof. apply Hmw. Qed.
  Lemma mv_write : forall m, moves R (bd_write i mw m).
  Proof. intro m. apply Hmw, outgoing_direct. Qed.
  Lemma mv_matched : forall p fuel, moves R (read_match fuel (bd_mw i mw) p).
  Proof. intros. apply mv_read_match; [exact HR|exact mv_read]. Qed.
  Hint Resolve mv_read mv_write mv_matched : mv.
  Ltac go := repeat first [progress mv | solve [eauto with mv]].

  Lemma mv_send : forall c p, moves R (bd_send i mw c p).
  Proof. intros. unfold bd_send. go. Qed.
  Hint Resolve mv_send : mv.
  Lemma mv_command : forall c p, moves R (bd_send_command i mw c p).
  Proof. intros. unfold bd_send_command. go. Qed.
  Hint Resolve mv_command : mv.
  Lemma mv_enter : forall g, moves R (bd_enter_linking i mw g).
  Proof. intros. unfold bd_enter_linking. go. Qed.
  Lemma mv_unenter : forall g, moves R (bd_enter_unlinking i mw g).
  Proof. intros. unfold bd_enter_unlinking. go. Qed.
  Lemma mv_exit : moves R (bd_exit_linking i mw).
  Proof. intros. unfold bd_exit_linking. go. Qed.
  Lemma mv_product : forall fuel, moves R (bd_product_data fuel i mw).
  Proof. intros. unfold bd_product_data. go. Qed.
  Lemma mv_extended : forall fuel d, moves R (bd_extended_get fuel i mw d).
  Proof. intros. unfold bd_extended_get. go. Qed.
  Hint Resolve mv_enter mv_unenter mv_exit mv_product mv_extended : mv.
  Lemma mv_status : moves R (switch_status i mw).
  Proof. unfold switch_status. go. Qed.
  Lemma mv_config : forall fuel, moves R (config_payload fuel i mw).
  Proof. intros. unfold config_payload. go. Qed.
  Hint Resolve mv_status mv_config : mv.
  Lemma mv_sconfig : forall fuel, moves R (switch_config fuel i mw).
  Proof. intros. unfold switch_config. go. Qed.
  Lemma mv_dconfig : forall fuel, moves R (dimmer_config fuel i mw).
  Proof. intros. unfold dimmer_config. go. Qed.
  Lemma mv_ask_all : forall cmds k acc, moves R (ask_all i mw cmds k acc).
  Proof. intro cmds. induction cmds; intros; cbn [ask_all]; go. Qed.
  Lemma mv_flags : moves R (switch_operating_flags i mw).
  Proof. apply mv_ask_all. Qed.
  Hint Resolve mv_sconfig mv_dconfig mv_flags mv_ask_all : mv.
  Lemma mv_tinfo : forall fuel sets ti, moves R (therm_info_loop fuel i mw sets ti).
  Proof. intros fuel sets. induction sets; intros; cbn [therm_info_loop]; go. Qed.
  Hint Resolve mv_tinfo : mv.
  Lemma mv_tstatus : forall fuel, moves R (therm_status fuel i mw).
  Proof. intros. unfold therm_status, therm_zone_info, therm_get_unit, therm_get_info, therm_get_mode, therm_get_equipment. cbv zeta. go. Qed.
  Hint Resolve mv_tstatus : mv.

  (** The links of the device; its database is the other half of the world. *)
  Let R2 : linkdb * W -> linkdb * W -> Prop := fun x y => R (snd x) (snd y).
  Lemma HR2 : preorder R2.
  Proof. split; unfold R2; [intro; apply HR|intros x y z; apply HR]. Qed.
  Lemma mv_psnd : forall A (p : prog W A), moves R p -> moves R2 (psnd p).
  Proof. intros A p Hp w r w' H. unfold psnd in H. destruct (p (snd w)) as [o w1] eqn:E. injection H as _ <-. exact (Hp _ _ _ E). Qed.
  Lemma mv_pfst : forall A (p : prog linkdb A), moves R2 (@pfst linkdb W A p).
  Proof. intros A p w r w' H. unfold pfst in H. destruct (p (fst w)) as [o w1] eqn:E. injection H as _ <-. apply HR. Qed.
  Lemma mv_refresh_loop : forall fuel last, moves R2 (ld_refresh_loop fuel (bd_mw i mw) last).
  Proof.
    pose proof HR2. induction fuel as [|k IH]; intro last; cbn [ld_refresh_loop]; mv; try apply IH; try (apply mv_psnd, mv_matched); try apply mv_pfst.
  Qed.
  Lemma mv_get_links : forall fuel now, moves R2 (ld_get_links fuel (bd_mw i mw) now).
  Proof.
    pose proof HR2. intros. unfold ld_get_links, ld_refresh. mv; try apply mv_pfst; try (apply mv_psnd, mv_write); apply mv_refresh_loop.
  Qed.
End Device.

Lemma mv_device_links : forall W (R : W -> W -> Prop) d fuel now, preorder R -> mw_moves R (di_addr (bd_info d)) (bd_writer d) ->
  moves R (device_links fuel now d).
Proof.
  intros W R d fuel now HR Hd w r w' H. unfold device_links in H.
  match type of H with context [ld_get_links ?f ?m ?n ?s] => destruct (ld_get_links f m n s) as [o [db w1]] eqn:E end.
  injection H as _ <-. exact (mv_get_links W R HR _ _ Hd _ _ _ _ _ E).
Qed.

(** The subcommands. *)
Section Commands.
  Variable W : Type.
  Variable R : W -> W -> Prop.
  Hypothesis HR : preorder R.
  Variable d : bdev W.
  Hypothesis Hd : mw_moves R (di_addr (bd_info d)) (bd_writer d).
  Variable links : bdev W -> prog W (list link * option error).
  Hypothesis Hl : moves R (links d).

  Lemma mv_silent : forall p : prog W (option error), moves R p -> moves R (silent p).
  Proof. intros p H. unfold silent. mv. Qed.
  Ltac go := mv; try (apply mv_silent); mv; eauto using mv_write, mv_read, mv_matched, mv_command, mv_enter, mv_unenter, mv_exit, mv_status, mv_dconfig, mv_sconfig, mv_flags, mv_tstatus.
  Lemma mv_device_sub : forall c, moves R (device_sub links c d).
  Proof. intro c. destruct c; cbn [device_sub]; unfold print_dev_info; cbv zeta; go. Qed.
  Lemma mv_dimmer_sub : forall n c, moves R (dimmer_sub n c d).
  Proof.
    intros n c. destruct c; cbn [dimmer_sub]; unfold dim_config_cmd, dim_status_cmd, switch_turn_on, switch_turn_off, switch_set_backlight, switch_set_load_sense,
      dimmer_brighten, dimmer_dim, dimmer_start_brighten, dimmer_start_dim, dimmer_stop_manual, dimmer_on_fast, dimmer_instant_change, dimmer_set_status,
      dimmer_on_at_ramp, dimmer_off_at_ramp; cbv zeta; go.
  Qed.
  Lemma mv_switch_sub : forall n c, moves R (switch_sub n links c d).
  Proof.
    intros n c. destruct c; cbn [switch_sub sw_assign sw_start sw_Switch sw_bound on_receiver]; unfold sw_config_cmd, sw_status_cmd, print_dev_info; cbv zeta; go.
  Qed.
  Lemma mv_therm_sub : forall n c, moves R (therm_sub n c d).
  Proof. intros n c. destruct c; cbn [therm_sub]; unfold therm_status_cmd, therm_set_unit, therm_set_status_message; go. Qed.
End Commands.

(** Opening a device. *)
Lemma mv_dev_open : forall W (R : W -> W -> Prop) fuel (mw : mwriter W) a, preorder R -> mw_moves R a mw -> moves R (dev_open fuel mw a).
Proof.
  intros W R fuel mw a HR [Hr Hw]. unfold dev_open, get_engine_version, id_request. cbv zeta.
  mv; try (apply Hw; split; cbn; auto); apply mv_read_match; assumption.
Qed.
