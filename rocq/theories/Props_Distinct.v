(** C91: no two requests to a light, and no two to a thermostat, are the same message. *)
From Coq Require Import ZArith List Bool Lia ZifyBool ZifyNat.
From Verif Require Import GoBase GoLemmas GoProg Command Message MessageSpec MsgWriter FiltersSpec BasicDevice DeviceSpec DevReqSpec DevReqProofs Lights Thermostat Props_Lights Props_Thermostat.
Import ListNotations.
Open Scope Z_scope.
Ltac Zify.zify_post_hook ::= Z.div_mod_to_equations.

(** A request to the device described by the information, over any connection. *)
Definition request : Type := forall W, dinfo -> mwriter W -> prog W (option error).
(** The request is to write this message, and nothing else. *)
Definition says (info : dinfo) (p : request) (m : message) : Prop := forall W (mw : mwriter W) w, p W info mw w = settled (mw_write mw m w).

(** What can be asked of a switch or a dimmer. *)
Inductive light : Type :=
| LOff | LBrighten | LDim | LStartBrighten | LStartDim | LStop | LOnFast
| LOn (level : Z) | LInstant (level : Z) | LSet (level : Z) | LOnRamp (level rate : Z) | LOffRamp (rate : Z)
| LLoadSense (on : bool) | LBacklight (on : bool).
Definition light_call (r : light) : request := fun W info mw =>
  match r with
  | LOff => switch_turn_off info mw | LBrighten => dimmer_brighten info mw | LDim => dimmer_dim info mw
  | LStartBrighten => dimmer_start_brighten info mw | LStartDim => dimmer_start_dim info mw | LStop => dimmer_stop_manual info mw
  | LOnFast => dimmer_on_fast info mw | LOn l => switch_turn_on info mw l | LInstant l => dimmer_instant_change info mw l
  | LSet l => dimmer_set_status info mw l | LOnRamp l r => dimmer_on_at_ramp info mw l r | LOffRamp r => dimmer_off_at_ramp info mw r
  | LLoadSense on => switch_set_load_sense info mw on | LBacklight on => switch_set_backlight info mw on
  end.
(** The arguments the protocol has room for. *)
Definition light_fits (r : light) : Prop :=
  match r with
  | LOn l | LInstant l | LSet l => 0 <= l <= 255
  | LOnRamp l t => 0 <= l <= 15 /\ 0 <= t <= 15
  | LOffRamp t => 0 <= t <= 15
  | _ => True
  end.

(** What can be told to a thermostat. *)
Inductive therm : Type :=
| TMode (mode : Z) | TSpeed (speed : Z) | TUnit (unit : Z) | TStatusMessages (on : bool)
| TCool (zone t : Z) | THeat (zone t : Z) | TIncrease (t : Z) | TDecrease (t : Z)
| TZoneUp (zone t : Z) | TZoneDown (zone t : Z) | TZoneCool (zone t band : Z) | TZoneHeat (zone t band : Z).
Definition therm_call (r : therm) : request := fun W info mw =>
  match r with
  | TMode m => therm_set_mode info mw m | TSpeed s => therm_set_fan_speed info mw s | TUnit u => therm_set_unit info mw u
  | TStatusMessages on => therm_set_status_message info mw on | TCool z t => therm_set_cool info mw z t | THeat z t => therm_set_heat info mw z t
  | TIncrease t => therm_increase info mw t | TDecrease t => therm_decrease info mw t
  | TZoneUp z t => therm_zone_up info mw z t | TZoneDown z t => therm_zone_down info mw z t
  | TZoneCool z t d => therm_zone_cool info mw z t d | TZoneHeat z t d => therm_zone_heat info mw z t d
  end.
Definition therm_fits (r : therm) : Prop :=
  match r with
  | TMode m => 0 <= m <= 8
  | TSpeed s => 1 <= s <= 3
  | TUnit u => 0 <= u <= 1
  | TStatusMessages _ => True
  | TCool _ t | THeat _ t | TIncrease t | TDecrease t => 0 <= t <= 127
  | TZoneUp z t | TZoneDown z t => 0 <= z <= 255 /\ 0 <= t <= 127
  | TZoneCool z t d | TZoneHeat z t d => 0 <= z <= 255 /\ 0 <= t <= 127 /\ 0 <= d <= 255
  end.
(** The same request but for the zone of a set point, which is not sent (C44_setpoint_zone_refuted). *)
Definition same_but_zone (r r' : therm) : Prop :=
  match r, r' with
  | TCool _ t, TCool _ t' => t = t'
  | THeat _ t, THeat _ t' => t = t'
  | _, _ => r = r'
  end.

(** A connection that keeps what is written tells the message. *)
Lemma says_unique : forall info p m m', says info p m -> says info p m' -> m = m'.
Proof.
  intros info p m m' H H'. set (keep := mkMW (pret (None, None)) (fun x (_ : option message) => (Ret (None, None), Some x)) : mwriter (option message)).
  specialize (H _ keep None). specialize (H' _ keep None). rewrite H in H'. cbn [keep mw_write settled] in H'. injection H' as H'. exact H'.
Qed.
Lemma request_alike : forall info c1 c2 d c1' c2' d' m, is_request info c1 c2 d m -> is_request info c1' c2' d' m ->
  c1 = c1' /\ c2 = c2' /\ (d = [] <-> d' = []) /\ firstn 13 (padded 14 d) = firstn 13 (padded 14 d').
Proof.
  intros info c1 c2 d c1' c2' d' m (_ & H1 & H2 & Hf & _ & H5 & _) (_ & H1' & H2' & Hf' & _ & H5' & _). split; [congruence|]. split; [congruence|]. split; [|congruence].
  destruct d, d'; [tauto| | |split; discriminate]; exfalso; destruct Hf as (_ & _ & Hf), Hf' as (_ & _ & Hf'); cbn in Hf, Hf'; lia.
Qed.
Definition one_message (info : dinfo) (p : request) (c1 c2 : Z) (d : list Z) : Prop := exists m, is_request info c1 c2 d m /\ says info p m.
Lemma sends_message : forall info (p : request) c1 c2 d cmd, (forall W (mw : mwriter W), p W info mw = bd_send_command info mw cmd d) ->
  (length d < 14)%nat \/ (length d = 14%nat /\ nth 13 d 0 = 0) -> command1 cmd = c1 -> command2 cmd = c2 -> one_message info p c1 c2 d.
Proof.
  intros info p c1 c2 d cmd Hp Hd <- <-. exists (outgoing info (mkMsg 0 0 0 cmd d)). split; [apply outgoing_is_request; exact Hd|].
  intros W mw w. rewrite Hp. unfold bd_send_command, bd_send, bd_write, pbind, settled. destruct (mw_write mw _ w) as [[[[a|] [e|]]| |] w1]; reflexivity.
Qed.
Lemma triple_inv : forall (a b a' b' : Z) (c c' : list Z), (a, b, c) = (a', b', c') -> a = a' /\ b = b' /\ c = c'.
Proof. intros * H. injection H. auto. Qed.
Definition light_code (fw : Z) (r : light) : Z * Z * list Z :=
  match r with
  | LOff => (0x13, 0, []) | LBrighten => (0x15, 0, []) | LDim => (0x16, 0, []) | LStartBrighten => (0x17, 1, []) | LStartDim => (0x17, 0, [])
  | LStop => (0x18, 0, []) | LOnFast => (0x12, 0, []) | LOn l => (0x11, l, []) | LInstant l => (0x21, l, []) | LSet l => (0x27, l, [])
  | LOnRamp l t => (if fw <? 67 then 0x2e else 0x34, 16 * l + t, []) | LOffRamp t => (if fw <? 67 then 0x2f else 0x35, t, [])
  | LLoadSense on => (0x20, if on then 6 else 7, repeat 0 14) | LBacklight on => (0x20, if on then 9 else 8, repeat 0 14)
  end.
Ltac one := eapply sends_message; [intros; reflexivity|(left; cbn; lia) || (right; split; reflexivity)| |].
Lemma light_message : forall info r, light_fits r -> let '(c1, c2, d) := light_code (di_fw info) r in one_message info (light_call r) c1 c2 d.
Proof.
  intros info r H. destruct r; cbn [light_code light_fits] in *; try (one; reflexivity); try (one; [rewrite sub_command1; reflexivity|rewrite sub_command2; lia]).
  - one; [rewrite sub_command1; destruct (0x43 <=? di_fw info) eqn:E; replace (di_fw info <? 67) with (negb (0x43 <=? di_fw info)) by lia; rewrite E; reflexivity|rewrite sub_command2, level_rate; lia].
  - one; [rewrite sub_command1; destruct (0x43 <=? di_fw info) eqn:E; replace (di_fw info <? 67) with (negb (0x43 <=? di_fw info)) by lia; rewrite E; reflexivity|].
    rewrite sub_command2, Z.land_comm. change 0x0f with (Z.ones 4). rewrite Z.land_ones by lia. change (2 ^ 4) with 16. lia.
  - destruct on; one; reflexivity.
  - destruct on; one; reflexivity.
Qed.
(** Every request to a light that fits is one message, and two requests that are the same message are the same request. *)
Theorem C91_lights : forall info, (forall r, light_fits r -> exists m, says info (light_call r) m) /\
  (forall r r' m, light_fits r -> light_fits r' -> says info (light_call r) m -> says info (light_call r') m -> r = r').
Proof.
  intros info. split.
  - intros r H. pose proof (light_message info r H) as K. destruct (light_code _ r) as [[c1 c2] d]. destruct K as (m & _ & K). exists m. exact K.
  - intros r r' m H H' S S'. pose proof (light_message info r H) as K. pose proof (light_message info r' H') as K'.
    destruct (light_code (di_fw info) r) as [[c1 c2] d] eqn:E. destruct (light_code (di_fw info) r') as [[c1' c2'] d'] eqn:E'.
    destruct K as (m1 & R & K), K' as (m2 & R' & K'). rewrite <- (says_unique _ _ _ _ S K) in R. rewrite <- (says_unique _ _ _ _ S' K') in R'.
    destruct (request_alike _ _ _ _ _ _ _ _ R R') as (Q1 & Q2 & _). subst c1' c2'. clear - H H' E E'.
    destruct r, r'; cbn [light_code light_fits] in *; apply triple_inv in E, E'; destruct E as (<- & <- & _), E' as (Q1 & Q2 & _); destruct (di_fw info <? 67); try discriminate; try reflexivity; try lia;
      try (f_equal; lia); try (destruct on, on0; reflexivity || discriminate); destruct on, on0; discriminate.
Qed.
Definition therm_code (r : therm) : Z * Z * list Z :=
  match r with
  | TMode m => (0x6b, nth (Z.to_nat m) [0x09; 0x04; 0x05; 0x06; 0x07; 0x0c; 0x0a; 0x0b; 0x08] 0, []) | TSpeed s => (0x6b, 0x12 + s, [])
  | TUnit u => (0x2e, 0, [0; 4; 0; 8 * u]) | TStatusMessages on => if on then (0x2e, 0, [0; 8; 0]) else (0x6b, 0x17, [])
  | TCool _ t => (0x6c, 2 * t, []) | THeat _ t => (0x6d, 2 * t, []) | TIncrease t => (0x69, 2 * t, []) | TDecrease t => (0x68, 2 * t, [])
  | TZoneUp z t => (0x68, z, [2 * t]) | TZoneDown z t => (0x69, z, [2 * t]) | TZoneCool z t d => (0x6c, z, [2 * t; d]) | TZoneHeat z t d => (0x6d, z, [2 * t; d])
  end.
Lemma therm_message : forall info r, therm_fits r -> let '(c1, c2, d) := therm_code r in one_message info (therm_call r) c1 c2 d.
Proof.
  intros info r H. destruct r; cbn [therm_code therm_fits] in *.
  - assert (C : mode = 0 \/ mode = 1 \/ mode = 2 \/ mode = 3 \/ mode = 4 \/ mode = 5 \/ mode = 6 \/ mode = 7 \/ mode = 8) by lia.
    repeat destruct C as [->|C]; try subst mode; one; reflexivity.
  - assert (C : speed = 1 \/ speed = 2 \/ speed = 3) by lia. repeat destruct C as [->|C]; try subst speed; one; reflexivity.
  - assert (C : unit = 0 \/ unit = 1) by lia. destruct C as [->| ->]; one; reflexivity.
  - destruct on; one; reflexivity.
  - one; [rewrite sub_command1; reflexivity|rewrite sub_command2; lia].
  - one; [rewrite sub_command1; reflexivity|rewrite sub_command2; lia].
  - one; [rewrite sub_command1; reflexivity|rewrite sub_command2; lia].
  - one; [rewrite sub_command1; reflexivity|rewrite sub_command2; lia].
  - eapply sends_message with (cmd := sub_command c_ZoneTempUp zone); [intros; cbn [therm_call]; unfold therm_zone_up; rewrite (byte_of_id (t * 2)) by (unfold is_byte; lia); rewrite (Z.mul_comm t 2); reflexivity|left; cbn; lia|rewrite sub_command1; reflexivity|rewrite sub_command2; lia].
  - eapply sends_message with (cmd := sub_command c_ZoneTempDown zone); [intros; cbn [therm_call]; unfold therm_zone_down; rewrite (byte_of_id (t * 2)) by (unfold is_byte; lia); rewrite (Z.mul_comm t 2); reflexivity|left; cbn; lia|rewrite sub_command1; reflexivity|rewrite sub_command2; lia].
  - eapply sends_message; [intros; cbn [therm_call]; unfold therm_zone_cool; rewrite (byte_of_id (t * 2)), (byte_of_id band) by (unfold is_byte; lia); rewrite (Z.mul_comm t 2); reflexivity|left; cbn; lia|rewrite sub_command1; reflexivity|rewrite sub_command2; lia].
  - eapply sends_message; [intros; cbn [therm_call]; unfold therm_zone_heat; rewrite (byte_of_id (t * 2)), (byte_of_id band) by (unfold is_byte; lia); rewrite (Z.mul_comm t 2); reflexivity|left; cbn; lia|rewrite sub_command1; reflexivity|rewrite sub_command2; lia].
Qed.
(** The same of a thermostat, up to the zone of a set point. *)
Theorem C91_thermostats : forall info, (forall r, therm_fits r -> exists m, says info (therm_call r) m) /\
  (forall r r' m, therm_fits r -> therm_fits r' -> says info (therm_call r) m -> says info (therm_call r') m -> same_but_zone r r').
Proof.
  intros info. split.
  - intros r H. pose proof (therm_message info r H) as K. destruct (therm_code r) as [[c1 c2] d]. destruct K as (m & _ & K). exists m. exact K.
  - intros r r' m H H' S S'. pose proof (therm_message info r H) as K. pose proof (therm_message info r' H') as K'.
    destruct (therm_code r) as [[c1 c2] d] eqn:E. destruct (therm_code r') as [[c1' c2'] d'] eqn:E'.
    destruct K as (m1 & R & K), K' as (m2 & R' & K'). rewrite <- (says_unique _ _ _ _ S K) in R. rewrite <- (says_unique _ _ _ _ S' K') in R'.
    destruct (request_alike _ _ _ _ _ _ _ _ R R') as (Q1 & Q2 & Q3 & Q4). subst c1' c2'. clear - H H' E E' Q3 Q4.
    assert (M : forall x y, 0 <= x <= 8 -> 0 <= y <= 8 -> nth (Z.to_nat x) [0x09; 0x04; 0x05; 0x06; 0x07; 0x0c; 0x0a; 0x0b; 0x08] 0 = nth (Z.to_nat y) [0x09; 0x04; 0x05; 0x06; 0x07; 0x0c; 0x0a; 0x0b; 0x08] 0 -> x = y).
    { intros x y Hx Hy. assert (Cx : x = 0 \/ x = 1 \/ x = 2 \/ x = 3 \/ x = 4 \/ x = 5 \/ x = 6 \/ x = 7 \/ x = 8) by lia.
      assert (Cy : y = 0 \/ y = 1 \/ y = 2 \/ y = 3 \/ y = 4 \/ y = 5 \/ y = 6 \/ y = 7 \/ y = 8) by lia.
      repeat destruct Cx as [->|Cx]; try subst x; repeat destruct Cy as [->|Cy]; try subst y; cbn; intros; (reflexivity || discriminate). }
    assert (M2 : forall x, 0 <= x <= 8 -> 4 <= nth (Z.to_nat x) [0x09; 0x04; 0x05; 0x06; 0x07; 0x0c; 0x0a; 0x0b; 0x08] 0 <= 0x0c).
    { intros x Hx. assert (Cx : x = 0 \/ x = 1 \/ x = 2 \/ x = 3 \/ x = 4 \/ x = 5 \/ x = 6 \/ x = 7 \/ x = 8) by lia. repeat destruct Cx as [->|Cx]; try subst x; vm_compute; split; discriminate. }
    destruct r, r'; repeat match goal with b : bool |- _ => destruct b end; cbn [therm_code therm_fits same_but_zone] in *; apply triple_inv in E, E'; destruct E as (<- & <- & <-), E' as (P1 & P2 & P3); subst d';
      try discriminate; try reflexivity; try (exfalso; destruct Q3 as [Q3 Q3']; (discriminate (Q3 eq_refl) || discriminate (Q3' eq_refl)));
      try (exfalso; match goal with H : 0 <= ?x <= 8 |- _ => specialize (M2 x H); lia end);
      try (f_equal; apply M; auto; fail); try (cbn in Q4; injection Q4; intros; subst; try discriminate; try lia; f_equal; lia); try lia; try (f_equal; lia);
      pose proof (f_equal (fun l => nth 0 l 0) Q4) as A0; pose proof (f_equal (fun l => nth 1 l 0) Q4) as A1; pose proof (f_equal (fun l => nth 3 l 0) Q4) as A3.
    + change (8 * unit = 8 * unit0) in A3. f_equal. lia.
    + change (2 * t = 2 * t0) in A0. f_equal; lia.
    + change (2 * t = 2 * t0) in A0. f_equal; lia.
    + change (2 * t = 2 * t0) in A0. change (band = band0) in A1. f_equal; lia.
    + change (2 * t = 2 * t0) in A0. change (band = band0) in A1. f_equal; lia.
Qed.
Example C91_case : let info := mkDI 0x112233 1 2 0x45 2 in light_fits (LOnRamp 3 7) /\ light_fits (LSet 0x37) /\ therm_fits (TZoneCool 1 20 3) /\ therm_fits (TCool 1 10) /\
  (exists m, says info (light_call (LOnRamp 3 7)) m /\ (m_cmd m / 256) mod 256 = 0x34 /\ m_cmd m mod 256 = 0x37) /\
  (exists m, says info (therm_call (TZoneCool 1 20 3)) m /\ (m_cmd m / 256) mod 256 = 0x6c /\ m_cmd m mod 256 = 1).
Proof.
  intro info. assert (F1 : light_fits (LOnRamp 3 7)) by (cbn; lia). assert (F2 : therm_fits (TZoneCool 1 20 3)) by (cbn; lia).
  split; [exact F1|]. split; [cbn; lia|]. split; [exact F2|]. split; [cbn; lia|]. split.
  - destruct (light_message info _ F1) as (m & (_ & H1 & H2 & _) & S). exists m. exact (conj S (conj H1 H2)).
  - destruct (therm_message info _ F2) as (m & (_ & H1 & H2 & _) & S). exists m. exact (conj S (conj H1 H2)).
Qed.

(** What every device can be told about linking. *)
Inductive linking : Type := KEnter (group : Z) | KUnlink (group : Z) | KExit.
Definition linking_call (r : linking) : request := fun W info mw =>
  match r with KEnter g => bd_enter_linking info mw g | KUnlink g => bd_enter_unlinking info mw g | KExit => bd_exit_linking info mw end.
Definition linking_fits (r : linking) : Prop := match r with KEnter g | KUnlink g => 0 <= g <= 255 | KExit => True end.
Definition linking_code (engine : Z) (r : linking) : Z * Z * list Z :=
  match r with
  | KEnter g => (0x09, g, if engine =? 2 then repeat 0 14 else []) | KUnlink g => (0x0a, g, if engine =? 2 then repeat 0 14 else []) | KExit => (0x08, 0, [])
  end.
Lemma linking_message : forall info r, linking_fits r -> let '(c1, c2, d) := linking_code (di_engine info) r in one_message info (linking_call r) c1 c2 d.
Proof.
  intros info r H. destruct r; cbn [linking_code linking_fits] in *.
  - destruct (di_engine info =? 2) eqn:E.
    + eapply sends_message with (cmd := sub_command c_EnterLinkingModeExt group); [intros; cbn [linking_call]; unfold bd_enter_linking, ver_I2Cs; rewrite E; reflexivity|right; split; reflexivity|rewrite sub_command1; reflexivity|rewrite sub_command2; lia].
    + eapply sends_message with (cmd := sub_command c_EnterLinkingMode group); [intros; cbn [linking_call]; unfold bd_enter_linking, ver_I2Cs; rewrite E; reflexivity|left; cbn; lia|rewrite sub_command1; reflexivity|rewrite sub_command2; lia].
  - eapply sends_message with (cmd := sub_command c_EnterUnlinkingMode group); [intros; reflexivity|destruct (di_engine info =? 2); [right; split; reflexivity|left; cbn; lia]|rewrite sub_command1; reflexivity|rewrite sub_command2; lia].
  - one; reflexivity.
Qed.
(** Requests about linking differ from one another and from every other request to a light or a thermostat. *)
Theorem C91_linking : forall info, (forall r, linking_fits r -> exists m, says info (linking_call r) m) /\
  (forall r r' m, linking_fits r -> linking_fits r' -> says info (linking_call r) m -> says info (linking_call r') m -> r = r') /\
  (forall r m, linking_fits r -> says info (linking_call r) m ->
    (forall l, light_fits l -> ~ says info (light_call l) m) /\ (forall t, therm_fits t -> ~ says info (therm_call t) m)).
Proof.
  intros info.
  assert (C : forall r m c1 c2 d, linking_fits r -> says info (linking_call r) m -> is_request info c1 c2 d m -> fst (fst (linking_code (di_engine info) r)) = c1 /\ snd (fst (linking_code (di_engine info) r)) = c2).
  { intros r m c1 c2 d H S R. pose proof (linking_message info r H) as K. destruct (linking_code _ r) as [[a1 a2] b]. destruct K as (m1 & R1 & K).
    rewrite <- (says_unique _ _ _ _ S K) in R1. destruct (request_alike _ _ _ _ _ _ _ _ R1 R) as (Q1 & Q2 & _). auto. }
  split; [|split].
  - intros r H. pose proof (linking_message info r H) as K. destruct (linking_code _ r) as [[c1 c2] d]. destruct K as (m & _ & K). exists m. exact K.
  - intros r r' m H H' S S'. pose proof (linking_message info r' H') as K'. destruct (linking_code (di_engine info) r') as [[c1 c2] d] eqn:E'. destruct K' as (m2 & R' & K').
    rewrite <- (says_unique _ _ _ _ S' K') in R'. destruct (C r m c1 c2 d H S R') as [Q1 Q2].
    destruct r, r'; cbn in E'; apply triple_inv in E'; destruct E' as (P1 & P2 & _); cbn in Q1, Q2; subst; try discriminate; reflexivity.
  - intros r m H S. split.
    + intros l F S'. pose proof (light_message info l F) as K. destruct (light_code (di_fw info) l) as [[c1 c2] d] eqn:E'. destruct K as (m2 & R' & K').
      rewrite <- (says_unique _ _ _ _ S' K') in R'. destruct (C r m c1 c2 d H S R') as [Q1 _].
      destruct r, l; cbn in E'; apply triple_inv in E'; destruct E' as (P1 & _); cbn in Q1; destruct (di_fw info <? 67); subst; discriminate.
    + intros t F S'. pose proof (therm_message info t F) as K. destruct (therm_code t) as [[c1 c2] d] eqn:E'. destruct K as (m2 & R' & K').
      rewrite <- (says_unique _ _ _ _ S' K') in R'. destruct (C r m c1 c2 d H S R') as [Q1 _].
      destruct r, t; try (destruct on); cbn [therm_code] in E'; apply triple_inv in E'; destruct E' as (P1 & _); cbn in Q1; subst; discriminate.
Qed.
Example C91_linking_case : let info := mkDI 0x112233 1 2 0x45 2 in linking_fits (KEnter 1) /\
  exists m, says info (linking_call (KEnter 1)) m /\ (m_cmd m / 256) mod 256 = 9 /\ m_cmd m mod 256 = 1 /\ ~ says info (linking_call (KUnlink 1)) m /\ ~ says info (light_call (LOn 1)) m.
Proof.
  intro info. assert (F : linking_fits (KEnter 1)) by (cbn; lia). assert (F2 : linking_fits (KUnlink 1)) by (cbn; lia). split; [exact F|].
  destruct (linking_message info _ F) as (m & (_ & H1 & H2 & _) & S). destruct (C91_linking info) as (_ & I & D). exists m. split; [exact S|]. split; [exact H1|]. split; [exact H2|]. split.
  - intro S'. discriminate (I _ _ _ F F2 S S').
  - apply (proj1 (D _ _ F S)). cbn. lia.
Qed.
(** Without the bounds two different requests are the same message: a level of 256 is a level of 0. *)
Theorem C91_bounds_refuted : exists info r r' m, r <> r' /\ says info (light_call r) m /\ says info (light_call r') m.
Proof.
  exists (mkDI 0x112233 1 2 3 2), (LOn 256), (LOn 0). destruct (proj1 (C91_lights (mkDI 0x112233 1 2 3 2)) (LOn 0)) as (m & H); [cbn; lia|].
  exists m. split; [discriminate|]. split; [exact H|exact H].
Qed.

Print Assumptions C91_lights.
Print Assumptions C91_thermostats.
Print Assumptions C91_linking.
Print Assumptions C91_bounds_refuted.
