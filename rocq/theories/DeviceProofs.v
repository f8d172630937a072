(** Proofs about devices/basic.go, devices/util.go, devices/connection.go. *)
From Coq Require Import ZArith List Bool Lia ZifyBool ZifyNat.
From Verif Require Import GoBase GoLemmas GoProg Command Message MessageSpec MessageProofs PlmPacket Plm PlmSpec PlmProofs MsgWriter FiltersSpec FiltersProofs BasicDevice Query DeviceSpec.
Import ListNotations.
Open Scope Z_scope.
Ltac Zify.zify_post_hook ::= Z.div_mod_to_equations.

Lemma sum_app : forall a b, sum (a ++ b) = sum a + sum b.
Proof. induction a as [|x a IH]; intro b; cbn [sum app]; [lia|]. rewrite IH. lia. Qed.

Lemma sum_repeat0 : forall n, sum (repeat 0 n) = 0.
Proof. induction n as [|n IH]; cbn [sum repeat]; lia. Qed.

Lemma command1_byte : forall c, is_byte (command1 c).
Proof. intro c. unfold command1, is_byte. change 0xff with (Z.ones 8). rewrite Z.land_ones by lia. apply Z.mod_pos_bound. lia. Qed.
Lemma command2_byte : forall c, is_byte (command2 c).
Proof. intro c. unfold command2, is_byte. change 0xff with (Z.ones 8). rewrite Z.land_ones by lia. apply Z.mod_pos_bound. lia. Qed.
Lemma command1_div : forall c, command1 c = (c / 256) mod 256.
Proof.
  intro c. unfold command1. change 0xff with (Z.ones 8). rewrite Z.land_ones by lia. rewrite Z.shiftr_div_pow2 by lia. reflexivity.
Qed.
Lemma command2_mod : forall c, command2 c = c mod 256.
Proof. intro c. unfold command2. change 0xff with (Z.ones 8). rewrite Z.land_ones by lia. reflexivity. Qed.

Lemma fold_sum : forall buf s, fold_left (fun s b => byte_of (s + b)) buf (byte_of s) = byte_of (s + sum buf).
Proof.
  induction buf as [|x buf IH]; intro s; cbn [fold_left sum]; [rewrite Z.add_0_r; reflexivity|].
  replace (byte_of (byte_of s + x)) with (byte_of (s + x)); [rewrite IH; f_equal; lia|]. unfold byte_of. lia.
Qed.

Lemma checksum_value : forall cmd buf, checksum cmd buf = (- (command1 cmd + command2 cmd + sum buf)) mod 256.
Proof.
  intros cmd buf. unfold checksum. rewrite fold_sum.
  set (s := command1 cmd + command2 cmd + sum buf).
  assert (H : Z.lxor (byte_of s) 0xff = 255 - byte_of s).
  { assert (Hs := sweep1 (fun b => Z.lxor b 0xff =? 255 - b) ltac:(vm_compute; reflexivity) (byte_of s) (byte_of_range s)). lia. }
  rewrite H. unfold byte_of. lia.
Qed.

Lemma set_checksum_snoc : forall cmd buf x, set_checksum cmd (buf ++ [x]) = buf ++ [(- (command1 cmd + command2 cmd + sum buf + x)) mod 256].
Proof.
  intros cmd buf x. unfold set_checksum. rewrite app_length. cbn [length]. replace (length buf + 1 - 1)%nat with (length buf) by lia.
  rewrite list_set_app_r. cbn [list_set]. rewrite checksum_value, sum_app. cbn [sum]. f_equal. f_equal. f_equal. lia.
Qed.

Lemma go_copy_zeros : forall n l, (length l <= n)%nat -> go_copy (zeros n) l = padded n l.
Proof.
  intros n l H. unfold padded, zeros. rewrite go_copy_spec, repeat_length. rewrite firstn_all2 by lia. f_equal.
  clear H. revert l. induction n as [|n IH]; intros [|x l]; cbn [length repeat skipn Nat.sub]; try reflexivity. apply IH.
Qed.

Lemma firstn_padded : forall n l, (length l <= n)%nat -> firstn (length l) (padded n l) = l.
Proof. intros n l H. unfold padded. rewrite firstn_app, Nat.sub_diag, firstn_all. cbn [firstn]. apply app_nil_r. Qed.

Lemma padded_length : forall n l, (length l <= n)%nat -> length (padded n l) = n.
Proof. intros n l H. unfold padded. rewrite app_length, repeat_length. lia. Qed.

Lemma padded_full : forall n l, length l = n -> padded n l = l.
Proof. intros n l H. unfold padded. rewrite H, Nat.sub_diag. cbn [repeat]. apply app_nil_r. Qed.

Lemma padded_sum : forall n l, sum (padded n l) = sum l.
Proof. intros n l. unfold padded. rewrite sum_app, sum_repeat0. lia. Qed.

Lemma padded_snoc : forall n l, (length l <= n)%nat -> padded (S n) l = padded n l ++ [0].
Proof.
  intros n l H. unfold padded. replace (S n - length l)%nat with (n - length l + 1)%nat by lia. rewrite repeat_app. cbn [repeat].
  rewrite app_assoc. reflexivity.
Qed.

(** What a device with checksums is sent. *)
Lemma outgoing_checksummed : forall info m, di_engine info = ver_I2Cs -> (0 < length (m_payload m) <= 14)%nat ->
  exists body x, padded 14 (m_payload m) = body ++ [x] /\ length body = 13%nat /\
  outgoing info m = mkMsg (m_src m) (di_addr info) fl_ExtendedDirectMessage (m_cmd m)
    (body ++ [(- (command1 (m_cmd m) + command2 (m_cmd m) + sum body + x)) mod 256]).
Proof.
  intros info m He Hl.
  assert (Hp : exists body x, padded 14 (m_payload m) = body ++ [x] /\ length body = 13%nat).
  { pose proof (padded_length 14 (m_payload m) ltac:(lia)) as H. destruct (exists_last (l := padded 14 (m_payload m))) as (b & x & E).
    - destruct (padded 14 (m_payload m)); [discriminate|congruence].
    - exists b, x. split; [exact E|]. rewrite E, app_length in H. cbn [length] in H. lia. }
  destruct Hp as (body & x & E & Eb). exists body, x. split; [exact E|]. split; [exact Eb|].
  unfold outgoing. rewrite He. change (ver_I2Cs =? ver_I2Cs) with true. cbn [m_payload m_src m_dst m_flags m_cmd].
  unfold with_checksum. cbn [m_payload m_src m_dst m_flags m_cmd].
  replace (0 <? zlen (m_payload m)) with true by (unfold zlen; lia).
  assert (Hq : (if zlen (m_payload m) <? 14 then go_copy (zeros 14) (m_payload m) else m_payload m) = body ++ [x]).
  { destruct (zlen (m_payload m) <? 14) eqn:Eq; unfold zlen in Eq.
    - rewrite go_copy_zeros by lia. exact E.
    - rewrite <- E. symmetry. apply padded_full. lia. }
  rewrite Hq, set_checksum_snoc. reflexivity.
Qed.

Lemma go_copy_full : forall n l, length l = n -> go_copy (zeros n) l = l.
Proof. intros n l H. rewrite go_copy_zeros by lia. apply padded_full. exact H. Qed.

Lemma addr_bytes_length : forall a, length (Address.addr_bytes a) = 3%nat.
Proof. reflexivity. Qed.

Lemma checked_part_ext : forall src dst cmd p, length p = 14%nat ->
  checked_part (mkMsg src dst fl_ExtendedDirectMessage cmd p) = [command1 cmd; command2 cmd] ++ p.
Proof.
  intros src dst cmd p H. unfold checked_part, msg_marshal. cbn [m_src m_dst m_flags m_cmd m_payload].
  change (fl_extended fl_ExtendedDirectMessage) with true. cbn iota. rewrite go_copy_full by exact H.
  rewrite !byte_of_id by (apply command1_byte || apply command2_byte).
  unfold Address.addr_bytes. cbn [app skipn]. reflexivity.
Qed.

Lemma outgoing_sum : forall info m, di_engine info = ver_I2Cs -> (0 < length (m_payload m) <= 14)%nat ->
  length (checked_part (outgoing info m)) = 16%nat /\
  sum (checked_part (outgoing info m)) mod 256 = (- nth 13 (padded 14 (m_payload m)) 0) mod 256.
Proof.
  intros info m He Hl. destruct (outgoing_checksummed info m He Hl) as (body & x & E & Eb & Ho). rewrite Ho.
  assert (Hq : forall y, length (body ++ [y]) = 14%nat) by (intro y; rewrite app_length; cbn [length]; lia).
  rewrite checked_part_ext by apply Hq. split; [cbn [app length]; rewrite Hq; reflexivity|].
  rewrite E. rewrite app_nth2 by lia. rewrite Eb. cbn [Nat.sub nth]. rewrite sum_app. cbn [sum]. rewrite sum_app. cbn [sum].
  set (s := sum body). lia.
Qed.

(** Reading until an announcement. *)
Lemma announcement_matcher : forall m,
  or_matcher [cmd_matcher c_SetButtonPressedResponder; cmd_matcher c_SetButtonPressedController] m = true <-> is_announcement m.
Proof.
  intro m. cbn [or_matcher]. unfold cmd_matcher, cmd_matches, is_announcement. rewrite (command1_div (m_cmd m)).
  change (command1 c_SetButtonPressedResponder) with 1. change (command1 c_SetButtonPressedController) with 2.
  set (x := (m_cmd m / 256) mod 256). destruct (1 =? x) eqn:E1; destruct (2 =? x) eqn:E2; lia.
Qed.

Lemma announces_fields : forall m, announces m (byte_of (Z.shiftr (m_dst m) 16)) (byte_of (Z.shiftr (m_dst m) 8)) (byte_of (m_dst m)).
Proof.
  intro m. unfold announces. split; [apply byte_of_range|]. split; [apply byte_of_range|]. split; [apply byte_of_range|].
  rewrite !Z.shiftr_div_pow2 by lia. unfold byte_of. change (2 ^ 24) with 16777216. change (2 ^ 16) with 65536. change (2 ^ 8) with 256. lia.
Qed.

Lemma announces_unique : forall m a b c a' b' c', announces m a b c -> announces m a' b' c' -> a = a' /\ b = b' /\ c = c'.
Proof. intros m a b c a' b' c' (H1 & H2 & H3 & H4) (H5 & H6 & H7 & H8). unfold is_byte in *. rewrite H4 in H8. clear H4. lia. Qed.

(** ** Over the modem *)

Lemma write_packet_not_dev_nak : forall sc pkt st a st', port_never_naks sc -> plm_write_packet sc pkt st <> (Ret (a, Some EDevNak), st').
Proof.
  intros sc pkt st a st' Hp H. unfold plm_write_packet in H.
  destruct (port_write sc st (pkt_marshal pkt)) as [[e|] st1] eqn:E1.
  - injection H as _ -> _. unfold port_write in E1. injection E1 as E1 _. apply (Hp _ E1).
  - unfold plm_read_packet in H. destruct (receive sc QPkt st1) as [[p| |] st2] eqn:E2; try discriminate.
    apply pair_equal_spec in H. destruct H as [H _]. unfold judge_ack in H.
    match type of H with bindo ?x _ = _ => destruct x as [y| |] eqn:Ex; cbn [bindo] in H; try discriminate end.
    destruct (pkt_is_nak p); [discriminate|]. injection H as _ ->.
    destruct (negb (pkt_is_ack p) && negb false); [discriminate|].
    destruct (negb (p_cmd p =? p_cmd pkt)); [discriminate|].
    destruct (negb (p_cmd p =? pc_GetInfo) && negb (p_cmd p =? pc_GetConfig)); [|discriminate].
    destruct (p_cmd p =? pc_SendInsteonMsg).
    + destruct (zlen (p_payload p) <? 3); [discriminate|]. destruct (bytes_eqb _ _); discriminate.
    + destruct (bytes_eqb _ _); discriminate.
Qed.

Lemma retry_not_dev_nak : forall sc n nak pkt last st a st', port_never_naks sc -> snd last <> Some EDevNak ->
  retry_loop (plm_pw sc) n nak pkt last st <> (Ret (a, Some EDevNak), st').
Proof.
  intros sc n nak pkt. induction n as [|n IH]; intros last st a st' Hp Hl H; cbn [retry_loop] in H.
  - injection H as H _. rewrite H in Hl. apply Hl. reflexivity.
  - cbn [plm_pw pw_write] in H. destruct (plm_write_packet sc pkt st) as [[[b e]| |] st1] eqn:E; try discriminate.
    assert (He : e <> Some EDevNak) by (intros ->; apply (write_packet_not_dev_nak _ _ _ _ _ Hp E)).
    destruct ((err_is e EPlmNak && nak) || err_is e EPlmReadTimeout).
    + apply (IH (b, e) st1 a st' Hp He H).
    + injection H as _ H _. congruence.
Qed.

Lemma await_ack_sound : forall fuel sc dst st r st', sched_all from_reader sc -> no_end sc -> sound st ->
  await_ack fuel sc dst st = (r, st') -> sound st' /\ r <> Panic /\ r <> Ret (None, None) /\ r <> Ret (None, Some EDevNak).
Proof.
  induction fuel as [|fuel IH]; intros sc dst st r st' Hs Hn Hst H; cbn [await_ack] in H.
  - pair_inv H. split; [exact Hst|]. split; [discriminate|split; discriminate].
  - unfold plm_read in H. destruct (receive sc QMsg st) as [x st1] eqn:Er. destruct Hst as [Hq Hc].
    destruct (receive_all _ _ _ _ _ _ Hs Hq Er) as [Q1 _]. destruct (receive_open _ _ _ _ _ Hn Hc Er) as [C1 C2].
    destruct x as [p| |]; [|congruence|].
    + destruct (msg_unmarshal msg_zero (p_payload p)) as [m [e|]].
      * pair_inv H. split; [split; assumption|]. split; [discriminate|split; discriminate].
      * destruct ((m_src m =? dst) && (fl_ack (m_flags m) || fl_nak (m_flags m))).
        -- pair_inv H. split; [split; assumption|]. split; [discriminate|split; discriminate].
        -- apply (IH sc dst st1 r st' Hs Hn); [split; assumption|exact H].
    + pair_inv H. split; [split; assumption|]. split; [discriminate|split; discriminate].
Qed.

Lemma plm_write_sound : forall fuel sc msg st r st', sched_all from_reader sc -> no_end sc -> port_never_naks sc -> sound st -> 0 <= p_retries st ->
  plm_write fuel sc msg st = (r, st') -> sound st' /\ r <> Panic /\ r <> Ret (None, None) /\ r <> Ret (None, Some EDevNak).
Proof.
  intros fuel sc msg st r st' Hs Hn Hp Hst Hr H. unfold plm_write in H.
  destruct (pw_write (retry (plm_pw sc) (p_retries st) true) (mkPkt pc_SendInsteonMsg (skipn 3 (msg_marshal msg)) 0) st) as [o st1] eqn:E.
  unfold retry in E. cbn [pw_write] in E.
  destruct (retry_sound _ _ _ _ _ _ _ _ Hs Hn Hst E) as (H1 & x & ->). destruct x as [a [e|]].
  - pair_inv H. split; [exact H1|]. split; [discriminate|]. split; [discriminate|]. intro H. injection H as ->.
    refine (retry_not_dev_nak _ _ _ _ (None, None) _ _ _ Hp _ E); discriminate.
  - apply (await_ack_sound _ _ _ _ _ _ Hs Hn H1 H).
Qed.
