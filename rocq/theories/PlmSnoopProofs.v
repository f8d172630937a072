(** Proofs about snooping. *)
From Coq Require Import ZArith List Bool Lia ZifyBool ZifyNat.
From Verif Require Import GoBase GoLemmas Message MessageSpec MessageProofs PlmPacket PlmReader PlmReaderSpec PlmReaderProofs CodecProofs
  PlmSnoop PlmSnoopSpec.
Import ListNotations.
Open Scope Z_scope.
Ltac Zify.zify_post_hook ::= Z.div_mod_to_equations.

(** The loop keeps the wanted packets of those read. *)
Lemma snoop_loop_filter : forall n fuel ign b ps e b', pr_read_packets n fuel ign b = (Ret (ps, e), b') ->
  snoop_loop n fuel ign b = (Ret (filter snoop_wanted ps, e), b').
Proof.
  induction n as [|n IH]; intros fuel ign b ps e b' H; cbn [pr_read_packets snoop_loop] in *.
  - injection H as <- <- <-. reflexivity.
  - destruct (pr_read_packet fuel ign b) as [[[p|e1]| |] b1]; try discriminate.
    + destruct (pr_read_packets n fuel ign b1) as [[[ps1 e1]| |] b2] eqn:E; try discriminate.
      injection H as <- <- <-. rewrite (IH _ _ _ _ _ _ E). cbn [filter]. reflexivity.
    + injection H as <- <- <-. reflexivity.
Qed.

Lemma snoop_loop_no_panic : forall n fuel ign b b', bytes_ok (stream b) -> snoop_loop n fuel ign b <> (Panic, b').
Proof.
  intros n fuel ign b b' Hok H.
  assert (HP : exists b2, pr_read_packets n fuel ign b = (Panic, b2)).
  { clear Hok. revert b b' H. induction n as [|n IH]; intros b b' H; cbn [pr_read_packets snoop_loop] in *; [discriminate|].
    destruct (pr_read_packet fuel ign b) as [[[p|e1]| |] b1]; try discriminate.
    - destruct (snoop_loop n fuel ign b1) as [[[ps1 e1]| |] b2] eqn:E; try discriminate.
      destruct (IH _ _ E) as [b3 ->]. eauto.
    - eauto. }
  destruct HP as [b2 HP]. exact (read_packets_no_panic _ _ _ _ _ Hok HP).
Qed.

Lemma line_message_read : forall b m cmd a, line_message b m -> snoop_read (mkPkt cmd b a) = (m, None).
Proof.
  intros b m cmd a H. destruct H as [src dst f c1 c2 data b k e left max HL HF].
  unfold snoop_read. cbn [p_payload].
  pose proof (msg_unmarshal_layout msg_zero _ _ _ _ _ _ _ [] HL) as HU. rewrite app_nil_r in HU. rewrite HU.
  destruct HL as (s2 & s1 & s0 & d2 & d1 & d0 & _ & _ & _ & _ & _ & _ & Hf & Hc1 & Hc2 & _ & _ & _ & Hlen & _).
  rewrite (cmd_from_layout _ _ _ _ _ _ _ HF Hc1 Hc2).
  f_equal. f_equal. destruct ((f / 16) mod 2 =? 1); [reflexivity|].
  destruct data; [reflexivity|discriminate].
Qed.

(** One frame at a time. *)
Lemma shown_packet : forall cmd body p ms, decodes false cmd body p -> modem_shown cmd body ms ->
  map snoop_read (filter snoop_wanted [p]) = map (fun m => (m, None)) ms.
Proof.
  intros cmd body p ms Hd Hs. destruct Hs as [cmd body ms Hne Ht|front|front ack m Ha Hm].
  - destruct Ht as [body m Hm|body m Hm|cmd body H1 H2].
    + inversion Hd; subst; try lia. cbn. rewrite (line_message_read _ _ _ _ Hm). reflexivity.
    + inversion Hd; subst; try lia. cbn. rewrite (line_message_read _ _ _ _ Hm). reflexivity.
    + assert (Hw : snoop_wanted p = false).
      { unfold snoop_wanted, pc_StdMsgReceived, pc_ExtMsgReceived, pc_SendInsteonMsg.
        inversion Hd; subst; cbn [p_cmd]; try lia. }
      cbn [filter]. rewrite Hw. reflexivity.
  - rewrite (decodes_fun _ _ _ _ _ Hd (dec_echo false _ _ eq_refl)). reflexivity.
  - rewrite (decodes_fun _ _ _ _ _ Hd (dec_echo false _ _ eq_refl)).
    assert (Hw : snoop_wanted (mkPkt 98 ([0; 0; 0] ++ front) ack) = true).
    { unfold snoop_wanted, pkt_is_ack. cbn [p_cmd p_ack]. change (96 <=? 98) with true.
      replace (ack =? 6) with false by lia. reflexivity. }
    cbn [filter]. rewrite Hw. cbn [map]. rewrite (line_message_read _ _ _ _ Hm). reflexivity.
Qed.

Lemma sent_packet : forall cmd body p ms, 0x61 <= cmd <= 0x64 -> decodes true cmd body p -> host_traffic cmd body ms ->
  map snoop_read (filter snoop_wanted [p]) = map (fun m => (m, None)) ms.
Proof.
  intros cmd body p ms Hc Hd Ht. destruct Ht as [body m Hm|cmd body Hne].
  - inversion Hd; subst; try lia; try discriminate. cbn [filter snoop_wanted p_cmd].
    change (snoop_wanted (mkPkt 98 ([0; 0; 0] ++ body) 0)) with true. cbn iota. cbn [map].
    rewrite (line_message_read _ _ _ _ Hm). reflexivity.
  - assert (Hw : snoop_wanted p = false).
    { unfold snoop_wanted, pc_StdMsgReceived, pc_ExtMsgReceived, pc_SendInsteonMsg.
      inversion Hd; subst; cbn [p_cmd]; try lia. }
    cbn [filter]. rewrite Hw. reflexivity.
Qed.

Lemma packets_traffic : forall host (shown : Z -> list Z -> list message -> Prop) (ok : Z -> Prop),
  (forall cmd body p ms, ok cmd -> decodes host cmd body p -> shown cmd body ms ->
     map snoop_read (filter snoop_wanted [p]) = map (fun m => (m, None)) ms) ->
  forall (items : list (list Z * Z * list Z)) ps mss,
  Forall (fun it => match it with (_, cmd, _) => ok cmd end) items ->
  Forall2 (fun it p => match it with (_, cmd, body) => decodes host cmd body p end) items ps ->
  Forall2 (fun it ms => match it with (_, cmd, body) => shown cmd body ms end) items mss ->
  map snoop_read (filter snoop_wanted ps) = map (fun m => (m, None)) (concat mss).
Proof.
  intros host shown ok Hone items ps mss Hok Hps. revert mss.
  induction Hps as [|[[pre cmd] body] p items ps Hp Hps IH]; intros mss Hmss.
  - inversion Hmss; subst. reflexivity.
  - inversion Hmss as [|? ms ? mss' Hm Hms]; subst. inversion Hok as [|? ? Hc Hok']; subst.
    cbn [concat]. rewrite map_app, <- (IH Hok' _ Hms), <- (Hone _ _ _ _ Hc Hp Hm).
    change (p :: ps) with ([p] ++ ps). rewrite filter_app, map_app. reflexivity.
Qed.

Lemma host_rx_frame : forall cmd body, 0x61 <= cmd <= 0x64 -> host_frame cmd body -> rx_frame true cmd body.
Proof.
  intros cmd body Hc H. destruct H as [cmd body n Hn Hl|a b c f c1 c2 data Hd Hf].
  - assert (Hcs : cmd = 0x61 \/ cmd = 0x62 \/ cmd = 0x63 \/ cmd = 0x64) by lia.
    destruct Hcs as [->|[->|[->| ->]]]; cbn in Hn; try discriminate; injection Hn as <-;
      (eapply rx_plain; [reflexivity|lia|exact Hl]).
  - rewrite <- (app_nil_r data) at 1. apply (rx_message true); auto.
Qed.


Lemma modem_shows : forall items tail mss fuel b n,
  bytes_ok (stream b) -> (length (stream b) < fuel)%nat -> stream b = session items tail ->
  Forall (fun it => match it with (noise, cmd, body) => gap noise /\ modem_frame cmd body end) items ->
  gap tail -> last tail 0 <> 0x02 -> (length items < n)%nat ->
  Forall2 (fun it ms => match it with (_, cmd, body) => modem_shown cmd body ms end) items mss ->
  exists ps b', snoop_tx_loop n fuel b = (Ret (ps, Some (b_end b)), b') /\
    map snoop_read ps = map (fun m => (m, None)) (concat mss).
Proof.
  intros items tail mss fuel b n H1 H2 H3 H4 H5 H6 H7 H8.
  destruct (read_packets_session items tail false fuel b n H1 H2 H3 H4 H5 H6 H7) as (ps & b' & HR & HD & _).
  exists (filter snoop_wanted ps), b'. split; [apply snoop_loop_filter; exact HR|].
  apply (packets_traffic false modem_shown (fun _ => True)) with (items := items); auto.
  - intros cmd body p ms _. apply shown_packet.
  - apply Forall_forall. intros [[? ?] ?] _. exact I.
Qed.

Lemma host_shows : forall items tail mss fuel b n,
  bytes_ok (stream b) -> (length (stream b) < fuel)%nat -> stream b = session items tail ->
  Forall (fun it => match it with (noise, cmd, body) => gap noise /\ host_frame cmd body /\ 0x61 <= cmd <= 0x64 end) items ->
  gap tail -> last tail 0 <> 0x02 -> (length items < n)%nat ->
  Forall2 (fun it ms => match it with (_, cmd, body) => host_traffic cmd body ms end) items mss ->
  exists ps b', snoop_rx_loop n fuel b = (Ret (ps, Some (b_end b)), b') /\
    map snoop_read ps = map (fun m => (m, None)) (concat mss).
Proof.
  intros items tail mss fuel b n H1 H2 H3 H4 H5 H6 H7 H8.
  assert (H4' : Forall (fun it => match it with (noise, cmd, body) => gap noise /\ rx_frame true cmd body end) items).
  { eapply Forall_impl; [|exact H4]. intros [[noise cmd] body] (Hg & Hf & Hc). split; [exact Hg|].
    apply host_rx_frame; auto. }
  destruct (read_packets_session items tail true fuel b n H1 H2 H3 H4' H5 H6 H7) as (ps & b' & HR & HD & _).
  exists (filter snoop_wanted ps), b'. split; [apply snoop_loop_filter; exact HR|].
  apply (packets_traffic true host_traffic (fun c => 0x61 <= c <= 0x64)) with (items := items); auto.
  - apply sent_packet.
  - eapply Forall_impl; [|exact H4]. intros [[noise cmd] body] (_ & _ & Hc). exact Hc.
Qed.

(** ** The channel *)
Lemma merge_left_nil : forall A (l : list A), merge l [] l.
Proof. induction l; constructor; auto. Qed.
Lemma merge_app_left : forall A (l r m : list A) a, merge l r m -> merge (l ++ [a]) r (m ++ [a]).
Proof.
  intros A l r m a H. induction H; cbn [app]; [apply merge_left; constructor|apply merge_left; auto|apply merge_right; auto].
Qed.
Lemma merge_app_right : forall A (l r m : list A) a, merge l r m -> merge l (r ++ [a]) (m ++ [a]).
Proof.
  intros A l r m a H. induction H; cbn [app]; [apply merge_right; constructor|apply merge_left; auto|apply merge_right; auto].
Qed.
Lemma merge_map : forall A B (f : A -> B) l r m, merge l r m -> merge (map f l) (map f r) (map f m).
Proof. intros A B f l r m H. induction H; cbn [map]; constructor; auto. Qed.
Lemma merge_in : forall A (l r m : list A) x, merge l r m -> In x m <-> In x l \/ In x r.
Proof.
  intros A l r m x H. induction H as [|a l r m H IH|a l r m H IH]; cbn [In]; [tauto| |]; rewrite IH; tauto.
Qed.

Lemma snoop_run_invariant : forall acts rx tx s r0 t0 x,
  (exists done, merge r0 t0 (done ++ sn_buf s) /\ sn_out s = map snoop_read done /\ x = done) ->
  r0 ++ sn_rx s = rx -> t0 ++ sn_tx s = tx ->
  forall s', snoop_run acts s = Some s' ->
  exists r1 t1 done, r1 ++ sn_rx s' = rx /\ t1 ++ sn_tx s' = tx /\ merge r1 t1 (done ++ sn_buf s') /\
    sn_out s' = map snoop_read done.
Proof.
  induction acts as [|a acts IH]; intros rx tx s r0 t0 x (done & Hm & Ho & Hx) Hr Ht s' H; cbn [snoop_run] in H.
  - injection H as <-. exists r0, t0, done. auto.
  - destruct (snoop_do a s) as [s1|] eqn:E; [|discriminate].
    unfold snoop_do in E. destruct a.
    + destruct (sn_rx s) as [|p t] eqn:Erx; [discriminate|].
      destruct (Nat.ltb (length (sn_buf s)) snoop_cap); [|discriminate]. injection E as <-.
      eapply (IH rx tx _ (r0 ++ [p]) t0 done); [..|exact H]; cbn [sn_rx sn_tx sn_buf sn_out].
      * exists done. split; [|auto]. rewrite app_assoc. apply merge_app_left. exact Hm.
      * rewrite <- app_assoc. exact Hr.
      * exact Ht.
    + destruct (sn_tx s) as [|p t] eqn:Etx; [discriminate|].
      destruct (Nat.ltb (length (sn_buf s)) snoop_cap); [|discriminate]. injection E as <-.
      eapply (IH rx tx _ r0 (t0 ++ [p]) done); [..|exact H]; cbn [sn_rx sn_tx sn_buf sn_out].
      * exists done. split; [|auto]. rewrite app_assoc. apply merge_app_right. exact Hm.
      * exact Hr.
      * rewrite <- app_assoc. exact Ht.
    + destruct (sn_buf s) as [|p t] eqn:Ebuf; [discriminate|].
      destruct (listening s); [|discriminate]. injection E as <-.
      eapply (IH rx tx _ r0 t0 (done ++ [p])); [..|exact H]; cbn [sn_rx sn_tx sn_buf sn_out].
      * exists (done ++ [p]). split; [|split; [|reflexivity]].
        -- rewrite <- app_assoc. exact Hm.
        -- rewrite map_app, Ho. reflexivity.
      * exact Hr.
      * exact Ht.
Qed.

Lemma snoop_order : forall acts rx tx s', snoop_run acts (snoop_start rx tx) = Some s' ->
  exists r1 t1 done, rx = r1 ++ sn_rx s' /\ tx = t1 ++ sn_tx s' /\ merge r1 t1 (done ++ sn_buf s') /\
    sn_out s' = map snoop_read done.
Proof.
  intros acts rx tx s' H.
  destruct (snoop_run_invariant acts rx tx (snoop_start rx tx) [] [] []) with (s' := s')
    as (r1 & t1 & done & H1 & H2 & H3 & H4); auto.
  - exists []. repeat split; constructor.
  - exists r1, t1, done. auto.
Qed.


Lemma snoop_stuck_done : forall s, snoop_stuck s -> listening s = true ->
  sn_rx s = [] /\ sn_tx s = [] /\ sn_buf s = [].
Proof.
  intros s Hs Hl. pose proof (Hs ARead) as Hr. cbn [snoop_do] in Hr.
  destruct (sn_buf s) as [|p t] eqn:Eb; [|rewrite Hl in Hr; discriminate].
  pose proof (Hs ARx) as H1. pose proof (Hs ATx) as H2. cbn [snoop_do] in H1, H2. rewrite Eb in H1, H2.
  change (Nat.ltb (@length packet []) snoop_cap) with true in H1, H2.
  destruct (sn_rx s); [|discriminate]. destruct (sn_tx s); [|discriminate]. auto.
Qed.

Lemma snoop_bounded : forall acts s s', snoop_run acts s = Some s' ->
  (length acts + 2 * (length (sn_rx s') + length (sn_tx s')) + length (sn_buf s') =
   2 * (length (sn_rx s) + length (sn_tx s)) + length (sn_buf s))%nat.
Proof.
  induction acts as [|a acts IH]; intros s s' H; cbn [snoop_run] in H; [injection H as <-; cbn; lia|].
  destruct (snoop_do a s) as [s1|] eqn:E; [|discriminate]. specialize (IH _ _ H).
  unfold snoop_do in E. destruct a.
  - destruct (sn_rx s); [discriminate|]. destruct (Nat.ltb _ _); [|discriminate]. injection E as <-.
    cbn [sn_rx sn_tx sn_buf length] in *. rewrite app_length in IH. cbn [length] in IH. lia.
  - destruct (sn_tx s); [discriminate|]. destruct (Nat.ltb _ _); [|discriminate]. injection E as <-.
    cbn [sn_rx sn_tx sn_buf length] in *. rewrite app_length in IH. cbn [length] in IH. lia.
  - destruct (sn_buf s); [discriminate|]. destruct (listening s); [|discriminate]. injection E as <-.
    cbn [sn_rx sn_tx sn_buf length] in *. lia.
Qed.

(** All packets decode: everything arrives. *)
Lemma snoop_all_arrives : forall rx tx rms tms acts s',
  map snoop_read rx = map (fun m => (m, None)) rms -> map snoop_read tx = map (fun m => (m, None)) tms ->
  snoop_run acts (snoop_start rx tx) = Some s' -> snoop_stuck s' ->
  exists ms, merge rms tms ms /\ sn_out s' = map (fun m => (m, None)) ms.
Proof.
  intros rx tx rms tms acts s' Hr Ht Hrun Hst.
  destruct (snoop_order _ _ _ _ Hrun) as (r1 & t1 & done & Hrx & Htx & Hm & Ho).
  assert (Hgood : forall p, In p rx \/ In p tx -> snd (snoop_read p) = None).
  { intros p [Hp|Hp]; apply (in_map snoop_read) in Hp; [rewrite Hr in Hp|rewrite Ht in Hp];
      apply in_map_iff in Hp; destruct Hp as (m & <- & _); reflexivity. }
  assert (Hl : listening s' = true).
  { unfold listening. rewrite Ho. apply forallb_forall. intros r Hin. apply in_map_iff in Hin.
    destruct Hin as (p & <- & Hp). rewrite Hgood; [reflexivity|].
    assert (Hin : In p (done ++ sn_buf s')) by (apply in_or_app; auto).
    apply (merge_in _ _ _ _ p Hm) in Hin. rewrite Hrx, Htx. destruct Hin; [left|right]; apply in_or_app; auto. }
  destruct (snoop_stuck_done _ Hst Hl) as (E1 & E2 & E3). rewrite E1, app_nil_r in Hrx. rewrite E2, app_nil_r in Htx.
  rewrite E3, app_nil_r in Hm. subst r1 t1.
  exists (map fst (sn_out s')). split.
  - rewrite Ho. apply (merge_map _ _ snoop_read) in Hm. rewrite Hr, Ht in Hm. apply (merge_map _ _ fst) in Hm.
    assert (Hid : forall l : list message, map fst (map (fun m => (m, @None error)) l) = l)
      by (intros l; rewrite map_map; cbn [fst]; apply map_id).
    rewrite !Hid in Hm. exact Hm.
  - rewrite map_map. symmetry. rewrite <- (map_id (sn_out s')) at 2. apply map_ext_in. intros [m e] Hin. cbn [fst].
    f_equal. unfold listening in Hl. rewrite forallb_forall in Hl. specialize (Hl _ Hin). cbn [snd] in Hl.
    destruct e; [discriminate|reflexivity].
Qed.

(** ** Messages lost from the host's side *)
Lemma gap_app_inv : forall l, gap l -> last l 0 <> 0x02 -> forall fuel b n, bytes_ok (stream b) ->
  (length (stream b) < fuel)%nat -> stream b = l -> (0 < n)%nat ->
  exists b', snoop_rx_loop n fuel b = (Ret ([], Some (b_end b)), b').
Proof.
  intros l Hg Hl fuel b n Hok Hf Hs Hn.
  destruct (read_packets_session [] l true fuel b n Hok Hf) as (ps & b' & HR & HD & _); auto.
  inversion HD; subst. exists b'. apply (snoop_loop_filter _ _ _ _ _ _ _ HR).
Qed.

Lemma late_command_eats : forall cmd body msg fuel b n, 0x65 <= cmd -> host_frame cmd body ->
  bytes_ok (stream b) -> (length (stream b) < fuel)%nat ->
  stream b = frame_bytes cmd body ++ 0x02 :: msg -> cmd <> 0x73 -> gap msg -> last msg 0 <> 0x02 -> (1 < n)%nat ->
  exists b', snoop_rx_loop n fuel b = (Ret ([], Some (b_end b)), b').
Proof.
  intros cmd body msg fuel b n Hc Hh Hok Hf Hs Hne Hg Hl Hn.
  destruct Hh as [cmd body k Hk Hlen|]; [|lia].
  assert (Hrx : rx_frame true cmd (body ++ [0x02])).
  { assert (Hfs : frame_size cmd = Some (S k)).
    { clear - Hk Hne Hc. pose proof (frame_size_big cmd) as HB.
      destruct (Z.ltb_spec cmd 256) as [Hlt|Hge].
      - assert (Hcases : cmd = 0x65 \/ cmd = 0x66 \/ cmd = 0x67 \/ cmd = 0x68 \/ cmd = 0x69 \/ cmd = 0x6a \/ cmd = 0x6b \/
          cmd = 0x6c \/ cmd = 0x6d \/ cmd = 0x6e \/ cmd = 0x6f \/ cmd = 0x70 \/ cmd = 0x71 \/ cmd = 0x72 \/ 0x74 <= cmd) by lia.
        repeat (destruct Hcases as [-> |Hcases]; [cbn in Hk |- *; congruence|]).
        exfalso. pose proof (sweep1 (fun c => (c <? 0x74) || match host_size c with None => true | _ => false end)
          ltac:(vm_compute; reflexivity) cmd ltac:(unfold is_byte; lia)) as HS. cbv beta in HS. rewrite Hk in HS. lia.
      - exfalso. clear - Hk Hge. destruct cmd as [|p|p]; try lia. do 7 (destruct p as [p|p|]; try discriminate; try lia). }
    apply (rx_plain true cmd _ (S k)); [exact Hfs|lia|].
    replace (true && (96 <=? cmd) && (cmd <=? 100)) with false by lia.
    rewrite app_length. cbn [length].
    assert (2 <= k)%nat by (destruct k as [|[|k]]; [| |lia];
      exfalso; clear - Hfs Hlen Hk; revert Hk; unfold host_size; destruct cmd as [|p|p]; try discriminate;
      do 7 (destruct p as [p|p|]; try discriminate)). lia. }
  destruct (read_packets_session [([], cmd, body ++ [0x02])] msg true fuel b n Hok Hf) as (ps & b' & HR & HD & _); auto.
  - cbn [flat_map item_bytes app]. rewrite Hs, app_nil_r. unfold frame_bytes. cbn [app]. rewrite <- app_assoc. reflexivity.
  - constructor; [|constructor]. split; [|exact Hrx]. intros j (c & t & Hj & _). rewrite skipn_nil in Hj. discriminate.
  - exists b'. apply snoop_loop_filter in HR. unfold snoop_rx_loop. rewrite HR.
    inversion HD as [|? p ? ps' Hp Hps]; subst. inversion Hps; subst.
    assert (Hw : snoop_wanted p = false).
    { unfold snoop_wanted, pc_StdMsgReceived, pc_ExtMsgReceived, pc_SendInsteonMsg.
      inversion Hp; subst; cbn [p_cmd]; lia. }
    cbn [filter]. rewrite Hw. reflexivity.
Qed.
