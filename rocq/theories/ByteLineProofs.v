(** From the bytes of the serial port to the packets of the model. *)
From Coq Require Import ZArith List Bool Lia ZifyBool ZifyNat.
From Verif Require Import GoBase GoProg Address AddressProofs Command Message MessageSpec MessageProofs MsgWriter BasicDevice DeviceSpec DevReqSpec DevReqProofs
  PlmPacket PlmReader PlmReaderSpec PlmReaderProofs CodecProofs Plm PlmSpec PlmProofs LineSpec LineProofs LinkLineProofs ByteLine ByteLineSpec.
Import ListNotations.
Open Scope Z_scope.
Ltac Zify.zify_post_hook ::= Z.div_mod_to_equations.

Notation piece := (fun (it : list Z * Z * list Z) (p : packet) => match it with (noise, cmd, body) => gap noise /\ modem_frame cmd body /\ decodes false cmd body p end).

Lemma reads_nil : reads_as [] [] [].
Proof.
  exists []. split; [reflexivity|]. split; [constructor|]. intros (n & c & b & r & H & _). destruct n; discriminate H.
Qed.
Lemma bytes_ok_app : forall a b, bytes_ok (a ++ b) <-> bytes_ok a /\ bytes_ok b.
Proof. intros. unfold bytes_ok. apply Forall_app. Qed.
Lemma drain_go_reads : forall n bs ps r, bytes_ok bs -> (length bs < n)%nat -> drain_go n bs = (ps, r) -> reads_as bs ps r.
Proof.
  induction n as [|n IH]; intros bs ps r Hok Hn H; [lia|]. cbn [drain_go] in H.
  set (b := mkBuf [] None [bs] EEOF) in *. assert (Hs : stream b = bs) by (unfold stream, b; cbn; rewrite app_nil_r; reflexivity).
  assert (Hok' : bytes_ok (stream b)) by (rewrite Hs; exact Hok). assert (Hl : (length (stream b) < S (length bs))%nat) by (rewrite Hs; lia).
  destruct (read_packet_cases (S (length bs)) false b Hok' Hl)
    as [(pre & c & body & rest & p & b' & E & G & F & D & R & S1 & _)|[(e & b' & N & _ & R & _)|R]].
  - rewrite R in H. destruct (drain_go n (b_buf b' ++ concat (b_chunks b'))) as [ps1 r1] eqn:E1. injection H as <- <-.
    unfold stream in S1. rewrite S1 in E1. rewrite Hs in E.
    assert (Hr : bytes_ok rest /\ (length rest < n)%nat).
    { rewrite E in Hok, Hn. apply bytes_ok_app in Hok. destruct Hok as [_ Hok]. apply bytes_ok_app in Hok. split; [apply Hok|]. rewrite !app_length in Hn. unfold frame_bytes in Hn. cbn [length] in Hn. lia. }
    destruct Hr as [Hr1 Hr2]. destruct (IH _ _ _ Hr1 Hr2 E1) as (items & A & B & C). exists ((pre, c, body) :: items).
    split; [rewrite E, A; cbn [flat_map]; rewrite <- !app_assoc; reflexivity|]. split; [constructor; auto|exact C].
  - rewrite R in H. injection H as <- <-. exists []. split; [reflexivity|]. split; [constructor|].
    intros (n0 & c & bd & rs & X1 & X2 & X3). apply (N n0 c bd rs); auto. rewrite Hs. exact X1.
  - destruct R as (_ & _ & b1 & R). rewrite R in H. injection H as <- <-. exists []. split; [reflexivity|]. split; [constructor|].
    intros (n0 & c & bd & rs & X1 & X2 & X3). rewrite <- Hs in X1. destruct (read_packet_frame _ _ _ _ _ _ _ Hok' Hl X1 X2 X3) as (p & b2 & X4 & _). congruence.
Qed.
Lemma drain_reads : forall bs ps r, bytes_ok bs -> drain bs = (ps, r) -> reads_as bs ps r.
Proof. intros bs ps r Hok H. apply (drain_go_reads _ _ _ _ Hok (Nat.lt_succ_diag_r _) H). Qed.

(** A stream can be read in one way only. *)
Lemma piece_unique : forall n1 c1 b1 r1 n2 c2 b2 r2 p1 p2, bytes_ok (n1 ++ frame_bytes c1 b1 ++ r1) -> n1 ++ frame_bytes c1 b1 ++ r1 = n2 ++ frame_bytes c2 b2 ++ r2 ->
  gap n1 -> gap n2 -> modem_frame c1 b1 -> modem_frame c2 b2 -> decodes false c1 b1 p1 -> decodes false c2 b2 p2 -> p1 = p2 /\ r1 = r2.
Proof.
  intros n1 c1 b1 r1 n2 c2 b2 r2 p1 p2 Hok E G1 G2 F1 F2 D1 D2.
  set (l := n1 ++ frame_bytes c1 b1 ++ r1) in *. set (b := mkBuf [] None [l] EEOF). assert (Hs : stream b = l) by (unfold stream, b; cbn; rewrite app_nil_r; reflexivity).
  assert (Hok' : bytes_ok (stream b)) by (rewrite Hs; exact Hok). assert (Hl : (length (stream b) < S (length l))%nat) by (rewrite Hs; lia).
  destruct (read_packet_frame (S (length l)) false b n1 c1 b1 r1 Hok' Hl Hs G1 F1) as (q1 & x1 & R1 & Q1 & S1 & _).
  destruct (read_packet_frame (S (length l)) false b n2 c2 b2 r2 Hok' Hl (eq_trans Hs E) G2 F2) as (q2 & x2 & R2 & Q2 & S2 & _).
  rewrite R1 in R2. injection R2 as <- <-. rewrite S1 in S2. split; [|exact S2].
  rewrite (decodes_fun _ _ _ _ _ D1 Q1). symmetry. apply (decodes_fun _ _ _ _ _ D2 Q2).
Qed.
Lemma reads_unique : forall l ps r ps' r', bytes_ok l -> reads_as l ps r -> reads_as l ps' r' -> ps = ps' /\ r = r'.
Proof.
  intros l ps r ps' r' Hok (items & E & F & N) (items' & E' & F' & N'). revert items' l ps' Hok E E' F'. induction F as [|[[n c] b] p items ps (G & M & D) F IH]; intros items' l ps' Hok E E' F'.
  - cbn [flat_map app] in E. destruct F' as [|[[n' c'] b'] p' items' ps' (G' & M' & D') F']; [cbn [flat_map app] in E'; split; congruence|].
    exfalso. apply N. rewrite <- E, E'. cbn [flat_map]. exists n', c', b', (flat_map (fun it : list Z * Z * list Z => match it with (noise, cmd, body) => noise ++ frame_bytes cmd body end) items' ++ r').
    rewrite <- !app_assoc. auto.
  - destruct F' as [|[[n' c'] b'] p' items' ps' (G' & M' & D') F'].
    + exfalso. apply N'. cbn [flat_map app] in E'. rewrite <- E', E. cbn [flat_map]. exists n, c, b, (flat_map (fun it : list Z * Z * list Z => match it with (noise, cmd, body) => noise ++ frame_bytes cmd body end) items ++ r).
      rewrite <- !app_assoc. auto.
    + cbn [flat_map] in E, E'. rewrite <- !app_assoc in E, E'. rewrite E in Hok. pose proof E' as E2. rewrite E in E2.
      destruct (piece_unique _ _ _ _ _ _ _ _ _ _ Hok E2 G G' M M' D D') as [-> Hr].
      apply bytes_ok_app in Hok. destruct Hok as [_ Hok]. apply bytes_ok_app in Hok. destruct Hok as [_ Hok].
      destruct (IH items' _ ps' Hok eq_refl Hr F') as [-> ->]. auto.
Qed.
Lemma reads_app : forall l ps r more ps2 r2, reads_as l ps r -> reads_as (r ++ more) ps2 r2 -> reads_as (l ++ more) (ps ++ ps2) r2.
Proof.
  intros l ps r more ps2 r2 (i1 & E1 & F1 & _) (i2 & E2 & F2 & N). exists (i1 ++ i2). split; [rewrite E1, flat_map_app, <- !app_assoc, E2; reflexivity|].
  split; [apply Forall2_app; assumption|exact N].
Qed.
Lemma reads_drain : forall l ps r, bytes_ok l -> reads_as l ps r -> drain l = (ps, r).
Proof. intros l ps r Hok H. destruct (drain l) as [ps' r'] eqn:E. destruct (reads_unique _ _ _ _ _ Hok (drain_reads _ _ _ Hok E) H) as [-> ->]. reflexivity. Qed.
Lemma reads_bytes : forall l ps r, bytes_ok l -> reads_as l ps r -> bytes_ok r /\ Forall (fun p => bytes_ok (p_payload p)) ps.
Proof.
  intros l ps r Hok (items & E & F & _). rewrite E in Hok. apply bytes_ok_app in Hok. destruct Hok as [H1 H2]. split; [exact H2|]. clear E.
  induction F as [|[[n c] b] p items ps (G & M & D) F IH]; [constructor|]. cbn [flat_map] in H1. apply bytes_ok_app in H1. destruct H1 as [H0 H1]. constructor; [|apply IH; exact H1].
  apply bytes_ok_app in H0. destruct H0 as [_ H0]. unfold frame_bytes in H0. inversion H0 as [|? ? _ H3]; subst. inversion H3 as [|? ? _ H4]; subst.
  destruct D as [cmd body _|cmd front ack _ _ _|front ack _| |]; cbn [p_payload]; try discriminate; try exact H4.
  - apply bytes_ok_app in H4. apply H4.
  - apply bytes_ok_app. split; [repeat constructor; lia|]. apply bytes_ok_app in H4. apply H4.
Qed.

(** ** The schedule of a port *)
Lemma packets_map : forall ps, packets_of (map EvPacket ps) = ps.
Proof. induction ps as [|p ps IH]; [reflexivity|]. cbn. f_equal. exact IH. Qed.
Lemma packets_app : forall a b, packets_of (a ++ b) = packets_of a ++ packets_of b.
Proof. intros. apply flat_map_app. Qed.
Lemma packets_end : forall l, packets_of (end_events l) = [].
Proof. intro l. unfold end_events. destruct (pr_read_packet _ _ _) as [[[p|e]| |] b]; reflexivity. Qed.
(** What the goroutine holds is what of the received bytes is no complete frame. *)
Lemma line_reads : forall bs, bytes_only bs -> forall t, bytes_ok (received bs t) /\ exists r, reads_as (received bs t) (offered (byte_schedule bs) t) r /\
  line_at bs t = if failed_before bs t then None else Some r.
Proof.
  intros bs Hb. induction t as [|t (Hok & r & Hr & Hl)]; [split; [constructor|]; exists []; split; [exact reads_nil|reflexivity]|].
  cbn [received offered line_at failed_before]. unfold byte_schedule. rewrite Hl. destruct (Hb t) as [B1 B2].
  destruct (failed_before bs t) eqn:Ef.
  - cbn [orb]. rewrite !app_nil_r. split; [exact Hok|]. exists r. unfold line_step, arrive, hang_up.
    destruct (bs_end (bs t)); cbn [fst snd s_before s_wait app packets_of flat_map]; rewrite app_nil_r; split; auto.
  - cbn [orb]. unfold line_step, arrive. destruct (reads_bytes _ _ _ Hok Hr) as [Hrb _].
    destruct (drain (r ++ bs_before (bs t))) as [p1 r1] eqn:E1. pose proof (drain_reads _ _ _ (proj2 (bytes_ok_app _ _) (conj Hrb B1)) E1) as R1.
    destruct (reads_bytes _ _ _ (proj2 (bytes_ok_app _ _) (conj Hrb B1)) R1) as [Hr1 _].
    destruct (drain (r1 ++ bs_wait (bs t))) as [p2 r2] eqn:E2. pose proof (drain_reads _ _ _ (proj2 (bytes_ok_app _ _) (conj Hr1 B2)) E2) as R2.
    split; [apply bytes_ok_app; split; [exact Hok|apply bytes_ok_app; auto]|]. exists r2.
    pose proof (reads_app _ _ _ _ _ _ Hr R1) as X1. pose proof (reads_app _ _ _ _ _ _ X1 R2) as X2. rewrite <- !app_assoc in X2.
    unfold hang_up. destruct (bs_end (bs t)); cbn [fst snd s_before s_wait]; rewrite packets_app, !packets_map; [rewrite packets_end|cbn [packets_of flat_map]]; rewrite app_nil_r; auto.
Qed.
Lemma in_packets : forall p es, In (EvPacket p) es <-> In p (packets_of es).
Proof.
  intros p es. unfold packets_of. rewrite in_flat_map. split.
  - intro H. exists (EvPacket p). split; [exact H|left; reflexivity].
  - intros (x & H1 & H2). destruct x as [q|]; [|destruct H2]. destruct H2 as [->|[]]. exact H1.
Qed.
Lemma offered_in : forall sc p t, In p (offered sc t) <-> exists u, (u < t)%nat /\ (In (EvPacket p) (s_before (sc u)) \/ In (EvPacket p) (s_wait (sc u))).
Proof.
  intros sc p. induction t as [|t IH]; cbn [offered].
  - split; [intros []|intros (u & H & _); lia].
  - rewrite !in_app_iff, <- !in_packets, IH. split.
    + intros [(u & H1 & H2)|H]; [exists u; split; [lia|exact H2]|exists t; split; [lia|tauto]].
    + intros (u & H1 & H2). destruct (Nat.eq_dec u t) as [->|Hne]; [tauto|]. left. exists u. split; [lia|exact H2].
Qed.
(** Every packet of the steps from [t0] on ended on the line after what was received by [t0]. *)
Definition since (sc : schedule) (t0 t : nat) (p : packet) : Prop :=
  exists u, (t0 <= u < t)%nat /\ (In (EvPacket p) (s_before (sc u)) \/ In (EvPacket p) (s_wait (sc u))).
Lemma reads_rest : forall l ps r, reads_as l ps r -> reads_as r [] r.
Proof. intros l ps r (_ & _ & _ & N). exists []. split; [reflexivity|]. split; [constructor|exact N]. Qed.
Lemma reads_where : forall ps l r p r0, ~ has_frame r0 -> reads_as l ps r -> In p ps -> forall pre, (exists more, pre ++ l = pre ++ r0 ++ more) ->
  exists before cmd body after, l = before ++ frame_bytes cmd body ++ after /\ modem_frame cmd body /\ decodes false cmd body p /\
    (length r0 < length (before ++ frame_bytes cmd body))%nat.
Proof.
  intros ps l r p r0 Hn0 (items & E & F & _) Hin pre (more & Em). apply app_inv_head in Em.
  assert (Hfirst : forall n c b x, gap n -> modem_frame c b -> l = (n ++ frame_bytes c b) ++ x -> (length r0 < length (n ++ frame_bytes c b))%nat).
  { intros n c b x G M El. destruct (Nat.lt_ge_cases (length r0) (length (n ++ frame_bytes c b))) as [H|H]; [exact H|]. exfalso. apply Hn0.
    exists n, c, b, (skipn (length (n ++ frame_bytes c b)) r0). split; [|auto]. rewrite app_assoc.
    rewrite <- (firstn_skipn (length (n ++ frame_bytes c b)) r0) at 1. f_equal.
    assert (Hf : firstn (length (n ++ frame_bytes c b)) l = n ++ frame_bytes c b) by (rewrite El, firstn_app, Nat.sub_diag, firstn_O, app_nil_r; apply firstn_all).
    rewrite Em, firstn_app in Hf. replace (length (n ++ frame_bytes c b) - length r0)%nat with 0%nat in Hf by lia. rewrite firstn_O, app_nil_r in Hf. exact Hf. }
  destruct F as [|[[n c] b] q items ps (G & M & D) F]; [destruct Hin|]. cbn [flat_map] in E. rewrite <- app_assoc in E.
  pose proof (Hfirst n c b _ G M E) as Hlen. destruct Hin as [->|Hin].
  - exists n, c, b. eexists. split; [rewrite E, <- app_assoc; reflexivity|]. auto.
  - assert (Hx : exists bf cmd body af, flat_map (fun it : list Z * Z * list Z => match it with (noise, cmd, body) => noise ++ frame_bytes cmd body end) items ++ r =
        bf ++ frame_bytes cmd body ++ af /\ modem_frame cmd body /\ decodes false cmd body p).
    { clear - F Hin. induction F as [|[[n c] b] q items ps (G & M & D) F IH]; [destruct Hin|]. cbn [flat_map]. destruct Hin as [->|Hin].
      - exists n, c, b. eexists. rewrite <- !app_assoc. auto.
      - destruct (IH Hin) as (bf & cmd & body & af & X1 & X2). exists ((n ++ frame_bytes c b) ++ bf), cmd, body, af. rewrite <- !app_assoc in *. rewrite X1. auto. }
    destruct Hx as (bf & cmd & body & af & X1 & X2 & X3). exists ((n ++ frame_bytes c b) ++ bf), cmd, body, af.
    split; [rewrite E, X1, <- !app_assoc; reflexivity|]. split; [exact X2|]. split; [exact X3|]. rewrite (app_length _ (frame_bytes cmd body)), (app_length _ bf). lia.
Qed.
Lemma failed_mono : forall bs t u, (t <= u)%nat -> failed_before bs t = true -> failed_before bs u = true.
Proof. intros bs t u H. induction H as [|u H IH]; [auto|]. intro E. cbn [failed_before]. rewrite (IH E). reflexivity. Qed.
Lemma received_mono : forall bs t u, (t <= u)%nat -> exists more, received bs u = received bs t ++ more.
Proof.
  intros bs t u H. induction H as [|u H [m IH]]; [exists []; rewrite app_nil_r; reflexivity|]. cbn [received]. rewrite IH, <- app_assoc. eexists. reflexivity.
Qed.
(** The packets of the steps between two times are read from what the goroutine held and what came. *)
Lemma reads_between : forall bs t0 r0, bytes_only bs -> reads_as (received bs t0) (offered (byte_schedule bs) t0) r0 -> forall d,
  exists more ps r, received bs (t0 + d) = received bs t0 ++ more /\ offered (byte_schedule bs) (t0 + d) = offered (byte_schedule bs) t0 ++ ps /\ reads_as (r0 ++ more) ps r.
Proof.
  intros bs t0 r0 Hb H0 d. destruct (received_mono bs t0 (t0 + d) ltac:(lia)) as [more Em].
  assert (Eo : exists ps, offered (byte_schedule bs) (t0 + d) = offered (byte_schedule bs) t0 ++ ps).
  { clear. induction d as [|d [ps IH]]; [exists []; rewrite Nat.add_0_r, app_nil_r; reflexivity|]. rewrite Nat.add_succ_r. cbn [offered]. rewrite IH, <- app_assoc. eexists. reflexivity. }
  destruct Eo as [ps Eo]. destruct (line_reads bs Hb (t0 + d)) as (Hok & r & Hr & _).
  rewrite Em in Hok. destruct (drain (r0 ++ more)) as [ps' r'] eqn:Ed.
  assert (Hok0 : bytes_ok (r0 ++ more)).
  { apply bytes_ok_app in Hok. destruct Hok as [K1 K2]. apply bytes_ok_app. split; [apply (reads_bytes _ _ _ K1 H0)|exact K2]. }
  pose proof (drain_reads _ _ _ Hok0 Ed) as R1. pose proof (reads_app _ _ _ _ _ _ H0 R1) as R2. rewrite Em, Eo in Hr.
  destruct (reads_unique _ _ _ _ _ Hok Hr R2) as [E1 E2]. apply app_inv_head in E1. subst ps' r'. exists more, ps, r. auto.
Qed.
Lemma between_in : forall sc p t0 d, since sc t0 (t0 + d) p -> forall ps, offered sc (t0 + d) = offered sc t0 ++ ps -> In p ps.
Proof.
  intros sc p t0. induction d as [|d IH]; intros (u & H1 & H2) ps E; [lia|]. rewrite Nat.add_succ_r in *. cbn [offered] in E.
  assert (Eo : exists ps0, offered sc (t0 + d) = offered sc t0 ++ ps0).
  { clear. induction d as [|d [ps IH]]; [exists []; rewrite Nat.add_0_r, app_nil_r; reflexivity|]. rewrite Nat.add_succ_r. cbn [offered]. rewrite IH, <- app_assoc. eexists. reflexivity. }
  destruct Eo as [ps0 Eo]. rewrite Eo, <- app_assoc in E. apply app_inv_head in E. subst ps. rewrite !in_app_iff, <- !in_packets.
  destruct (Nat.eq_dec u (t0 + d)) as [->|Hne]; [tauto|]. left. assert (H3 : (t0 <= u < t0 + d)%nat) by lia. apply (IH (ex_intro _ u (conj H3 H2)) ps0 Eo).
Qed.
Lemma came_as_frame : forall bs t0 t p, bytes_only bs -> since (byte_schedule bs) t0 t p ->
  bytes_ok (p_payload p) /\ exists cmd body, came_in bs t0 t (frame_bytes cmd body) /\ modem_frame cmd body /\ decodes false cmd body p.
Proof.
  intros bs t0 t p Hb Hs. assert (Ht : exists d, t = (t0 + d)%nat) by (destruct Hs as (u & H & _); exists (t - t0)%nat; lia). destruct Ht as [d ->].
  destruct (line_reads bs Hb t0) as (Hok0 & r0 & Hr0 & _). destruct (reads_between bs t0 r0 Hb Hr0 d) as (more & ps & r & Em & Eo & Hr).
  pose proof (between_in _ _ _ _ Hs _ Eo) as Hin.
  assert (Hn0 : ~ has_frame r0) by (destruct Hr0 as (_ & _ & _ & N); exact N).
  destruct (line_reads bs Hb (t0 + d)) as (Hok & _). rewrite Em in Hok.
  assert (Hok1 : bytes_ok (r0 ++ more)).
  { apply bytes_ok_app in Hok. destruct Hok as [K1 K2]. apply bytes_ok_app. split; [apply (reads_bytes _ _ _ K1 Hr0)|exact K2]. }
  destruct (reads_bytes _ _ _ Hok1 Hr) as [_ Hp]. rewrite Forall_forall in Hp. split; [exact (Hp _ Hin)|].
  destruct (reads_where ps _ r p r0 Hn0 Hr Hin [] (ex_intro _ more eq_refl)) as (bf & cmd & body & af & X1 & X2 & X3 & X4).
  destruct Hr0 as (items & E0 & _). exists cmd, body. split; [|auto].
  exists (flat_map (fun it : list Z * Z * list Z => match it with (noise, cmd, body) => noise ++ frame_bytes cmd body end) items ++ bf), af. split.
  - rewrite Em, E0, <- !app_assoc, X1. reflexivity.
  - rewrite E0, <- app_assoc, !app_length. rewrite app_length in X4. lia.
Qed.
Lemma acked_on_line : forall bs t0 t a p, bytes_only bs -> since (byte_schedule bs) t0 t p -> ack_from a p -> p_cmd p = 0x50 \/ p_cmd p = 0x51 ->
  exists l, came_in bs t0 t l /\ ack_bytes a l.
Proof.
  intros bs t0 t a p Hb Hc (s2 & s1 & s0 & d2 & d1 & d0 & fl & c1 & c2 & rest & k & ext & l & m & Hp & H3 & Hf & Hk) Hcmd.
  destruct (came_as_frame _ _ _ _ Hb Hc) as (_ & cmd & body & E & M & D).
  assert (Hx : cmd = p_cmd p /\ body = p_payload p).
  { destruct D as [cmd body _|cmd front ack H1 _ _|front ack _|? ? Hh|? Hh]; cbn [p_cmd p_payload] in *; try discriminate; try (exfalso; lia). auto. }
  destruct Hx as [-> ->]. exists (frame_bytes (p_cmd p) (p_payload p)). split; [exact E|].
  exists (p_cmd p), s2, s1, s0, d2, d1, d0, fl, c1, c2, rest, k, ext, l, m.
  split; [rewrite Hp; reflexivity|]. split; [exact H3|]. split; [exact Hf|]. split; [exact Hk|].
  rewrite Hp in M. inversion M as [c b n H1 H2 H4|]; subst; [|exfalso; lia].
  destruct Hcmd as [Hc1|Hc1]; rewrite Hc1 in *; cbn [frame_size] in H1; injection H1 as <-; cbn [andb app length] in H4; [left|right]; lia.
Qed.
Lemma echoed_on_line : forall bs t0 t pl p, bytes_only bs -> since (byte_schedule bs) t0 t p -> good_ack (mkPkt 0x62 pl 0) p -> came_in bs t0 t ([0x02; 0x62] ++ pl ++ [0x06]).
Proof.
  intros bs t0 t pl p Hb Hs (_ & Ha & Hc & He). cbn [p_cmd p_payload] in *.
  destruct (came_as_frame _ _ _ _ Hb Hs) as (_ & cmd & body & E & M & D).
  destruct D as [cmd body Hx|cmd front ack H1 H2 _|front ack _|? ? Hh|? Hh]; cbn [p_cmd p_ack p_payload] in *; try discriminate; try (exfalso; lia). subst ack.
  destruct He as [He|[He|[(_ & x & y & z & He)|(He & _)]]]; try lia. injection He as <- <- <- ->. exact E.
Qed.

(** ** The message queue holds messages of the network *)
Definition msgs_net (st : plm) : Prop := Forall (fun p => network_message p = true) (p_msgq st).
Lemma net_turn : forall st e, msgs_net st -> msgs_net (reader_turn st e).
Proof.
  intros st e H. unfold reader_turn. destruct (p_closed st); [exact H|]. destruct e as [p|]; [|exact H].
  destruct (is_msg_packet p) eqn:E; [|exact H]. unfold msgs_net in *. cbn [p_msgq]. unfold offer. destruct (Nat.ltb _ _); [|exact H]. apply Forall_app. split; [exact H|]. constructor; [exact E|constructor].
Qed.
Lemma net_turns : forall es st, msgs_net st -> msgs_net (reader_turns st es).
Proof. unfold reader_turns. induction es as [|e es IH]; intros st H; [exact H|]. cbn [fold_left]. apply IH. apply net_turn. exact H. Qed.
Lemma net_wait : forall q es st r st', msgs_net st -> wait_for q st es = (r, st') -> msgs_net st' /\ (q = QMsg -> forall p, r = RPacket p -> network_message p = true).
Proof.
  intros q. induction es as [|e es IH]; intros st r st' H Hw; cbn [wait_for] in Hw.
  - destruct (queue_of q st) as [|p rest] eqn:Eq.
    + destruct (p_closed st); injection Hw as <- <-; split; auto; discriminate.
    + injection Hw as <- <-. destruct q; cbn [queue_of set_queue] in *.
      * unfold msgs_net in *. rewrite Eq in H. inversion H as [|? ? H1 H2]; subst. split; [exact H2|]. intros _ p0 Hp. injection Hp as <-. exact H1.
      * split; [exact H|discriminate].
  - destruct (queue_of q st) as [|p rest] eqn:Eq.
    + destruct (p_closed st); [injection Hw as <- <-; split; auto; discriminate|]. apply (IH _ _ _ (net_turn _ e H) Hw).
    + injection Hw as <- <-. destruct q; cbn [queue_of set_queue] in *.
      * unfold msgs_net in *. rewrite Eq in H. inversion H as [|? ? H1 H2]; subst. split; [exact (net_turns (e :: es) (set_msgq st rest) H2)|]. intros _ p0 Hp. injection Hp as <-. exact H1.
      * split; [exact (net_turns (e :: es) (set_pktq st rest) H)|discriminate].
Qed.
Lemma net_receive : forall sc q st r st', msgs_net st -> receive sc q st = (r, st') -> msgs_net st' /\ (q = QMsg -> forall p, r = RPacket p -> network_message p = true).
Proof.
  intros sc q st r st' H Hr. unfold receive in Hr.
  assert (H1 : msgs_net (log_wait (tick (reader_turns st (s_before (sc (p_time st))))))) by (apply (net_turns (s_before (sc (p_time st))) st H)).
  destruct (s_late (sc (p_time st))); [|apply (net_wait _ _ _ _ _ H1 Hr)]. injection Hr as <- <-. split; [apply net_turns; exact H1|discriminate].
Qed.
Lemma net_port : forall sc st b e st', msgs_net st -> port_write sc st b = (e, st') -> msgs_net st'.
Proof. intros sc st b e st' H Hp. unfold port_write in Hp. injection Hp as _ <-. apply (net_turns (s_before (sc (p_time st))) st H). Qed.

(** ** Everything in the queues came since the beginning *)
Definition fresh_since (sc : schedule) (t0 : nat) (st : plm) : Prop := queues_all (since sc t0 (p_time st)) st /\ msgs_net st /\ (t0 <= p_time st)%nat.
Lemma since_later : forall sc t0 t t' p, (t <= t')%nat -> since sc t0 t p -> since sc t0 t' p.
Proof. intros sc t0 t t' p H (u & H1 & H2). exists u. split; [lia|exact H2]. Qed.
Lemma since_now : forall sc t0 t, (t0 <= t)%nat -> sched_all (since sc t0 (S t)) (fun _ => sc t).
Proof. intros sc t0 t H u p Hp. exists t. split; [lia|exact Hp]. Qed.
Lemma queues_later : forall sc t0 t t' st, (t <= t')%nat -> queues_all (since sc t0 t) st -> queues_all (since sc t0 t') st.
Proof. intros sc t0 t t' st H [H1 H2]. split; (eapply Forall_impl; [|eassumption]); intros p; apply since_later; exact H. Qed.
Lemma since_receive : forall sc t0 q st r st', fresh_since sc t0 st -> receive sc q st = (r, st') ->
  fresh_since sc t0 st' /\ (forall p, r = RPacket p -> since sc t0 (p_time st') p) /\ (q = QMsg -> forall p, r = RPacket p -> network_message p = true).
Proof.
  intros sc t0 q st r st' (Hq & Hn & Ht) H. destruct (net_receive _ _ _ _ _ Hn H) as [N1 N2]. pose proof (receive_fields _ _ _ _ _ H) as (_ & _ & Et & _).
  change (receive (fun _ => sc (p_time st)) q st = (r, st')) in H.
  destruct (receive_all _ _ _ _ _ _ (since_now sc t0 _ Ht) (queues_later _ _ _ _ _ (Nat.le_succ_diag_r _) Hq) H) as [Q1 Q2].
  unfold fresh_since. rewrite Et. assert (Hl : (t0 <= S (p_time st))%nat) by lia. repeat split; auto; apply Q1.
Qed.
Lemma since_port : forall sc t0 st b e st', fresh_since sc t0 st -> port_write sc st b = (e, st') -> fresh_since sc t0 st'.
Proof.
  intros sc t0 st b e st' (Hq & Hn & Ht) H. pose proof (net_port _ _ _ _ _ Hn H) as N1. pose proof (port_write_fields _ _ _ _ _ H) as (_ & _ & Et & _).
  change (port_write (fun _ => sc (p_time st)) st b = (e, st')) in H.
  pose proof (port_write_all _ _ _ _ _ _ (since_now sc t0 _ Ht) (queues_later _ _ _ _ _ (Nat.le_succ_diag_r _) Hq) H) as Q1.
  unfold fresh_since. rewrite Et. assert (Hl : (t0 <= S (p_time st))%nat) by lia. repeat split; auto; apply Q1.
Qed.
Lemma since_packet : forall sc t0 pkt st r st', fresh_since sc t0 st -> plm_write_packet sc pkt st = (r, st') ->
  fresh_since sc t0 st' /\ (forall a, r = Ret (a, None) -> exists p, since sc t0 (p_time st') p /\ good_ack pkt p).
Proof.
  intros sc t0 pkt st r st' H Hw. destruct (write_packet_cases _ _ _ _ _ Hw) as [e s1 E1|s1 s2 E1 E2|s1 s2 E1 E2|p s1 s2 E1 E2];
    pose proof (since_port _ _ _ _ _ _ H E1) as H1.
  - split; [exact H1|]. discriminate.
  - destruct (since_receive _ _ _ _ _ _ H1 E2) as (H2 & H3 & _). split; [exact H2|]. discriminate.
  - destruct (since_receive _ _ _ _ _ _ H1 E2) as (H2 & H3 & _). split; [exact H2|]. discriminate.
  - destruct (since_receive _ _ _ _ _ _ H1 E2) as (H2 & H3 & _). split; [exact H2|]. intros a Ha. exists p. split; [apply H3; reflexivity|].
    apply judge_success. assert (Hx : a = Some p); [|rewrite <- Hx at 2; exact Ha].
    unfold judge_ack in Ha. match type of Ha with bindo ?x _ = _ => destruct x as [y| |]; cbn [bindo] in Ha; try discriminate Ha end. congruence.
Qed.
Lemma since_retry : forall sc t0 n nak pkt last st r st', fresh_since sc t0 st -> retry_loop (plm_pw sc) n nak pkt last st = (r, st') ->
  fresh_since sc t0 st' /\ (forall a, r = Ret (a, None) -> (exists p, since sc t0 (p_time st') p /\ good_ack pkt p) \/ n = 0%nat).
Proof.
  intros sc t0 n nak pkt. induction n as [|n IH]; intros last st r st' H Hr; cbn [retry_loop] in Hr; [injection Hr as _ <-; auto|].
  cbn [plm_pw pw_write] in Hr. destruct (plm_write_packet sc pkt st) as [o s1] eqn:E. destruct (since_packet _ _ _ _ _ _ H E) as [H1 H2].
  destruct o as [[a e]| |]; try (injection Hr as <- <-; split; [exact H1|discriminate]).
  destruct ((err_is e EPlmNak && nak) || err_is e EPlmReadTimeout) eqn:Ee; [|injection Hr as <- <-; split; [exact H1|]; intros b Hb; left; exact (H2 _ Hb)].
  destruct n as [|n].
  - cbn [retry_loop] in Hr. injection Hr as <- <-. split; [exact H1|]. intros b Hb. left. exfalso. injection Hb as _ ->. discriminate Ee.
  - destruct (IH _ _ _ _ H1 Hr) as [I1 I2]. split; [exact I1|]. intros b Hb. left. destruct (I2 _ Hb) as [I|I]; [exact I|discriminate I].
Qed.
Lemma since_await : forall sc t0 dst fuel st m st', fresh_since sc t0 st -> await_ack fuel sc dst st = (Ret (Some m, None), st') ->
  (p_time st <= p_time st')%nat /\
  exists p, since sc t0 (p_time st') p /\ network_message p = true /\ msg_unmarshal msg_zero (p_payload p) = (m, None) /\ m_src m = dst /\ fl_ack (m_flags m) = true.
Proof.
  intros sc t0 dst. induction fuel as [|fuel IH]; intros st m st' Hs H; cbn [await_ack] in H; [discriminate H|].
  unfold plm_read in H. destruct (receive sc QMsg st) as [r s1] eqn:E. destruct (since_receive _ _ _ _ _ _ Hs E) as (Q1 & Q2 & N2).
  pose proof (receive_fields _ _ _ _ _ E) as (_ & _ & Et & _).
  destruct r as [p| |]; [|discriminate H|discriminate H].
  destruct (msg_unmarshal msg_zero (p_payload p)) as [x [ex|]] eqn:Eu; [discriminate H|].
  destruct ((m_src x =? dst) && (fl_ack (m_flags x) || fl_nak (m_flags x))) eqn:Ec.
  - apply andb_true_iff in Ec. destruct Ec as [Ec1 Ec2]. destruct (fl_nak (m_flags x)) eqn:En; [discriminate H|]. injection H as <- <-. split; [lia|]. exists p.
    split; [apply Q2; reflexivity|]. split; [apply (N2 eq_refl _ eq_refl)|]. split; [exact Eu|]. split; [apply Z.eqb_eq; exact Ec1|]. rewrite orb_false_r in Ec2. exact Ec2.
  - destruct (IH _ _ _ Q1 H) as [I1 I2]. split; [lia|exact I2].
Qed.
Lemma since_write : forall sc t0 fuel msg st m st', fresh_since sc t0 st -> 0 <= p_retries st -> plm_write fuel sc msg st = (Ret (Some m, None), st') ->
  (exists p, since sc t0 (p_time st') p /\ good_ack (mkPkt 0x62 (skipn 3 (msg_marshal msg)) 0) p) /\
  exists p, since sc t0 (p_time st') p /\ network_message p = true /\ msg_unmarshal msg_zero (p_payload p) = (m, None) /\ m_src m = m_dst msg /\ fl_ack (m_flags m) = true.
Proof.
  intros sc t0 fuel msg st m st' Hs Hr H. unfold plm_write in H.
  destruct (pw_write (retry (plm_pw sc) (p_retries st) true) (mkPkt pc_SendInsteonMsg (skipn 3 (msg_marshal msg)) 0) st) as [o st1] eqn:E.
  destruct o as [[a [e1|]]| |]; try discriminate H. unfold retry in E. cbn [pw_write] in E.
  destruct (since_retry _ _ _ _ _ _ _ _ _ Hs E) as [S1 S2]. destruct (since_await _ _ _ _ _ _ _ S1 H) as [Ht Hp]. split; [|exact Hp].
  destruct (S2 _ eq_refl) as [(p & P1 & P2)|P0]; [|lia]. exists p. split; [apply (since_later _ _ _ _ _ Ht P1)|exact P2].
Qed.

(** ** Answered, whenever the bytes arrive *)
Lemma turn_pkt : forall a b sent waits time tmo retries addr p, network_message p = false ->
  reader_turn (mkPlm a b false sent waits time tmo retries addr) (EvPacket p) = mkPlm a (offer b p) false sent waits time tmo retries addr.
Proof. intros. unfold reader_turn. cbn [p_closed]. change (is_msg_packet p) with (network_message p). rewrite H. reflexivity. Qed.
Lemma turn_msg : forall a b sent waits time tmo retries addr p, network_message p = true ->
  reader_turn (mkPlm a b false sent waits time tmo retries addr) (EvPacket p) = mkPlm (offer a p) b false sent waits time tmo retries addr.
Proof. intros. unfold reader_turn. cbn [p_closed]. change (is_msg_packet p) with (network_message p). rewrite H. reflexivity. Qed.
Lemma write_any : forall fuel sc m st echo reply x e E0 E1 F1 E2 F2, (1 <= fuel)%nat -> 0 <= p_retries st -> idle st ->
  s_before (sc (p_time st)) = E0 -> s_werr (sc (p_time st)) = None ->
  s_before (sc (S (p_time st))) = E1 -> s_wait (sc (S (p_time st))) = F1 -> s_late (sc (S (p_time st))) = false ->
  s_before (sc (S (S (p_time st)))) = E2 -> s_wait (sc (S (S (p_time st)))) = F2 -> s_late (sc (S (S (p_time st)))) = false ->
  E0 ++ E1 ++ F1 ++ E2 ++ F2 = [EvPacket echo; EvPacket reply] -> E0 ++ E1 ++ F1 <> [] ->
  good_ack (mkPkt 0x62 (skipn 3 (msg_marshal m)) 0) echo -> network_message reply = true ->
  msg_unmarshal msg_zero (p_payload reply) = (x, None) -> m_src x = m_dst m -> fl_ack (m_flags x) = e -> fl_nak (m_flags x) = negb e ->
  exists st', plm_write fuel sc m st = (Ret (Some x, if e then None else Some EDevNak), st') /\ p_sent st' = p_sent st ++ [frame_of m] /\ idle st' /\
    p_time st' = S (S (S (p_time st))) /\ p_retries st' = p_retries st.
Proof.
  intros fuel sc m st echo reply x e E0 E1 F1 E2 F2 Hfu Hr (Hq1 & Hq2 & Hc) A0 W0 A1 B1 L1 A2 B2 L2 HE Hne Hecho Hnet Hu Hsrc Hack Hnak.
  destruct fuel as [|fuel]; [lia|]. destruct st as [q1 q2 cl sent waits time tmo retries addr]. cbn [p_msgq p_pktq p_closed p_time p_retries p_sent] in *. subst q1 q2 cl.
  assert (Hcmd : network_message echo = false).
  { destruct Hecho as (_ & _ & (H2 & _)). cbn [p_cmd] in H2. unfold network_message. rewrite H2. reflexivity. }
  unfold plm_write, retry. cbn [p_retries pw_write]. replace (Z.to_nat (retries + 1)) with (S (Z.to_nat retries)) by lia. cbn [retry_loop].
  cbn [plm_pw pw_write].
  assert (Hj : judge_ack (mkPkt pc_SendInsteonMsg (skipn 3 (msg_marshal m)) 0) (Some echo) = Ret (Some echo, None)) by (apply judge_success; exact Hecho).
  unfold plm_write_packet, plm_read_packet, port_write, receive. cbn [p_time]. rewrite W0, A0.
  destruct E0 as [|x0 [|x1 [|? ?]]]; [| | |discriminate HE];
  (destruct E1 as [|y0 [|y1 [|? ?]]]; try discriminate HE);
  (destruct F1 as [|z0 [|z1 [|? ?]]]; try discriminate HE; try (exfalso; apply Hne; reflexivity));
  (destruct E2 as [|u0 [|u1 ?]]; try discriminate HE);
  (destruct F2 as [|v0 [|v1 ?]]; try discriminate HE);
  cbn [app] in HE; injection HE; clear HE; intros; subst;
  (cbn [reader_turns fold_left]; rewrite ?turn_pkt by assumption; cbn [offer length Nat.ltb Nat.leb queue_cap app]; rewrite ?turn_msg by assumption; cbn [offer length Nat.ltb Nat.leb queue_cap app];
   unfold log_sent, tick; cbn [p_msgq p_pktq p_closed p_sent p_waits p_time p_timeout p_retries p_addr];
   rewrite A1, B1, L1; cbn [reader_turns fold_left]; rewrite ?turn_pkt by assumption; cbn [offer length Nat.ltb Nat.leb queue_cap app]; rewrite ?turn_msg by assumption; cbn [offer length Nat.ltb Nat.leb queue_cap app];
   unfold log_wait; cbn [p_msgq p_pktq p_closed p_sent p_waits p_time p_timeout p_retries p_addr wait_for queue_of set_queue set_pktq];
   rewrite ?turn_pkt by assumption; cbn [offer length Nat.ltb Nat.leb queue_cap app wait_for queue_of set_queue p_msgq p_pktq p_closed];
   unfold set_pktq; cbn [p_msgq p_pktq p_closed p_sent p_waits p_time p_timeout p_retries p_addr reader_turns fold_left];
   rewrite ?turn_msg by assumption; cbn [offer length Nat.ltb Nat.leb queue_cap app wait_for queue_of set_queue p_msgq p_pktq p_closed];
   rewrite Hj; cbn [err_is andb orb await_ack]; unfold plm_read, receive; cbn [p_time]; rewrite A2, B2, L2; cbn [reader_turns fold_left];
   rewrite ?turn_msg by assumption; cbn [offer length Nat.ltb Nat.leb queue_cap app];
   unfold tick, log_wait; cbn [p_msgq p_pktq p_closed p_sent p_waits p_time p_timeout p_retries p_addr wait_for queue_of set_queue];
   rewrite ?turn_msg by assumption; cbn [offer length Nat.ltb Nat.leb queue_cap app wait_for queue_of set_queue p_msgq p_pktq p_closed];
   unfold set_msgq; cbn [p_msgq p_pktq p_closed p_sent p_waits p_time p_timeout p_retries p_addr reader_turns fold_left];
   rewrite Hu, Hsrc, Z.eqb_refl, Hnak; destruct (fl_ack (m_flags x)); cbn [orb andb negb]; eexists; (split; [reflexivity|]); repeat split; reflexivity).
Qed.
