(** C74: what can be read from the text of the snooped lines. *)
From Coq Require Import ZArith List Bool Lia ZifyBool ZifyNat String.
From Verif Require Import GoBase GoLemmas GoProg GoText GoJson Command Message MessageSpec MessageProofs Address Link LinkText BasicDevice DevLinkdb DevLinkdbSpec
  Lights MsgWriter FiltersSpec Filters FiltersProofs UtilSnoop UtilSnoopSpec UtilSnoopProofs Props_UtilSnoop Display DisplaySpec DisplayProofs DisplayProofs2 IcDev IcDevProofs
  Report SnoopText SnoopTextSpec SnoopTextProofs.
Import ListNotations.
Open Scope Z_scope.
Ltac Zify.zify_post_hook ::= Z.div_mod_to_equations.

(** ** Shown lines have fields of the right sizes *)
Lemma at_byte : forall i l, bytes_ok l -> is_byte (nth i l 0).
Proof.
  intros i l H. destruct (Nat.lt_ge_cases i (List.length l)) as [Hi|Hi]; [|rewrite nth_overflow by exact Hi; unfold is_byte; lia].
  apply (proj1 (Forall_forall _ _) H). apply nth_In, Hi.
Qed.
Lemma acked_in : forall h m p, acked h m = Some p -> In p h.
Proof.
  intros h m p H. unfold acked in H. apply find_some in H. destruct H as [H _]. apply in_rev in H. unfold lastn in H.
  rewrite <- (firstn_skipn (List.length h - 10) h). apply in_or_app. right. exact H.
Qed.
Lemma shown_ok : forall db h m l, well m -> Forall well h -> shows db h m l -> line_ok l.
Proof.
  intros db h m [rt mx lf wh py] ((Hs & Hd & Hf & Hp) & Hc) Hh (k & ext & (HL & HM & HF) & HR & HW & HP).
  cbn [sn_rt sn_max sn_left sn_wh sn_py] in *. change (2 ^ 24) with 16777216 in *.
  repeat split; cbn [sn_rt sn_max sn_left sn_wh sn_py]; try (unfold is_byte; lia).
  - unfold route_shown in HR. change (word24 (m_src m)) in Hs. change (word24 (m_dst m)) in Hd.
    destruct k; try (rewrite HR; cbn [route_ok]; first [exact Hs | exact (conj Hs Hd)]).
    destruct HR as (c0 & c1 & fw & B0 & B1 & B2 & _ & ->). cbn [route_ok]. auto.
  - destruct HW as (cls & c1 & c2 & d2 & d1 & d0 & B1 & B2 & B3 & B4 & B5 & B6 & E1 & E2 & HW).
    assert (HC : word24 (m_cmd m)) by (unfold word24; exact Hc).
    assert (HA : what_ok match acked h m with Some p => WhAck (m_cmd p) | None => WhUnknownAck c1 c2 end).
    { destruct (acked h m) as [p|] eqn:E; cbn [what_ok]; [|auto]. apply acked_in in E. rewrite Forall_forall in Hh.
      pose proof (proj2 (Hh p E)) as X. change (2 ^ 24) with 16777216 in X. exact X. }
    unfold is_byte in *. destruct k; rewrite HW; try exact HC; try exact HA; cbn [what_ok]; unfold word24, is_byte; [|destruct (c1 =? 6); cbn [what_ok]; unfold word24, is_byte]; lia.
  - unfold payload_shown in HP. destruct ext; [|rewrite HP; exact I].
    assert (U : py = PyUnknown (m_payload m) -> pay_ok py) by (intros ->; exact Hp).
    assert (R : forall ok good, shown_or_raw (m_payload m) ok good py -> (good py -> pay_ok py) -> pay_ok py).
    { intros ok good [[_ G]|[_ [e ->]]] HG; [exact (HG G)|exact Hp]. }
    assert (P : py = PyProduct ([nth 1 (m_payload m) 0; nth 2 (m_payload m) 0; nth 3 (m_payload m) 0], [nth 4 (m_payload m) 0; nth 5 (m_payload m) 0]) -> pay_ok py).
    { intros ->. cbn [pay_ok]. split; [reflexivity|]. split; [reflexivity|].
      split; repeat (apply Forall_cons; [apply at_byte; exact Hp|]); apply Forall_nil. }
    assert (L : link_shown (m_payload m) py -> pay_ok py).
    { intros (r & x & num & rest & -> & E & HL'). cbn [pay_ok]. rewrite E in Hp. cbn [app] in Hp. unfold bytes_ok in Hp.
      do 5 (apply Forall_cons_iff in Hp; let B := fresh "B" in destruct Hp as [B Hp]).
      unfold request_ok, is_byte in *. split; [lia|]. split; [lia|]. destruct HL' as [[_ ->]|(l & tl & -> & Er)]; [exact I|].
      rewrite Er in Hp. unfold record_bytes in Hp. cbn [app] in Hp.
      do 8 (apply Forall_cons_iff in Hp; let B := fresh "B" in destruct Hp as [B Hp]). unfold link_ok, word24, is_byte. repeat split; lia. }
    clear HR HW.
    assert (D : (forall c, py = PyDimmer c -> pay_ok py) /\ (forall c, py = PySwitch c -> pay_ok py)) by (split; intros c ->; exact I).
    destruct D as [D1 D2].
    repeat (match type of HP with
            | context [match ?x with _ => _ end] => destruct x
            end; try (exact (U HP)); try (exact (R _ _ HP P)); try (exact (R _ _ HP L)); try (exact (R _ _ HP (D1 _))); try (exact (R _ _ HP (D2 _)))).
Qed.
Lemma display_messages : forall db h log ls, display db h log ls -> Forall ev_well log -> Forall well h ->
  Forall2 (fun m l => well m /\ exists h', Forall well h' /\ shows db h' m l) (went_by log) ls.
Proof.
  intros db h log ls H. induction H as [h|h m l log ls S H IH|h a e log ls H IH|h m l e log ls S H IH|h m l a l2 e log ls S S2 H IH]; intros HL Hh;
    try (apply Forall_cons_iff in HL; destruct HL as [HE HL]); cbn [went_by ev_well] in *.
  - apply Forall2_nil.
  - assert (X : Forall well (h ++ [m])) by (apply Forall_app; split; [exact Hh|constructor; [exact HE|constructor]]).
    apply Forall2_cons; [|apply IH; assumption]. split; [exact HE|]. exists (h ++ [m]). auto.
  - assert (X : Forall well (h ++ match a with Some m => [m] | None => [] end)).
    { apply Forall_app; split; [exact Hh|]. destruct a; [constructor; [exact HE|constructor]|constructor]. }
    destruct a; apply IH; assumption.
  - assert (X : Forall well (h ++ [m])) by (apply Forall_app; split; [exact Hh|constructor; [exact HE|constructor]]).
    apply Forall2_cons; [|apply IH; assumption]. split; [exact HE|]. exists h. auto.
  - destruct HE as [HE HA]. assert (X : Forall well (h ++ [m])) by (apply Forall_app; split; [exact Hh|constructor; [exact HE|constructor]]).
    apply Forall2_cons; [split; [exact HE|exists h; auto]|]. apply Forall2_cons; [split; [exact HA|exists (h ++ [m]); auto]|]. apply IH; assumption.
Qed.
Lemma output_lines : forall et ls ks, (forall e, ~ In 10 (et e)) -> Forall line_ok ls -> Forall line_ok ks ->
  (sn_output et ls = sn_output et ks <-> Forall2 (line_alike et) ls ks).
Proof.
  intros et ls ks He. assert (He' : forall e, Forall nonl (et e)).
  { intro e. apply Forall_forall. intros c Hc ->. exact (He e Hc). }
  unfold sn_output. revert ks. induction ls as [|l ls IH]; intros ks HL HK.
  - split; [|intro H; inversion H; reflexivity]. intro H. destruct ks as [|k ks]; [constructor|]. exfalso. cbn [map] in H. rewrite unlines_cons, unlines_nil in H.
    apply (f_equal (@List.length Z)) in H. rewrite !app_length in H. cbn in H. lia.
  - apply Forall_cons_iff in HL. destruct HL as [Hl HL]. split.
    + intro H. destruct ks as [|k ks]; [exfalso; cbn [map] in H; rewrite unlines_cons, unlines_nil in H; apply (f_equal (@List.length Z)) in H; rewrite !app_length in H; cbn in H; lia|].
      apply Forall_cons_iff in HK. destruct HK as [Hk HK]. cbn [map] in H. rewrite !unlines_cons in H.
      apply line_cut in H; [|apply nonl_body; assumption..]. destruct H as [H G]. apply Forall2_cons; [apply line_text; assumption|apply IH; assumption].
    + intro H. inversion H as [|? k ? ks' A B]; subst. apply Forall_cons_iff in HK. destruct HK as [Hk HK]. cbn [map]. rewrite !unlines_cons.
      apply line_text in A; [|assumption..]. rewrite A. apply IH in B; [|assumption..]. rewrite B. reflexivity.
Qed.
Lemma kinds_told : forall db h h' m o l l', well m -> well o -> Forall well h -> Forall well h' ->
  shows db h m l -> shows db h' o l' -> forall et, line_alike et l l' ->
  told_alike m o /\ (forall k e a b, flags_layout (m_flags m) k e a b -> k = KDirectAck \/ k = KCleanupAck -> ack_alike h h' m o).
Proof.
  intros db h h' m o [rt mx lf wh py] [rt' mx' lf' wh' py'] Hm Ho Hh Hh' (k & ext & F & R & HW & P) (k' & ext' & F' & R' & HW' & P') et (E1 & E2 & E3 & E4 & E5).
  cbn [sn_rt sn_max sn_left sn_wh sn_py] in *. subst rt' mx' lf'.
  assert (EX : ext = ext').
  { unfold payload_shown in P, P'. destruct ext, ext'; try reflexivity; exfalso.
    - rewrite P' in E5. assert (N : py <> PyNone).
      { intros ->. cbn in E5. repeat (match type of P with context [match ?x with _ => _ end] => destruct x end; try discriminate P;
          try (destruct P as [[_ P]|[_ [e P]]]; try discriminate P; destruct P as (r & x & num & rest & P & _); discriminate P)). }
      destruct py; cbn in E5; congruence.
    - rewrite P in E5. assert (N : py' <> PyNone).
      { intros ->. cbn in E5. repeat (match type of P' with context [match ?x with _ => _ end] => destruct x end; try discriminate P';
          try (destruct P' as [[_ P']|[_ [e P']]]; try discriminate P'; destruct P' as (r & x & num & rest & P' & _); discriminate P')). }
      destruct py'; cbn in E5; congruence. }
  subst ext'.
  destruct HW as (cls & c1 & c2 & d2 & d1 & d0 & B1 & B2 & B3 & B4 & B5 & B6 & Ec & Ed & HW).
  destruct HW' as (cls' & c1' & c2' & d2' & d1' & d0' & B1' & B2' & B3' & B4' & B5' & B6' & Ec' & Ed' & HW').
  assert (C : m_cmd m / 256 * 256 = cls * 65536 + c1 * 256 /\ (m_cmd m / 256) mod 256 = c1 /\ m_cmd m mod 256 = c2 /\ m_cmd m mod 65536 = c1 * 256 + c2 /\
    m_dst m mod 256 = d0 /\ 0x0c0000 + m_dst m / 65536 * 256 = 12 * 65536 + d2 * 256 /\ (m_dst m / 256) mod 256 = d1) by (unfold is_byte in *; rewrite Ec, Ed; repeat split; lia).
  assert (C' : m_cmd o / 256 * 256 = cls' * 65536 + c1' * 256 /\ (m_cmd o / 256) mod 256 = c1' /\ m_cmd o mod 256 = c2' /\ m_cmd o mod 65536 = c1' * 256 + c2' /\
    m_dst o mod 256 = d0' /\ 0x0c0000 + m_dst o / 65536 * 256 = 12 * 65536 + d2' * 256 /\ (m_dst o / 256) mod 256 = d1') by (unfold is_byte in *; rewrite Ec', Ed'; repeat split; lia).
  destruct C as (C1 & C2 & C3 & C4 & C5 & C6 & C7), C' as (D1 & D2 & D3 & D4 & D5 & D6 & D7).
  assert (AK : forall h m c1 c2 w, w = match acked h m with Some p => WhAck (m_cmd p) | None => WhUnknownAck c1 c2 end ->
    match w with WhAck _ | WhUnknownAck _ _ => True | _ => False end) by (intros hh mm x y w ->; destruct (acked hh mm); exact I).
  assert (T : told_kind k = told_kind k' /\ m_src m = m_src o /\ (k <> KAllLink -> m_dst m = m_dst o)).
  { clear Ec Ed Ec' Ed' E5 P P'. destruct k, k'; cbn [route_shown told_kind] in *;
      repeat match goal with Q : exists _, _ |- _ => destruct Q | Q : _ /\ _ |- _ => destruct Q end; subst rt; try discriminate;
      try (apply AK in HW); try (apply AK in HW'); try (rewrite HW in E4); try (rewrite HW' in E4); cbn [what_alike] in E4;
      try (destruct wh; contradiction); try (destruct wh'; contradiction); try contradiction;
      (split; [reflexivity|]);
      match goal with Q : _ = _ :> sn_route |- _ => injection Q as Q1 Q2; subst end || idtac; (split; [congruence|intros; congruence]). }
  destruct T as (T1 & T2 & T3).
  assert (NA : forall p, word24 p -> True) by auto.
  split.
  - exists k, k', ext, lf, mx. do 5 (split; [assumption|]).
    destruct k; try exact I; destruct k'; try discriminate T1; cbn [what_shown] in *; rewrite HW, HW' in E4; cbn [what_alike] in E4; try exact E4;
      rewrite ?C1, ?C2, ?C3, ?C4, ?C5, ?C6, ?C7, ?D1, ?D2, ?D3, ?D4, ?D5, ?D6, ?D7.
    all: try (destruct (c1 =? 6) eqn:G; destruct (c1' =? 6) eqn:G'; cbn [what_alike] in E4; try contradiction; intuition lia).
    all: exact E4.
  - intros k2 e2 a2 b2 F2 Hk. assert (k2 = k).
    { destruct F as (? & ? & F), F2 as (? & ? & F2). rewrite F in F2. destruct k, k2; cbn [kind_bits] in F2; try reflexivity; destruct ext, e2; lia. }
    subst k2. unfold ack_alike. destruct Hk as [-> | ->]; destruct k'; try discriminate T1; rewrite HW, HW' in E4; destruct (acked h m), (acked h' o); cbn [what_alike] in E4;
      try contradiction; try exact E4; rewrite C4, D4; destruct E4 as [-> ->]; reflexivity.
Qed.

(** The layout of a line, with its numbers in digits. *)
Lemma hex_char_digit : forall d, 0 <= d < 16 -> nth (Z.to_nat d) (zs "0123456789abcdef") 0 = hex_char d.
Proof.
  intros d Hd. assert (H : d = 0 \/ d = 1 \/ d = 2 \/ d = 3 \/ d = 4 \/ d = 5 \/ d = 6 \/ d = 7 \/ d = 8 \/ d = 9 \/ d = 10 \/ d = 11 \/ d = 12 \/ d = 13 \/ d = 14 \/ d = 15) by lia.
  repeat (destruct H as [->|H]; [reflexivity|]). subst d. reflexivity.
Qed.
Lemma dec_char_digit : forall d, 0 <= d < 10 -> nth (Z.to_nat d) (zs "0123456789abcdef") 0 = 48 + d.
Proof.
  intros d Hd. assert (H : d = 0 \/ d = 1 \/ d = 2 \/ d = 3 \/ d = 4 \/ d = 5 \/ d = 6 \/ d = 7 \/ d = 8 \/ d = 9) by lia.
  repeat (destruct H as [->|H]; [reflexivity|]). subst d. reflexivity.
Qed.
Lemma hex2_fmt : forall b, is_byte b -> hex2 (fmt_02x b) b.
Proof.
  intros b Hb. unfold is_byte in Hb. split; [|reflexivity]. unfold fmt_02x. rewrite <- !hex_char_digit by lia.
  replace b with (16 * (16 * 0 + b / 16) + b mod 16) at 3 by lia.
  apply (Dg1 16 [_] _ (b mod 16)); [|lia]. apply (Dg1 16 [] 0 (b / 16)); [constructor|lia].
Qed.
Lemma decimal_fmt : forall b, is_byte b -> decimal (fmt_d_byte b) b.
Proof.
  intros b Hb. unfold is_byte in Hb. unfold fmt_d_byte. destruct (b <? 10) eqn:E1; [|destruct (b <? 100) eqn:E2].
  - split; [|split; [discriminate|reflexivity]]. rewrite <- dec_char_digit by lia. replace b with (10 * 0 + b) at 2 by lia. apply (Dg1 10 [] 0 b); [constructor|lia].
  - split; [|split; [discriminate|intro H; cbn [nth] in H; exfalso; lia]]. rewrite <- !dec_char_digit by lia. replace b with (10 * (10 * 0 + b / 10) + b mod 10) at 3 by lia.
    apply (Dg1 10 [_] _ (b mod 10)); [|lia]. apply (Dg1 10 [] 0 (b / 10)); [constructor|lia].
  - split; [|split; [discriminate|intro H; cbn [nth] in H; exfalso; lia]]. rewrite <- !dec_char_digit by lia. replace b with (10 * (10 * (10 * 0 + b / 100) + (b / 10) mod 10) + b mod 10) at 4 by lia.
    apply (Dg1 10 [_; _] _ (b mod 10)); [|lia]. apply (Dg1 10 [_] _ ((b / 10) mod 10)); [|lia]. apply (Dg1 10 [] 0 (b / 100)); [constructor|lia].
Qed.
Lemma decimal_int : forall b, is_byte b -> decimal (fmt_int b) b.
Proof. intros b Hb. rewrite fmt_int_byte by exact Hb. apply decimal_fmt. exact Hb. Qed.
Lemma dotted_addr : forall a, word24 a -> dotted (addr_string a) a.
Proof.
  intros a Ha. unfold word24 in Ha. exists (fmt_02x (byte_of (a / 65536))), (fmt_02x (byte_of (a / 256))), (fmt_02x (byte_of a)), (a / 65536), ((a / 256) mod 256), (a mod 256).
  unfold byte_of. split; [reflexivity|]. replace ((a / 65536) mod 256) with (a / 65536) by lia.
  split; [apply hex2_fmt; unfold is_byte; lia|]. split; [apply hex2_fmt; unfold is_byte; lia|]. split; [apply hex2_fmt; unfold is_byte; lia|lia].
Qed.
Lemma listed_payload : forall b, bytes_ok b -> listed (payload_str b) b.
Proof.
  intros b Hb. rewrite payload_str_join. unfold hex_join. induction Hb as [|v b Hv Hb IH]; [constructor|]. destruct b as [|c b].
  - apply Ls1. apply hex2_fmt. exact Hv.
  - apply (Ls2 (fmt_02x v) v _ c b); [apply hex2_fmt; exact Hv|exact IH].
Qed.

(** ** C74 *)
(** Two lines have the same text exactly when they say the same. *)
Theorem C74_line_text : forall et a b, line_ok a -> line_ok b -> (sn_body et a = sn_body et b <-> line_alike et a b).
Proof. exact line_text. Qed.
(** Its layout: numbers in digits between fixed words, the names of commands and the texts of link requests as C52 describes them. *)
Theorem C74_layout : forall et l, line_ok l -> line_says et cmd_string lr_string (sn_body et l) l.
Proof.
  intros et [r mx lf w p] (Hr & Hx & Hy & Hw & Hp). cbn [sn_rt sn_max sn_left sn_wh sn_py] in *.
  assert (W : exists t, wh_text w = zs " " ++ t /\ what_says cmd_string t w).
  { destruct w; cbn [wh_text what_says what_ok] in *; eexists; (split; [reflexivity|]); try reflexivity.
    - do 2 eexists. split; [reflexivity|]. split; apply decimal_fmt; tauto.
    - do 3 eexists. split; [reflexivity|]. repeat split; apply decimal_fmt; tauto.
    - eexists. split; [reflexivity|]. apply decimal_fmt; tauto. }
  destruct W as (t & Ew & W).
  exists (rt_text r), (fmt_d_byte mx), (fmt_d_byte lf), t, (py_text et p). split; [unfold sn_body; cbn [sn_rt sn_max sn_left sn_wh sn_py]; rewrite Ew, <- !app_assoc; reflexivity|].
  split; [|split; [apply decimal_fmt; exact Hx|split; [apply decimal_fmt; exact Hy|split; [exact W|]]]].
  - destruct r as [s|s c0 c1 fw|s d|ext s d]; cbn [rt_text route_says route_ok] in *.
    + eexists. split; [reflexivity|]. apply dotted_addr. exact Hr.
    + destruct Hr as (H1 & H2 & H3 & H4). exists (addr_string s), (fmt_02x c0), (fmt_02x c1), (fw_string fw).
      split; [unfold devcat_string; rewrite <- !app_assoc; reflexivity|]. split; [apply dotted_addr; exact H1|]. split; [apply hex2_fmt; exact H2|]. split; [apply hex2_fmt; exact H3|apply decimal_int; exact H4].
    + destruct Hr as (H1 & H2). do 2 eexists. split; [reflexivity|]. split; apply dotted_addr; assumption.
    + destruct Hr as (H1 & H2). exists (addr_string s), (addr_string d). split; [destruct ext; reflexivity|]. split; apply dotted_addr; assumption.
  - destruct p as [|[k d]|q|c|c|b e|b]; cbn [py_text pay_says pay_ok] in *.
    + reflexivity.
    + destruct Hp as (L1 & L2 & B1 & B2). exists (fmt_02x (nth 0 k 0)), (fmt_02x (nth 1 k 0)), (fmt_02x (nth 2 k 0)), (fmt_02x (nth 0 d 0)), (fmt_02x (nth 1 d 0)).
      split; [unfold pk_string, devcat_string; rewrite <- !app_assoc; reflexivity|]. repeat split; try apply hex2_fmt; try apply at_byte; assumption.
    + reflexivity.
    + intros. do 5 eexists. split; [reflexivity|]. repeat split; apply decimal_int; assumption.
    + intros. do 2 eexists. split; [reflexivity|]. repeat split; apply decimal_int; assumption.
    + eexists. split; [reflexivity|]. apply listed_payload. exact Hp.
    + eexists. split; [reflexivity|]. apply listed_payload. exact Hp.
Qed.
(** So have two outputs, as long as the text of an error stays on its line. *)
Theorem C74_output : forall et ls ks, (forall e, ~ In 10 (et e)) -> Forall line_ok ls -> Forall line_ok ks ->
  (sn_output et ls = sn_output et ks <-> Forall2 (line_alike et) ls ks).
Proof. exact output_lines. Qed.
(** Every line the filter shows is of that kind. *)
Theorem C74_shown_lines : forall W (mw : mwriter W) db ops w rs ls c w' log,
  do_ops (snoop_filter db (mlogged mw)) ops ([], (snoop_cache, (w, []))) = (Ret rs, (ls, (c, (w', log)))) ->
  Forall ev_well log -> Forall line_ok ls.
Proof.
  intros W mw db ops w rs ls c w' log H HL. apply C57_lines in H; [|exact HL]. apply display_messages in H; [|exact HL|constructor].
  induction H as [|m l ms ls (Hm & h & Hh & HS) H IH]; constructor; [|exact IH]. eapply shown_ok; eassumption.
Qed.
(** Two runs that put the same text on the terminal saw messages that agree one by one in everything a line tells. *)
Theorem C74_same_output : forall et W (mw : mwriter W) V (mv : mwriter V) db ops ops' w v rs rs' ls ls' c c' w' v' log log', (forall e, ~ In 10 (et e)) ->
  do_ops (snoop_filter db (mlogged mw)) ops ([], (snoop_cache, (w, []))) = (Ret rs, (ls, (c, (w', log)))) -> Forall ev_well log ->
  do_ops (snoop_filter db (mlogged mv)) ops' ([], (snoop_cache, (v, []))) = (Ret rs', (ls', (c', (v', log')))) -> Forall ev_well log' ->
  sn_output et ls = sn_output et ls' -> Forall2 told_alike (went_by log) (went_by log').
Proof.
  intros et W mw V mv db ops ops' w v rs rs' ls ls' c c' w' v' log log' He H HL H' HL' E.
  pose proof (C74_shown_lines _ _ _ _ _ _ _ _ _ _ H HL) as K. pose proof (C74_shown_lines _ _ _ _ _ _ _ _ _ _ H' HL') as K'.
  apply output_lines in E; [|assumption..]. clear K K'.
  apply C57_lines in H; [|exact HL]. apply display_messages in H; [|exact HL|constructor].
  apply C57_lines in H'; [|exact HL']. apply display_messages in H'; [|exact HL'|constructor].
  revert H H'. generalize (went_by log) (went_by log'). clear -He E. induction E as [|l l' ls ls' A E IH]; intros ms os H H'; inversion H; inversion H'; subst; constructor.
  - match goal with Q : well _ /\ exists _, _ /\ shows db _ _ l |- _ => destruct Q as (Q1 & h & Q2 & Q3) end.
    match goal with Q : well _ /\ exists _, _ /\ shows db _ _ l' |- _ => destruct Q as (S1 & h' & S2 & S3) end.
    exact (proj1 (kinds_told db h h' _ _ l l' Q1 S1 Q2 S2 Q3 S3 et A)).
  - apply IH; assumption.
Qed.
(** And acknowledgements with the same text were of commands of the same name, or both of commands unknown with the same two bytes. *)
Theorem C74_acks : forall et db h h' m o l l' k e a b, well m -> well o -> Forall well h -> Forall well h' -> shows db h m l -> shows db h' o l' ->
  flags_layout (m_flags m) k e a b -> k = KDirectAck \/ k = KCleanupAck -> sn_body et l = sn_body et l' -> ack_alike h h' m o.
Proof.
  intros et db h h' m o l l' k e a b Hm Ho Hh Hh' S S' F Hk E. apply line_text in E; [|exact (shown_ok db h m l Hm Hh S)|exact (shown_ok db h' o l' Ho Hh' S')].
  exact (proj2 (kinds_told db h h' m o l l' Hm Ho Hh Hh' S S' et E) k e a b F Hk).
Qed.
(** A refusal is not told from a command: a device that rejects Light On and one that is sent Light On give the same line. *)
Theorem C74_nak_not_shown_refuted : exists m o l h k, well m /\ well o /\ shows None [m] m l /\ shows None [o] o l /\
  flags_layout (m_flags m) KDirect false h k /\ flags_layout (m_flags o) KDirectNak false h k.
Proof.
  exists (mkMsg 1 9 0x0a 0x11ff []), (mkMsg 1 9 0xaa 0x11ff []), (mkLine (RtDirect false 1 9) 2 2 (WhCommand 0x11ff) PyNone), 2, 2.
  split; [repeat split; cbn; try lia; constructor|]. split; [repeat split; cbn; try lia; constructor|].
  split; [|split; [|split; repeat split; cbn; lia]].
  - exists KDirect, false. split; [repeat split; cbn; lia|]. split; [reflexivity|]. split; [|reflexivity].
    exists 0, 0x11, 0xff, 0, 0, 9. unfold is_byte. repeat split; cbn; lia.
  - exists KDirectNak, false. split; [repeat split; cbn; lia|]. split; [reflexivity|]. split; [|reflexivity].
    exists 0, 0x11, 0xff, 0, 0, 9. unfold is_byte. repeat split; cbn; lia.
Qed.
(** A command, its acknowledgement, an all-link report, an extended message with raw data and one with a link record. *)
Example C74_ex : exists c s,
  do_ops (snoop_filter None (list_mw EEOF)) [DoRead; DoRead; DoRead; DoRead; DoRead] ([], (snoop_cache,
    [mkMsg 0x010203 0x040506 0x0f 0x11ff []; mkMsg 0x040506 0x010203 0x2b 0x11ff []; mkMsg 0x010203 0x110203 0xcf 0x0c0600 [];
     mkMsg 0x010203 0x040506 0x1f 0x012e00 [1; 2; 0xab]; mkMsg 0x010203 0x040506 0x1f 0x012f00 [0; 1; 0x0f; 0xf7; 0; 0xa2; 12; 10; 11; 12; 0; 0; 0; 0]])) = c /\
  fst (snd c) = s /\ sn_output (fun _ => zs "?") s = unlines
    [zs "SD 01.02.03 -> 04.05.06 3:3 Light On(255)"; zs "SD 04.05.06 -> 01.02.03 3:2 Light On(255) ACK";
     zs "SA 01.02.03 -> ff.ff.ff 3:3 All-link Success Report: All-link recall Group 3 (cleanup 2, failed 0)";
     zs "ED 01.02.03 -> 04.05.06 3:3 Extended Get/Set unknown payload [01, 02, ab]";
     zs "ED 01.02.03 -> 04.05.06 3:3 Read/Write ALDB Link Resp 0f.f7 0 UR 12 0a.0b.0c 0x00 0x00 0x00"].
Proof. do 2 eexists. split; [vm_compute; reflexivity|]. split; [reflexivity|]. vm_compute. reflexivity. Qed.
(** The remaining forms of a line. *)
Example C74_ex_forms :
  map (sn_body (fun _ => zs "short buffer"))
    [ mkLine (RtBroadcast 0x010203 1 0x2e 65) 3 2 (WhCommand 0x080100) PyNone; mkLine (RtCleanup 0x010203 0x040506) 1 0 (WhGroup 0x0c1100 7) PyNone;
      mkLine (RtAllLink 0x010203) 3 1 (WhGroup 0x0c1300 9) PyNone;
      mkLine (RtDirect false 0x010203 0x040506) 3 2 (WhUnknownAck 17 255) PyNone;
      mkLine (RtDirect true 0x010203 0x040506) 3 2 (WhCommand 0x010300) (PyProduct ([0; 0x1a; 0xb2], [1; 0x20]));
      mkLine (RtDirect true 0x010203 0x040506) 3 2 (WhCommand 0x012e00) (PyDimmer (mkDC 1 2 31 255 40));
      mkLine (RtDirect true 0x010203 0x040506) 3 2 (WhCommand 0x012e00) (PySwitch (mkSC 1 2));
      mkLine (RtDirect true 0x010203 0x040506) 3 2 (WhCommand 0x012e00) (PyError [1; 2] EEOF) ] =
    [ zs "SB 01.02.03 -> ff.ff.ff DevCat 01.2e Firmware 65 3:2 Set-button Pressed (responder)"; zs "SC 01.02.03 -> 04.05.06 1:0 All-link recall Group 7";
      zs "SA 01.02.03 -> ff.ff.ff 3:1 All-link Alias 1 Low Group 9";
      zs "SD 01.02.03 -> 04.05.06 3:2 17.255 (unknown ACK)";
      zs "ED 01.02.03 -> 04.05.06 3:2 Product Data Response &{0x001ab2 01.20}";
      zs "ED 01.02.03 -> 04.05.06 3:2 Extended Get/Set &{1 2 31 255 40}";
      zs "ED 01.02.03 -> 04.05.06 3:2 Extended Get/Set &{1 2}";
      zs "ED 01.02.03 -> 04.05.06 3:2 Extended Get/Set payload error [01, 02] short buffer" ].
Proof. vm_compute. reflexivity. Qed.

(** The theorems on a command and its acknowledgement, seen by two filters: the second device had been sent another command before. *)
Definition ex_cmd74 (c : Z) : message := mkMsg 0x010203 0x040506 0x0f c [].
Definition ex_ack74 : message := mkMsg 0x040506 0x010203 0x2b 0x11ff [].
Definition ex_line74 : sn_line := mkLine (RtDirect false 0x040506 0x010203) 3 2 (WhAck 0x11ff) PyNone.
Lemma ex_well74 : forall c, 0 <= c < 65536 -> well (ex_cmd74 c) /\ well ex_ack74.
Proof. intros c Hc. split; (split; [unfold msg_wf, is_byte; cbn; repeat split; try lia; constructor|cbn; lia]). Qed.
Lemma ex_shows74 : forall h, acked h ex_ack74 = Some (ex_cmd74 0x11ff) -> shows None h ex_ack74 ex_line74.
Proof.
  intros h H. exists KDirectAck, false. split; [unfold flags_layout; cbn; lia|]. split; [reflexivity|]. split; [|reflexivity].
  exists 0, 0x11, 0xff, 1, 2, 3. unfold is_byte. repeat (split; [cbn; lia|]). rewrite H. reflexivity.
Qed.
Example C74_acks_case : ack_alike [ex_cmd74 0x11ff; ex_ack74] [ex_cmd74 0x1300; ex_cmd74 0x11ff; ex_ack74] ex_ack74 ex_ack74.
Proof.
  destruct (ex_well74 0x11ff ltac:(lia)) as [W A]. destruct (ex_well74 0x1300 ltac:(lia)) as [W' _].
  apply (C74_acks (fun _ => []) None [ex_cmd74 0x11ff; ex_ack74] [ex_cmd74 0x1300; ex_cmd74 0x11ff; ex_ack74] ex_ack74 ex_ack74 ex_line74 ex_line74 KDirectAck false 2 3 A A).
  - repeat (apply Forall_cons; [assumption|]); apply Forall_nil.
  - repeat (apply Forall_cons; [assumption|]); apply Forall_nil.
  - apply ex_shows74. reflexivity.
  - apply ex_shows74. reflexivity.
  - unfold flags_layout; cbn; lia.
  - left. reflexivity.
  - reflexivity.
Qed.
Example C74_same_output_case : exists ls, sn_output (fun _ => zs "?") ls = unlines [zs "SD 01.02.03 -> 04.05.06 3:3 Light On(255)"; zs "SD 04.05.06 -> 01.02.03 3:2 Light On(255) ACK"] /\
  Forall line_ok ls /\ forall ms rs ls' c w log, Forall ev_well log ->
    do_ops (snoop_filter None (mlogged (list_mw EEOF))) [DoRead; DoRead; DoRead] ([], (snoop_cache, (ms, []))) = (Ret rs, (ls', (c, (w, log)))) ->
    sn_output (fun _ => zs "?") ls = sn_output (fun _ => zs "?") ls' -> Forall2 told_alike [ex_cmd74 0x11ff; ex_ack74] (went_by log).
Proof.
  destruct (do_ops (snoop_filter None (mlogged (list_mw EEOF))) [DoRead; DoRead] ([], (snoop_cache, ([ex_cmd74 0x11ff; ex_ack74], [])))) as [r (ls & c & w & log)] eqn:E.
  assert (Er : exists rs, r = Ret rs) by (apply (f_equal fst) in E; vm_compute in E; eexists; symmetry; exact E). destruct Er as [rs ->].
  assert (El : log = [MR (Ret (Some (ex_cmd74 0x11ff), None)); MR (Ret (Some ex_ack74, None))]) by (apply (f_equal (fun x => snd (snd (snd (snd x))))) in E; vm_compute in E; symmetry; exact E).
  assert (Es : ls = [mkLine (RtDirect false 0x010203 0x040506) 3 3 (WhCommand 0x11ff) PyNone; ex_line74]) by (apply (f_equal (fun x => fst (snd x))) in E; vm_compute in E; symmetry; exact E).
  destruct (ex_well74 0x11ff ltac:(lia)) as [W A]. assert (Hl : Forall ev_well log) by (rewrite El; repeat (apply Forall_cons; [assumption|]); apply Forall_nil).
  exists ls. split; [rewrite Es; vm_compute; reflexivity|]. split; [exact (C74_shown_lines _ _ _ _ _ _ _ _ _ _ E Hl)|]. intros ms rs' ls' c' w' log' Hl' E' Eo.
  assert (N : forall e : error, ~ In 10 (zs "?")) by (intros _ [H|[]]; discriminate H).
  pose proof (C74_same_output (fun _ => zs "?") _ _ _ _ _ _ _ _ _ _ _ _ _ _ _ _ _ _ _ N E Hl E' Hl' Eo) as H. rewrite El in H. exact H.
Qed.

Print Assumptions C74_line_text.
Print Assumptions C74_layout.
Print Assumptions C74_output.
Print Assumptions C74_shown_lines.
Print Assumptions C74_same_output.
Print Assumptions C74_acks.
Print Assumptions C74_nak_not_shown_refuted.
