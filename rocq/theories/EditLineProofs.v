(** Proofs about the lines of an edited link database. *)
From Coq Require Import ZArith List Bool Lia ZifyBool ZifyNat.
From Verif Require Import GoBase GoText GoLemmas Address AddressSpec AddressProofs Link LinkSpec LinkProofs LinkText CodecProofs.
From Verif Require Import IcVarsSpec IcVarsProofs Anonymize AnonymizeSpec AnonymizeProofs EditLineSpec.
Import ListNotations.
Open Scope Z_scope.
Ltac Zify.zify_post_hook ::= Z.div_mod_to_equations.

Lemma white_space : forall c, white c <-> is_space c = true.
Proof. intros c. unfold white, blank, is_space, wide_space. lia. Qed.
Lemma not_white : forall c, ~ white c <-> is_space c = false.
Proof. intros c. unfold white, blank, is_space, wide_space. lia. Qed.
Lemma white_all : forall s, Forall white s <-> Forall (fun c => is_space c = true) s.
Proof. intros s. split; intro H; (eapply Forall_impl; [|exact H]); intros c Hc; apply white_space; exact Hc. Qed.
Lemma not_white_all : forall s, Forall (fun c => ~ white c) s <-> nonblank s.
Proof. intros s. split; intro H; (eapply Forall_impl; [|exact H]); intros c Hc; apply not_white; exact Hc. Qed.

Lemma words_fields : forall s ws, words s ws -> fields s = ws.
Proof.
  induction 1 as [sp Hsp|sp w rest ws Hsp Hw Hnb Hr H IH].
  - rewrite <- (app_nil_r sp). apply white_all in Hsp. rewrite fields_spaces by exact Hsp. reflexivity.
  - apply white_all in Hsp. apply not_white_all in Hnb. rewrite fields_spaces by exact Hsp.
    destruct Hr as [->|(c & r & -> & Hc)].
    + rewrite app_nil_r. rewrite fields_word by assumption. cbn in IH. rewrite <- IH. reflexivity.
    + apply white_space in Hc. rewrite fields_word_space by assumption. rewrite fields_space in IH by exact Hc. rewrite IH. reflexivity.
Qed.

Lemma fields_go_words : forall s,
  words s (fields_go [] s) /\
  forall cur, cur <> [] -> exists w rest ws, s = w ++ rest /\ nonblank w /\ (rest = [] \/ exists c r, rest = c :: r /\ white c) /\
    words rest ws /\ fields_go cur s = (rev cur ++ w) :: ws.
Proof.
  induction s as [|c s [IH1 IH2]].
  - split; [constructor; constructor|]. intros cur Hcur. exists [], [], []. repeat split; auto; try constructor; try constructor.
    cbn [fields_go]. rewrite app_nil_r. destruct cur; [contradiction|reflexivity].
  - cbn [fields_go]. destruct (is_space c) eqn:E.
    + assert (Hw : words (c :: s) (fields_go [] s)).
      { remember (fields_go [] s) as ws eqn:Ews. clear Ews. destruct IH1 as [sp Hsp|sp w rest ws Hsp Hw Hnb Hr H].
        - constructor. constructor; [apply white_space; exact E|exact Hsp].
        - change (c :: sp ++ w ++ rest) with ((c :: sp) ++ w ++ rest). constructor; auto. constructor; [apply white_space; exact E|exact Hsp]. }
      split; [exact Hw|]. intros cur Hcur. exists [], (c :: s), (fields_go [] s). repeat split; auto.
      * constructor.
      * right. exists c, s. split; [reflexivity|apply white_space; exact E].
      * rewrite app_nil_r. destruct cur; [contradiction|reflexivity].
    + split.
      * destruct (IH2 [c] ltac:(discriminate)) as (w & rest & ws & -> & Hnb & Hr & Hws & Heq). rewrite Heq. cbn [rev app].
        change (c :: w ++ rest) with ([] ++ (c :: w) ++ rest). constructor; auto; [discriminate|].
        constructor; [apply not_white; exact E|apply not_white_all; exact Hnb].
      * intros cur Hcur. destruct (IH2 (c :: cur) ltac:(discriminate)) as (w & rest & ws & -> & Hnb & Hr & Hws & Heq).
        exists (c :: w), rest, ws. repeat split; auto.
        -- constructor; assumption.
        -- rewrite Heq. cbn [rev]. rewrite <- app_assoc. reflexivity.
Qed.

Lemma words_iff : forall s ws, words s ws <-> fields s = ws.
Proof. intros s ws. split; [apply words_fields|]. intros <-. apply (proj1 (fields_go_words s)). Qed.

(** ** Words *)
Lemma flags_word_iff : forall w f, flags_word w f <-> (let '(f0, e) := rcf_unmarshal_text 0 w in e = None /\ rcf_clear_last_record f0 = f).
Proof.
  intros w f. split.
  - intros []; cbn; auto.
  - destruct w as [|a [|b [|c w]]]; cbn; try (intros [H _]; discriminate H).
    unfold ch_A, ch_U, ch_C, ch_R. destruct (a =? 65) eqn:Ea; [|destruct (a =? 85) eqn:Eu]; (destruct (b =? 67) eqn:Ec; [|destruct (b =? 82) eqn:Er]);
      intros [H1 H2]; try discriminate H1; rewrite <- H2;
      repeat match goal with H : (_ =? _) = true |- _ => apply Z.eqb_eq in H; subst end; constructor.
Qed.

Lemma dec_val_digit : forall c v, dec_val c = Some v <-> dec_digit c v.
Proof.
  intros c v. unfold dec_val, dec_digit. destruct ((48 <=? c) && (c <=? 57)) eqn:E; split; intro H.
  - injection H as H. lia.
  - f_equal. lia.
  - discriminate.
  - lia.
Qed.

Lemma dec_digits_spec : forall s acc n v m rest, take_digits dec_val 10 None acc n s = (v, m, rest) ->
  exists ds vs, s = ds ++ rest /\ Forall2 dec_digit ds vs /\ m = (n + length ds)%nat /\ v = decimal_value acc vs.
Proof.
  induction s as [|c s IH]; intros acc n v m rest H; cbn [take_digits] in H.
  - injection H as <- <- <-. exists [], []. repeat split; auto; cbn; lia.
  - destruct (dec_val c) as [d|] eqn:E.
    + destruct (IH _ _ _ _ _ H) as (ds & vs & -> & Hf & -> & ->).
      exists (c :: ds), (d :: vs). repeat split; auto.
      * constructor; [apply dec_val_digit; exact E|exact Hf].
      * cbn [length]; lia.
      * cbn [decimal_value]. f_equal. lia.
    + injection H as <- <- <-. exists [], []. repeat split; auto; cbn; lia.
Qed.

Lemma dec_digits_all : forall ds vs acc n, Forall2 dec_digit ds vs ->
  take_digits dec_val 10 None acc n ds = (decimal_value acc vs, (n + length ds)%nat, []).
Proof.
  induction ds as [|d ds IH]; intros vs acc n Hf; inversion Hf as [|d' v ds' vs' Hd Hds]; subst.
  - cbn [take_digits length decimal_value]. rewrite Nat.add_0_r. reflexivity.
  - cbn [take_digits]. apply dec_val_digit in Hd. rewrite Hd. rewrite (IH vs') by exact Hds.
    cbn [length decimal_value]. replace (acc * 10 + v) with (10 * acc + v) by lia. replace (S n + length ds)%nat with (n + S (length ds))%nat by lia. reflexivity.
Qed.

Lemma decimal_value_nonneg : forall ds vs acc, Forall2 dec_digit ds vs -> 0 <= acc -> 0 <= decimal_value acc vs.
Proof.
  intros ds vs acc H. revert acc. induction H as [|d v ds vs [Hd _] H IH]; intros acc Ha; cbn [decimal_value]; [exact Ha|]. apply IH. lia.
Qed.

Lemma all_digits_dec : forall s v, all_digits_val dec_val 10 s = Some v <-> exists vs, Forall2 dec_digit s vs /\ s <> [] /\ v = decimal_value 0 vs.
Proof.
  intros s v. unfold all_digits_val. split.
  - destruct (take_digits dec_val 10 None 0 0 s) as [[v' n] rest] eqn:E. destruct rest as [|c r]; [|discriminate].
    destruct (dec_digits_spec _ _ _ _ _ _ E) as (ds & vs & -> & Hf & -> & ->). rewrite app_nil_r in *.
    destruct (Nat.eqb (0 + length ds) 0) eqn:E0; [discriminate|]. intro H. injection H as <-. exists vs. repeat split; auto.
    intros ->. cbn in E0. discriminate.
  - intros (vs & Hf & Hne & ->). rewrite (dec_digits_all _ _ _ _ Hf). destruct s as [|c s]; [contradiction|]. reflexivity.
Qed.

Lemma group_word_iff : forall w g, group_word w g <-> group_unmarshal_text 0 w = (g, None).
Proof.
  intros w g. unfold group_word, group_unmarshal_text, atoi, parse_int. split.
  - intros (sign & ds & vs & -> & Hf & Hne & -> & Hle & Hs).
    pose proof (decimal_value_nonneg _ _ 0 Hf (Z.le_refl 0)) as Hnn.
    assert (Ha : all_digits_val dec_val 10 ds = Some (decimal_value 0 vs)) by (apply all_digits_dec; exists vs; auto).
    assert (Hb : byte_of (decimal_value 0 vs) = decimal_value 0 vs) by (apply byte_of_id; unfold is_byte; lia).
    destruct Hs as [->|[->|[-> Hz]]].
    + cbn [app]. destruct ds as [|c ds]; [contradiction|].
      inversion Hf as [|c' v ds' vs' Hc Hds]; subst. destruct Hc as [Hv ->].
      replace (48 + v =? ch_minus) with false by (unfold ch_minus; lia). replace (48 + v =? ch_plus) with false by (unfold ch_plus; lia).
      rewrite Ha. change (2 ^ (64 - 1)) with 9223372036854775808.
      replace (decimal_value 0 (v :: vs') <? 9223372036854775808) with true by lia.
      replace ((0 <=? decimal_value 0 (v :: vs')) && (decimal_value 0 (v :: vs') <=? 255)) with true by lia. rewrite Hb. reflexivity.
    + cbn [app]. replace (43 =? ch_minus) with false by reflexivity. replace (43 =? ch_plus) with true by reflexivity.
      rewrite Ha. change (2 ^ (64 - 1)) with 9223372036854775808.
      replace (decimal_value 0 vs <? 9223372036854775808) with true by lia.
      replace ((0 <=? decimal_value 0 vs) && (decimal_value 0 vs <=? 255)) with true by lia. rewrite Hb. reflexivity.
    + cbn [app]. replace (45 =? ch_minus) with true by reflexivity. rewrite Ha, Hz. reflexivity.
  - intro H.
    assert (Hgen : forall sign body, w = sign ++ body -> (sign = [] \/ sign = [43]) -> forall v, all_digits_val dec_val 10 body = Some v -> v = g -> v <= 255 ->
      exists sign0 ds vs, w = sign0 ++ ds /\ Forall2 dec_digit ds vs /\ ds <> [] /\ g = decimal_value 0 vs /\ g <= 255 /\
        (sign0 = [] \/ sign0 = [43] \/ sign0 = [45] /\ g = 0)).
    { intros sign body Hw Hs v Hv <- Hle. apply all_digits_dec in Hv. destruct Hv as (vs & Hf & Hne & ->). exists sign, body, vs.
      repeat split; auto. destruct Hs; auto. }
    change (2 ^ (64 - 1)) with 9223372036854775808 in H.
    assert (Hpos : forall body, (match (match all_digits_val dec_val 10 body with None => None | Some v => if v <? 9223372036854775808 then Some v else None end) with
                     | Some v => if (0 <=? v) && (v <=? 255) then (byte_of v, None) else (0, Some (EOther 159))
                     | None => (0, Some (EOther 162)) end) = (g, None) -> exists v, all_digits_val dec_val 10 body = Some v /\ v = g /\ v <= 255).
    { intros body Hb. destruct (all_digits_val dec_val 10 body) as [v|]; [|discriminate].
      destruct (v <? 9223372036854775808); [|discriminate]. destruct ((0 <=? v) && (v <=? 255)) eqn:E; [|discriminate].
      injection Hb as Hb. exists v. rewrite byte_of_id in Hb by (unfold is_byte; lia). repeat split; auto; lia. }
    destruct w as [|c t].
    + destruct (Hpos [] H) as (v & Hv & E & Hle). eapply (Hgen [] []); eauto.
    + destruct (c =? ch_minus) eqn:Em.
      * destruct (all_digits_val dec_val 10 t) as [v|] eqn:Ev; [|discriminate].
        destruct (v <=? 9223372036854775808); [|discriminate]. destruct ((0 <=? - v) && (- v <=? 255)) eqn:E; [|discriminate].
        apply all_digits_dec in Ev. destruct Ev as (vs & Hf & Hne & ->).
        pose proof (decimal_value_nonneg _ _ 0 Hf (Z.le_refl 0)) as Hnn. assert (Hz : decimal_value 0 vs = 0) by lia.
        rewrite Hz in H. injection H as <-. apply Z.eqb_eq in Em. subst c. exists [45], t, vs. repeat split; auto; cbn; lia.
      * destruct (c =? ch_plus) eqn:Ep.
        -- destruct (Hpos t H) as (v & Hv & E & Hle). apply Z.eqb_eq in Ep. subst c. eapply (Hgen [43] t); eauto.
        -- destruct (Hpos (c :: t) H) as (v & Hv & E & Hle). eapply (Hgen [] (c :: t)); eauto.
Qed.

Lemma group_other : forall w g0 g, group_unmarshal_text g0 w = (g, None) -> group_unmarshal_text 0 w = (g, None).
Proof. intros w g0 g. unfold group_unmarshal_text. destruct (atoi w); [|discriminate]. destruct ((0 <=? z) && (z <=? 255)); [auto|discriminate]. Qed.

Lemma data_word_iff : forall w v, data_text w v <-> Link.scan_data 0 w = (v, None).
Proof.
  intros w v. rewrite <- IcVarsProofs.scan_data. unfold Link.scan_data. destruct (scan_hex8 None w) as [[x r]|]; split.
  - intros [r' H]. injection H as -> _. reflexivity.
  - intro H. injection H as ->. exists r. reflexivity.
  - intros [r' H]. discriminate.
  - discriminate.
Qed.

(** ** A line *)
Lemma record_line_iff : forall line r, link_unmarshal_text link_zero line = (r, None) <-> record_line line r.
Proof.
  intros line r. unfold link_unmarshal_text, record_line. split.
  - destruct (fields line) as [|w0 [|w1 [|w2 [|w3 [|w4 [|w5 [|w6 ws]]]]]]] eqn:Ew; try discriminate.
    apply words_iff in Ew.
    cbn [l_flags l_group l_addr l_d0 l_d1 l_d2 link_zero].
    pose proof (flags_word_iff w0) as F. destruct (rcf_unmarshal_text 0 w0) as [f0 [e|]] eqn:E0; [discriminate|].
    destruct (group_unmarshal_text 0 w1) as [g [e|]] eqn:E1; [discriminate|]. apply group_word_iff in E1.
    destruct (addr_unmarshal_text 0 w2) as [a [e|]] eqn:E2; [discriminate|]. apply addr_accept_iff in E2.
    destruct (Link.scan_data 0 w3) as [x0 [e|]] eqn:E3; [discriminate|]. apply data_word_iff in E3.
    destruct (Link.scan_data 0 w4) as [x1 [e|]] eqn:E4; [discriminate|]. apply data_word_iff in E4.
    destruct (Link.scan_data 0 w5) as [x2 [e|]] eqn:E5; [discriminate|]. apply data_word_iff in E5.
    intro H. injection H as <-. exists w0, w1, w2, w3, w4, w5. cbn [l_flags l_group l_addr l_d0 l_d1 l_d2]. repeat split; auto.
    apply F. auto.
  - intros (w0 & w1 & w2 & w3 & w4 & w5 & Hw & Hf & Hg & Ha & H3 & H4 & H5). apply words_iff in Hw. rewrite Hw.
    cbn [l_flags l_group l_addr l_d0 l_d1 l_d2 link_zero].
    apply flags_word_iff in Hf. destruct (rcf_unmarshal_text 0 w0) as [f0 e0]. destruct Hf as [-> Hf].
    apply group_word_iff in Hg. rewrite Hg. apply (addr_accept_iff 0) in Ha. rewrite Ha.
    apply data_word_iff in H3, H4, H5. rewrite H3, H4, H5, Hf. destruct r; reflexivity.
Qed.

(** ** The whole text *)
Lemma drop_space_whites : forall sp s, Forall white sp -> drop_space (sp ++ s) = drop_space s.
Proof.
  induction sp as [|c sp IH]; intros s H; [reflexivity|]. inversion H as [|? ? Hc Hsp]; subst. cbn [app drop_space].
  apply white_space in Hc. rewrite Hc. apply IH. exact Hsp.
Qed.
Lemma drop_space_parts : forall s, exists sp, Forall white sp /\ s = sp ++ drop_space s.
Proof.
  induction s as [|c s (sp & Hsp & E)]; [exists []; split; [constructor|reflexivity]|]. cbn [drop_space]. destruct (is_space c) eqn:Ec.
  - exists (c :: sp). split; [constructor; [apply white_space; exact Ec|exact Hsp]|]. cbn [app]. congruence.
  - exists []. split; [constructor|reflexivity].
Qed.

Lemma ignored_iff : forall l, ignored_line l <-> (drop_space l = [] \/ exists t, drop_space l = ch_hash :: t).
Proof.
  intros l. split.
  - intros [H|(sp & t & Hsp & ->)].
    + left. rewrite <- (app_nil_r l). rewrite drop_space_whites by exact H. reflexivity.
    + right. exists t. rewrite drop_space_whites by exact Hsp. reflexivity.
  - destruct (drop_space_parts l) as (sp & Hsp & E). intros [H|[t H]]; rewrite H in E.
    + left. rewrite E, app_nil_r. exact Hsp.
    + right. exists sp, t. auto.
Qed.

Lemma text_line_step : forall l ls acc,
  (ignored_line l -> text_lines acc (l :: ls) = text_lines acc ls) /\
  (~ ignored_line l -> text_lines acc (l :: ls) =
     match link_unmarshal_text link_zero l with (r, None) => text_lines (acc ++ [r]) ls | (_, Some e) => (acc, Some e) end).
Proof.
  intros l ls acc. rewrite ignored_iff. cbn [text_lines]. destruct (drop_space l) as [|c t] eqn:E.
  - rewrite (trim_space_nil _ E). split; [reflexivity|]. intro H. exfalso. apply H. left. reflexivity.
  - destruct (trim_space_cons _ _ _ E) as [t' Ht]. rewrite Ht. destruct (c =? ch_hash) eqn:Ec.
    + apply Z.eqb_eq in Ec. subst c. split; [reflexivity|]. intro H. exfalso. apply H. right. exists t. reflexivity.
    + split.
      * intros [H|[t0 H]]; [discriminate|]. injection H as -> _. discriminate Ec.
      * intros _. rewrite <- Ht, link_unmarshal_text_trim. reflexivity.
Qed.

Lemma ignored_dec : forall l, ignored_line l \/ ~ ignored_line l.
Proof.
  intros l. rewrite ignored_iff. destruct (drop_space l) as [|c t]; [left; left; reflexivity|].
  destruct (Z.eq_dec c ch_hash) as [->|Hc]; [left; right; exists t; reflexivity|right]. intros [H|[t0 H]]; [discriminate|]. injection H as H _. contradiction.
Qed.

Lemma text_lines_result : forall lines acc rs o, text_lines acc lines = (rs, o) ->
  exists new, rs = acc ++ new /\
    match o with
    | None => read_lines record_line lines new
    | Some _ => exists before bad after, lines = before ++ bad :: after /\ read_lines record_line before new /\ ~ ignored_line bad /\ ~ exists r, record_line bad r
    end.
Proof.
  induction lines as [|l ls IH]; intros acc rs o H.
  - cbn in H. injection H as <- <-. exists []. rewrite app_nil_r. split; [reflexivity|constructor].
  - destruct (text_line_step l ls acc) as [S1 S2]. destruct (ignored_dec l) as [Hi|Hi].
    + rewrite (S1 Hi) in H. destruct (IH _ _ _ H) as (new & -> & Hn). exists new. split; [reflexivity|]. destruct o as [e|].
      * destruct Hn as (before & bad & after & -> & Hr & Hb & Hx). exists (l :: before), bad, after. repeat split; auto. constructor; assumption.
      * constructor; assumption.
    + rewrite (S2 Hi) in H. destruct (link_unmarshal_text link_zero l) as [r [e|]] eqn:Er.
      * injection H as <- <-. exists []. rewrite app_nil_r. split; [reflexivity|]. exists [], l, ls. repeat split; auto; [constructor|].
        intros [r' Hr']. apply record_line_iff in Hr'. congruence.
      * apply record_line_iff in Er. destruct (IH _ _ _ H) as (new & -> & Hn). exists (r :: new). rewrite <- app_assoc. split; [reflexivity|]. destruct o as [e|].
        -- destruct Hn as (before & bad & after & -> & Hr & Hb & Hx). exists (l :: before), bad, after. repeat split; auto. apply rl_rec; assumption.
        -- apply rl_rec; assumption.
Qed.

Lemma read_lines_text : forall lines rs acc, read_lines record_line lines rs -> text_lines acc lines = (acc ++ rs, None).
Proof.
  intros lines rs acc H. revert acc. induction H as [|l ls rs Hi H IH|l ls r rs Hi Hr H IH]; intros acc.
  - rewrite app_nil_r. reflexivity.
  - rewrite (proj1 (text_line_step l ls acc) Hi). apply IH.
  - rewrite (proj2 (text_line_step l ls acc) Hi). apply record_line_iff in Hr. rewrite Hr, IH, <- app_assoc. reflexivity.
Qed.

Lemma text_accepted_iff : forall t rs, text_to_links t = (rs, None) <-> exists lines, consists_of lines t /\ read_lines record_line lines rs.
Proof.
  intros t rs. unfold text_to_links. split.
  - intro H. destruct (text_lines_result _ _ _ _ H) as (new & -> & Hn). exists (split_on ch_nl t). split; [apply consists_split; reflexivity|exact Hn].
  - intros (lines & Hc & Hr). apply consists_split in Hc. rewrite Hc. rewrite (read_lines_text _ _ _ Hr). reflexivity.
Qed.

Lemma text_refused : forall t rs e, text_to_links t = (rs, Some e) -> exists before bad after, consists_of (before ++ bad :: after) t /\
  read_lines record_line before rs /\ ~ ignored_line bad /\ ~ exists r, record_line bad r.
Proof.
  intros t rs e H. unfold text_to_links in H. destruct (text_lines_result _ _ _ _ H) as (new & -> & before & bad & after & E & Hr & Hb & Hx).
  exists before, bad, after. split; [apply consists_split; exact E|]. auto.
Qed.

(** ** What is meant *)
Lemma hex_byte_data : forall w v, hex_byte w v -> data_text w v.
Proof.
  intros w v (c1 & c0 & n1 & n0 & -> & H1 & H0 & ->). exists [], [c1; c0], [n1; n0], []. pose proof (hex_digit_range _ _ H1). pose proof (hex_digit_range _ _ H0).
  repeat split; auto; try discriminate; cbn [digits_value]; lia.
Qed.

Lemma rendering_accepted : forall a w, addr_rendering a w -> addr_accepts w a.
Proof. intros a w H. apply (addr_accept_iff 0). apply addr_rendering_parses. exact H. Qed.

Lemma meant_is_read : forall line r, meant_line line r -> record_line line r.
Proof.
  intros line r (w0 & w1 & w2 & w3 & w4 & w5 & vs & Hw & Hf & Hne & Hd & Hg & Hle & Ha & H3 & H4 & H5).
  exists w0, w1, w2, w3, w4, w5. repeat split; auto using hex_byte_data, rendering_accepted.
  exists [], w1, vs. repeat split; auto.
Qed.

Lemma meant_lines_read : forall lines rs, read_lines meant_line lines rs -> read_lines record_line lines rs.
Proof. induction 1; [constructor|apply rl_skip; assumption|apply rl_rec; auto using meant_is_read]. Qed.

Lemma printed_is_meant : forall l, link_wf l -> meant_line (link_marshal_text l) (expressible l).
Proof.
  intros l H. pose proof H as (Hf & Hg & Ha & H0 & H1 & H2).
  assert (Hw : words (link_marshal_text l) [rcf_string (l_flags l); fmt_d_byte (l_group l); addr_string (l_addr l); fmt_02x (l_d0 l); fmt_02x (l_d1 l); fmt_02x (l_d2 l)])
    by (apply words_iff; apply fields_marshal_text; exact H).
  assert (Hx : forall b, is_byte b -> hex_byte (fmt_02x b) b).
  { intros b Hb. unfold is_byte in Hb. exists (hex_char (b / 16)), (hex_char (b mod 16)), (b / 16), (b mod 16). repeat split; try (apply hex_char_digit; lia). lia. }
  assert (Hgd : exists vs, Forall2 dec_digit (fmt_d_byte (l_group l)) vs /\ l_group l = decimal_value 0 vs).
  { unfold is_byte in Hg. unfold fmt_d_byte, dec_digit. destruct (l_group l <? 10) eqn:E1; [|destruct (l_group l <? 100) eqn:E2].
    - exists [l_group l]. split; [repeat constructor; lia|cbn; lia].
    - exists [l_group l / 10; l_group l mod 10]. split; [repeat constructor; lia|cbn [decimal_value]; lia].
    - exists [l_group l / 100; (l_group l / 10) mod 10; l_group l mod 10]. split; [repeat constructor; lia|cbn [decimal_value]; lia]. }
  destruct Hgd as (vs & Hd & Hv).
  exists (rcf_string (l_flags l)), (fmt_d_byte (l_group l)), (addr_string (l_addr l)), (fmt_02x (l_d0 l)), (fmt_02x (l_d1 l)), (fmt_02x (l_d2 l)), vs.
  unfold expressible. cbn [l_flags l_group l_addr l_d0 l_d1 l_d2]. unfold is_byte in Hg.
  repeat split; auto; try lia.
  - destruct (rcf_accessors _ Hf) as (E1 & _ & E2 & _). unfold rcf_string. rewrite E1, E2. unfold bitb.
    destruct (bit_range 7 (l_flags l)) as [E7|E7], (bit_range 6 (l_flags l)) as [E6|E6]; rewrite E7, E6; constructor.
  - apply (proj2 (fmt_d_byte_nonblank _ Hg)).
  - apply addr_string_rendering. exact Ha.
Qed.
