(** Lemmas about the JSON text model: printing then parsing, enough fuel, and that a cut-off document is never accepted. *)
From Coq Require Import ZArith List Bool Lia ZifyBool ZifyNat.
From Verif Require Import GoBase GoLemmas GoText GoJson.
Import ListNotations.
Open Scope Z_scope.
Ltac Zify.zify_post_hook ::= Z.div_mod_to_equations.

Section json_induction.
  Variable P : json -> Prop.
  Hypothesis Hnull : P JNull.
  Hypothesis Hbool : forall b, P (JBool b).
  Hypothesis Hint : forall n, P (JInt n).
  Hypothesis Hreal : P JReal.
  Hypothesis Hstr : forall s, P (JStr s).
  Hypothesis Harr : forall l, Forall P l -> P (JArr l).
  Hypothesis Hobj : forall l, Forall (fun kv => P (snd kv)) l -> P (JObj l).
  Fixpoint json_ind2 (v : json) : P v :=
    match v with
    | JNull => Hnull
    | JBool b => Hbool b
    | JInt n => Hint n
    | JReal => Hreal
    | JStr s => Hstr s
    | JArr l => Harr l ((fix go (l : list json) : Forall P l :=
                           match l with [] => Forall_nil _ | x :: t => Forall_cons _ (json_ind2 x) (go t) end) l)
    | JObj l => Hobj l ((fix go (l : list (list Z * json)) : Forall (fun kv => P (snd kv)) l :=
                           match l with [] => Forall_nil _ | x :: t => Forall_cons _ (json_ind2 (snd x)) (go t) end) l)
    end.
End json_induction.

(** Trees json.Marshal can produce here: no real numbers, ASCII strings and names. *)
Inductive jwf : json -> Prop :=
| wf_null : jwf JNull
| wf_bool : forall b, jwf (JBool b)
| wf_int : forall n, jwf (JInt n)
| wf_str : forall s, is_ascii s -> jwf (JStr s)
| wf_arr : forall l, Forall jwf l -> jwf (JArr l)
| wf_obj : forall l, Forall (fun kv => is_ascii (fst kv) /\ jwf (snd kv)) l -> jwf (JObj l).

(* ------------------------------------------------------------------ strings *)
Lemma jstring_char : forall c t, 0 <= c < 128 ->
  jstring (jprint_char c ++ t) = match jstring t with Some (v, r) => Some (c :: v, r) | None => None end.
Proof.
  intros c t H.
  assert (I : In c (zrange_from 0 128)) by (apply zrange_from_In; lia).
  clear H. cbv [zrange_from] in I. cbn in I.
  repeat (destruct I as [<-|I]; [cbn; destruct (jstring t) as [[v r]|]; reflexivity|]). destruct I.
Qed.

Lemma jstring_print : forall s r, is_ascii s -> jstring (flat_map jprint_char s ++ ch_quote :: r) = Some (s, r).
Proof.
  induction s as [|c s IH]; intros r H; [reflexivity|].
  inversion H as [|x y Hc Hs]; subst. cbn [flat_map]. rewrite <- app_assoc, jstring_char by exact Hc.
  rewrite IH by exact Hs. reflexivity.
Qed.

(* ------------------------------------------------------------------ numbers *)
Lemma dec_go_acc : forall f n acc, dec_go f n acc = dec_go f n [] ++ acc.
Proof.
  induction f as [|f IH]; intros n acc; [reflexivity|]. cbn [dec_go].
  destruct (n <? 10); [reflexivity|]. rewrite IH. rewrite (IH _ [48 + n mod 10]). rewrite <- app_assoc. reflexivity.
Qed.

Lemma dec_val_digit : forall d, 0 <= d < 10 -> dec_val (48 + d) = Some d.
Proof. intros d H. unfold dec_val. replace (48 <=? 48 + d) with true by lia. replace (48 + d <=? 57) with true by lia. cbn [andb]. f_equal. lia. Qed.

Lemma take_dec : forall f n a k r, 0 <= n < 10 ^ (Z.of_nat f) ->
  take_digits dec_val 10 None a k (dec_go f n [] ++ r) =
  take_digits dec_val 10 None (a * 10 ^ (zlen (dec_go f n [])) + n) (k + length (dec_go f n [])) r.
Proof.
  induction f as [|f IH]; intros n a k r H.
  - cbn in H. replace n with 0 by lia. cbn. f_equal; lia.
  - cbn [dec_go]. destruct (Z.ltb_spec n 10) as [Hn|Hn].
    + cbn [app take_digits]. rewrite dec_val_digit by lia. unfold zlen. cbn [length].
      change (10 ^ Z.of_nat 1) with 10. f_equal; lia.
    + rewrite dec_go_acc. rewrite <- app_assoc. rewrite IH.
      * cbn [app take_digits]. rewrite dec_val_digit by lia. rewrite zlen_app, app_length. cbn [length].
        rewrite zlen_cons, zlen_nil. rewrite Z.pow_add_r by (try apply zlen_nonneg; lia).
        change (10 ^ (0 + 1)) with 10. f_equal; [|lia].
        set (q := 10 ^ zlen (dec_go f (n / 10) [])). nia.
      * rewrite Nat2Z.inj_succ, Z.pow_succ_r in H by lia. split; lia.
Qed.

Lemma dec_go_nonempty : forall f n, dec_go (S f) n [] <> [].
Proof. intros f n. cbn [dec_go]. destruct (n <? 10); [discriminate|]. rewrite dec_go_acc. intros E. apply app_eq_nil in E. destruct E. discriminate. Qed.

Lemma dec_go_head : forall f n, 0 < n < 10 ^ (Z.of_nat f) -> exists c t, dec_go f n [] = c :: t /\ 49 <= c <= 57.
Proof.
  induction f as [|f IH]; intros n H; [cbn in H; lia|].
  cbn [dec_go]. destruct (Z.ltb_spec n 10) as [Hn|Hn].
  - exists (48 + n), []. split; [reflexivity|lia].
  - rewrite dec_go_acc. destruct (IH (n / 10)) as (c & t & E & Hc).
    + rewrite Nat2Z.inj_succ, Z.pow_succ_r in H by lia. lia.
    + rewrite E. exists c, (t ++ [48 + n mod 10]). split; [reflexivity|exact Hc].
Qed.

Lemma fmt_nat_fuel : forall n, 0 <= n -> 0 <= n < 10 ^ (Z.of_nat (S (Z.to_nat (Z.log2 n)))).
Proof.
  intros n H. split; [exact H|].
  rewrite Nat2Z.inj_succ, Z2Nat.id by apply Z.log2_nonneg.
  destruct (Z.eq_dec n 0) as [->|Hn]; [cbn; lia|].
  pose proof (Z.log2_spec n ltac:(lia)) as [_ L].
  eapply Z.lt_le_trans; [exact L|]. apply Z.pow_le_mono_l. lia.
Qed.

Definition digit_start (s : list Z) : Prop := exists c t, s = c :: t /\ 48 <= c <= 57.
Lemma fmt_nat_start : forall n, 0 <= n -> digit_start (fmt_nat n).
Proof.
  intros n H. destruct (Z.eq_dec n 0) as [->|Hn]; [exists 48, []; split; [reflexivity|lia]|].
  assert (Hpos : 0 < n) by lia. pose proof (fmt_nat_fuel n H) as F. destruct (dec_go_head (S (Z.to_nat (Z.log2 n))) n (conj Hpos (proj2 F))) as (c & t & E & Hc).
  exists c, t. split; [exact E|lia].
Qed.

(** A rest at which a printed number is known to end. *)
Definition jstop (r : list Z) : Prop := match r with [] => True | c :: _ => c = 44 \/ c = 93 \/ c = 125 end.

Lemma take_digits_stop : forall a k r, jstop r -> take_digits dec_val 10 None a k r = (a, k, r).
Proof. intros a k [|c r] H; [reflexivity|]. cbn [take_digits]. cbn in H. unfold dec_val. replace ((48 <=? c) && (c <=? 57)) with false by lia. reflexivity. Qed.

Lemma jdigits_fmt_nat : forall n r, 0 <= n -> jstop r -> jdigits (fmt_nat n ++ r) = (n, length (fmt_nat n), r).
Proof.
  intros n r H Hr. unfold jdigits, fmt_nat at 1. rewrite take_dec by (apply fmt_nat_fuel; exact H).
  rewrite take_digits_stop by exact Hr. reflexivity.
Qed.

Lemma jfrac_stop : forall r, jstop r -> jfrac r = Some (false, r).
Proof. intros [|c r] H; [reflexivity|]. cbn in *. unfold ch_dot. replace (c =? 46) with false by lia. reflexivity. Qed.
Lemma jexp_stop : forall r, jstop r -> jexp r = Some (false, r).
Proof. intros [|c r] H; [reflexivity|]. cbn in *. replace ((c =? 101) || (c =? 69)) with false by lia. reflexivity. Qed.

Lemma jnumber_nat : forall (neg : bool) n r, 0 <= n -> jstop r ->
  jnumber ((if neg then [ch_minus] else []) ++ fmt_nat n ++ r) = Some (JInt (if neg then - n else n), r).
Proof.
  intros neg n r Hn Hr.
  assert (Hhd : forall X, (match (if neg then [ch_minus] else []) ++ fmt_nat n ++ r with
            | c :: t => if c =? ch_minus then (true, t) else (false, (if neg then [ch_minus] else []) ++ fmt_nat n ++ r)
            | [] => X end) = (neg, fmt_nat n ++ r)).
  { intros X. destruct neg; [reflexivity|]. cbn [app]. destruct (fmt_nat_start n Hn) as (c & t & E & Hc). rewrite E. cbn [app].
    unfold ch_minus. replace (c =? 45) with false by lia. reflexivity. }
  unfold jnumber. rewrite Hhd. rewrite jdigits_fmt_nat by assumption.
  destruct (Z.eq_dec n 0) as [->|Hz].
  - cbn [fmt_nat Z.log2 Z.to_nat dec_go length Nat.eqb]. cbn. rewrite jfrac_stop, jexp_stop by exact Hr. cbn. reflexivity.
  - assert (Hpos : 0 < n) by lia. pose proof (fmt_nat_fuel n Hn) as F. destruct (dec_go_head (S (Z.to_nat (Z.log2 n))) n (conj Hpos (proj2 F))) as (c & t & E & Hc).
    fold (fmt_nat n) in E. rewrite E. cbn [length Nat.eqb app]. replace (c =? 48) with false by lia. cbn [andb].
    rewrite jfrac_stop, jexp_stop by exact Hr. reflexivity.
Qed.

Lemma jnumber_int : forall n r, jstop r -> jnumber (fmt_int n ++ r) = Some (JInt n, r).
Proof.
  intros n r Hr. unfold fmt_int. destruct (Z.ltb_spec n 0).
  - pose proof (jnumber_nat true (- n) r ltac:(lia) Hr) as E. cbn [app] in E. cbn [app]. rewrite E.
    replace (- - n) with n by lia. reflexivity.
  - apply (jnumber_nat false n r); assumption.
Qed.

Lemma fmt_int_start : forall n, exists c t, fmt_int n = c :: t /\ (c = 45 \/ 48 <= c <= 57).
Proof.
  intros n. unfold fmt_int. destruct (Z.ltb_spec n 0).
  - exists 45, (fmt_nat (- n)). split; [reflexivity|lia].
  - destruct (fmt_nat_start n) as (c & t & E & Hc); [lia|]. exists c, t. split; [exact E|lia].
Qed.

(* ------------------------------------------------------------------ printing then parsing *)
Lemma jprint_start : forall v, jwf v -> exists c t, jprint v = c :: t /\ jspace c = false /\ c <> 93 /\ c <> 125.
Proof.
  intros v H. destruct H.
  - eexists _, _; split; [reflexivity|]; repeat split; discriminate.
  - destruct b; eexists _, _; (split; [reflexivity|]; repeat split; discriminate).
  - destruct (fmt_int_start n) as (c & t & E & Hc). exists c, t. cbn [jprint]. split; [exact E|]. unfold jspace. repeat split; lia.
  - eexists _, _; split; [reflexivity|]; repeat split; discriminate.
  - eexists _, _; split; [reflexivity|]; repeat split; discriminate.
  - eexists _, _; split; [reflexivity|]; repeat split; discriminate.
Qed.

Definition member_text (kv : list Z * json) : list Z := jprint_string (fst kv) ++ [ch_colon] ++ jprint (snd kv).

Lemma join_cons : forall sep (x : list Z) y l, join sep (x :: y :: l) = x ++ sep ++ join sep (y :: l).
Proof. reflexivity. Qed.

Lemma jws_id : forall c t, jspace c = false -> jws (c :: t) = c :: t.
Proof. intros c t H. cbn [jws]. rewrite H. reflexivity. Qed.

Lemma jelements_print : forall l, Forall jwf l ->
  Forall (fun v => forall f r, (length (jprint v) < f)%nat -> jstop r -> jvalue f (jprint v ++ r) = JOk v r) l ->
  l <> [] -> forall f r, (length (join [ch_comma] (map jprint l)) + 1 < f)%nat ->
  jelements f (join [ch_comma] (map jprint l) ++ ch_rbracket :: r) = JOk l r.
Proof.
  induction l as [|v l IH]; intros Hw HF Hne f r Hf; [contradiction|].
  inversion Hw as [|? ? Hwv Hwl]; subst. inversion HF as [|? ? Hv HFl]; subst.
  destruct f as [|f]; [lia|]. cbn [jelements].
  destruct l as [|w l].
  - cbn [map join] in Hf |- *. rewrite Hv by (try lia; cbn; unfold ch_rbracket; lia). rewrite jws_id by reflexivity. reflexivity.
  - cbn [map] in Hf |- *. rewrite join_cons in Hf |- *. rewrite !app_length in Hf. cbn [length] in Hf.
    rewrite <- !app_assoc. rewrite Hv; [|lia|cbn; unfold ch_comma; lia].
    cbn [app]. rewrite jws_id by reflexivity. unfold ch_comma at 1. cbn [Z.eqb Pos.eqb].
    change (join [ch_comma] (jprint w :: map jprint l)) with (join [ch_comma] (map jprint (w :: l))).
    rewrite IH; [reflexivity|assumption|assumption|discriminate|]. cbn [map]. lia.
Qed.

Lemma jmembers_print : forall l, Forall (fun kv => is_ascii (fst kv) /\ jwf (snd kv)) l ->
  Forall (fun kv => forall f r, (length (jprint (snd kv)) < f)%nat -> jstop r -> jvalue f (jprint (snd kv) ++ r) = JOk (snd kv) r) l ->
  l <> [] -> forall f r, (length (join [ch_comma] (map member_text l)) + 1 < f)%nat ->
  jmembers f (join [ch_comma] (map member_text l) ++ ch_rbrace :: r) = JOk l r.
Proof.
  induction l as [|[k v] l IH]; intros Hw HF Hne f r Hf; [contradiction|].
  inversion Hw as [|? ? [Hk Hwv] Hwl]; subst. inversion HF as [|? ? Hv HFl]; subst.
  destruct f as [|f]; [lia|]. cbn [fst snd] in *.
  assert (Hstep : forall rest, jstop rest -> (length (jprint v) < f)%nat ->
    jmembers (S f) (member_text (k, v) ++ rest) =
      match jws rest with
      | [] => JBad
      | c :: t =>
          if c =? ch_comma then match jmembers f t with JOk l r2 => JOk ((k, v) :: l) r2 | JBad => JBad | JFuel => JFuel end
          else if c =? ch_rbrace then JOk [(k, v)] t else JBad
      end).
  { intros rest Hst Hlen. cbn [jmembers]. unfold member_text, jprint_string. cbn [fst snd]. rewrite <- !app_assoc.
    cbn [app]. rewrite jws_id by reflexivity. rewrite Z.eqb_refl.
    rewrite jstring_print by exact Hk. rewrite jws_id by reflexivity. rewrite Z.eqb_refl.
    rewrite Hv by assumption. reflexivity. }
  assert (Hml : (length (jprint v) < length (member_text (k, v)))%nat).
  { unfold member_text. rewrite !app_length. cbn [length fst snd]. lia. }
  destruct l as [|kw l].
  - cbn [map join] in Hf |- *. rewrite Hstep by (try (cbn; unfold ch_rbrace); lia). rewrite jws_id by reflexivity. reflexivity.
  - cbn [map] in Hf |- *. rewrite join_cons in Hf |- *. rewrite !app_length in Hf. cbn [length] in Hf.
    rewrite <- !app_assoc. rewrite Hstep by (try (cbn; unfold ch_comma); lia).
    cbn [app]. rewrite jws_id by reflexivity. rewrite Z.eqb_refl.
    change (join [ch_comma] (member_text kw :: map member_text l)) with (join [ch_comma] (map member_text (kw :: l))).
    rewrite IH; [reflexivity|assumption|assumption|discriminate|]. cbn [map]. lia.
Qed.

Lemma join_start : forall sep (x : list Z) l, exists t, join sep (x :: l) = x ++ t.
Proof. intros sep x [|y l]; [exists []; cbn; rewrite app_nil_r; reflexivity|]. exists (sep ++ join sep (y :: l)). reflexivity. Qed.

Lemma jvalue_print : forall v, jwf v -> forall f r, (length (jprint v) < f)%nat -> jstop r -> jvalue f (jprint v ++ r) = JOk v r.
Proof.
  induction v using json_ind2; intros Hw f r Hf Hr; (destruct f as [|f]; [lia|]).
  - reflexivity.
  - destruct b; reflexivity.
  - cbn [jprint jvalue] in *. destruct (fmt_int_start n) as (c & t & E & Hc).
    pose proof (jnumber_int n r Hr) as N. rewrite E in *. cbn [app] in *.
    rewrite jws_id by (unfold jspace; lia).
    replace (c =? ch_lbrace) with false by (unfold ch_lbrace; lia). replace (c =? ch_lbracket) with false by (unfold ch_lbracket; lia).
    replace (c =? ch_quote) with false by (unfold ch_quote; lia).
    replace ((c =? ch_minus) || (48 <=? c) && (c <=? 57)) with true by (unfold ch_minus; lia).
    rewrite N. reflexivity.
  - inversion Hw.
  - inversion Hw; subst. cbn [jprint jvalue]. unfold jprint_string. rewrite <- !app_assoc. cbn [app].
    rewrite jws_id by reflexivity. cbn [Z.eqb Pos.eqb ch_quote ch_lbrace ch_lbracket].
    rewrite jstring_print by assumption. reflexivity.
  - inversion Hw as [| | | |? Hwl|]; subst. cbn [jprint] in *. rewrite !app_length in Hf. cbn [length] in Hf.
    rewrite <- !app_assoc. cbn [app jvalue]. rewrite jws_id by reflexivity.
    replace (ch_lbracket =? ch_lbrace) with false by reflexivity. rewrite Z.eqb_refl.
    destruct l as [|v l]; [reflexivity|].
    assert (E : exists c t, join [ch_comma] (map jprint (v :: l)) ++ ch_rbracket :: r = c :: t /\ jspace c = false /\ c <> 93).
    { cbn [map]. destruct (join_start [ch_comma] (jprint v) (map jprint l)) as [t Et]. rewrite Et.
      inversion Hwl; subst. destruct (jprint_start v) as (c & t1 & E & A & B & _); [assumption|]. rewrite E.
      eexists _, _. cbn [app]. split; [reflexivity|]. split; assumption. }
    destruct E as (c & t & E & Hs & Hc). pose proof (jelements_print (v :: l) Hwl) as L.
    rewrite L; [|apply Forall_forall; intros x Hx; rewrite Forall_forall in H, Hwl; apply H; [exact Hx|apply Hwl; exact Hx]|discriminate|lia].
    rewrite E. rewrite jws_id by exact Hs. replace (c =? ch_rbracket) with false by (unfold ch_rbracket; lia). reflexivity.
  - inversion Hw as [| | | | |? Hwl]; subst. cbn [jprint] in *. rewrite !app_length in Hf. cbn [length] in Hf.
    change (fun kv : list Z * json => jprint_string (fst kv) ++ [ch_colon] ++ jprint (snd kv)) with member_text in *.
    rewrite <- !app_assoc. cbn [app jvalue]. rewrite jws_id by reflexivity. rewrite Z.eqb_refl.
    destruct l as [|kv l]; [reflexivity|].
    assert (E : exists t, join [ch_comma] (map member_text (kv :: l)) ++ ch_rbrace :: r = ch_quote :: t).
    { cbn [map]. destruct (join_start [ch_comma] (member_text kv) (map member_text l)) as [t Et]. rewrite Et.
      unfold member_text, jprint_string. cbn [app]. eexists; reflexivity. }
    destruct E as (t & E). pose proof (jmembers_print (kv :: l) Hwl) as L.
    rewrite L; [|apply Forall_forall; intros x Hx; rewrite Forall_forall in H, Hwl; apply H; [exact Hx|apply Hwl; exact Hx]|discriminate|lia].
    rewrite E. rewrite jws_id by reflexivity. reflexivity.
Qed.

Theorem json_parse_print : forall v, jwf v -> json_parse (jprint v) = Some v.
Proof.
  intros v H. unfold json_parse. pose proof (jvalue_print v H (2 * length (jprint v) + 2)%nat [] ltac:(lia) I) as E.
  rewrite app_nil_r in E. rewrite E. reflexivity.
Qed.

(* ------------------------------------------------------------------ rests are shorter; the fuel is enough; more fuel changes nothing *)
Lemma jws_len : forall s, (length (jws s) <= length s)%nat.
Proof. induction s as [|c s IH]; cbn; [lia|]. destruct (jspace c); cbn; lia. Qed.

Lemma jstring_len : forall n s v r, (length s <= n)%nat -> jstring s = Some (v, r) -> (length r < length s)%nat.
Proof.
  induction n as [|n IH]; intros s v r Hn H; (destruct s as [|c s]; [discriminate|]); cbn [length] in *; [lia|].
  cbn [jstring] in H. destruct (c =? ch_quote); [inversion H; lia|].
  destruct (c =? ch_bslash).
  - destruct s as [|e s]; [discriminate|]. cbn [length] in *. destruct (e =? 117).
    + destruct s as [|h1 [|h2 [|h3 [|h4 s]]]]; try discriminate. cbn [length] in *. destruct (hex4 h1 h2 h3 h4) as [u|]; [|discriminate].
      assert (D : forall c0, match jstring s with Some (v0, r0) => Some (c0 :: v0, r0) | None => None end = Some (v, r) -> (length r < S (S (S (S (S (S (length s)))))))%nat).
      { intros c0 H0. destruct (jstring s) as [[v0 r0]|] eqn:E; [|discriminate]. inversion H0; subst. apply IH in E; lia. }
      destruct (surrogate u); [|apply (D _ H)].
      destruct s as [|x [|y [|k1 [|k2 [|k3 [|k4 s]]]]]]; try apply (D 65533 H).
      destruct (if (x =? ch_bslash) && (y =? 117) then match hex4 k1 k2 k3 k4 with Some u2 => utf16_pair u u2 | None => None end else None) as [c2|]; [|apply (D 65533 H)].
      cbn [length] in *. destruct (jstring s) as [[v0 r0]|] eqn:E; [|discriminate]. inversion H; subst. apply IH in E; lia.
    + destruct (jescape e); [|discriminate]. destruct (jstring s) as [[v0 r0]|] eqn:E; [|discriminate]. inversion H; subst. apply IH in E; lia.
  - destruct (c <? 32); [discriminate|]. destruct (jstring s) as [[v0 r0]|] eqn:E; [|discriminate]. inversion H; subst. apply IH in E; lia.
Qed.

Lemma take_digits_len : forall s a k v n r, take_digits dec_val 10 None a k s = (v, n, r) -> (length r + n = length s + k)%nat.
Proof.
  induction s as [|c s IH]; intros a k v n r H; cbn [take_digits] in H; [inversion H; cbn; lia|].
  destruct (dec_val c); [apply IH in H; cbn; lia|inversion H; cbn; lia].
Qed.

Lemma jfrac_len : forall s b r, jfrac s = Some (b, r) -> (length r <= length s)%nat.
Proof.
  intros [|c s] b r H; cbn in H; [inversion H; subst; lia|]. destruct (c =? ch_dot); [|inversion H; subst; cbn; lia].
  destruct (jdigits s) as [[v n] r0] eqn:E. destruct (Nat.eqb n 0); [discriminate|]. inversion H; subst. apply take_digits_len in E. cbn; lia.
Qed.
Lemma jexp_len : forall s b r, jexp s = Some (b, r) -> (length r <= length s)%nat.
Proof.
  intros [|c s] b r H; cbn in H; [inversion H; subst; lia|]. destruct ((c =? 101) || (c =? 69)); [|inversion H; subst; cbn; lia].
  match type of H with context [jdigits ?t] => destruct (jdigits t) as [[v n] r0] eqn:E end.
  destruct (Nat.eqb n 0); [discriminate|]. inversion H; subst. apply take_digits_len in E.
  destruct s as [|x y]; cbn in *; [lia|]. destruct ((x =? 43) || (x =? 45)); cbn in *; lia.
Qed.
Lemma jnumber_len : forall s v r, jnumber s = Some (v, r) -> (length r < length s)%nat.
Proof.
  intros s v r H. unfold jnumber in H.
  match type of H with context [match s with [] => ?a | _ => _ end] =>
    assert (A : exists neg s1, (match s with c :: t => if c =? ch_minus then (true, t) else (false, s) | [] => a end) = (neg, s1) /\ (length s1 <= length s)%nat)
  end.
  { destruct s as [|c s]; [exists false, []; split; [reflexivity|lia]|]. destruct (c =? ch_minus); eexists _, _; (split; [reflexivity|cbn; lia]). }
  destruct A as (neg & s1 & A & L). rewrite A in H. destruct (jdigits s1) as [[v0 n] r0] eqn:E. apply take_digits_len in E.
  destruct (Nat.eqb_spec n 0); [discriminate|]. destruct (_ && _); [discriminate|].
  destruct (jfrac r0) as [[b r1]|] eqn:E1; [|discriminate]. destruct (jexp r1) as [[b2 r2]|] eqn:E2; [|discriminate].
  apply jfrac_len in E1. apply jexp_len in E2. inversion H; subst. lia.
Qed.
Lemma jliteral_spec : forall s v r, jliteral s = Some (v, r) ->
  exists p, s = p ++ r /\ p <> [] /\ (forall t, jliteral (p ++ t) = Some (v, t)) /\ forall n, v <> JInt n.
Proof.
  intros s v r H. unfold jliteral in H.
  repeat match type of H with
         | match ?x with _ => _ end = _ => is_var x; destruct x; try discriminate
         | (match ?x with _ => _ end) = _ => destruct x; try discriminate
         end; inversion H; subst;
  first [ (exists [116; 114; 117; 101]); split; [reflexivity|]; split; [discriminate|]; split; [reflexivity|discriminate]
        | (exists [102; 97; 108; 115; 101]); split; [reflexivity|]; split; [discriminate|]; split; [reflexivity|discriminate]
        | (exists [110; 117; 108; 108]); split; [reflexivity|]; split; [discriminate|]; split; [reflexivity|discriminate] ].
Qed.
Lemma jliteral_len : forall s v r, jliteral s = Some (v, r) -> (length r < length s)%nat.
Proof.
  intros s v r H. apply jliteral_spec in H. destruct H as (p & -> & Hp & _). rewrite app_length. destruct p; [contradiction|cbn; lia].
Qed.

Lemma jparsers_len : forall f,
  (forall s v r, jvalue f s = JOk v r -> (length r < length s)%nat) /\
  (forall s v r, jelements f s = JOk v r -> (length r < length s)%nat) /\
  (forall s v r, jmembers f s = JOk v r -> (length r < length s)%nat).
Proof.
  induction f as [|f (IHv & IHe & IHm)]; [repeat split; intros; discriminate|]. repeat split; intros s v r H.
  - cbn [jvalue] in H. pose proof (jws_len s) as L. destruct (jws s) as [|c t]; [discriminate|]. cbn [length] in L.
    destruct (c =? ch_lbrace).
    { pose proof (jws_len t) as L1. destruct (jws t) as [|c1 t1]; [discriminate|]. cbn [length] in L1.
      destruct (c1 =? ch_rbrace); [inversion H; subst; lia|].
      destruct (jmembers f t) as [l r0| |] eqn:E; try discriminate. inversion H; subst. apply IHm in E. lia. }
    destruct (c =? ch_lbracket).
    { pose proof (jws_len t) as L1. destruct (jws t) as [|c1 t1]; [discriminate|]. cbn [length] in L1.
      destruct (c1 =? ch_rbracket); [inversion H; subst; lia|].
      destruct (jelements f t) as [l r0| |] eqn:E; try discriminate. inversion H; subst. apply IHe in E. lia. }
    destruct (c =? ch_quote).
    { destruct (jstring t) as [[v0 r0]|] eqn:E; [|discriminate]. inversion H; subst. apply (jstring_len (length t)) in E; lia. }
    destruct (_ || _).
    { destruct (jnumber (c :: t)) as [[v0 r0]|] eqn:E; [|discriminate]. inversion H; subst. apply jnumber_len in E. cbn [length] in E. lia. }
    destruct (jliteral (c :: t)) as [[v0 r0]|] eqn:E; [|discriminate]. inversion H; subst. apply jliteral_len in E. cbn [length] in E. lia.
  - cbn [jelements] in H. destruct (jvalue f s) as [v0 r0| |] eqn:E; try discriminate. apply IHv in E.
    pose proof (jws_len r0) as L. destruct (jws r0) as [|c t]; [discriminate|]. cbn [length] in L.
    destruct (c =? ch_comma).
    { destruct (jelements f t) as [l r1| |] eqn:E1; try discriminate. inversion H; subst. apply IHe in E1. lia. }
    destruct (c =? ch_rbracket); [inversion H; subst; lia|discriminate].
  - cbn [jmembers] in H. pose proof (jws_len s) as L. destruct (jws s) as [|q t0]; [discriminate|]. cbn [length] in L.
    destruct (q =? ch_quote); [|discriminate]. destruct (jstring t0) as [[k r0]|] eqn:E0; [|discriminate]. apply (jstring_len (length t0)) in E0; [|lia].
    pose proof (jws_len r0) as L0. destruct (jws r0) as [|d r1]; [discriminate|]. cbn [length] in L0.
    destruct (d =? ch_colon); [|discriminate].
    destruct (jvalue f r1) as [v0 r2| |] eqn:E; try discriminate. apply IHv in E.
    pose proof (jws_len r2) as L2. destruct (jws r2) as [|c t]; [discriminate|]. cbn [length] in L2.
    destruct (c =? ch_comma).
    { destruct (jmembers f t) as [l r3| |] eqn:E1; try discriminate. inversion H; subst. apply IHm in E1. lia. }
    destruct (c =? ch_rbrace); [inversion H; subst; lia|discriminate].
Qed.

Lemma jparsers_fuel : forall f,
  (forall s, (2 * length s + 1 <= f)%nat -> jvalue f s <> JFuel) /\
  (forall s, (2 * length s + 2 <= f)%nat -> jelements f s <> JFuel) /\
  (forall s, (2 * length s + 2 <= f)%nat -> jmembers f s <> JFuel).
Proof.
  induction f as [|f (IHv & IHe & IHm)]; [repeat split; intros; lia|]. repeat split; intros s Hf H.
  - cbn [jvalue] in H. pose proof (jws_len s) as L. destruct (jws s) as [|c t]; [discriminate|]. cbn [length] in L.
    destruct (c =? ch_lbrace).
    { destruct (jws t) as [|c1 t1]; [discriminate|]. destruct (c1 =? ch_rbrace); [discriminate|].
      destruct (jmembers f t) as [l r0| |] eqn:E; try discriminate. apply IHm in E; [exact E|lia]. }
    destruct (c =? ch_lbracket).
    { destruct (jws t) as [|c1 t1]; [discriminate|]. destruct (c1 =? ch_rbracket); [discriminate|].
      destruct (jelements f t) as [l r0| |] eqn:E; try discriminate. apply IHe in E; [exact E|lia]. }
    destruct (c =? ch_quote); [destruct (jstring t) as [[v0 r0]|]; discriminate|].
    destruct (_ || _); [destruct (jnumber (c :: t)) as [[v0 r0]|]; discriminate|].
    destruct (jliteral (c :: t)) as [[v0 r0]|]; discriminate.
  - cbn [jelements] in H. destruct (jvalue f s) as [v0 r0| |] eqn:E; try discriminate; [|apply IHv in E; [exact E|lia]].
    apply jparsers_len in E. pose proof (jws_len r0) as L. destruct (jws r0) as [|c t]; [discriminate|]. cbn [length] in L.
    destruct (c =? ch_comma).
    { destruct (jelements f t) as [l r1| |] eqn:E1; try discriminate. apply IHe in E1; [exact E1|lia]. }
    destruct (c =? ch_rbracket); discriminate.
  - cbn [jmembers] in H. pose proof (jws_len s) as L. destruct (jws s) as [|q t0]; [discriminate|]. cbn [length] in L.
    destruct (q =? ch_quote); [|discriminate]. destruct (jstring t0) as [[k r0]|] eqn:E0; [|discriminate]. apply (jstring_len (length t0)) in E0; [|lia].
    pose proof (jws_len r0) as L0. destruct (jws r0) as [|d r1]; [discriminate|]. cbn [length] in L0.
    destruct (d =? ch_colon); [|discriminate].
    destruct (jvalue f r1) as [v0 r2| |] eqn:E; try discriminate; [|apply IHv in E; [exact E|lia]]. apply jparsers_len in E.
    pose proof (jws_len r2) as L2. destruct (jws r2) as [|c t]; [discriminate|]. cbn [length] in L2.
    destruct (c =? ch_comma).
    { destruct (jmembers f t) as [l r3| |] eqn:E1; try discriminate. apply IHm in E1; [exact E1|lia]. }
    destruct (c =? ch_rbrace); discriminate.
Qed.

(** The parser never runs out of fuel: a refusal is always a syntax error. *)
Theorem json_parse_total : forall s, jvalue (2 * length s + 2) s <> JFuel.
Proof. intros s. apply jparsers_fuel. lia. Qed.

Lemma jparsers_mono : forall f,
  (forall s v r, jvalue f s = JOk v r -> forall g, (f <= g)%nat -> jvalue g s = JOk v r) /\
  (forall s v r, jelements f s = JOk v r -> forall g, (f <= g)%nat -> jelements g s = JOk v r) /\
  (forall s v r, jmembers f s = JOk v r -> forall g, (f <= g)%nat -> jmembers g s = JOk v r).
Proof.
  induction f as [|f (IHv & IHe & IHm)]; [repeat split; intros; discriminate|]. repeat split; intros s v r H g Hg; (destruct g as [|g]; [lia|]).
  - cbn [jvalue] in H |- *. destruct (jws s) as [|c t]; [discriminate|].
    destruct (c =? ch_lbrace).
    { destruct (jws t) as [|c1 t1]; [discriminate|]. destruct (c1 =? ch_rbrace); [exact H|].
      destruct (jmembers f t) as [l r0| |] eqn:E; try discriminate. rewrite (IHm _ _ _ E g) by lia. exact H. }
    destruct (c =? ch_lbracket).
    { destruct (jws t) as [|c1 t1]; [discriminate|]. destruct (c1 =? ch_rbracket); [exact H|].
      destruct (jelements f t) as [l r0| |] eqn:E; try discriminate. rewrite (IHe _ _ _ E g) by lia. exact H. }
    exact H.
  - cbn [jelements] in H |- *. destruct (jvalue f s) as [v0 r0| |] eqn:E; try discriminate. rewrite (IHv _ _ _ E g) by lia.
    destruct (jws r0) as [|c t]; [discriminate|]. destruct (c =? ch_comma); [|exact H].
    destruct (jelements f t) as [l r1| |] eqn:E1; try discriminate. rewrite (IHe _ _ _ E1 g) by lia. exact H.
  - cbn [jmembers] in H |- *. destruct (jws s) as [|q t0]; [discriminate|].
    destruct (q =? ch_quote); [|discriminate]. destruct (jstring t0) as [[k r0]|]; [|discriminate].
    destruct (jws r0) as [|d r1]; [discriminate|]. destruct (d =? ch_colon); [|discriminate].
    destruct (jvalue f r1) as [v0 r2| |] eqn:E; try discriminate. rewrite (IHv _ _ _ E g) by lia.
    destruct (jws r2) as [|c t]; [discriminate|]. destruct (c =? ch_comma); [|exact H].
    destruct (jmembers f t) as [l r3| |] eqn:E1; try discriminate. rewrite (IHm _ _ _ E1 g) by lia. exact H.
Qed.

(* ------------------------------------------------------------------ text after a complete value is left alone *)
Lemma jws_app : forall s c t x, jws s = c :: t -> jws (s ++ x) = c :: t ++ x.
Proof.
  induction s as [|d s IH]; intros c t x H; [discriminate|]. cbn [jws app] in *. destruct (jspace d); [apply IH; exact H|].
  inversion H; reflexivity.
Qed.

Lemma no_half : forall A (f : Z -> list Z -> A) (B : A) u t, (forall a b r, t = a :: b :: r -> (a =? ch_bslash) && (b =? 117) = false) ->
  match t with
  | x :: y :: k1 :: k2 :: k3 :: k4 :: t3 =>
      match (if (x =? ch_bslash) && (y =? 117) then match hex4 k1 k2 k3 k4 with Some u2 => utf16_pair u u2 | None => None end else None) with
      | Some c2 => f c2 t3
      | None => B
      end
  | _ => B
  end = B.
Proof. intros A f B u t H. destruct t as [|x [|y [|k1 [|k2 [|k3 [|k4 t]]]]]]; try reflexivity. rewrite (H _ _ _ eq_refl). reflexivity. Qed.
Lemma jstring_app : forall n s v r x, (length s <= n)%nat -> jstring s = Some (v, r) -> jstring (s ++ x) = Some (v, r ++ x).
Proof.
  induction n as [|n IH]; intros s v r x Hn H; (destruct s as [|c s]; [discriminate|]); cbn [length] in *; [lia|].
  cbn [jstring app] in H |- *. destruct (c =? ch_quote); [inversion H; reflexivity|].
  destruct (c =? ch_bslash).
  - destruct s as [|e s]; [discriminate|]. cbn [length app] in *. destruct (e =? 117).
    + destruct s as [|h1 [|h2 [|h3 [|h4 s]]]]; try discriminate. cbn [length app] in *. destruct (hex4 h1 h2 h3 h4) as [u|]; [|discriminate].
      assert (D : forall c0, match jstring s with Some (v0, r0) => Some (c0 :: v0, r0) | None => None end = Some (v, r) ->
        match jstring (s ++ x) with Some (v0, r0) => Some (c0 :: v0, r0) | None => None end = Some (v, r ++ x)).
      { intros c0 H0. destruct (jstring s) as [[v0 r0]|] eqn:E; [|discriminate]. inversion H0; subst. rewrite (IH _ _ _ x) with (2 := E) by lia. reflexivity. }
      destruct (surrogate u); [|apply (D _ H)].
      destruct s as [|x0 s]; [discriminate H|]. destruct s as [|y0 s].
      { refine (eq_trans (no_half _ (fun c2 t3 => match jstring t3 with Some (v0, r0) => Some (c2 :: v0, r0) | None => None end) _ u (x0 :: x) _) (D 65533 H)). cbn [jstring] in H. destruct (x0 =? ch_quote) eqn:Eq; [|destruct (x0 =? ch_bslash); [discriminate H|destruct (x0 <? 32); discriminate H]].
        intros a b t E. inversion E; subst. apply Z.eqb_eq in Eq. subst. reflexivity. }
      destruct ((x0 =? ch_bslash) && (y0 =? 117)) eqn:Eh.
      * apply andb_prop in Eh. destruct Eh as [Ex Ey]. apply Z.eqb_eq in Ex, Ey. subst x0 y0.
        destruct s as [|k1 [|k2 [|k3 [|k4 s]]]]; try discriminate H. cbn [length app] in *.
        rewrite !Z.eqb_refl in *. cbn [andb] in *.
        destruct (match hex4 k1 k2 k3 k4 with Some u2 => utf16_pair u u2 | None => None end) as [c2|]; [|apply (D 65533 H)].
        destruct (jstring s) as [[v0 r0]|] eqn:E; [|discriminate]. inversion H; subst. rewrite (IH _ _ _ x) with (2 := E) by lia. reflexivity.
      * assert (H1 : match jstring (x0 :: y0 :: s) with Some (v0, r0) => Some (65533 :: v0, r0) | None => None end = Some (v, r))
          by (destruct s as [|k1 [|k2 [|k3 [|k4 s]]]]; exact H).
        refine (eq_trans (no_half _ (fun c2 t3 => match jstring t3 with Some (v0, r0) => Some (c2 :: v0, r0) | None => None end) _ u (x0 :: y0 :: s ++ x) _) (D 65533 H1)). intros a b t E. inversion E; subst. exact Eh.
    + destruct (jescape e); [|discriminate]. destruct (jstring s) as [[v0 r0]|] eqn:E; [|discriminate]. inversion H; subst.
      rewrite (IH _ _ _ x) with (2 := E) by lia. reflexivity.
  - destruct (c <? 32); [discriminate|]. destruct (jstring s) as [[v0 r0]|] eqn:E; [|discriminate]. inversion H; subst.
    rewrite (IH _ _ _ x) with (2 := E) by lia. reflexivity.
Qed.

Lemma take_digits_app : forall s a k v n r x, take_digits dec_val 10 None a k s = (v, n, r) -> r <> [] ->
  take_digits dec_val 10 None a k (s ++ x) = (v, n, r ++ x).
Proof.
  induction s as [|c s IH]; intros a k v n r x H Hr; cbn [take_digits app] in *; [inversion H; subst; contradiction|].
  destruct (dec_val c); [apply IH; assumption|inversion H; reflexivity].
Qed.

Lemma len_nonnil : forall (r s : list Z), s <> [] -> (length s <= length r)%nat -> r <> [].
Proof. intros r s Hs L E. subst. destruct s; [contradiction|cbn in L; lia]. Qed.

Lemma jfrac_app : forall s b r x, jfrac s = Some (b, r) -> r <> [] -> jfrac (s ++ x) = Some (b, r ++ x).
Proof.
  intros [|c s] b r x H Hr; cbn in H; [inversion H; subst; contradiction|]. cbn [app jfrac].
  destruct (c =? ch_dot); [|inversion H; reflexivity].
  destruct (jdigits s) as [[v n] r0] eqn:E. destruct (Nat.eqb n 0) eqn:En; [discriminate|]. inversion H; subst.
  unfold jdigits in *. rewrite (take_digits_app _ _ _ _ _ _ x E Hr). rewrite En. reflexivity.
Qed.
Lemma jexp_app : forall s b r x, jexp s = Some (b, r) -> r <> [] -> jexp (s ++ x) = Some (b, r ++ x).
Proof.
  intros [|c s] b r x H Hr; cbn in H; [inversion H; subst; contradiction|]. cbn [app jexp].
  destruct ((c =? 101) || (c =? 69)); [|inversion H; reflexivity].
  destruct s as [|y s]; [cbn in H; discriminate|]. cbn [app].
  destruct ((y =? 43) || (y =? 45)).
  - destruct (jdigits s) as [[v n] r0] eqn:E. destruct (Nat.eqb n 0) eqn:En; [discriminate|]. inversion H; subst.
    unfold jdigits in *. rewrite (take_digits_app _ _ _ _ _ _ x E Hr). rewrite En. reflexivity.
  - destruct (jdigits (y :: s)) as [[v n] r0] eqn:E. destruct (Nat.eqb n 0) eqn:En; [discriminate|]. inversion H; subst.
    unfold jdigits in *. change (y :: s ++ x) with ((y :: s) ++ x). rewrite (take_digits_app _ _ _ _ _ _ x E Hr). rewrite En. reflexivity.
Qed.
Lemma jnumber_app : forall s v r x, jnumber s = Some (v, r) -> r <> [] -> jnumber (s ++ x) = Some (v, r ++ x).
Proof.
  intros s v r x H Hr. destruct s as [|c s]; [cbn in H; discriminate|]. unfold jnumber in *. cbn [app].
  assert (A : exists neg s1, (if c =? ch_minus then (true, s) else (false, c :: s)) = (neg, s1) /\
                             (if c =? ch_minus then (true, s ++ x) else (false, c :: s ++ x)) = (neg, s1 ++ x)).
  { destruct (c =? ch_minus); eexists _, _; split; reflexivity. }
  destruct A as (neg & s1 & A & B). rewrite A in H. rewrite B. clear A B.
  destruct (jdigits s1) as [[v0 n] r0] eqn:E.
  destruct (Nat.eqb_spec n 0) as [|Hn]; [discriminate|].
  destruct (_ && _) eqn:Ez in H; [discriminate|].
  destruct (jfrac r0) as [[b r1]|] eqn:E1; [|discriminate]. destruct (jexp r1) as [[b2 r2]|] eqn:E2; [|discriminate]. inversion H; subst.
  assert (Hr1 : r1 <> []) by (apply (len_nonnil _ r Hr); apply (jexp_len _ _ _ E2)).
  assert (Hr0 : r0 <> []) by (apply (len_nonnil _ r1 Hr1); apply (jfrac_len _ _ _ E1)).
  unfold jdigits in *. rewrite (take_digits_app _ _ _ _ _ _ x E Hr0).
  destruct (Nat.eqb_spec n 0) as [|_]; [contradiction|].
  assert (Hs1 : (match s1 ++ x with c0 :: _ => c0 =? 48 | [] => false end) = (match s1 with c0 :: _ => c0 =? 48 | [] => false end)).
  { destruct s1; [|reflexivity]. cbn in E. inversion E; subst. contradiction. }
  rewrite Hs1, Ez. rewrite (jfrac_app _ _ _ x E1 Hr1), (jexp_app _ _ _ x E2 Hr). reflexivity.
Qed.

Definition is_number (v : json) : bool := match v with JInt _ | JReal => true | _ => false end.

Lemma jparsers_app : forall f,
  (forall s v r x, jvalue f s = JOk v r -> r <> [] \/ is_number v = false -> jvalue f (s ++ x) = JOk v (r ++ x)) /\
  (forall s v r x, jelements f s = JOk v r -> jelements f (s ++ x) = JOk v (r ++ x)) /\
  (forall s v r x, jmembers f s = JOk v r -> jmembers f (s ++ x) = JOk v (r ++ x)).
Proof.
  induction f as [|f (IHv & IHe & IHm)]; [repeat split; intros; discriminate|]. repeat split; intros s v r x H.
  - intros Hr. cbn [jvalue] in H |- *. destruct (jws s) as [|c t] eqn:Es; [discriminate|]. rewrite (jws_app _ _ _ x Es).
    destruct (c =? ch_lbrace).
    { destruct (jws t) as [|c1 t1] eqn:Et; [discriminate|]. rewrite (jws_app _ _ _ x Et). destruct (c1 =? ch_rbrace); [inversion H; reflexivity|].
      destruct (jmembers f t) as [l r0| |] eqn:E; try discriminate. rewrite (IHm _ _ _ x E). inversion H; reflexivity. }
    destruct (c =? ch_lbracket).
    { destruct (jws t) as [|c1 t1] eqn:Et; [discriminate|]. rewrite (jws_app _ _ _ x Et). destruct (c1 =? ch_rbracket); [inversion H; reflexivity|].
      destruct (jelements f t) as [l r0| |] eqn:E; try discriminate. rewrite (IHe _ _ _ x E). inversion H; reflexivity. }
    destruct (c =? ch_quote).
    { destruct (jstring t) as [[v0 r0]|] eqn:E; [|discriminate]. rewrite (jstring_app _ _ _ _ x (le_n _) E). inversion H; reflexivity. }
    destruct (_ || _).
    { destruct (jnumber (c :: t)) as [[v0 r0]|] eqn:E; [|discriminate]. inversion H; subst.
      assert (Hnum : is_number v = true).
      { clear -E. unfold jnumber in E. destruct (if c =? ch_minus then (true, t) else (false, c :: t)) as [neg s1].
        destruct (jdigits s1) as [[v0 n] r0]. destruct (Nat.eqb n 0); [discriminate|]. destruct (_ && _); [discriminate|].
        destruct (jfrac r0) as [[b r1]|]; [|discriminate]. destruct (jexp r1) as [[b2 r2]|]; [|discriminate]. inversion E. destruct (_ || _); reflexivity. }
      assert (Hr' : r <> []) by (destruct Hr as [Hr|Hr]; [exact Hr|rewrite Hnum in Hr; discriminate]).
      change (c :: t ++ x) with ((c :: t) ++ x). rewrite (jnumber_app _ _ _ x E Hr'). reflexivity. }
    destruct (jliteral (c :: t)) as [[v0 r0]|] eqn:E; [|discriminate]. inversion H; subst.
    destruct (jliteral_spec _ _ _ E) as (p & Ep & _ & Hp & _). change (c :: t ++ x) with ((c :: t) ++ x). rewrite Ep, <- app_assoc, Hp. reflexivity.
  - cbn [jelements] in H |- *. destruct (jvalue f s) as [v0 r0| |] eqn:E; try discriminate.
    destruct (jws r0) as [|c t] eqn:Er; [discriminate|].
    rewrite (IHv _ _ _ x E); [|left; intros ->; discriminate]. rewrite (jws_app _ _ _ x Er).
    destruct (c =? ch_comma).
    { destruct (jelements f t) as [l r1| |] eqn:E1; try discriminate. rewrite (IHe _ _ _ x E1). inversion H; reflexivity. }
    destruct (c =? ch_rbracket); [inversion H; reflexivity|discriminate].
  - cbn [jmembers] in H |- *. destruct (jws s) as [|q t0] eqn:Es; [discriminate|]. rewrite (jws_app _ _ _ x Es).
    destruct (q =? ch_quote); [|discriminate]. destruct (jstring t0) as [[k r0]|] eqn:E0; [|discriminate].
    rewrite (jstring_app _ _ _ _ x (le_n _) E0). destruct (jws r0) as [|d r1] eqn:Er0; [discriminate|]. rewrite (jws_app _ _ _ x Er0).
    destruct (d =? ch_colon); [|discriminate].
    destruct (jvalue f r1) as [v0 r2| |] eqn:E; try discriminate.
    destruct (jws r2) as [|c t] eqn:Er; [discriminate|].
    rewrite (IHv _ _ _ x E); [|left; intros ->; discriminate]. rewrite (jws_app _ _ _ x Er).
    destruct (c =? ch_comma).
    { destruct (jmembers f t) as [l r3| |] eqn:E1; try discriminate. rewrite (IHm _ _ _ x E1). inversion H; reflexivity. }
    destruct (c =? ch_rbrace); [inversion H; reflexivity|discriminate].
Qed.

(** A printed object cut off anywhere before its end is refused. *)
Theorem json_parse_cut : forall l p x, jwf (JObj l) -> jprint (JObj l) = p ++ x -> x <> [] -> json_parse p = None.
Proof.
  intros l p x Hw E Hx. destruct (json_parse p) as [v|] eqn:Ep; [exfalso|reflexivity].
  unfold json_parse in Ep. destruct (jvalue (2 * length p + 2) p) as [v0 r| |] eqn:Ev; try discriminate.
  destruct (jws r) eqn:Er; [|discriminate]. inversion Ep; subst v0; clear Ep.
  destruct p as [|c p].
  { cbn in Ev. discriminate. }
  assert (Hc : c = ch_lbrace).
  { cbn [jprint app] in E. inversion E. reflexivity. }
  assert (Hnum : is_number v = false).
  { rewrite Hc in Ev. replace (2 * length (ch_lbrace :: p) + 2)%nat with (S (2 * length (ch_lbrace :: p) + 1)) in Ev by lia.
    remember (2 * length (ch_lbrace :: p) + 1)%nat as n eqn:En. clear -Ev. cbn [jvalue] in Ev.
    rewrite jws_id in Ev by reflexivity. rewrite Z.eqb_refl in Ev.
    destruct (jws p) as [|c1 t1]; [discriminate|]. destruct (c1 =? ch_rbrace); [inversion Ev; reflexivity|].
    destruct (jmembers n p); try discriminate. inversion Ev; reflexivity. }
  destruct (jparsers_app (2 * length (c :: p) + 2)) as (A & _ & _).
  specialize (A _ _ _ x Ev (or_intror Hnum)).
  destruct (jparsers_mono (2 * length (c :: p) + 2)) as (M & _ & _).
  specialize (M _ _ _ A (2 * length (jprint (JObj l)) + 2)%nat).
  assert (L : (2 * length (c :: p) + 2 <= 2 * length (jprint (JObj l)) + 2)%nat) by (rewrite E, app_length; lia).
  specialize (M L). rewrite <- E in M.
  pose proof (jvalue_print (JObj l) Hw (2 * length (jprint (JObj l)) + 2)%nat [] ltac:(lia) I) as R.
  rewrite app_nil_r in R. rewrite R in M. inversion M as [[Ev' Er']]. symmetry in Er'. apply app_eq_nil in Er'. destruct Er'; contradiction.
Qed.
