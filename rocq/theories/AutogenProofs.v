(** Proofs about the generated tables. *)
From Coq Require Import ZArith List Bool String Permutation Sorting.Sorted Lia ZifyBool ZifyNat.
From Verif Require Import GoBase GoText LinkText LinkProofs IcVarsSpec EditLineSpec EditLineProofs AnonymizeSpec AnonymizeProofs Autogen AutogenSpec.
Import ListNotations.
Open Scope Z_scope.
Ltac Zify.zify_post_hook ::= Z.div_mod_to_equations.

(** ** The csv reader *)

Lemma csv_norm_app : forall t u, Forall (fun c => c <> 13) t -> csv_norm (t ++ u) = t ++ csv_norm u.
Proof.
  induction t as [|c t IH]; intros u H; [reflexivity|]. inversion H as [|? ? Hc H']; subst.
  cbn [app csv_norm]. unfold ch_cr. replace (c =? 13) with false by lia. cbn [andb]. f_equal. exact (IH u H').
Qed.

Lemma csv_norm_end : forall e u, line_end e -> csv_norm (e ++ u) = 10 :: csv_norm u.
Proof. intros e u [->| ->]; reflexivity. Qed.

Definition plain (c : Z) : Prop := c <> 34 /\ c <> 44 /\ c <> 10 /\ c <> 13.
Definition dbl (f : list Z) : list Z := flat_map (fun c => if c =? 34 then [34; 34] else [c]) f.

Lemma field_no_cr : forall f t, field_text f t -> Forall (fun c => c <> 13) t.
Proof.
  intros f t H. destruct H as [f H|f H].
  - eapply Forall_impl; [|exact H]. cbn beta. intros c Hc. tauto.
  - constructor; [lia|]. apply Forall_app. split; [|repeat constructor; lia].
    induction H as [|c f Hc _ IH]; [constructor|]. cbn [flat_map]. destruct (c =? 34); repeat constructor; try lia; exact IH.
Qed.
Lemma row_no_cr : forall r t, row_text r t -> Forall (fun c => c <> 13) t.
Proof.
  induction 1 as [f t H|f t r u H _ IH]; [exact (field_no_cr _ _ H)|].
  apply Forall_app. split; [exact (field_no_cr _ _ H)|]. constructor; [lia|exact IH].
Qed.

Lemma csv_plain : forall f fld rec s, Forall plain f -> csv_go CPlain fld rec (f ++ s) = csv_go CPlain (rev f ++ fld) rec s.
Proof.
  induction f as [|c f IH]; intros fld rec s H; [reflexivity|]. inversion H as [|? ? Hc H']; subst. unfold plain in Hc.
  cbn [app csv_go]. unfold ch_comma, ch_nl, ch_quote.
  replace (c =? 44) with false by lia. replace (c =? 10) with false by lia. replace (c =? 34) with false by lia.
  rewrite (IH _ _ _ H'). cbn [rev]. rewrite <- app_assoc. reflexivity.
Qed.

Lemma csv_quoted : forall f fld rec s, csv_go CQuoted fld rec (dbl f ++ 34 :: s) = csv_go CQuote (rev f ++ fld) rec s.
Proof.
  induction f as [|c f IH]; intros fld rec s; [reflexivity|]. unfold dbl. cbn [flat_map]. fold (dbl f).
  destruct (c =? 34) eqn:E.
  - apply Z.eqb_eq in E. subst c. cbn [app csv_go]. unfold ch_comma, ch_nl, ch_quote. cbn [Z.eqb Pos.eqb].
    rewrite IH. cbn [rev]. rewrite <- app_assoc. reflexivity.
  - cbn [app csv_go]. unfold ch_quote. rewrite E. rewrite IH. cbn [rev]. rewrite <- app_assoc. reflexivity.
Qed.

(** A field before a delimiter. *)
Definition ended (st : csv_state) : Prop := st = CField \/ st = CPlain \/ st = CQuote.
Definition delimited (s : list Z) : Prop := s = [] \/ (exists r, s = 44 :: r) \/ exists r, s = 10 :: r.

Lemma csv_field : forall f t rec s, field_text f t -> exists st, ended st /\ csv_go CField [] rec (t ++ s) = csv_go st (rev f) rec s.
Proof.
  intros f t rec s H. destruct H as [f H|f H].
  - destruct f as [|c f]; [exists CField; split; [left; reflexivity|reflexivity]|].
    exists CPlain. split; [right; left; reflexivity|]. inversion H as [|? ? Hc H']; subst.
    cbn [app csv_go]. unfold ch_comma, ch_nl, ch_quote.
    replace (c =? 44) with false by lia. replace (c =? 10) with false by lia. replace (c =? 34) with false by lia.
    rewrite csv_plain by exact H'. reflexivity.
  - exists CQuote. split; [right; right; reflexivity|].
    transitivity (csv_go CQuoted [] rec (dbl f ++ 34 :: s)).
    { cbn [app]. rewrite <- app_assoc. reflexivity. }
    rewrite (csv_quoted f [] rec s). rewrite app_nil_r. reflexivity.
Qed.

Lemma csv_comma : forall st fld rec s, ended st -> csv_go st fld rec (44 :: s) = csv_go CField [] (rev fld :: rec) s.
Proof. intros st fld rec s [->|[->| ->]]; reflexivity. Qed.
Lemma csv_newline : forall st fld rec s, ended st ->
  csv_go st fld rec (10 :: s) = (rev (rev fld :: rec) :: fst (csv_go CRecord [] [] s), snd (csv_go CRecord [] [] s)).
Proof. intros st fld rec s [->|[->| ->]]; cbn; destruct (csv_go CRecord [] [] s); reflexivity. Qed.
Lemma csv_end : forall st fld rec, ended st -> csv_go st fld rec [] = ([rev (rev fld :: rec)], None).
Proof. intros st fld rec [->|[->| ->]]; reflexivity. Qed.

Lemma csv_row : forall r t, row_text r t -> forall rec,
  (forall s, csv_go CField [] rec (t ++ 10 :: s) =
     ((rev rec ++ r) :: fst (csv_go CRecord [] [] s), snd (csv_go CRecord [] [] s))) /\
  csv_go CField [] rec t = ([rev rec ++ r], None).
Proof.
  induction 1 as [f t H|f t r u H _ IH]; intros rec.
  - split; [intros s; destruct (csv_field f t rec (10 :: s) H) as (st & Hst & E); rewrite E, (csv_newline _ _ _ _ Hst), rev_involutive; reflexivity|].
    destruct (csv_field f t rec [] H) as (st & Hst & E). rewrite app_nil_r in E. rewrite E, (csv_end _ _ _ Hst), rev_involutive. reflexivity.
  - destruct (IH (f :: rec)) as [I1 I2]. cbn [rev] in I1, I2. rewrite <- app_assoc in I2. cbn [app] in I2. split.
    + intros s. rewrite <- app_assoc. cbn [app]. destruct (csv_field f t rec (44 :: u ++ 10 :: s) H) as (st & Hst & E).
      rewrite E, (csv_comma _ _ _ _ Hst), rev_involutive, I1, <- app_assoc. reflexivity.
    + destruct (csv_field f t rec (44 :: u) H) as (st & Hst & E).
      rewrite E, (csv_comma _ _ _ _ Hst), rev_involutive, I2. reflexivity.
Qed.

Lemma field_head : forall f t, field_text f t -> forall c u, t = c :: u -> c <> 10.
Proof.
  intros f t H c u E. destruct H as [f H|f H].
  - subst f. inversion H; subst. tauto.
  - injection E as <- _. lia.
Qed.
Lemma row_head : forall r t, row_text r t -> forall c u, t = c :: u -> c <> 10.
Proof.
  intros r t H c u E. destruct H as [f t H|f t r u' H _].
  - exact (field_head _ _ H _ _ E).
  - destruct t as [|x t]; [injection E as <- _; lia|]. injection E as <- _. exact (field_head _ _ H _ _ eq_refl).
Qed.

Lemma csv_record : forall c u, c <> 10 -> csv_go CRecord [] [] (c :: u) = csv_go CField [] [] (c :: u).
Proof.
  intros c u H. cbn [csv_go]. unfold ch_comma, ch_nl, ch_quote. replace (c =? 10) with false by lia.
  destruct (c =? 34) eqn:E1; destruct (c =? 44) eqn:E2; try reflexivity; lia.
Qed.

Lemma csv_table : forall rs t, table_text rs t -> csv_go CRecord [] [] (csv_norm t) = (rs, None).
Proof.
  induction 1 as [|r t e rs u H Ht He _ IH|r t H Ht|e rs u He _ IH].
  - reflexivity.
  - rewrite (csv_norm_app t _ (row_no_cr _ _ H)), (csv_norm_end e u He).
    destruct t as [|c t]; [contradiction|]. cbn [app]. rewrite (csv_record c _ (row_head _ _ H _ _ eq_refl)).
    change (c :: t ++ 10 :: csv_norm u) with ((c :: t) ++ 10 :: csv_norm u).
    destruct (csv_row _ _ H []) as [E _]. rewrite E, IH. reflexivity.
  - rewrite <- (app_nil_r t), (csv_norm_app t [] (row_no_cr _ _ H)), app_nil_r.
    destruct t as [|c t]; [contradiction|]. rewrite (csv_record c _ (row_head _ _ H _ _ eq_refl)).
    destruct (csv_row _ _ H []) as [_ E]. rewrite E. reflexivity.
  - rewrite (csv_norm_end e u He). cbn [csv_go]. exact IH.
Qed.

Lemma csv_count_all : forall n rs, Forall (fun r => List.length r = n) rs -> csv_count n rs = (rs, None).
Proof.
  induction 1 as [|r rs H _ IH]; [reflexivity|]. cbn [csv_count]. rewrite H, Nat.eqb_refl, IH. reflexivity.
Qed.
Lemma csv_count_bad : forall n a r b, Forall (fun r => List.length r = n) a -> List.length r <> n ->
  csv_count n (a ++ r :: b) = (a, Some err_field_count).
Proof.
  intros n a r b H Hr. induction H as [|x a Hx _ IH]; cbn [app csv_count].
  - destruct (Nat.eqb_spec (List.length r) n); [contradiction|reflexivity].
  - rewrite Hx, Nat.eqb_refl, IH. reflexivity.
Qed.

Lemma csv_read_table : forall n rs t, table_text rs t -> Forall (fun r => List.length r = n) rs -> csv_read t = (rs, None).
Proof.
  intros n rs t Ht Hn. unfold csv_read. rewrite (csv_table _ _ Ht). destruct rs as [|r rs]; [reflexivity|].
  replace (List.length r) with n by (inversion Hn; subst; reflexivity).
  rewrite (csv_count_all n _ Hn). reflexivity.
Qed.
Lemma csv_read_width : forall n a r b t, table_text (a ++ r :: b) t -> a <> [] -> Forall (fun r => List.length r = n) a ->
  List.length r <> n -> csv_read t = (a, Some err_field_count).
Proof.
  intros n a r b t Ht Ha Hn Hr. unfold csv_read. rewrite (csv_table _ _ Ht). destruct a as [|x a]; [contradiction|].
  cbn [app]. replace (List.length x) with n by (inversion Hn; subst; reflexivity).
  change (x :: a ++ r :: b) with ((x :: a) ++ r :: b). rewrite (csv_count_bad n _ r b Hn Hr). reflexivity.
Qed.
(** A table read up to some row: what comes before it, and something after. *)
Lemma csv_count_prefix : forall n a r b, Forall (fun r => List.length r = n) (a ++ [r]) -> exists more e, csv_count n (a ++ r :: b) = (a ++ r :: more, e).
Proof.
  intros n a r b H. induction a as [|x a IH]; cbn [app csv_count] in *.
  - inversion H as [|? ? Hr _]; subst. rewrite Nat.eqb_refl. destruct (csv_count _ b) as [ok e]. exists ok, e. reflexivity.
  - inversion H as [|? ? Hx H']; subst. rewrite Nat.eqb_refl. destruct (IH H') as (more & e & ->). exists more, e. reflexivity.
Qed.
Lemma csv_read_prefix : forall n a r b t, table_text (a ++ r :: b) t -> Forall (fun r => List.length r = n) (a ++ [r]) ->
  exists more e, csv_read t = (a ++ r :: more, e).
Proof.
  intros n a r b t Ht Hn. unfold csv_read. rewrite (csv_table _ _ Ht).
  destruct (csv_count_prefix n a r b Hn) as (more & e & E).
  destruct a as [|x a]; cbn [app] in *.
  - replace (List.length r) with n by (inversion Hn; subst; reflexivity). rewrite E. eexists _, _. reflexivity.
  - replace (List.length x) with n by (inversion Hn; subst; reflexivity). rewrite E. eexists _, _. reflexivity.
Qed.

(** ** Numbers *)

Lemma hexd_digit : forall c d, hexd c d -> c <> 95 /\ digit_of c = Some d /\ 0 <= d < 16.
Proof.
  intros c d H. unfold hexd in H. split; [lia|]. split; [|lia]. unfold digit_of, lower.
  destruct H as [[H ->]|[H [->| ->]]].
  - replace ((48 <=? 48 + d) && (48 + d <=? 57)) with true by lia. f_equal. lia.
  - replace ((48 <=? 87 + d) && (87 + d <=? 57)) with false by lia.
    replace ((65 <=? 87 + d) && (87 + d <=? 90)) with false by lia.
    replace ((97 <=? 87 + d) && (87 + d <=? 122)) with true by lia. f_equal. lia.
  - replace ((48 <=? 55 + d) && (55 + d <=? 57)) with false by lia.
    replace ((65 <=? 55 + d) && (55 + d <=? 90)) with true by lia.
    replace ((97 <=? 55 + d + 32) && (55 + d + 32 <=? 122)) with true by lia. f_equal. lia.
Qed.

Lemma digits_val_app : forall base a acc b, digits_val base acc (a ++ b) =
  match digits_val base acc a with Some n => digits_val base n b | None => None end.
Proof.
  induction a as [|c a IH]; intros acc b; [reflexivity|]. cbn [app digits_val]. destruct (c =? 95); [apply IH|].
  destruct (digit_of c); [|reflexivity]. destruct (z <? base); [apply IH|reflexivity].
Qed.

Lemma hex_value_digits : forall ds n, hex_value ds n ->
  digits_val 16 0 ds = Some n /\ 0 <= n /\ Forall (fun c => c <> 95) ds.
Proof.
  induction 1 as [|ds n c d _ (IH & I0 & IU) Hd]; [repeat split; try constructor; lia|].
  destruct (hexd_digit c d Hd) as (Hc & Hv & Hr). rewrite digits_val_app, IH. cbn [digits_val].
  replace (c =? 95) with false by lia. rewrite Hv. replace (d <? 16) with true by lia.
  repeat split; [f_equal; lia|lia|]. apply Forall_app. split; [exact IU|repeat constructor; lia].
Qed.

Lemma underscores_none : forall s saw, Forall (fun c => c <> 95) s -> underscores_ok saw s = true.
Proof.
  induction s as [|c s IH]; intros saw H; [reflexivity|]. inversion H; subst. cbn [underscores_ok].
  replace (c =? 95) with false by lia. apply IH. assumption.
Qed.

Lemma number_parse : forall s n, number s n -> parse_int0 s = Some n.
Proof.
  intros s n (ds & -> & Hne & Hv & Hr). destruct (hex_value_digits ds n Hv) as (E & E0 & EU).
  destruct ds as [|d ds]; [contradiction|]. change (zs "0x" ++ d :: ds) with (48 :: 120 :: d :: ds). unfold parse_int0.
  unfold base_of, lower. cbn [andb Z.leb Z.compare Pos.compare Pos.compare_cont Z.eqb Pos.eqb negb].
  rewrite (underscores_none (d :: ds) true EU), E.
  replace (n <? 0x8000000000000000) with true by (change (2 ^ 63) with 0x8000000000000000 in Hr; lia). reflexivity.
Qed.

Lemma digit_of_char : forall c d, digit_of c = Some d -> number_char c.
Proof.
  intros c d H. unfold digit_of, lower, number_char in *.
  destruct ((48 <=? c) && (c <=? 57)) eqn:E1; [lia|]. destruct ((65 <=? c) && (c <=? 90)) eqn:E2; [lia|].
  destruct ((97 <=? c) && (c <=? 122)) eqn:E3; [lia|discriminate].
Qed.
Lemma digits_val_chars : forall base s acc n, digits_val base acc s = Some n -> Forall number_char s.
Proof.
  induction s as [|c s IH]; intros acc n H; [constructor|]. cbn [digits_val] in H. destruct (c =? 95) eqn:E.
  - constructor; [unfold number_char; lia|]. exact (IH _ _ H).
  - destruct (digit_of c) as [d|] eqn:Ed; [|discriminate]. destruct (d <? base); [|discriminate].
    constructor; [exact (digit_of_char _ _ Ed)|exact (IH _ _ H)].
Qed.
Lemma base_of_chars : forall s, Forall number_char (snd (base_of s)) -> Forall number_char s.
Proof.
  intros s H. destruct (Z.eq_dec (hd 0 s) 48) as [E|E].
  - destruct s as [|c s]; [constructor|]. cbn [hd] in E. subst c.
    constructor; [unfold number_char; lia|]. destruct s as [|c [|d s]]; cbn [base_of snd] in H; try exact H.
    destruct (lower c =? 98) eqn:E1; [|destruct (lower c =? 111) eqn:E2; [|destruct (lower c =? 120) eqn:E3]]; cbn [snd] in H; try exact H;
      (constructor; [unfold lower, number_char in *; destruct ((65 <=? c) && (c <=? 90)) eqn:EL; lia|exact H]).
  - assert (B : base_of s = (10, s)).
    { destruct s as [|c s]; [reflexivity|]. cbn [hd] in E. destruct c as [|p|p]; try reflexivity.
      repeat (destruct p as [p|p|]; try reflexivity). exfalso. apply E. reflexivity. }
    rewrite B in H. exact H.
Qed.

Lemma parse_chars : forall s n, parse_int0 s = Some n -> s <> [] /\ Forall number_char s.
Proof.
  intros s n H. unfold parse_int0 in H.
  assert (K : forall neg t, (match t with
    | [] => None
    | _ => let '(base, ds) := base_of t in
      if underscores_ok (negb (base =? 10)) ds then
        match digits_val base 0 ds with
        | None => None
        | Some n => if (neg : bool) then if n <=? 0x8000000000000000 then Some (- n) else None
                    else if n <? 0x8000000000000000 then Some n else None
        end else None end) = Some n -> Forall number_char t).
  { intros neg t Ht. apply base_of_chars. destruct t as [|c t]; [discriminate|].
    destruct (base_of (c :: t)) as [base ds] eqn:EB. cbn [snd]. destruct (underscores_ok _ ds); [|discriminate].
    destruct (digits_val base 0 ds) as [m|] eqn:ED; [|discriminate]. exact (digits_val_chars _ _ _ _ ED). }
  destruct s as [|c s]; [discriminate|]. split; [discriminate|].
  destruct (Z.eq_dec c 43) as [->|N1]; [constructor; [unfold number_char; lia|exact (K false s H)]|].
  destruct (Z.eq_dec c 45) as [->|N2]; [constructor; [unfold number_char; lia|exact (K true s H)]|].
  apply (K false (c :: s)). revert H. 
  destruct c as [|p|p]; try (intros H; exact H).
  repeat (destruct p as [p|p|]; try (intros H; exact H)); exfalso; congruence.
Qed.
Lemma no_number_parse : forall s, no_number s -> parse_int0 s = None.
Proof.
  intros s H. destruct (parse_int0 s) as [n|] eqn:E; [|reflexivity]. exfalso.
  destruct (parse_chars _ _ E) as [Hne HF]. destruct H as [->|(c & Hin & Hc)]; [apply Hne; reflexivity|].
  rewrite Forall_forall in HF. exact (Hc (HF c Hin)).
Qed.

(** ** Rows *)

Lemma drop_space_keeps : forall s, (forall c t, s = c :: t -> ~ white c) -> drop_space s = s.
Proof.
  intros [|c s] H; [reflexivity|]. cbn [drop_space]. specialize (H c s eq_refl). apply not_white in H. rewrite H. reflexivity.
Qed.

Lemma trimmed_trim : forall raw name, trimmed raw name -> trim_space raw = name.
Proof.
  intros raw name (l & r & -> & Hl & Hr & H1 & H2). unfold trim_space. rewrite (drop_space_whites l _ Hl).
  assert (Hr' : Forall white (rev r)) by (apply Forall_rev; exact Hr).
  destruct name as [|c name].
  - cbn [app]. replace (drop_space r) with (@nil Z); [reflexivity|].
    rewrite <- (app_nil_r r), (drop_space_whites r [] Hr). reflexivity.
  - replace (drop_space ((c :: name) ++ r)) with ((c :: name) ++ r).
    + rewrite rev_app_distr, (drop_space_whites _ _ Hr'), drop_space_keeps; [apply rev_involutive|].
      intros d t Ht. apply (H2 d (rev t)). rewrite <- (rev_involutive (c :: name)), Ht. reflexivity.
    + symmetry. apply drop_space_keeps. intros d t Ht. injection Ht as <- _. exact (H1 c name eq_refl).
Qed.

Definition entry_of (c : category) : entry := (ct_domain c, ct_id c, ct_name c).
Definition cat_of (e : entry) : category := mkCat (e_domain e) (e_category e) (e_name e).

Lemma known_domain : forall d, existsb (fun x => fst x =? d) domains = true <-> known d.
Proof.
  intros d. unfold known. rewrite existsb_exists. split.
  - intros ((x & v) & Hin & E). cbn [fst] in E. apply Z.eqb_eq in E. subst x. unfold domains in Hin. cbn [In] in Hin.
    repeat (destruct Hin as [Hin|Hin]; [injection Hin as <- _; lia|]). destruct Hin.
  - intros H. assert (K : In d (map fst domains)).
    { cbn [domains map fst In]. lia. }
    apply in_map_iff in K. destruct K as (x & E & Hin). exists x. split; [exact Hin|]. apply Z.eqb_eq. exact E.
Qed.
Lemma known_domain_no : forall d, ~ known d -> existsb (fun x => fst x =? d) domains = false.
Proof. intros d H. destruct (existsb _ domains) eqn:E; [|reflexivity]. apply known_domain in E. contradiction. Qed.

Lemma row_category : forall r e, row_says r e -> known (e_domain e) -> read_category r = Ret (inl (cat_of e)).
Proof.
  intros r e (a & b & sku & raw & more & -> & Ha & Hb & Hn) Hk. unfold read_category.
  change (go_index (a :: b :: sku :: raw :: more) 0) with (Ret a). cbn [bindo].
  unfold drop_bom, ch_bom. fold (unmarked a). rewrite (number_parse _ _ Ha).
  replace (go_index (a :: b :: sku :: raw :: more) 1) with (Ret b)
    by (unfold go_index; cbn [zlen List.length]; replace ((1 <? 0) || _)%bool with false by (unfold zlen; cbn [List.length]; lia); reflexivity).
  cbn [bindo]. fold (unmarked b). rewrite (number_parse _ _ Hb). rewrite (proj2 (known_domain _) Hk).
  replace (go_index (a :: b :: sku :: raw :: more) 2) with (Ret sku)
    by (unfold go_index; replace ((2 <? 0) || _)%bool with false by (unfold zlen; cbn [List.length]; lia); reflexivity).
  replace (go_index (a :: b :: sku :: raw :: more) 3) with (Ret raw)
    by (unfold go_index; replace ((3 <? 0) || _)%bool with false by (unfold zlen; cbn [List.length]; lia); reflexivity).
  cbn [bindo]. rewrite (trimmed_trim _ _ Hn). reflexivity.
Qed.

Lemma rows_categories : forall rs es e, Forall2 row_says rs es -> Forall (fun x => known (e_domain x)) es ->
  read_categories rs e = Ret (match e with Some e => inr e | None => inl (map cat_of es) end).
Proof.
  intros rs es e H. induction H as [|r x rs es Hr _ IH]; intros Hk; [destruct e; reflexivity|].
  inversion Hk as [|? ? Hx Hk']; subst. cbn [read_categories]. rewrite (row_category _ _ Hr Hx). cbn [bindo]. rewrite (IH Hk').
  cbn [bindo]. destruct e; reflexivity.
Qed.

Lemma bad_category : forall r, bad_row r -> exists e, read_category r = Ret (inr e).
Proof.
  intros r (a & b & more & -> & H). unfold read_category.
  change (go_index (a :: b :: more) 0) with (Ret a). cbn [bindo]. unfold drop_bom, ch_bom. fold (unmarked a).
  destruct H as [Ha|(d & Ha & H)]; [rewrite (no_number_parse _ Ha); eexists; reflexivity|].
  rewrite (number_parse _ _ Ha).
  replace (go_index (a :: b :: more) 1) with (Ret b)
    by (unfold go_index; replace ((1 <? 0) || _)%bool with false by (unfold zlen; cbn [List.length]; lia); reflexivity).
  cbn [bindo]. fold (unmarked b). destruct H as [Hb|(c & Hb & Hk)].
  - rewrite (no_number_parse _ Hb). eexists. reflexivity.
  - rewrite (number_parse _ _ Hb), (known_domain_no _ Hk). eexists. reflexivity.
Qed.

Lemma bad_categories : forall rs es r more e, Forall2 row_says rs es -> Forall (fun x => known (e_domain x)) es -> bad_row r ->
  exists e', read_categories (rs ++ r :: more) e = Ret (inr e').
Proof.
  intros rs es r more e H. induction H as [|x y rs es Hr _ IH]; intros Hk Hb; cbn [app read_categories].
  - destruct (bad_category r Hb) as [e' E]. rewrite E. cbn [bindo]. exists e'. reflexivity.
  - inversion Hk as [|? ? Hx Hk']; subst. rewrite (row_category _ _ Hr Hx). cbn [bindo].
    destruct (IH Hk' Hb) as [e' E]. rewrite E. cbn [bindo]. exists e'. reflexivity.
Qed.

(** ** The order of the table *)

Definition sorted_out (es : list entry) : list entry := flat_map (fun d => filter (fun e => e_domain e =? fst d) es) domains.

Lemma flat_map_filters : forall {A B} (key : A -> Z) (ks : list (Z * B)) (es : list A) d,
  NoDup (map fst ks) ->
  filter (fun e => key e =? d) (flat_map (fun k => filter (fun e => key e =? fst k) es) ks) =
  if existsb (fun k => fst k =? d) ks then filter (fun e => key e =? d) es else [].
Proof.
  intros A B key ks es d. induction ks as [|[k v] ks IH]; intros H; [reflexivity|].
  inversion H as [|? ? Hn H']; subst. cbn [flat_map existsb fst]. rewrite filter_app, (IH H').
  destruct (k =? d) eqn:E.
  - apply Z.eqb_eq in E. subst k. cbn [orb].
    replace (existsb (fun k => fst k =? d) ks) with false.
    + rewrite app_nil_r. clear. induction es as [|e es IHe]; [reflexivity|]. cbn [filter]. destruct (key e =? d) eqn:Ek; [|exact IHe].
      cbn [filter]. rewrite Ek, IHe. reflexivity.
    + symmetry. destruct (existsb _ ks) eqn:X; [|reflexivity]. exfalso. apply Hn. apply existsb_exists in X. destruct X as (x & Hx & Ex).
      apply Z.eqb_eq in Ex. apply in_map_iff. exists x. split; [exact Ex|exact Hx].
  - cbn [orb]. replace (filter (fun e => key e =? d) (filter (fun e => key e =? k) es)) with (@nil A); [reflexivity|].
    clear - E. induction es as [|e es IHe]; [reflexivity|]. cbn [filter]. destruct (key e =? k) eqn:Ek; [|exact IHe].
    cbn [filter]. replace (key e =? d) with false by lia. exact IHe.
Qed.

Lemma filter_split_perm : forall {A} (p : A -> bool) l, Permutation l (filter p l ++ filter (fun x => negb (p x)) l).
Proof.
  intros A p. induction l as [|x l IH]; [constructor|]. cbn [filter]. destruct (p x); cbn [negb app].
  - constructor. exact IH.
  - rewrite IH at 1. apply Permutation_middle.
Qed.

Lemma flat_map_perm : forall {A B} (key : A -> Z) (ks : list (Z * B)) (es : list A),
  NoDup (map fst ks) -> Forall (fun e => In (key e) (map fst ks)) es ->
  Permutation es (flat_map (fun k => filter (fun e => key e =? fst k) es) ks).
Proof.
  intros A B key. induction ks as [|[k v] ks IH]; intros es Hn Hk.
  - destruct es as [|e es]; [constructor|]. inversion Hk as [|? ? He _]; subst. destruct He.
  - inversion Hn as [|? ? Hn1 Hn2]; subst. cbn [flat_map fst].
    rewrite (filter_split_perm (fun e => key e =? k) es) at 1. apply Permutation_app_head.
    rewrite (IH (filter (fun x => negb (key x =? k)) es)); [|exact Hn2|].
    + apply Permutation_refl'. clear IH Hk Hn Hn2. cbn [map fst] in Hn1.
      induction ks as [|[k2 v2] ks IHk]; [reflexivity|]. cbn [flat_map fst]. rewrite IHk by (intro X; apply Hn1; right; exact X). f_equal.
      assert (K : k2 <> k) by (intro X; apply Hn1; left; exact X).
      clear - K. induction es as [|e es IHe]; [reflexivity|]. cbn [filter]. destruct (key e =? k) eqn:E1; cbn [negb].
      * replace (key e =? k2) with false by lia. exact IHe.
      * cbn [filter]. destruct (key e =? k2); [f_equal|]; exact IHe.
    + apply Forall_forall. intros x Hx. apply filter_In in Hx. destruct Hx as [Hx Hb]. rewrite Forall_forall in Hk.
      specialize (Hk x Hx). cbn [map fst In] in Hk. destruct Hk as [Hk|Hk]; [|exact Hk]. exfalso. lia.
Qed.

Lemma flat_map_sorted : forall {A B} (key : A -> Z) (ks : list (Z * B)) (es : list A),
  StronglySorted (fun a b => fst a <= fst b) ks ->
  StronglySorted (fun a b => key a <= key b) (flat_map (fun k => filter (fun e => key e =? fst k) es) ks).
Proof.
  intros A B key ks es H. induction H as [|[k v] ks _ IH Hall]; [constructor|]. cbn [flat_map fst].
  assert (G : forall l, Forall (fun e => key e = k) l -> forall m, StronglySorted (fun a b => key a <= key b) m ->
    Forall (fun e => k <= key e) m -> StronglySorted (fun a b => key a <= key b) (l ++ m)).
  { induction l as [|e l IHl]; intros Hl m Hm Hf; [exact Hm|]. inversion Hl as [|? ? He Hl']; subst. cbn [app]. constructor.
    - apply IHl; assumption.
    - apply Forall_app. split; [eapply Forall_impl; [|exact Hl']; cbn beta; intros; lia|exact Hf]. }
  apply G; [|exact IH|].
  - apply Forall_forall. intros e He. apply filter_In in He. destruct He as [_ He]. lia.
  - apply Forall_forall. intros e He. apply in_flat_map in He. destruct He as (x & Hx & He). apply filter_In in He. destruct He as [_ He].
    rewrite Forall_forall in Hall. specialize (Hall x Hx). cbn [fst] in Hall. lia.
Qed.

Lemma domains_nodup : NoDup (map fst domains).
Proof. cbn [domains map fst]. repeat (constructor; [cbn [In]; lia|]). constructor. Qed.
Lemma domains_sorted : StronglySorted (fun a b : Z * list Z => fst a <= fst b) domains.
Proof. unfold domains. repeat (constructor; [|repeat (constructor; [cbn [fst]; lia|]); constructor]). constructor. Qed.

Lemma sorted_out_spec : forall es, Forall (fun x => known (e_domain x)) es -> by_domain es (sorted_out es).
Proof.
  intros es H. split; [|split].
  - apply flat_map_perm; [exact domains_nodup|]. eapply Forall_impl; [|exact H]. cbn beta. intros e He.
    apply known_domain in He. apply existsb_exists in He. destruct He as (x & Hx & E). apply Z.eqb_eq in E.
    apply in_map_iff. exists x. split; [exact E|exact Hx].
  - apply flat_map_sorted. exact domains_sorted.
  - intros d. unfold sorted_out. rewrite (flat_map_filters e_domain domains es d domains_nodup).
    destruct (existsb (fun k => fst k =? d) domains) eqn:E; [reflexivity|].
    symmetry. clear - H E. induction H as [|e es He _ IH]; [reflexivity|]. cbn [filter].
    destruct (e_domain e =? d) eqn:Ed; [|exact IH]. apply Z.eqb_eq in Ed. subst d. apply known_domain in He. congruence.
Qed.

(** The order is determined. *)
Lemma by_domain_unique : forall es a b, by_domain es a -> by_domain es b -> a = b.
Proof.
  intros es a b (Pa & Sa & Fa) (Pb & Sb & Fb).
  assert (F : forall d, filter (fun e => e_domain e =? d) a = filter (fun e => e_domain e =? d) b) by (intro d; rewrite Fa, Fb; reflexivity).
  clear Pa Pb Fa Fb es. revert b Sb F. induction Sa as [|x a Sa IH Ha]; intros b Sb F.
  - destruct b as [|y b]; [reflexivity|]. specialize (F (e_domain y)). cbn [filter] in F. rewrite Z.eqb_refl in F. discriminate.
  - destruct b as [|y b]; [specialize (F (e_domain x)); cbn [filter] in F; rewrite Z.eqb_refl in F; discriminate|].
    inversion Sb as [|? ? Sb' Hb]; subst.
    assert (E : e_domain x = e_domain y).
    { assert (L : forall u v l m, filter (fun e => e_domain e =? e_domain u) (u :: l) = filter (fun e => e_domain e =? e_domain u) (v :: m) ->
        Forall (fun e => e_domain v <= e_domain e) m -> e_domain v <= e_domain u).
      { intros u v l m Hf Hm. assert (I : In u (filter (fun e => e_domain e =? e_domain u) (v :: m))).
        { rewrite <- Hf. cbn [filter]. rewrite Z.eqb_refl. left. reflexivity. }
        apply filter_In in I. destruct I as [[->|I] _]; [lia|]. rewrite Forall_forall in Hm. exact (Hm u I). }
      pose proof (L x y a b (F _) Hb). pose proof (L y x b a (eq_sym (F _)) Ha). lia. }
    pose proof (F (e_domain x)) as Fx. cbn [filter] in Fx. rewrite Z.eqb_refl, <- E, Z.eqb_refl in Fx. injection Fx as -> _.
    f_equal. apply IH; [exact Sb'|]. intros d. specialize (F d). cbn [filter] in F.
    destruct (e_domain y =? d); [injection F as F; exact F|exact F].
Qed.

Lemma map_cat_sorted : forall es,
  flat_map (fun d => filter (fun c => ct_domain c =? fst d) (map cat_of es)) domains = map cat_of (sorted_out es).
Proof.
  intros es. unfold sorted_out. induction domains as [|d ds IH]; [reflexivity|]. cbn [flat_map]. rewrite map_app, IH. f_equal.
  clear. induction es as [|e es IH]; [reflexivity|]. cbn [map filter]. change (ct_domain (cat_of e)) with (e_domain e).
  destruct (e_domain e =? fst d); [cbn [map]; f_equal|]; exact IH.
Qed.

Lemma data_rows : forall n rs es csv, table_text rs csv -> Forall (fun r => List.length r = n) rs -> Forall2 row_says rs es ->
  Forall (fun x => known (e_domain x)) es -> devcats_data (Some csv) = Ret (inl (map cat_of (sorted_out es))).
Proof.
  intros n rs es csv Ht Hn Hr Hk. unfold devcats_data. rewrite (csv_read_table n _ _ Ht Hn), (rows_categories rs es None Hr Hk).
  cbn [bindo]. rewrite map_cat_sorted. reflexivity.
Qed.

Lemma data_bad : forall n rs es r more csv, table_text (rs ++ r :: more) csv -> Forall (fun r => List.length r = n) (rs ++ [r]) ->
  Forall2 row_says rs es -> Forall (fun x => known (e_domain x)) es -> bad_row r -> exists e, devcats_data (Some csv) = Ret (inr e).
Proof.
  intros n rs es r more csv Ht Hn Hr Hk Hb. unfold devcats_data.
  destruct (csv_read_prefix n rs r more csv Ht Hn) as (m & e & ->).
  destruct (bad_categories rs es r m e Hr Hk Hb) as [e' ->]. cbn [bindo]. exists e'. reflexivity.
Qed.
Lemma data_width : forall n rs es r more csv, table_text (rs ++ r :: more) csv -> rs <> [] -> Forall (fun r => List.length r = n) rs ->
  List.length r <> n -> Forall2 row_says rs es -> Forall (fun x => known (e_domain x)) es ->
  exists e, devcats_data (Some csv) = Ret (inr e).
Proof.
  intros n rs es r more csv Ht Hne Hn Hl Hr Hk. unfold devcats_data.
  rewrite (csv_read_width n rs r more csv Ht Hne Hn Hl), (rows_categories rs es _ Hr Hk). cbn [bindo]. eexists. reflexivity.
Qed.

(** ** Lines of a text *)

Lemma split_app_nl : forall a b, split_on ch_nl (a ++ ch_nl :: b) = split_on ch_nl a ++ split_on ch_nl b.
Proof.
  induction a as [|c a IH]; intros b; [reflexivity|]. cbn [app split_on]. rewrite IH. destruct (c =? ch_nl); [reflexivity|].
  destruct (split_on ch_nl a) as [|p ps] eqn:E; [|reflexivity]. destruct a as [|x a]; [discriminate E|]. cbn [split_on] in E.
  destruct (x =? ch_nl); [discriminate E|]. destruct (split_on ch_nl a); discriminate E.
Qed.
Lemma split_single : forall l, no_nl l -> split_on ch_nl l = [l].
Proof.
  intros l H. apply consists_split. constructor. intro X. unfold no_nl in H. rewrite Forall_forall in H. exact (H 10 X eq_refl).
Qed.

(** Texts each of which begins a line. *)
Definition led (ls : list (list Z)) : list Z := flat_map (cons ch_nl) ls.
Lemma led_app : forall a b, led (a ++ b) = led a ++ led b.
Proof. intros a b. apply flat_map_app. Qed.
Lemma led_split : forall ls p s, Forall no_nl ls -> split_on ch_nl (p ++ led ls ++ ch_nl :: s) = split_on ch_nl p ++ ls ++ split_on ch_nl s.
Proof.
  induction ls as [|l ls IH]; intros p s H; [apply split_app_nl|]. inversion H as [|? ? Hl H']; subst.
  unfold led. cbn [flat_map]. fold (led ls). rewrite <- app_assoc. cbn [app]. rewrite split_app_nl, (IH l s H'), (split_single l Hl). reflexivity.
Qed.

Fixpoint prefixb (p l : list Z) : bool :=
  match p, l with
  | [], _ => true
  | x :: p, y :: l => (x =? y) && prefixb p l
  | _, _ => false
  end.
Lemma prefixb_starts : forall p l, prefixb p l = true <-> starts p l.
Proof.
  induction p as [|x p IH]; intros l; cbn [prefixb].
  - split; [intros _; exists l; reflexivity|reflexivity].
  - destruct l as [|y l]; [split; [discriminate|intros [t H]; discriminate H]|]. rewrite andb_true_iff, IH, Z.eqb_eq. unfold starts. split.
    + intros [-> [t ->]]. exists t. reflexivity.
    + intros [t H]. injection H as -> ->. split; [reflexivity|]. exists t. reflexivity.
Qed.
Lemma selected_by : forall {A} (P : A -> Prop) (p : A -> bool) ls, (forall x, p x = true <-> P x) -> selected P ls (filter p ls).
Proof.
  intros A P p ls H. induction ls as [|x ls IH]; cbn [filter]; [constructor|]. destruct (p x) eqn:E.
  - apply sel_take; [apply H; exact E|exact IH].
  - apply sel_skip; [|exact IH]. intro X. apply H in X. congruence.
Qed.
Lemma filter_all : forall {A} (p : A -> bool) ls, Forall (fun x => p x = true) ls -> filter p ls = ls.
Proof. intros A p ls H. induction H as [|x ls E _ IH]; [reflexivity|]. cbn [filter]. rewrite E, IH. reflexivity. Qed.
Lemma filter_none : forall {A} (p : A -> bool) ls, Forall (fun x => p x = false) ls -> filter p ls = [].
Proof. intros A p ls H. induction H as [|x ls E _ IH]; [reflexivity|]. cbn [filter]. rewrite E. exact IH. Qed.

(** ** Escaping *)

Lemma html_char_escaped : forall c, escaped_char c (html_char c).
Proof.
  intros c. unfold html_char.
  destruct (c =? 0) eqn:E0; [apply Z.eqb_eq in E0; subst; constructor|].
  destruct (c =? 34) eqn:E1; [apply Z.eqb_eq in E1; subst; constructor|].
  destruct (c =? 38) eqn:E2; [apply Z.eqb_eq in E2; subst; constructor|].
  destruct (c =? 39) eqn:E3; [apply Z.eqb_eq in E3; subst; constructor|].
  destruct (c =? 43) eqn:E4; [apply Z.eqb_eq in E4; subst; constructor|].
  destruct (c =? 60) eqn:E5; [apply Z.eqb_eq in E5; subst; constructor|].
  destruct (c =? 62) eqn:E6; [apply Z.eqb_eq in E6; subst; constructor|].
  apply ec_other. cbn [In]. lia.
Qed.
Lemma html_escaped : forall s, escaped s (html s).
Proof. induction s as [|c s IH]; [constructor|]. unfold html. cbn [flat_map]. constructor; [apply html_char_escaped|exact IH]. Qed.
Lemma html_unescaped : forall s, unescaped s -> html s = s.
Proof.
  intros s H. induction H as [|c s Hc _ IH]; [reflexivity|]. unfold html. cbn [flat_map]. fold (html s). rewrite IH.
  cbn [In] in Hc. unfold html_char. replace (c =? 0) with false by lia. replace (c =? 34) with false by lia.
  replace (c =? 38) with false by lia. replace (c =? 39) with false by lia. replace (c =? 43) with false by lia.
  replace (c =? 60) with false by lia. replace (c =? 62) with false by lia. reflexivity.
Qed.
Lemma escaped_fun : forall s a b, escaped s a -> escaped s b -> a = b.
Proof.
  intros s a b Ha. revert b. induction Ha as [|c t s u Hc _ IH]; intros b Hb; inversion Hb as [|? t' ? u' Hc' Hs]; subst; [reflexivity|].
  rewrite (IH _ Hs). f_equal.
  destruct Hc; inversion Hc'; subst; try reflexivity; cbn [In] in *; try (exfalso; lia).
Qed.
Lemma html_chars : forall (P : Z -> Prop) s, Forall P s -> P 0xfffd -> Forall P (zs "&#34;&amp;&#39;&#43;&lt;&gt;") -> Forall P (html s).
Proof.
  intros P s H HF HZ. cbn in HZ. 
  assert (Z0 : P 38 /\ P 35 /\ P 51 /\ P 52 /\ P 59 /\ P 97 /\ P 109 /\ P 112 /\ P 57 /\ P 108 /\ P 116 /\ P 103).
  { repeat match goal with X : Forall _ (_ :: _) |- _ => inversion X; subst; clear X end. repeat split; assumption. }
  clear HZ. induction H as [|c s Hc _ IH]; [constructor|]. unfold html. cbn [flat_map]. apply Forall_app. split; [|exact IH].
  unfold html_char. destruct (c =? 0); [repeat constructor; exact HF|].
  destruct (c =? 34); [cbn; repeat constructor; tauto|]. destruct (c =? 38); [cbn; repeat constructor; tauto|].
  destruct (c =? 39); [cbn; repeat constructor; tauto|]. destruct (c =? 43); [cbn; repeat constructor; tauto|].
  destruct (c =? 60); [cbn; repeat constructor; tauto|]. destruct (c =? 62); [cbn; repeat constructor; tauto|].
  repeat constructor. exact Hc.
Qed.
Lemma html_no_nl : forall s, no_nl s -> no_nl (html s).
Proof. intros s H. apply html_chars; [exact H|unfold ch_nl; lia|]. cbn. repeat (constructor; [unfold ch_nl; lia|]). constructor. Qed.

(** The characters that spoil a Go string although HTML leaves them as they are. *)
Definition writable (s : list Z) : Prop := Forall (fun c => c <> 92 /\ c <> 10 /\ c <> 0xfeff) s.
Lemma writable_no_nl : forall s, writable s -> no_nl s.
Proof. intros s H. eapply Forall_impl; [|exact H]. cbn beta. unfold ch_nl. tauto. Qed.
Lemma html_literal : forall s, writable s -> literal (html s).
Proof.
  intros s H. induction H as [|c s Hc _ IH]; [constructor|]. unfold html. cbn [flat_map]. apply Forall_app. split; [|exact IH].
  unfold html_char. destruct (c =? 0) eqn:E0; [repeat constructor; lia|].
  destruct (c =? 34) eqn:E1; [cbn; repeat (constructor; [lia|]); constructor|].
  destruct (c =? 38) eqn:E2; [cbn; repeat (constructor; [lia|]); constructor|].
  destruct (c =? 39) eqn:E3; [cbn; repeat (constructor; [lia|]); constructor|].
  destruct (c =? 43) eqn:E4; [cbn; repeat (constructor; [lia|]); constructor|].
  destruct (c =? 60) eqn:E5; [cbn; repeat (constructor; [lia|]); constructor|].
  destruct (c =? 62) eqn:E6; [cbn; repeat (constructor; [lia|]); constructor|].
  repeat constructor; lia.
Qed.

(** ** Bytes as text *)

Lemma hex_char_low : forall d, 0 <= d < 16 -> low_digit d (hex_char d).
Proof. intros d H. unfold low_digit, hex_char. destruct (d <? 10) eqn:E; lia. Qed.
Lemma hex_char_range : forall d, 0 <= d < 16 -> 48 <= hex_char d <= 57 \/ 97 <= hex_char d <= 102.
Proof. intros d H. unfold hex_char. destruct (d <? 10) eqn:E; lia. Qed.
Lemma fmt_02x_int_byte : forall b, is_byte b -> fmt_02x_int b = fmt_02x b.
Proof.
  intros b H. unfold is_byte in H. unfold fmt_02x_int, fmt_02x. replace (b <? 0) with false by lia. cbn [hex_digits].
  destruct (b <? 16) eqn:E.
  - replace (b / 16) with 0 by lia. reflexivity.
  - replace (b / 16 <? 16) with true by lia. replace (b / 16 mod 16) with (b / 16) by lia. reflexivity.
Qed.
Lemma fmt_byte_text : forall b, is_byte b -> byte_text b (fmt_02x b).
Proof.
  intros b H. unfold is_byte in H. exists (hex_char (b / 16)), (hex_char (b mod 16)). split; [reflexivity|].
  split; apply hex_char_low; lia.
Qed.
Lemma fmt_chars : forall b, is_byte b -> Forall (fun c => 48 <= c <= 57 \/ 97 <= c <= 102) (fmt_02x b).
Proof. intros b H. unfold is_byte in H. unfold fmt_02x. constructor; [|constructor; [|constructor]]; apply hex_char_range; lia. Qed.
Lemma fmt_html : forall b, is_byte b -> html (fmt_02x b) = fmt_02x b.
Proof.
  intros b H. apply html_unescaped. eapply Forall_impl; [|exact (fmt_chars b H)]. cbn [In]. intros c Hc. lia.
Qed.
Lemma fmt_no_nl : forall b, is_byte b -> no_nl (fmt_02x b).
Proof. intros b H. eapply Forall_impl; [|exact (fmt_chars b H)]. cbn beta. unfold ch_nl. intros c Hc. lia. Qed.

(** ** devcats.go *)

Definition year_line (year : list Z) : list Z := zs "// Copyright " ++ html year ++ zs " Andrew Bates".
Definition license_rest : list Z := skipn 1 (skipn (List.length (year_line [])) (license [])).
Lemma license_eq : forall year, license year = year_line year ++ ch_nl :: license_rest.
Proof.
  intros year. unfold license, year_line. rewrite <- !app_assoc. apply (f_equal (app _)). apply (f_equal (app _)). vm_compute. reflexivity.
Qed.

Definition dev_head : list Z :=
  license_rest ++ zs "

package insteon

const(
  " ++ match domains with d :: _ => html (snd d) ++ zs " Domain = " ++ html (domain_id (fst d)) | [] => [] end ++ zs "
  " ++ flat_map (fun d => html (snd d) ++ zs " = " ++ html (domain_id (fst d)) ++ [ch_nl]) (tl domains) ++ zs "
)

var devcatStrings = map[DevCat]string { ".
Definition dev_line (c : category) : list Z :=
  zs "  " ++ html (cat_devcat c) ++ zs ": """ ++ html (ct_name c) ++ zs """,".

Lemma devcats_go_eq : forall year cs,
  devcats_go year cs = (year_line year ++ ch_nl :: dev_head) ++ led (map dev_line cs) ++ ch_nl :: zs "}
".
Proof.
  intros year cs. unfold devcats_go, dev_head. rewrite license_eq. rewrite <- !app_assoc. cbn [app]. rewrite <- !app_assoc.
  do 9 f_equal. all: unfold led; rewrite flat_map_concat_map, (flat_map_concat_map (cons ch_nl)), map_map; reflexivity.
Qed.

Lemma dev_line_eq : forall c, is_byte (ct_domain c) -> is_byte (ct_id c) ->
  dev_line c = zs "  {0x" ++ fmt_02x (ct_domain c) ++ zs ", 0x" ++ fmt_02x (ct_id c) ++ zs "}: """ ++ html (ct_name c) ++ zs """,".
Proof.
  intros c Hd Hc. unfold dev_line, cat_devcat. rewrite !fmt_02x_int_byte by assumption.
  rewrite html_unescaped; [rewrite <- !app_assoc; reflexivity|]. unfold unescaped.
  assert (F : forall b, is_byte b -> Forall (fun c => ~ In c [0; 34; 38; 39; 43; 60; 62]) (fmt_02x b)).
  { intros b Hb. eapply Forall_impl; [|exact (fmt_chars b Hb)]. cbn [In]. intros x Hx. lia. }
  apply Forall_app. split; [cbn; repeat (constructor; [lia|]); constructor|].
  apply Forall_app. split; [exact (F _ Hd)|].
  apply Forall_app. split; [cbn; repeat (constructor; [lia|]); constructor|].
  apply Forall_app. split; [exact (F _ Hc)|]. cbn. repeat (constructor; [lia|]). constructor.
Qed.

Definition good_entry (e : entry) : Prop := is_byte (e_domain e) /\ is_byte (e_category e) /\ writable (e_name e).
(** The entry with its name as HTML writes it. *)
Definition html_entry (e : entry) : entry := (e_domain e, e_category e, html (e_name e)).

Lemma no_nl_app : forall a b, no_nl a -> no_nl b -> no_nl (a ++ b).
Proof. intros a b Ha Hb. apply Forall_app. split; assumption. Qed.
Ltac nl_lit := cbn; repeat (constructor; [unfold ch_nl; lia|]); constructor.

Lemma dev_line_entry : forall e, good_entry e -> entry_line (html_entry e) (dev_line (cat_of e)) /\ no_nl (dev_line (cat_of e)).
Proof.
  intros e (Hd & Hc & Hw). rewrite (dev_line_eq (cat_of e)) by assumption. cbn [cat_of ct_domain ct_id ct_name]. split.
  - exists (fmt_02x (e_domain e)), (fmt_02x (e_category e)).
    split; [exact (fmt_byte_text _ Hd)|]. split; [exact (fmt_byte_text _ Hc)|]. split; [exact (html_literal _ Hw)|]. reflexivity.
  - repeat apply no_nl_app; try (apply fmt_no_nl; assumption); try nl_lit. apply html_no_nl. exact (writable_no_nl _ Hw).
Qed.

Lemma devcats_go_table : forall year es, no_nl year -> Forall good_entry es ->
  devcat_table (devcats_go year (map cat_of es)) (map html_entry es).
Proof.
  intros year es Hy H. exists (split_on ch_nl (devcats_go year (map cat_of es))), (map dev_line (map cat_of es)).
  split; [apply consists_split; reflexivity|]. split.
  - replace (map dev_line (map cat_of es)) with (filter (prefixb (zs "  {")) (split_on ch_nl (devcats_go year (map cat_of es)))).
    + apply selected_by. apply prefixb_starts.
    + rewrite devcats_go_eq, led_split, split_app_nl.
      * rewrite (split_single (year_line year)) by (unfold year_line; repeat apply no_nl_app; try nl_lit; apply html_no_nl; exact Hy).
        rewrite !filter_app. replace (filter (prefixb (zs "  {")) [year_line year]) with (@nil (list Z)) by reflexivity.
        replace (filter (prefixb (zs "  {")) (split_on ch_nl dev_head)) with (@nil (list Z)) by (vm_compute; reflexivity).
        replace (filter (prefixb (zs "  {")) (split_on ch_nl (zs "}
"))) with (@nil (list Z)) by reflexivity.
        cbn [app]. rewrite app_nil_r. apply filter_all. rewrite map_map. apply Forall_map.
        eapply Forall_impl; [|exact H]. cbn beta. intros e He. destruct (dev_line_entry e He) as [_ _]. destruct He as (Hd & Hc & _).
        rewrite (dev_line_eq (cat_of e)) by assumption. reflexivity.
      * rewrite map_map. apply Forall_map. eapply Forall_impl; [|exact H]. cbn beta. intros e He. exact (proj2 (dev_line_entry e He)).
  - clear Hy. induction H as [|e es He _ IH]; [constructor|]. cbn [map]. constructor; [exact (proj1 (dev_line_entry e He))|exact IH].
Qed.

Lemma html_entry_plain : forall e, unescaped (e_name e) -> html_entry e = e.
Proof. intros [[d c] n] H. unfold html_entry, e_name in *. cbn [snd fst e_domain e_category] in *. rewrite (html_unescaped _ H). reflexivity. Qed.

(** ** commands.go *)

Definition ident_char (c : Z) : bool := (c =? 95) || ((48 <=? c) && (c <=? 57)) || ((65 <=? c) && (c <=? 90)) || ((97 <=? c) && (c <=? 122)).
Fixpoint after_ident (l : list Z) : list Z := match l with c :: r => if ident_char c then after_ident r else l | [] => [] end.
Definition constb (l : list Z) : bool := match l with c :: _ => ident_char c | [] => false end && prefixb (zs " = Command(0x") (after_ident l).

Lemma ident_chars : forall n, ident n <-> n <> [] /\ Forall (fun c => ident_char c = true) n.
Proof.
  intros n. unfold ident. split; intros [H F]; (split; [exact H|]); (eapply Forall_impl; [|exact F]); intros c Hc; unfold ident_char in *; lia.
Qed.
Lemma after_ident_app : forall n r, Forall (fun c => ident_char c = true) n -> after_ident (n ++ r) = after_ident r.
Proof. induction n as [|c n IH]; intros r H; [reflexivity|]. inversion H as [|? ? Hc H']; subst. cbn [app after_ident]. rewrite Hc. exact (IH r H'). Qed.
Lemma after_ident_split : forall l, exists n, l = n ++ after_ident l /\ Forall (fun c => ident_char c = true) n /\
  (match l with c :: _ => ident_char c | [] => false end = true -> n <> []).
Proof.
  induction l as [|c l (n & E & F & _)]; [exists []; split; [reflexivity|split; [constructor|discriminate]]|]. cbn [after_ident].
  destruct (ident_char c) eqn:Ec; [|exists []; split; [reflexivity|split; [constructor|discriminate]]].
  exists (c :: n). split; [cbn [app]; congruence|]. split; [constructor; assumption|discriminate].
Qed.
Lemma constb_head : forall l, constb l = true <-> const_head l.
Proof.
  intros l. unfold constb, const_head. rewrite andb_true_iff, prefixb_starts. split.
  - intros [H1 (t & Et)]. destruct (after_ident_split l) as (n & E & F & Hn). exists n, t. split; [apply ident_chars; split; [exact (Hn H1)|exact F]|].
    rewrite <- Et. exact E.
  - intros (n & rest & Hn & ->). apply ident_chars in Hn. destruct Hn as [Hn F]. split.
    + destruct n as [|c n]; [contradiction|]. inversion F; subst. assumption.
    + rewrite after_ident_app by exact F. exists rest. reflexivity.
Qed.

(** What a command must be for its text to be Go. *)
Definition good_cmd (c : cmd) : Prop :=
  ident (cm_name c) /\ no_nl (cm_comment c) /\ writable (cm_string c) /\ is_byte (cm_b1 c) /\ is_byte (cm_b2 c).
Definition good_group (g : cmd_group) : Prop := is_byte (cg_b0 g) /\ no_nl (cg_name g) /\ Forall good_cmd (cg_commands g).

Definition note_line (c : cmd) : list Z := zs "// " ++ html (cm_name c) ++ zs " " ++ html (cm_comment c).
Definition def_line (b0 : Z) (c : cmd) : list Z :=
  html (cm_name c) ++ zs " = Command(0x" ++ html (fmt_02x b0) ++ html (fmt_02x (cm_b1 c)) ++ html (fmt_02x (cm_b2 c))
  ++ zs ") // " ++ html (cm_string c).
Definition str_line (c : cmd) : list Z := zs "  " ++ html (cm_name c) ++ zs ": """ ++ html (cm_string c) ++ zs """,".

Lemma ident_html : forall n, ident n -> html n = n.
Proof. intros n [_ F]. apply html_unescaped. eapply Forall_impl; [|exact F]. cbn [In]. intros c Hc. lia. Qed.
Lemma ident_no_nl : forall n, ident n -> no_nl n.
Proof. intros n [_ F]. eapply Forall_impl; [|exact F]. cbn beta. unfold ch_nl. intros c Hc. lia. Qed.

Definition cmd_value (b0 : Z) (c : cmd) : Z := b0 * 65536 + cm_b1 c * 256 + cm_b2 c.

Lemma note_line_ok : forall c, good_cmd c -> no_nl (note_line c).
Proof.
  intros c (Hn & Hc & _). unfold note_line. repeat apply no_nl_app; try nl_lit; apply html_no_nl; [exact (ident_no_nl _ Hn)|exact Hc].
Qed.
Lemma def_line_ok : forall b0 c, is_byte b0 -> good_cmd c ->
  no_nl (def_line b0 c) /\ constb (def_line b0 c) = true /\ const_line (cm_name c, cmd_value b0 c) (def_line b0 c) /\
  prefixb (zs "  ") (def_line b0 c) = false.
Proof.
  intros b0 c H0 (Hn & _ & Hs & H1 & H2). unfold def_line. rewrite !fmt_html by assumption. rewrite (ident_html _ Hn). split; [|split; [|split]].
  - repeat apply no_nl_app; try (apply fmt_no_nl; assumption); try nl_lit; [exact (ident_no_nl _ Hn)|].
    apply html_no_nl. exact (writable_no_nl _ Hs).
  - apply constb_head. eexists _, _. split; [exact Hn|reflexivity].
  - exists b0, (cm_b1 c), (cm_b2 c), (fmt_02x b0), (fmt_02x (cm_b1 c)), (fmt_02x (cm_b2 c)), (html (cm_string c)).
    repeat (split; [apply fmt_byte_text; assumption|]). split; reflexivity.
  - destruct Hn as [Hne F]. destruct (cm_name c) as [|x n]; [contradiction|]. inversion F; subst. cbn [app zs prefixb].
    replace (_ =? x) with false; [reflexivity|]. symmetry. apply Z.eqb_neq. cbn. lia.
Qed.
Lemma str_line_ok : forall c, good_cmd c ->
  no_nl (str_line c) /\ constb (str_line c) = false /\ name_line (cm_name c, html (cm_string c)) (str_line c) /\ prefixb (zs "  ") (str_line c) = true.
Proof.
  intros c (Hn & _ & Hs & _ & _). unfold str_line. rewrite (ident_html _ Hn). split; [|split; [|split]].
  - repeat apply no_nl_app; try nl_lit; [exact (ident_no_nl _ Hn)|]. apply html_no_nl. exact (writable_no_nl _ Hs).
  - reflexivity.
  - split; [exact (html_literal _ Hs)|reflexivity].
  - reflexivity.
Qed.

Definition picks (p : list Z -> bool) (t : list Z) : list (list Z) := filter p (split_on ch_nl t).
Lemma picks_nl : forall p a b, picks p (a ++ ch_nl :: b) = picks p a ++ picks p b.
Proof. intros p a b. unfold picks. rewrite split_app_nl, filter_app. reflexivity. Qed.
Lemma picks_line : forall p l, no_nl l -> picks p l = if p l then [l] else [].
Proof. intros p l H. unfold picks. rewrite (split_single l H). reflexivity. Qed.

Lemma cmd_const_eq : forall b0 c s, cmd_const b0 c ++ s = ch_nl :: note_line c ++ ch_nl :: def_line b0 c ++ ch_nl :: s.
Proof. intros b0 c s. unfold cmd_const, note_line, def_line. rewrite <- !app_assoc. reflexivity. Qed.

(** A choice of lines that leaves out comments and the lines around the constants. *)
Definition sober (p : list Z -> bool) : Prop :=
  (forall l, p (47 :: 47 :: l) = false) /\ p [] = false /\ p (zs ")") = false /\ p (zs "const(") = false /\ p (zs "const()") = false.

Lemma picks_cmds : forall p b0 cs q, sober p -> Forall good_cmd cs -> is_byte b0 -> no_nl q -> p q = false -> p (q ++ zs ")") = false ->
  picks p (q ++ flat_map (cmd_const b0) cs ++ zs ")") = filter p (map (def_line b0) cs).
Proof.
  intros p b0 cs q Hp Hcs H0. revert q. induction Hcs as [|c cs Hc _ IH]; intros q Hq P1 P2; cbn [flat_map map filter].
  - cbn [app]. rewrite picks_line; [rewrite P2; reflexivity|]. apply no_nl_app; [exact Hq|nl_lit].
  - rewrite <- app_assoc, cmd_const_eq, !picks_nl.
    destruct Hp as (C1 & C2 & C3 & C4 & C5).
    rewrite (picks_line p q Hq), P1, (picks_line p (note_line c) (note_line_ok c Hc)).
    replace (p (note_line c)) with false by (symmetry; exact (C1 _)).
    destruct (def_line_ok b0 c H0 Hc) as (D1 & _). rewrite (picks_line p _ D1).
    change (flat_map (cmd_const b0) cs ++ zs ")") with ([] ++ flat_map (cmd_const b0) cs ++ zs ")").
    rewrite (IH []); [|constructor|exact C2|exact C3]. cbn [app]. destruct (p (def_line b0 c)); reflexivity.
Qed.

Lemma picks_group : forall p g s, sober p -> good_group g ->
  picks p (group_consts g ++ s) = filter p (map (def_line (cg_b0 g)) (cg_commands g)) ++ picks p s.
Proof.
  intros p g s Hp (H0 & Hn & Hc). pose proof Hp as (C1 & C2 & C3 & C4 & C5). unfold group_consts.
  replace (([ch_nl] ++ zs "// " ++ html (cg_name g) ++ [ch_nl] ++ zs "const(" ++ flat_map (cmd_const (cg_b0 g)) (cg_commands g) ++ zs ")" ++ [ch_nl]) ++ s)
    with ([] ++ ch_nl :: (zs "// " ++ html (cg_name g)) ++ ch_nl :: (zs "const(" ++ flat_map (cmd_const (cg_b0 g)) (cg_commands g) ++ zs ")") ++ ch_nl :: s)
    by (rewrite <- !app_assoc; reflexivity).
  rewrite !picks_nl, (picks_cmds p (cg_b0 g) (cg_commands g) (zs "const(") Hp Hc H0); [|nl_lit|exact C4|exact C5].
  rewrite (picks_line p []) by constructor. rewrite C2.
  rewrite (picks_line p (zs "// " ++ html (cg_name g))) by (apply no_nl_app; [nl_lit|apply html_no_nl; exact Hn]).
  replace (p (zs "// " ++ html (cg_name g))) with false by (symmetry; exact (C1 _)). reflexivity.
Qed.
Lemma picks_groups : forall p gs s, sober p -> Forall good_group gs ->
  picks p (flat_map group_consts gs ++ s) = flat_map (fun g => filter p (map (def_line (cg_b0 g)) (cg_commands g))) gs ++ picks p s.
Proof.
  intros p gs s Hp H. induction H as [|g gs Hg _ IH]; [reflexivity|]. cbn [flat_map]. rewrite <- app_assoc, picks_group by assumption.
  rewrite IH, <- app_assoc. reflexivity.
Qed.

Definition cmd_head : list Z := license_rest ++ zs "

package commands
".
Definition var_line : list Z := zs "var cmdStrings = map[Command]string { ".
Lemma commands_go_eq : forall year gs,
  commands_go year gs = (year_line year ++ ch_nl :: cmd_head) ++ ch_nl :: flat_map group_consts gs ++ ch_nl :: [] ++ ch_nl :: var_line ++
    led (map str_line (flat_map cg_commands gs)) ++ ch_nl :: zs "}
".
Proof.
  intros year gs. unfold commands_go, cmd_head, var_line. rewrite license_eq. rewrite <- !app_assoc. cbn [app]. rewrite <- !app_assoc.
  replace (led (map str_line (flat_map cg_commands gs))) with (flat_map (fun g => flat_map cmd_entry (cg_commands g)) gs).
  - reflexivity.
  - induction gs as [|g gs IH]; [reflexivity|]. cbn [flat_map]. rewrite IH, map_app, led_app. f_equal. clear.
    induction (cg_commands g) as [|c cs IH]; [reflexivity|]. cbn [flat_map map]. rewrite IH. reflexivity.
Qed.

Lemma picks_led : forall p ls q s, Forall no_nl ls -> picks p (q ++ led ls ++ ch_nl :: s) = picks p q ++ filter p ls ++ picks p s.
Proof. intros p ls q s H. unfold picks. rewrite led_split, !filter_app by exact H. reflexivity. Qed.

Lemma good_all : forall gs, Forall good_group gs -> Forall good_cmd (flat_map cg_commands gs).
Proof. intros gs H. induction H as [|g gs (_ & _ & Hg) _ IH]; [constructor|]. cbn [flat_map]. apply Forall_app. split; assumption. Qed.

Lemma picks_commands : forall p year gs, sober p -> no_nl year -> Forall good_group gs ->
  picks p cmd_head = [] -> p var_line = false -> p (zs "}") = false ->
  picks p (commands_go year gs) = flat_map (fun g => filter p (map (def_line (cg_b0 g)) (cg_commands g))) gs ++
    filter p (map str_line (flat_map cg_commands gs)).
Proof.
  intros p year gs Hp Hy Hg P1 P2 P3. pose proof Hp as (C1 & C2 & _). rewrite commands_go_eq, picks_nl, picks_nl, P1.
  rewrite (picks_line p (year_line year)) by (unfold year_line; repeat apply no_nl_app; try nl_lit; apply html_no_nl; exact Hy).
  replace (p (year_line year)) with false by (symmetry; exact (C1 _)). cbn [app].
  assert (N : forall X, picks p (ch_nl :: X) = picks p X).
  { intros X. change (ch_nl :: X) with ([] ++ ch_nl :: X). rewrite picks_nl, (picks_line p []) by constructor. rewrite C2. reflexivity. }
  rewrite picks_groups by assumption. f_equal. rewrite !N, picks_led.
  - rewrite (picks_line p var_line) by nl_lit. rewrite P2. cbn [app].
    replace (zs "}
") with (zs "}" ++ ch_nl :: []) by reflexivity. rewrite picks_nl, (picks_line p (zs "}")) by nl_lit. rewrite P3, (picks_line p []) by constructor.
    rewrite C2, !app_nil_r. reflexivity.
  - apply Forall_map. eapply Forall_impl; [|exact (good_all gs Hg)]. cbn beta. intros c Hc. exact (proj1 (str_line_ok c Hc)).
Qed.

Definition defs_of (gs : list cmd_group) : list (list Z * Z) :=
  flat_map (fun g => map (fun c => (cm_name c, cmd_value (cg_b0 g) c)) (cg_commands g)) gs.
Definition strs_of (gs : list cmd_group) : list (list Z * list Z) :=
  map (fun c => (cm_name c, html (cm_string c))) (flat_map cg_commands gs).

Lemma const_table_ok : forall year gs, no_nl year -> Forall good_group gs -> const_table (commands_go year gs) (defs_of gs).
Proof.
  intros year gs Hy Hg. exists (split_on ch_nl (commands_go year gs)), (picks constb (commands_go year gs)).
  split; [apply consists_split; reflexivity|]. split; [apply selected_by; exact constb_head|].
  rewrite picks_commands; [|repeat split; try (intros l; reflexivity); reflexivity|exact Hy|exact Hg|vm_compute; reflexivity|reflexivity|reflexivity].
  rewrite (filter_none constb (map str_line _)).
  - rewrite app_nil_r. unfold defs_of. induction Hg as [|g gs (H0 & _ & Hc) _ IH]; [constructor|]. cbn [flat_map]. apply Forall2_app; [|exact IH].
    induction Hc as [|c cs Hc _ IHc]; [constructor|]. cbn [map filter]. destruct (def_line_ok (cg_b0 g) c H0 Hc) as (_ & E & L & _).
    rewrite E. constructor; [exact L|exact IHc].
  - apply Forall_map. eapply Forall_impl; [|exact (good_all gs Hg)]. cbn beta. intros c Hc. exact (proj1 (proj2 (str_line_ok c Hc))).
Qed.

Lemma name_table_ok : forall year gs, no_nl year -> Forall good_group gs -> name_table (commands_go year gs) (strs_of gs).
Proof.
  intros year gs Hy Hg. exists (split_on ch_nl (commands_go year gs)), (picks (prefixb (zs "  ")) (commands_go year gs)).
  split; [apply consists_split; reflexivity|]. split; [apply selected_by; apply prefixb_starts|].
  rewrite picks_commands; [|repeat split; try (intros l; reflexivity); reflexivity|exact Hy|exact Hg|vm_compute; reflexivity|reflexivity|reflexivity].
  replace (flat_map _ gs) with (@nil (list Z)).
  - cbn [app]. unfold strs_of. pose proof (good_all gs Hg) as H. induction H as [|c cs Hc _ IH]; [constructor|]. cbn [map filter].
    destruct (str_line_ok c Hc) as (_ & _ & L & E). rewrite E. constructor; [exact L|exact IH].
  - symmetry. induction Hg as [|g gs (H0 & _ & Hc) _ IH]; [reflexivity|]. cbn [flat_map]. rewrite IH, app_nil_r. apply filter_none.
    apply Forall_map. eapply Forall_impl; [|exact Hc]. cbn beta. intros c Hcc. exact (proj2 (proj2 (proj2 (def_line_ok (cg_b0 g) c H0 Hcc)))).
Qed.

(** ** COMMANDS.md *)

Definition md_line (c : cmd) : list Z :=
  html (zs "0x" ++ fmt_02x (cm_b1 c)) ++ zs "|" ++ html (zs "0x" ++ fmt_02x (cm_b2 c)) ++ zs "|" ++ html (cm_string c) ++ zs "|" ++ html (cm_notes c).
Definition md_lines (g : cmd_group) : list (list Z) :=
  if cg_convenience g then []
  else [] :: (zs "## " ++ html (cg_name g)) :: zs "Command 1 | Command 2 | Name | Notes" :: zs "----------|-----------|------|------"
       :: map md_line (cg_commands g).
Definition md_head : list Z := zs "
# Known Insteon Commands

The following tables outline all the Insteon command combinations that are
known in this project.".

Lemma md_text_eq : forall gs, commands_md_text gs = md_head ++ led (flat_map md_lines gs) ++ ch_nl :: [ch_nl].
Proof.
  intros gs. unfold commands_md_text. fold md_head. f_equal. f_equal.
  induction gs as [|g gs IH]; [reflexivity|]. cbn [flat_map]. rewrite led_app, IH. f_equal. unfold md_group, md_lines.
  destruct (cg_convenience g); [reflexivity|]. unfold led. cbn [flat_map].
  replace (flat_map md_row (cg_commands g)) with (flat_map (cons ch_nl) (map md_line (cg_commands g))); [rewrite <- ?app_assoc; cbn [app]; rewrite <- ?app_assoc; reflexivity|].
  induction (cg_commands g) as [|c cs IHc]; [reflexivity|]. cbn [map flat_map]. rewrite IHc. reflexivity.
Qed.

Definition good_doc (c : cmd) : Prop :=
  is_byte (cm_b1 c) /\ is_byte (cm_b2 c) /\ no_nl (cm_string c) /\ no_nl (cm_notes c) /\ ~ In 124 (cm_string c).
Definition good_doc_group (g : cmd_group) : Prop := no_nl (cg_name g) /\ Forall good_doc (cg_commands g).
Definition doc_of (c : cmd) : Z * Z * list Z * list Z := (cm_b1 c, cm_b2 c, html (cm_string c), html (cm_notes c)).
Definition docs_of (gs : list cmd_group) := flat_map (fun g => if cg_convenience g then [] else map doc_of (cg_commands g)) gs.

Lemma md_line_eq : forall c, is_byte (cm_b1 c) -> is_byte (cm_b2 c) ->
  md_line c = zs "0x" ++ fmt_02x (cm_b1 c) ++ zs "|0x" ++ fmt_02x (cm_b2 c) ++ zs "|" ++ html (cm_string c) ++ zs "|" ++ html (cm_notes c).
Proof.
  intros c H1 H2. unfold md_line.
  assert (F : forall b, is_byte b -> html (zs "0x" ++ fmt_02x b) = zs "0x" ++ fmt_02x b).
  { intros b Hb. unfold html. rewrite flat_map_app. f_equal. exact (fmt_html b Hb). }
  rewrite !F by assumption. rewrite <- !app_assoc. reflexivity.
Qed.
Lemma md_line_ok : forall c, good_doc c -> no_nl (md_line c) /\ prefixb (zs "0x") (md_line c) = true /\ doc_line (doc_of c) (md_line c).
Proof.
  intros c (H1 & H2 & Hs & Hn & Hb). rewrite md_line_eq by assumption. split; [|split].
  - repeat apply no_nl_app; try (apply fmt_no_nl; assumption); try nl_lit; apply html_no_nl; assumption.
  - reflexivity.
  - cbn [doc_line doc_of]. exists (fmt_02x (cm_b1 c)), (fmt_02x (cm_b2 c)).
    split; [exact (fmt_byte_text _ H1)|]. split; [exact (fmt_byte_text _ H2)|]. split; [|reflexivity].
    intro X. assert (Y : Forall (fun c => c <> 124) (html (cm_string c))).
    { apply html_chars; [|lia|cbn; repeat (constructor; [lia|]); constructor]. apply Forall_forall. intros x Hx E. subst x. exact (Hb Hx). }
    rewrite Forall_forall in Y. exact (Y 124 X eq_refl).
Qed.

Lemma doc_table_ok : forall gs, Forall good_doc_group gs -> doc_table (commands_md_text gs) (docs_of gs).
Proof.
  intros gs Hg. set (p := prefixb (zs "0x")).
  exists (split_on ch_nl (commands_md_text gs)), (picks p (commands_md_text gs)).
  split; [apply consists_split; reflexivity|]. split; [apply selected_by; apply prefixb_starts|].
  rewrite md_text_eq, picks_led.
  - replace (picks p md_head) with (@nil (list Z)) by (vm_compute; reflexivity).
    replace (picks p [ch_nl]) with (@nil (list Z)) by reflexivity. cbn [app]. rewrite app_nil_r. unfold docs_of.
    induction Hg as [|g gs (_ & Hc) _ IH]; [constructor|]. cbn [flat_map]. rewrite filter_app. apply Forall2_app; [|exact IH].
    unfold md_lines. destruct (cg_convenience g); [constructor|]. cbn [filter].
    change (p []) with false. change (p (zs "## " ++ html (cg_name g))) with false.
    change (p (zs "Command 1 | Command 2 | Name | Notes")) with false. change (p (zs "----------|-----------|------|------")) with false. cbn iota.
    induction Hc as [|c cs Hc _ IHc]; [constructor|]. cbn [map filter]. destruct (md_line_ok c Hc) as (_ & E & L). unfold p at 1. rewrite E.
    constructor; [exact L|exact IHc].
  - induction Hg as [|g gs (Hn & Hc) _ IH]; [constructor|]. cbn [flat_map]. apply Forall_app. split; [|exact IH].
    unfold md_lines. destruct (cg_convenience g); [constructor|].
    constructor; [constructor|]. constructor; [apply no_nl_app; [nl_lit|apply html_no_nl; exact Hn]|]. constructor; [nl_lit|]. constructor; [nl_lit|].
    apply Forall_map. eapply Forall_impl; [|exact Hc]. cbn beta. intros c Hcc. exact (proj1 (md_line_ok c Hcc)).
Qed.

(** ** The program *)

Definition gone_well (o : os_file) : Prop := of_create o = None /\ of_written o = None.

Lemma put_same : forall fs n t, put fs n t n = Some t.
Proof.
  intros fs n t. unfold put. replace (bytes_eqb n n) with true; [reflexivity|]. symmetry. induction n as [|c n IH]; [reflexivity|].
  cbn [bytes_eqb]. rewrite Z.eqb_refl. exact IH.
Qed.
Lemma put_other : forall fs n t m, m <> n -> put fs n t m = fs m.
Proof.
  intros fs n t m H. unfold put. destruct (bytes_eqb m n) eqn:E; [|reflexivity]. exfalso. apply H. clear H. revert n E.
  induction m as [|c m IH]; intros [|d n] E; try discriminate E; [reflexivity|]. cbn [bytes_eqb] in E. apply andb_true_iff in E.
  destruct E as [E1 E2]. apply Z.eqb_eq in E1. subst d. f_equal. exact (IH n E2).
Qed.

Lemma run_devcats : forall fmts os year csv fs,
  autogen fmts os year csv [zs "devcats"] fs =
  match devcats_data csv with
  | Panic => (Panic, fs)
  | NoFuel => (NoFuel, fs)
  | Ret (inr e) => (Ret (Some e), fs)
  | Ret (inl cs) =>
      match of_create (os (zs "devcats.go")) with
      | Some e => (Ret (Some e), fs)
      | None =>
          match fmts (devcats_go year cs) with
          | None => (Ret (Some err_format), put fs (zs "devcats.go") (taken (os (zs "devcats.go")) (devcats_go year cs)))
          | Some b => (Ret None, put fs (zs "devcats.go") (taken (os (zs "devcats.go")) b))
          end
      end
  end.
Proof.
  intros fmts os year csv fs. unfold autogen, autogen_commands. cbn [find fst snd].
  change (bytes_eqb (zs "devcats") (zs "devcats")) with true. cbn iota. cbn [snd generate tm_text tm_output].
  destruct (devcats_data csv) as [[cs|e]| |]; cbn [bindo]; try reflexivity.
Qed.

Lemma run_commands : forall fmts os year csv fs,
  autogen fmts os year csv [zs "commands"] fs =
  generate fmts os [ mkTmpl (zs "commands/commands.go") (Ret (inl (commands_go year command_groups)));
                     mkTmpl (zs "COMMANDS.md") (Ret (inl (commands_md_text command_groups))) ] fs.
Proof. intros. unfold autogen, autogen_commands. cbn [find fst snd]. reflexivity. Qed.

(** ** A text says one table only *)

Lemma selected_fun : forall {A} (P : A -> Prop) l a b, selected P l a -> selected P l b -> a = b.
Proof.
  intros A P l a b H. revert b. induction H as [|x l s Hx _ IH|x l s Hx _ IH]; intros b Hb; inversion Hb; subst; try contradiction; try reflexivity.
  - f_equal. apply IH. assumption.
  - apply IH. assumption.
Qed.
Lemma byte_text_fun : forall a b t, byte_text a t -> byte_text b t -> a = b.
Proof.
  intros a b t (x & y & -> & X & Y) (x' & y' & E & X' & Y'). injection E as <- <-. unfold low_digit in *. lia.
Qed.
Lemma byte_text_len : forall a t, byte_text a t -> List.length t = 2%nat.
Proof. intros a t (x & y & -> & _). reflexivity. Qed.
Lemma app_cut : forall {A} (a b c d : list A), List.length a = List.length c -> a ++ b = c ++ d -> a = c /\ b = d.
Proof.
  induction a as [|x a IH]; intros b [|y c] d L E; try discriminate L; [split; [reflexivity|exact E]|].
  injection E as -> E. injection L as L. destruct (IH _ _ _ L E) as [-> ->]. split; reflexivity.
Qed.
Lemma entry_line_fun : forall a b l, entry_line a l -> entry_line b l -> a = b.
Proof.
  intros [[d c] n] [[d' c'] n'] l (td & tc & Hd & Hc & _ & ->) (td' & tc' & Hd' & Hc' & _ & E). unfold e_domain, e_category, e_name in *. cbn [fst snd] in *.
  pose proof (byte_text_len _ _ Hd). pose proof (byte_text_len _ _ Hd'). pose proof (byte_text_len _ _ Hc). pose proof (byte_text_len _ _ Hc').
  apply app_inv_head in E. apply app_cut in E; [|congruence]. destruct E as [<- E].
  apply app_inv_head in E. apply app_cut in E; [|congruence]. destruct E as [<- E].
  apply app_inv_head in E. apply app_inv_tail in E. subst n'.
  rewrite (byte_text_fun _ _ _ Hd Hd'), (byte_text_fun _ _ _ Hc Hc'). reflexivity.
Qed.
Lemma forall2_fun : forall {A B} (R : A -> B -> Prop) l a b, (forall x y z, R x z -> R y z -> x = y) -> Forall2 R a l -> Forall2 R b l -> a = b.
Proof.
  intros A B R l a b H Ha. revert b. induction Ha as [|x z a l Hx _ IH]; intros b Hb; inversion Hb; subst; [reflexivity|].
  f_equal; [exact (H _ _ _ Hx ltac:(eassumption))|apply IH; assumption].
Qed.
Lemma devcat_table_fun : forall t a b, devcat_table t a -> devcat_table t b -> a = b.
Proof.
  intros t a b (ls & sel & L & S & F) (ls' & sel' & L' & S' & F'). apply consists_split in L, L'. rewrite L in L'. subst ls'.
  rewrite (selected_fun _ _ _ _ S' S) in F'. exact (forall2_fun _ _ _ _ entry_line_fun F F').
Qed.
