(** The tables that the program in /repo/internal writes. *)
From Coq Require Import ZArith List Bool String Permutation Sorting.Sorted Lia ZifyBool ZifyNat.
From Verif Require Import GoBase GoText LinkText LinkProofs AddressSpec EditLineSpec AnonymizeSpec Display Autogen AutogenData AutogenSpec AutogenProofs.
Import ListNotations.
Open Scope Z_scope.
Ltac Zify.zify_post_hook ::= Z.div_mod_to_equations.

(** The same entry, its name as HTML writes it. *)
Definition same_escaped (e e' : entry) : Prop :=
  e_domain e' = e_domain e /\ e_category e' = e_category e /\ escaped (e_name e) (e_name e').
(** An entry whose line can be read: a category of one byte, a name without backslash, newline and byte order mark. *)
Definition readable (e : entry) : Prop := is_byte (e_category e) /\ Forall (fun c => c <> 92 /\ c <> 10 /\ c <> 0xfeff) (e_name e).

Lemma known_byte : forall d, known d -> is_byte d.
Proof. intros d H. unfold known, is_byte in *. lia. Qed.
Lemma no_10 : forall l : list Z, ~ In 10 l -> no_nl l.
Proof. intros l H. apply Forall_forall. intros c Hc E. apply H. unfold ch_nl in E. subst c. exact Hc. Qed.
Lemma readable_good : forall es, Forall (fun e => known (e_domain e)) es -> Forall readable es -> Forall good_entry es.
Proof.
  intros es Hk Hr. rewrite Forall_forall in *. intros e He. destruct (Hr e He) as [Hc Hw]. split; [exact (known_byte _ (Hk e He))|split; assumption].
Qed.
Lemma html_same : forall es, Forall2 same_escaped es (map html_entry es).
Proof. induction es as [|e es IH]; [constructor|]. cbn [map]. constructor; [|exact IH]. repeat split. apply html_escaped. Qed.
Lemma perm_forall : forall {A} (P : A -> Prop) l m, Permutation l m -> Forall P l -> Forall P m.
Proof. intros A P l m H HF. rewrite Forall_forall in *. intros x Hx. apply HF. apply (Permutation_in x (Permutation_sym H) Hx). Qed.

(** ** The device categories *)

(** For every file of rows "domain, category, anything, name": the text handed to the formatter holds exactly the entries of the rows,
    domain after domain, the names as HTML writes them; the formatted text is what devcats.go then holds, and no other file changes. *)
Theorem C81_devcats : forall n rows es csv year,
  table_text rows csv -> Forall (fun r => List.length r = n) rows -> Forall2 row_says rows es ->
  Forall (fun e => known (e_domain e)) es -> Forall readable es -> ~ In 10 year ->
  exists text out out', by_domain es out /\ Forall2 same_escaped out out' /\ devcat_table text out' /\
    forall fmts os b fs, fmts text = Some b -> gone_well (os (zs "devcats.go")) ->
      exists fs', autogen fmts os year (Some csv) [zs "devcats"] fs = (Ret None, fs') /\
        fs' (zs "devcats.go") = Some b /\ forall m, m <> zs "devcats.go" -> fs' m = fs m.
Proof.
  intros n rows es csv year Ht Hn Hr Hk Hw Hy.
  exists (devcats_go year (map cat_of (sorted_out es))), (sorted_out es), (map html_entry (sorted_out es)).
  pose proof (sorted_out_spec es Hk) as HB. pose proof (proj1 HB) as HP.
  split; [exact HB|]. split; [apply html_same|]. split.
  - apply devcats_go_table; [exact (no_10 _ Hy)|]. exact (perm_forall _ _ _ HP (readable_good es Hk Hw)).
  - intros fmts os b fs Hf [Ho1 Ho2]. rewrite run_devcats, (data_rows n rows es csv Ht Hn Hr Hk), Ho1, Hf.
    unfold taken. rewrite Ho2. eexists. split; [reflexivity|]. split; [apply put_same|]. intros m Hm. exact (put_other _ _ _ _ Hm).
Qed.

(** The order above leaves no choice. *)
Theorem C81_order_unique : forall es a b, by_domain es a -> by_domain es b -> a = b.
Proof. exact by_domain_unique. Qed.

(** With names that HTML leaves alone the table holds the names as they are, one entry for each row. *)
Theorem C81_names_kept : forall n rows es csv year,
  table_text rows csv -> Forall (fun r => List.length r = n) rows -> Forall2 row_says rows es ->
  Forall (fun e => known (e_domain e)) es -> Forall readable es -> ~ In 10 year -> Forall (fun e => unescaped (e_name e)) es ->
  exists text out, Permutation es out /\ devcat_table text out /\
    forall fmts os b fs, fmts text = Some b -> gone_well (os (zs "devcats.go")) ->
      exists fs', autogen fmts os year (Some csv) [zs "devcats"] fs = (Ret None, fs') /\ fs' (zs "devcats.go") = Some b.
Proof.
  intros n rows es csv year Ht Hn Hr Hk Hw Hy Hu.
  destruct (C81_devcats n rows es csv year Ht Hn Hr Hk Hw Hy) as (text & out & out' & (HP & _) & HS & HT & HR).
  exists text, out. split; [exact HP|]. replace out with out'.
  - split; [exact HT|]. intros fmts os b fs Hf Ho. destruct (HR fmts os b fs Hf Ho) as (fs' & E & F & _). exists fs'. split; assumption.
  - assert (HU : Forall (fun e => unescaped (e_name e)) out) by exact (perm_forall _ _ _ HP Hu). clear - HS HU.
    induction HS as [|[[d c] m] [[d' c'] m'] es es' (E1 & E2 & E3) _ IH]; [reflexivity|]. inversion HU as [|? ? U1 U2]; subst.
    rewrite (IH U2). unfold e_domain, e_category, e_name in *. cbn [fst snd] in *. subst. f_equal. f_equal.
    rewrite (escaped_fun _ _ _ E3 (html_escaped m)). apply html_unescaped. exact U1.
Qed.

(** A file with a name in quotes, a doubled quote, both kinds of line end, an empty line and a byte order mark. *)
Definition ex_csv : list Z :=
  [0xfeff] ++ zs "0x10,0x01,2842,""Sensor, """"II"""" """ ++ [13; 10; 10] ++ zs "0x01,0x2A,,Dimmer" ++ [0xa0; 10] ++ zs "0x10,0xff,x, Leak".
Definition ex_rows : list (list (list Z)) :=
  [ [0xfeff :: zs "0x10"; zs "0x01"; zs "2842"; zs "Sensor, ""II"" "]; [zs "0x01"; zs "0x2A"; []; zs "Dimmer" ++ [0xa0]];
    [zs "0x10"; zs "0xff"; zs "x"; zs " Leak"] ].
Definition ex_entries : list entry := [(0x10, 0x01, zs "Sensor, ""II"""); (0x01, 0x2a, zs "Dimmer"); (0x10, 0xff, zs "Leak")].

Lemma plain_field : forall f, forallb (fun c => negb ((c =? 34) || (c =? 44) || (c =? 10) || (c =? 13))) f = true -> field_text f f.
Proof. intros f H. apply ft_plain. apply Forall_forall. intros c Hc. rewrite forallb_forall in H. specialize (H c Hc). lia. Qed.
Lemma hex_text_number : forall s d1 d2 c1 c2, s = zs "0x" ++ [c1; c2] -> hexd c1 d1 -> hexd c2 d2 -> number s (16 * d1 + d2).
Proof.
  intros s d1 d2 c1 c2 -> H1 H2. exists [c1; c2]. split; [reflexivity|]. split; [discriminate|]. split.
  - change [c1; c2] with ([c1] ++ [c2]). apply hv_digit; [|exact H2]. change [c1] with ([] ++ [c1]). replace d1 with (16 * 0 + d1) by lia.
    apply hv_digit; [constructor|exact H1].
  - unfold hexd in *. change (2 ^ 63) with 0x8000000000000000. lia.
Qed.

Example ex_csv_table : table_text ex_rows ex_csv.
Proof.
  unfold ex_csv, ex_rows. rewrite !app_assoc. rewrite <- (app_assoc _ [13; 10; 10]). rewrite <- app_assoc.
  change ([13; 10; 10] ++ zs "0x01,0x2A,,Dimmer") with ([13; 10] ++ [10] ++ zs "0x01,0x2A,,Dimmer").
  rewrite <- !app_assoc. rewrite (app_assoc [0xfeff]). 
  apply tt_row; [|discriminate|right; reflexivity|apply (tt_blank [10]); [left; reflexivity|]].
  - change ([0xfeff] ++ zs "0x10,0x01,2842,""Sensor, """"II"""" """) with
      ((0xfeff :: zs "0x10") ++ 44 :: zs "0x01" ++ 44 :: zs "2842" ++ 44 :: (34 :: flat_map (fun c => if c =? 34 then [34; 34] else [c]) (zs "Sensor, ""II"" ") ++ [34])).
    apply rt_more; [apply plain_field; reflexivity|]. apply rt_more; [apply plain_field; reflexivity|].
    apply rt_more; [apply plain_field; reflexivity|]. apply rt_one. apply ft_quoted. cbn. repeat (constructor; [lia|]). constructor.
  - rewrite (app_assoc (zs "0x01,0x2A,,Dimmer") [0xa0; 10]). change (zs "0x01,0x2A,,Dimmer" ++ [0xa0; 10]) with ((zs "0x01,0x2A,,Dimmer" ++ [0xa0]) ++ [10]).
    rewrite <- (app_assoc _ [10]). apply tt_row; [|discriminate|left; reflexivity|apply tt_last; [|discriminate]].
    + change (zs "0x01,0x2A,,Dimmer" ++ [0xa0]) with (zs "0x01" ++ 44 :: zs "0x2A" ++ 44 :: [] ++ 44 :: (zs "Dimmer" ++ [0xa0])).
      apply rt_more; [apply plain_field; reflexivity|]. apply rt_more; [apply plain_field; reflexivity|].
      apply rt_more; [apply plain_field; reflexivity|]. apply rt_one. apply plain_field. reflexivity.
    + change (zs "0x10,0xff,x, Leak") with (zs "0x10" ++ 44 :: zs "0xff" ++ 44 :: zs "x" ++ 44 :: zs " Leak").
      apply rt_more; [apply plain_field; reflexivity|]. apply rt_more; [apply plain_field; reflexivity|].
      apply rt_more; [apply plain_field; reflexivity|]. apply rt_one. apply plain_field. reflexivity.
Qed.
Ltac not_ends := let t := fresh in let H := fresh in intros ? t H; 
  first [ injection H as <- _; unfold white, blank; cbn; lia
        | apply (f_equal (@rev Z)) in H; rewrite rev_app_distr in H; cbn in H; injection H as <- _; unfold white, blank; lia ].
Example ex_csv_says : Forall2 row_says ex_rows ex_entries.
Proof.
  unfold ex_rows, ex_entries. repeat constructor.
  - eexists _, _, _, _, _. split; [reflexivity|]. cbn [e_domain e_category e_name fst snd]. split; [|split].
    + apply (hex_text_number _ 1 0 49 48); [reflexivity|left; lia|left; lia].
    + apply (hex_text_number _ 0 1 48 49); [reflexivity|left; lia|left; lia].
    + exists [], [32]. split; [reflexivity|]. split; [constructor|]. split; [repeat constructor; unfold white, blank; lia|].
      split; not_ends.
  - eexists _, _, _, _, _. split; [reflexivity|]. cbn [e_domain e_category e_name fst snd]. split; [|split].
    + apply (hex_text_number _ 0 1 48 49); [reflexivity|left; lia|left; lia].
    + apply (hex_text_number _ 2 10 50 65); [reflexivity|left; lia|right; lia].
    + exists [], [0xa0]. split; [reflexivity|]. split; [constructor|]. split; [repeat constructor; unfold white, blank; lia|].
      split; not_ends.
  - eexists _, _, _, _, _. split; [reflexivity|]. cbn [e_domain e_category e_name fst snd]. split; [|split].
    + apply (hex_text_number _ 1 0 49 48); [reflexivity|left; lia|left; lia].
    + apply (hex_text_number _ 15 15 102 102); [reflexivity|right; lia|right; lia].
    + exists [32], []. split; [reflexivity|]. split; [repeat constructor; unfold white, blank; lia|]. split; [constructor|].
      split; not_ends.
Qed.
Example C81_ex : exists text out out', by_domain ex_entries out /\ Forall2 same_escaped out out' /\ devcat_table text out' /\
  map e_name out' = [zs "Dimmer"; zs "Sensor, &#34;II&#34;"; zs "Leak"].
Proof.
  destruct (C81_devcats 4 ex_rows ex_entries ex_csv (zs "2026") ex_csv_table) as (text & out & out' & HB & HS & HT & _).
  - repeat constructor.
  - exact ex_csv_says.
  - repeat constructor; unfold known; cbn; lia.
  - unfold ex_entries. repeat constructor; unfold is_byte; cbn; try lia; repeat (constructor; [lia|]); constructor.
  - cbn. lia.
  - exists text, out, out'. split; [exact HB|]. split; [exact HS|]. split; [exact HT|].
    rewrite (by_domain_unique _ _ _ HB (sorted_out_spec ex_entries ltac:(repeat constructor; unfold known; cbn; lia))) in HS.
    change (sorted_out ex_entries) with [(0x01, 0x2a, zs "Dimmer"); (0x10, 0x01, zs "Sensor, ""II"""); (0x10, 0xff, zs "Leak")] in HS.
    inversion HS as [|? ? ? ? (_ & _ & E1) H1]; subst. inversion H1 as [|? ? ? ? (_ & _ & E2) H2]; subst.
    inversion H2 as [|? ? ? ? (_ & _ & E3) H3]; subst. inversion H3; subst. cbn [map].
    rewrite (escaped_fun _ _ _ E1 (html_escaped _)), (escaped_fun _ _ _ E2 (html_escaped _)), (escaped_fun _ _ _ E3 (html_escaped _)). reflexivity.
Qed.

(** A name with an ampersand is not in the table as it is in the file. *)
Theorem C81_names_refuted : exists rows es csv,
  table_text rows csv /\ Forall2 row_says rows es /\ Forall (fun e => known (e_domain e)) es /\ Forall readable es /\
  forall year cs, ~ In 10 year -> devcats_data (Some csv) = Ret (inl cs) -> ~ devcat_table (devcats_go year cs) es.
Proof.
  exists [[zs "0x01"; zs "0x02"; []; zs "A&B"]], [(1, 2, zs "A&B")], (zs "0x01,0x02,,A&B"). split; [|split; [|split; [|split]]].
  - apply tt_last; [|discriminate]. change (zs "0x01,0x02,,A&B") with (zs "0x01" ++ 44 :: zs "0x02" ++ 44 :: [] ++ 44 :: zs "A&B").
    repeat (apply rt_more; [apply plain_field; reflexivity|]). apply rt_one. apply plain_field. reflexivity.
  - repeat constructor. eexists _, _, _, _, _. split; [reflexivity|]. cbn [e_domain e_category e_name fst snd]. split; [|split].
    + apply (hex_text_number _ 0 1 48 49); [reflexivity|left; lia|left; lia].
    + apply (hex_text_number _ 0 2 48 50); [reflexivity|left; lia|left; lia].
    + exists [], []. split; [reflexivity|]. split; [constructor|]. split; [constructor|]. split; not_ends.
  - repeat constructor; unfold known; cbn; lia.
  - repeat constructor; unfold is_byte; cbn; try lia; repeat (constructor; [lia|]); constructor.
  - intros year cs Hy E HT. vm_compute in E. injection E as <-.
    assert (HG : devcat_table (devcats_go year (map cat_of [(1, 2, zs "A&B")])) (map html_entry [(1, 2, zs "A&B")])).
    { apply devcats_go_table; [exact (no_10 _ Hy)|].
      repeat constructor; unfold is_byte; cbn; try lia; repeat (constructor; [lia|]); constructor. }
    pose proof (devcat_table_fun _ _ _ HT HG) as X. vm_compute in X. discriminate X.
Qed.

(** A text holds one table only, so the theorems above say all there is to say about it. *)
Theorem C81_table_unique : forall text a b, devcat_table text a -> devcat_table text b -> a = b.
Proof. exact devcat_table_fun. Qed.

(** And a file says one list of rows only. *)
Theorem C81_rows_unique : forall csv a b, table_text a csv -> table_text b csv -> a = b.
Proof. intros csv a b Ha Hb. apply csv_table in Ha, Hb. rewrite Ha in Hb. injection Hb as ->. reflexivity. Qed.

(** The second row of the file above alone: its name is kept. *)
Example C81_names_kept_case : exists text out, Permutation [(0x01, 0x2a, zs "Dimmer")] out /\ devcat_table text out.
Proof.
  destruct (C81_names_kept 4 [[zs "0x01"; zs "0x2A"; []; zs "Dimmer" ++ [0xa0]]] [(0x01, 0x2a, zs "Dimmer")] (zs "0x01,0x2A,,Dimmer" ++ [0xa0]) (zs "2026"))
    as (text & out & HP & HT & _).
  - apply tt_last; [|discriminate].
    change (zs "0x01,0x2A,,Dimmer" ++ [0xa0]) with (zs "0x01" ++ 44 :: zs "0x2A" ++ 44 :: [] ++ 44 :: (zs "Dimmer" ++ [0xa0])).
    repeat (apply rt_more; [apply plain_field; reflexivity|]). apply rt_one. apply plain_field. reflexivity.
  - repeat constructor.
  - pose proof ex_csv_says as H. unfold ex_rows, ex_entries in H. inversion H as [|? ? ? ? _ H2]; subst. inversion H2; subst. repeat constructor. assumption.
  - repeat constructor; unfold known; cbn; lia.
  - repeat constructor; unfold is_byte; cbn; try lia; repeat (constructor; [lia|]); constructor.
  - cbn. lia.
  - repeat constructor; cbn; lia.
  - exists text, out. split; assumption.
Qed.

(** A row with something that is no number, or with a domain that there is not, stops the program before it touches a file. *)
Theorem C81_bad_row : forall n rows es r more csv,
  table_text (rows ++ r :: more) csv -> Forall (fun r => List.length r = n) (rows ++ [r]) -> Forall2 row_says rows es ->
  Forall (fun e => known (e_domain e)) es -> bad_row r ->
  exists e, forall fmts os year fs, autogen fmts os year (Some csv) [zs "devcats"] fs = (Ret (Some e), fs).
Proof.
  intros n rows es r more csv Ht Hn Hr Hk Hb. destruct (data_bad n rows es r more csv Ht Hn Hr Hk Hb) as [e E].
  exists e. intros fmts os year fs. rewrite run_devcats, E. reflexivity.
Qed.
(** So does a row with more or fewer fields than the first. *)
Theorem C81_uneven_row : forall n rows es r more csv,
  table_text (rows ++ r :: more) csv -> rows <> [] -> Forall (fun r => List.length r = n) rows -> List.length r <> n ->
  Forall2 row_says rows es -> Forall (fun e => known (e_domain e)) es ->
  exists e, forall fmts os year fs, autogen fmts os year (Some csv) [zs "devcats"] fs = (Ret (Some e), fs).
Proof.
  intros n rows es r more csv Ht Hne Hn Hl Hr Hk. destruct (data_width n rows es r more csv Ht Hne Hn Hl Hr Hk) as [e E].
  exists e. intros fmts os year fs. rewrite run_devcats, E. reflexivity.
Qed.
(** When the first row has fewer than four fields the program panics, again before it touches a file. *)
Theorem C81_short_row : forall a b c d rest more csv,
  table_text ((a :: b :: rest) :: more) csv -> (List.length rest < 2)%nat -> number (unmarked a) d -> known d -> number (unmarked b) c ->
  forall fmts os year fs, autogen fmts os year (Some csv) [zs "devcats"] fs = (Panic, fs).
Proof.
  intros a b c d rest more csv Ht Hl Ha Hd Hb fmts os year fs. rewrite run_devcats. unfold devcats_data.
  destruct (csv_read_prefix (List.length (a :: b :: rest)) [] (a :: b :: rest) more csv Ht ltac:(repeat constructor)) as (m & e & ->).
  cbn [app read_categories]. unfold read_category. change (go_index (a :: b :: rest) 0) with (Ret a). cbn [bindo].
  unfold drop_bom, ch_bom. fold (unmarked a). rewrite (number_parse _ _ Ha).
  replace (go_index (a :: b :: rest) 1) with (Ret b)
    by (unfold go_index; replace ((1 <? 0) || _)%bool with false by (unfold zlen; cbn [List.length]; lia); reflexivity).
  cbn [bindo]. fold (unmarked b). rewrite (number_parse _ _ Hb), (proj2 (known_domain _) Hd).
  destruct rest as [|x [|y rest]]; [reflexivity|reflexivity|]. cbn [List.length] in Hl. lia.
Qed.

Example C81_bad_row_case : forall fmts os year fs, exists e,
  autogen fmts os year (Some (zs "0x01,0x02,a,b
0x17,0x02,a,b
")) [zs "devcats"] fs = (Ret (Some e), fs) /\
  autogen fmts os year (Some (zs "0x01,two,a,b")) [zs "devcats"] fs = (Ret (Some err_parse), fs) /\
  autogen fmts os year (Some (zs "0x01,0x02,a,b
0x01,0x02,a")) [zs "devcats"] fs = (Ret (Some err_field_count), fs) /\
  autogen fmts os year (Some (zs "0x01,0x02,a")) [zs "devcats"] fs = (Panic, fs) /\
  autogen fmts os year (Some (zs "0x01,0x02,a,b""c")) [zs "devcats"] fs = (Ret (Some err_bare_quote), fs).
Proof. intros. eexists. rewrite !run_devcats. repeat split; vm_compute; reflexivity. Qed.
Example C81_bad_row_ex : exists r, bad_row r /\ nth_error r 0 = Some (zs "0x17").
Proof.
  exists [zs "0x17"; zs "0x02"]. split; [|reflexivity]. exists (zs "0x17"), (zs "0x02"), []. split; [reflexivity|]. right. exists 0x17. split.
  - apply (hex_text_number _ 1 7 49 55); [reflexivity|left; lia|left; lia].
  - right. exists 2. split; [apply (hex_text_number _ 0 2 48 50); [reflexivity|left; lia|left; lia]|unfold known; lia].
Qed.
Example C81_no_number_ex : no_number (zs "0x 1") /\ ~ no_number (zs "0x1").
Proof.
  split; [right; exists 32; split; [cbn; lia|unfold number_char; lia]|]. intros [H|(c & Hin & Hc)]; [discriminate H|].
  cbn in Hin. unfold number_char in Hc. lia.
Qed.

(** ** Runs that fail *)

(** A run that ends in an error has not always left the files as they were: when the text cannot be formatted devcats.go holds the
    unformatted text. *)
Theorem C81_failed_run_refuted : exists fmts os year csv fs e fs',
  (forall n, gone_well (os n)) /\ autogen fmts os year (Some csv) [zs "devcats"] fs = (Ret (Some e), fs') /\
  fs' (zs "devcats.go") <> fs (zs "devcats.go").
Proof.
  exists (fun _ => None), (fun _ => mkOsFile None None), (zs "2026"), (zs "0x01,0x02,,a\"), (fun _ => None). eexists _, _.
  split; [intros n; split; reflexivity|]. split; [rewrite run_devcats; reflexivity|]. rewrite put_same. discriminate.
Qed.
(** All that a run can leave behind: the files unchanged, or devcats.go with (the beginning of) the text before or after formatting. *)
Theorem C81_devcats_outcomes : forall fmts os year csv fs,
  let run := autogen fmts os year csv [zs "devcats"] fs in
  (snd run = fs /\ fst run <> Ret None) \/
  exists text, snd run = put fs (zs "devcats.go") text /\
    exists cs, devcats_data csv = Ret (inl cs) /\
      ((fst run = Ret None /\ exists b, fmts (devcats_go year cs) = Some b /\ text = taken (os (zs "devcats.go")) b) \/
       (fst run = Ret (Some err_format) /\ fmts (devcats_go year cs) = None /\ text = taken (os (zs "devcats.go")) (devcats_go year cs))).
Proof.
  intros fmts os year csv fs. rewrite run_devcats. cbv zeta. destruct (devcats_data csv) as [[cs|e]| |]; cbn [fst snd]; try (left; split; [reflexivity|discriminate]).
  destruct (of_create (os (zs "devcats.go"))) as [e|]; cbn [fst snd]; [left; split; [reflexivity|discriminate]|].
  right. destruct (fmts (devcats_go year cs)) as [b|] eqn:F; cbn [fst snd]; eexists; (split; [reflexivity|]); exists cs; (split; [reflexivity|]).
  - left. split; [reflexivity|]. exists b. split; [exact F|reflexivity].
  - right. split; [reflexivity|]. split; [exact F|reflexivity].
Qed.
(** A run that ends well has not always written the whole text: what Write returns is not looked at. *)
Theorem C81_whole_text_refuted : exists fmts os year csv fs fs' cs b,
  devcats_data (Some csv) = Ret (inl cs) /\ fmts (devcats_go year cs) = Some b /\
  autogen fmts os year (Some csv) [zs "devcats"] fs = (Ret None, fs') /\ fs' (zs "devcats.go") <> Some b.
Proof.
  exists Some, (fun _ => mkOsFile None (Some 10%nat)), (zs "2026"), (zs "0x01,0x02,,a"), (fun _ => None). eexists _, [mkCat 1 2 (zs "a")], _.
  split; [vm_compute; reflexivity|]. split; [reflexivity|]. split; [rewrite run_devcats; reflexivity|].
  rewrite put_same. vm_compute. discriminate.
Qed.
(** A run for the commands whose second file cannot be created has already replaced the first. *)
Theorem C81_two_files_refuted : exists os fs e fs',
  autogen Some os (zs "2026") None [zs "commands"] fs = (Ret (Some e), fs') /\ fs' (zs "commands/commands.go") <> fs (zs "commands/commands.go").
Proof.
  exists (fun n => if bytes_eqb n (zs "COMMANDS.md") then mkOsFile (Some (EIO 1)) None else mkOsFile None None), (fun _ => None). eexists _, _.
  split; [rewrite run_commands; reflexivity|]. rewrite put_same. discriminate.
Qed.

(** ** The commands *)

(** A command that can be written: its name a Go name, its comment on one line, its text without backslash, newline and byte order mark. *)
Definition cmd_readable (c : cmd) : Prop :=
  ident (cm_name c) /\ ~ In 10 (cm_comment c) /\ Forall (fun c => c <> 92 /\ c <> 10 /\ c <> 0xfeff) (cm_string c) /\ is_byte (cm_b1 c) /\ is_byte (cm_b2 c).
Definition group_readable (g : cmd_group) : Prop := is_byte (cg_b0 g) /\ ~ In 10 (cg_name g) /\ Forall cmd_readable (cg_commands g).

Lemma groups_good : forall gs, Forall group_readable gs -> Forall good_group gs.
Proof.
  intros gs H. eapply Forall_impl; [|exact H]. intros g (H0 & Hn & Hc). split; [exact H0|]. split; [exact (no_10 _ Hn)|].
  eapply Forall_impl; [|exact Hc]. intros c (A & B & C & D). split; [exact A|]. split; [exact (no_10 _ B)|]. split; [exact C|exact D].
Qed.

(** For every list of groups: commands.go defines each command with its three bytes, and the map has for each its text as HTML writes
    it, in the order of the list and nothing else. *)
Theorem C81_commands : forall year gs, ~ In 10 year -> Forall group_readable gs ->
  const_table (commands_go year gs)
    (flat_map (fun g => map (fun c => (cm_name c, cg_b0 g * 65536 + cm_b1 c * 256 + cm_b2 c)) (cg_commands g)) gs) /\
  exists names, Forall2 (fun c d => fst d = cm_name c /\ escaped (cm_string c) (snd d)) (flat_map cg_commands gs) names /\
    name_table (commands_go year gs) names.
Proof.
  intros year gs Hy Hg. apply groups_good in Hg. apply no_10 in Hy. split; [exact (const_table_ok year gs Hy Hg)|].
  exists (strs_of gs). split; [|exact (name_table_ok year gs Hy Hg)]. unfold strs_of.
  induction (flat_map cg_commands gs) as [|c cs IH]; [constructor|]. cbn [map]. constructor; [|exact IH]. split; [reflexivity|apply html_escaped].
Qed.

Definition doc_readable (c : cmd) : Prop :=
  is_byte (cm_b1 c) /\ is_byte (cm_b2 c) /\ ~ In 10 (cm_string c) /\ ~ In 10 (cm_notes c) /\ ~ In 124 (cm_string c).
(** COMMANDS.md has a line for each command of a group that is not a convenience group, and no other. *)
Theorem C81_docs : forall gs, Forall (fun g => ~ In 10 (cg_name g) /\ Forall doc_readable (cg_commands g)) gs ->
  exists lines, doc_table (commands_md_text gs) lines /\
    Forall2 (fun c d => let '(b1, b2, s, n) := d in b1 = cm_b1 c /\ b2 = cm_b2 c /\ escaped (cm_string c) s /\ escaped (cm_notes c) n)
      (flat_map cg_commands (filter (fun g => negb (cg_convenience g)) gs)) lines.
Proof.
  intros gs H. exists (docs_of gs). split.
  - apply doc_table_ok. eapply Forall_impl; [|exact H]. intros g (Hn & Hc). split; [exact (no_10 _ Hn)|].
    eapply Forall_impl; [|exact Hc]. intros c (A & B & C & D & E). repeat split; try (apply no_10; assumption); try exact E; apply A || apply B.
  - clear H. unfold docs_of. induction gs as [|g gs IH]; [constructor|]. cbn [flat_map filter]. destruct (cg_convenience g); cbn [negb]; [exact IH|].
    cbn [flat_map]. apply Forall2_app; [|exact IH]. clear. induction (cg_commands g) as [|c cs IH]; [constructor|]. cbn [map]. constructor; [|exact IH].
    cbn [doc_of]. repeat split; apply html_escaped.
Qed.

(** Two groups, one of them a convenience group. *)
Definition ex_groups : list cmd_group :=
  [ mkGroup (zs "Some") 0x01 false [mkCmd (zs "Go2") (zs "goes + on") (zs "Stop & Go") 0xab 0x0c (zs "new")];
    mkGroup (zs "Others") 0x00 true [mkCmd (zs "Off") [] (zs "Off") 0x13 0x00 []] ].
Example C81_commands_case : const_table (commands_go (zs "2026") ex_groups) [(zs "Go2", 0x01ab0c); (zs "Off", 0x001300)] /\
  name_table (commands_go (zs "2026") ex_groups) [(zs "Go2", zs "Stop &amp; Go"); (zs "Off", zs "Off")].
Proof.
  assert (HG : Forall group_readable ex_groups).
  { assert (HI : forall n, n <> [] -> forallb ident_char n = true -> ident n).
    { intros n Hn H. apply ident_chars. split; [exact Hn|]. rewrite forallb_forall in H. apply Forall_forall. exact H. }
    assert (HW : forall s, forallb (fun c => negb ((c =? 92) || (c =? 10) || (c =? 0xfeff))) s = true ->
      Forall (fun c => c <> 92 /\ c <> 10 /\ c <> 0xfeff) s).
    { intros s H. rewrite forallb_forall in H. apply Forall_forall. intros c Hc. specialize (H c Hc). lia. }
    unfold ex_groups, group_readable, cmd_readable, is_byte.
    repeat apply Forall_cons; try apply Forall_nil; cbn [cg_b0 cg_name cg_commands]; (split; [lia|]); (split; [cbn; lia|]); apply Forall_cons; try apply Forall_nil;
      cbn [cm_name cm_comment cm_string cm_b1 cm_b2];
      (split; [apply HI; [discriminate|reflexivity]|]); (split; [cbn; lia|]); (split; [apply HW; reflexivity|lia]). }
  destruct (C81_commands (zs "2026") ex_groups ltac:(cbn; lia) HG) as [HC (names & HN & HT)]. split; [exact HC|].
  replace [(zs "Go2", zs "Stop &amp; Go"); (zs "Off", zs "Off")] with names; [exact HT|].
  cbn [ex_groups flat_map cg_commands app] in HN. inversion HN as [|? d1 ? ? (A1 & A2) H1]; subst. inversion H1 as [|? d2 ? ? (B1 & B2) H2]; subst. inversion H2; subst.
  destruct d1, d2. cbn [fst snd cm_name cm_string] in *. subst.
  rewrite (escaped_fun _ _ _ A2 (html_escaped _)), (escaped_fun _ _ _ B2 (html_escaped _)). reflexivity.
Qed.
Example C81_docs_case : exists lines, doc_table (commands_md_text ex_groups) lines /\ lines = [(0xab, 0x0c, zs "Stop &amp; Go", zs "new")].
Proof.
  destruct (C81_docs ex_groups) as (lines & HT & HN).
  { unfold ex_groups. repeat constructor; unfold is_byte; cbn; lia. }
  exists lines. split; [exact HT|]. cbn [ex_groups filter cg_convenience negb flat_map cg_commands app] in HN.
  inversion HN as [|? [[[b1 b2] s] n] ? ? (A1 & A2 & A3 & A4) H1]; subst. inversion H1; subst. cbn [cm_b1 cm_b2 cm_string cm_notes] in *.
  rewrite (escaped_fun _ _ _ A3 (html_escaped _)), (escaped_fun _ _ _ A4 (html_escaped _)). reflexivity.
Qed.

(** ** The repository *)

(** The file devcats.csv of the repository gives the map of its devcats.go: 236 categories, no two the same. *)
Theorem C81_repo_devcats : forall year, ~ In 10 year ->
  exists text, (let! d := devcats_data (Some devcats_csv) in Ret (match d with inl cs => inl (devcats_go year cs) | inr e => inr e end)) = Ret (inl text) /\
    devcat_table text devcat_strings /\ List.length devcat_strings = 236%nat /\ NoDup (map fst devcat_strings).
Proof.
  intros year Hy. exists (devcats_go year (map cat_of devcat_strings)).
  assert (E : devcats_data (Some devcats_csv) = Ret (inl (map cat_of devcat_strings))) by (vm_compute; reflexivity).
  rewrite E. split; [reflexivity|]. split; [|split; [vm_compute; reflexivity|]].
  - replace devcat_strings with (map html_entry devcat_strings) at 2 by (vm_compute; reflexivity). apply devcats_go_table; [exact (no_10 _ Hy)|].
    assert (B : forallb (fun e => (0 <=? e_domain e) && (e_domain e <? 256) && (0 <=? e_category e) && (e_category e <? 256) &&
      forallb (fun c => negb ((c =? 92) || (c =? 10) || (c =? 0xfeff))) (e_name e)) devcat_strings = true) by (vm_compute; reflexivity).
    apply Forall_forall. intros e He. rewrite forallb_forall in B. specialize (B e He). rewrite !andb_true_iff in B.
    destruct B as ((((B1 & B2) & B3) & B4) & B5). unfold good_entry, is_byte. split; [lia|]. split; [lia|].
    apply Forall_forall. intros c Hc. rewrite forallb_forall in B5. specialize (B5 c Hc). lia.
  - assert (B : NoDup (map (fun e => e_domain e * 256 + e_category e) devcat_strings)).
    { assert (S : StronglySorted Z.lt (map (fun e => e_domain e * 256 + e_category e) devcat_strings)).
      { apply Sorted_StronglySorted; [intros a b c; lia|]. 
        assert (G : forall l, (fix chk (l : list Z) : bool := match l with a :: ((b :: _) as t) => (a <? b) && chk t | _ => true end) l = true -> Sorted Z.lt l).
        { clear. induction l as [|a l IH]; intros H; [constructor|]. destruct l as [|b l]; [repeat constructor|].
          apply andb_true_iff in H. destruct H as [H1 H2]. constructor; [exact (IH H2)|]. constructor. lia. }
        apply G. vm_compute. reflexivity. }
      clear - S. induction S as [|x l _ IH H]; [constructor|]. constructor; [|exact IH]. intro X. rewrite Forall_forall in H. specialize (H x X). lia. }
    apply (NoDup_map_inv (fun k => fst k * 256 + snd k)). rewrite map_map. exact B.
Qed.

(** The commands of the repository give the constants and the map of its commands.go, in particular the texts the program prints; and
    its COMMANDS.md, to the letter. *)
Theorem C81_repo_commands : forall year, ~ In 10 year ->
  const_table (commands_go year command_groups) (defs_of command_groups) /\
  name_table (commands_go year command_groups) (map (fun c => (cm_name c, cm_string c)) (flat_map cg_commands command_groups)) /\
  map snd (defs_of command_groups) = map fst cmd_strings /\
  map cm_string (flat_map cg_commands command_groups) = map snd cmd_strings /\
  commands_md_text command_groups = commands_md.
Proof.
  intros year Hy.
  assert (HG : Forall good_group command_groups).
  { assert (B : forallb (fun g => (0 <=? cg_b0 g) && (cg_b0 g <? 256) && forallb (fun c => negb (c =? 10)) (cg_name g) &&
      forallb (fun c => negb (match cm_name c with [] => true | _ => false end) && forallb ident_char (cm_name c) && forallb (fun c => negb (c =? 10)) (cm_comment c) &&
        forallb (fun c => negb ((c =? 92) || (c =? 10) || (c =? 0xfeff))) (cm_string c) && ((0 <=? cm_b1 c) && (cm_b1 c <? 256)) && ((0 <=? cm_b2 c) && (cm_b2 c <? 256)))
        (cg_commands g)) command_groups = true) by (vm_compute; reflexivity).
    apply Forall_forall. intros g Hg. rewrite forallb_forall in B. specialize (B g Hg). rewrite !andb_true_iff in B.
    destruct B as (((B1 & B2) & B3) & B4). split; [unfold is_byte; lia|]. split.
    - apply Forall_forall. intros c Hc. rewrite forallb_forall in B3. specialize (B3 c Hc). unfold ch_nl. lia.
    - apply Forall_forall. intros c Hc. rewrite forallb_forall in B4. specialize (B4 c Hc). rewrite !andb_true_iff in B4.
      destruct B4 as (((((N1 & N2) & N3) & N4) & N5 & N6) & N7 & N8). split.
      + apply ident_chars. split; [intro X; rewrite X in N1; discriminate|]. apply Forall_forall. intros x Hx. rewrite forallb_forall in N2. exact (N2 x Hx).
      + split; [apply Forall_forall; intros x Hx; rewrite forallb_forall in N3; specialize (N3 x Hx); unfold ch_nl; lia|].
        split; [apply Forall_forall; intros x Hx; rewrite forallb_forall in N4; specialize (N4 x Hx); lia|]. unfold is_byte. lia. }
  apply no_10 in Hy. split; [exact (const_table_ok year _ Hy HG)|]. split; [|split; [vm_compute; reflexivity|split; vm_compute; reflexivity]].
  replace (map (fun c => (cm_name c, cm_string c)) (flat_map cg_commands command_groups)) with (strs_of command_groups) by (vm_compute; reflexivity).
  exact (name_table_ok year _ Hy HG).
Qed.

(** COMMANDS.md says that it lists every command known to the project; it does not list those of the convenience groups. *)
Theorem C81_all_commands_refuted : exists g c, In g command_groups /\ In c (cg_commands g) /\
  forall lines, doc_table commands_md lines -> ~ In (cm_b1 c, cm_b2 c) (map (fun d => (fst (fst (fst d)), snd (fst (fst d)))) lines).
Proof.
  exists (nth 5 command_groups (mkGroup [] 0 false [])). eexists (mkCmd (zs "StartBrighten") [] (zs "Manual Start Brighten") 0x17 0x01 []).
  split; [apply nth_In; vm_compute; lia|]. split; [left; reflexivity|]. cbn [cm_b1 cm_b2].
  intros lines (ls & sel & HL & HS & HF) Hin. apply AnonymizeProofs.consists_split in HL.
  pose proof (selected_by _ (prefixb (zs "0x")) ls (prefixb_starts (zs "0x"))) as HS'.
  rewrite (selected_fun _ _ _ _ HS HS'), <- HL in HF. clear HS HS' HL ls sel.
  apply in_map_iff in Hin. destruct Hin as ([[[b1 b2] s] n] & E & Hin). cbn [fst snd] in E. injection E as -> ->.
  assert (K : exists l, In l (filter (prefixb (zs "0x")) (split_on ch_nl commands_md)) /\ doc_line (0x17, 0x01, s, n) l).
  { clear - HF Hin. induction HF as [|d l ds sel Hd _ IH]; [destruct Hin|]. destruct Hin as [->|Hin].
    - exists l. split; [left; reflexivity|exact Hd].
    - destruct (IH Hin) as (l' & Hl & Hd'). exists l'. split; [right; exact Hl|exact Hd']. }
  destruct K as (l & Hl & t1 & t2 & (x & y & -> & X & Y) & (u & v & -> & U & V) & _ & ->).
  cbn in X, Y, U, V. unfold low_digit in *. assert (x = 49 /\ y = 55 /\ u = 48 /\ v = 49) as (-> & -> & -> & ->) by lia.
  assert (B : forallb (fun l => negb (prefixb (zs "0x17|0x01|") l)) (filter (prefixb (zs "0x")) (split_on ch_nl commands_md)) = true) by (vm_compute; reflexivity).
  rewrite forallb_forall in B. specialize (B _ Hl). cbn in B. discriminate B.
Qed.

(** A run for the commands that goes well replaces both files, and no other. *)
Theorem C81_run_commands : forall fmts os year csv fs b,
  gone_well (os (zs "commands/commands.go")) -> gone_well (os (zs "COMMANDS.md")) -> fmts (commands_go year command_groups) = Some b ->
  exists fs', autogen fmts os year csv [zs "commands"] fs = (Ret None, fs') /\ fs' (zs "commands/commands.go") = Some b /\
    fs' (zs "COMMANDS.md") = Some commands_md /\ forall n, n <> zs "commands/commands.go" -> n <> zs "COMMANDS.md" -> fs' n = fs n.
Proof.
  intros fmts os year csv fs b [A1 A2] [B1 B2] Hf. rewrite run_commands. cbn [generate tm_text tm_output].
  rewrite A1. change (is_go (zs "commands/commands.go")) with true. cbn iota. rewrite Hf, B1. change (is_go (zs "COMMANDS.md")) with false. cbn iota.
  replace (commands_md_text command_groups) with commands_md by (vm_compute; reflexivity). unfold taken. rewrite A2, B2.
  eexists. split; [reflexivity|]. split; [rewrite put_other by discriminate; apply put_same|]. split; [apply put_same|].
  intros n N1 N2. rewrite !put_other by assumption. reflexivity.
Qed.
Print Assumptions C81_devcats.
Print Assumptions C81_order_unique.
Print Assumptions C81_names_kept.
Print Assumptions C81_names_refuted.
Print Assumptions C81_table_unique.
Print Assumptions C81_rows_unique.
Print Assumptions C81_bad_row.
Print Assumptions C81_uneven_row.
Print Assumptions C81_short_row.
Print Assumptions C81_failed_run_refuted.
Print Assumptions C81_devcats_outcomes.
Print Assumptions C81_whole_text_refuted.
Print Assumptions C81_two_files_refuted.
Print Assumptions C81_commands.
Print Assumptions C81_docs.
Print Assumptions C81_repo_devcats.
Print Assumptions C81_repo_commands.
Print Assumptions C81_all_commands_refuted.
Print Assumptions C81_run_commands.
