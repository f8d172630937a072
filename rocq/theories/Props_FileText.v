(** C40: the text of the device file. *)
From Coq Require Import ZArith List Bool String Lia ZifyBool ZifyNat Permutation Sorting.Sorted.
From Verif Require Import GoBase GoLemmas GoText GoJson JsonProofs GoProg Display Address AddressSpec AddressProofs MsgWriter BasicDevice Database DatabaseSpec DatabaseProofs
  LinkText DisplaySpec SnoopTextSpec Props_SnoopText SharedDbProofs.
Import ListNotations.
Open Scope string_scope.
Open Scope list_scope.
Open Scope Z_scope.
Ltac Zify.zify_post_hook ::= Z.div_mod_to_equations.

(** A number in decimal, with a minus sign if it is negative. *)
Definition signed (t : list Z) (n : Z) : Prop := 0 <= n /\ decimal t n \/ n < 0 /\ exists u, t = zs "-" ++ u /\ decimal u (- n).
(** One member of the file: the key and what is known of the device. *)
Definition member_text (t : list Z) (kv : Z * dinfo) : Prop :=
  exists k a x y f e,
    t = zs """" ++ k ++ zs """:{""address"":""" ++ a ++ zs """,""devCat"":""" ++ x ++ zs "." ++ y ++ zs """,""firmwareVersion"":" ++ f ++
        zs ",""engineVersion"":" ++ e ++ zs "}" /\
    dotted k (fst kv) /\ dotted a (di_addr (snd kv)) /\ hex2 x (di_dc0 (snd kv)) /\ hex2 y (di_dc1 (snd kv)) /\
    signed f (di_fw (snd kv)) /\ signed e (di_engine (snd kv)).
(** Members with commas between them. *)
Inductive members_text : list Z -> list (Z * dinfo) -> Prop :=
| Mt0 : members_text [] []
| Mt1 : forall t kv, member_text t kv -> members_text t [kv]
| Mt2 : forall t kv u kw l, member_text t kv -> members_text u (kw :: l) -> members_text (t ++ zs "," ++ u) (kv :: kw :: l).

(* ------------------------------------------------------------------ numbers *)
Lemma digits_app : forall t n u m k, digits 10 t n -> digits 10 u m -> List.length u = k -> digits 10 (t ++ u) (n * 10 ^ Z.of_nat k + m).
Proof.
  intros t n u m k Ht Hu. revert k. induction Hu as [|u m d Hu IH Hd]; intros k Hk.
  - cbn in Hk. subst k. rewrite app_nil_r. replace (n * 10 ^ Z.of_nat 0 + 0) with n by (cbn; lia). exact Ht.
  - rewrite app_length in Hk. cbn [List.length] in Hk. rewrite app_assoc. specialize (IH (List.length u) eq_refl).
    replace (n * 10 ^ Z.of_nat k + (10 * m + d)) with (10 * (n * 10 ^ Z.of_nat (List.length u) + m) + d); [apply Dg1; assumption|].
    replace (Z.of_nat k) with (Z.succ (Z.of_nat (List.length u))) by lia. rewrite Z.pow_succ_r by lia. ring.
Qed.
Lemma digit1 : forall d, 0 <= d < 10 -> digits 10 [48 + d] d.
Proof.
  intros d H. rewrite <- dec_char_digit by exact H. replace d with (10 * 0 + d) at 2 by lia. apply (Dg1 10 [] 0 d); [constructor|exact H].
Qed.
Lemma dec_go_decimal : forall fuel n acc m, 0 <= n < 10 ^ Z.of_nat (S fuel) -> digits 10 acc m ->
  exists u, dec_go (S fuel) n acc = u ++ acc /\ digits 10 u n /\ u <> [] /\ (nth 0 u 0 = 48 -> List.length u = 1%nat /\ n = 0).
Proof.
  induction fuel as [|fuel IH]; intros n acc m Hn Ha.
  - change (10 ^ Z.of_nat 1) with 10 in Hn. cbn [dec_go]. replace (n <? 10) with true by lia.
    exists [48 + n]. split; [reflexivity|]. split; [apply digit1; lia|]. split; [discriminate|]. cbn [nth List.length]. intros H. split; [reflexivity|lia].
  - change (dec_go (S (S fuel)) n acc) with (if n <? 10 then (48 + n) :: acc else dec_go (S fuel) (n / 10) ((48 + n mod 10) :: acc)).
    destruct (n <? 10) eqn:E.
    + exists [48 + n]. split; [reflexivity|]. split; [apply digit1; lia|]. split; [discriminate|]. cbn [nth List.length]. intros H. split; [reflexivity|lia].
    + assert (Hq : 0 <= n / 10 < 10 ^ Z.of_nat (S fuel)).
      { replace (Z.of_nat (S (S fuel))) with (Z.succ (Z.of_nat (S fuel))) in Hn by lia. rewrite Z.pow_succ_r in Hn by lia.
        remember (10 ^ Z.of_nat (S fuel)) as X. clear HeqX IH. lia. }
      assert (Ha' : digits 10 ((48 + n mod 10) :: acc) (n mod 10 * 10 ^ Z.of_nat (List.length acc) + m)).
      { apply (digits_app [48 + n mod 10] _ acc); [apply digit1; lia|exact Ha|reflexivity]. }
      destruct (IH (n / 10) _ _ Hq Ha') as (u & E1 & D & N & Z0). exists (u ++ [48 + n mod 10]). rewrite E1, <- app_assoc. split; [reflexivity|].
      split; [|split; [destruct u; discriminate|]].
      * replace n with (10 * (n / 10) + n mod 10) at 2 by lia. rewrite <- dec_char_digit by lia. apply Dg1; [exact D|lia].
      * intros H. rewrite app_nth1 in H by (destruct u; [contradiction|cbn; lia]). destruct (Z0 H) as [_ Hz]. exfalso. lia.
Qed.
Lemma fmt_nat_decimal : forall n, 0 <= n -> decimal (fmt_nat n) n.
Proof.
  intros n H. unfold fmt_nat. destruct (dec_go_decimal (Z.to_nat (Z.log2 n)) n [] 0 (fmt_nat_fuel n H) (Dg0 10)) as (u & E & D & N & Z0).
  rewrite E, app_nil_r. split; [exact D|]. split; [exact N|]. intros Hz. apply Z0. exact Hz.
Qed.
Lemma fmt_int_signed : forall n, signed (fmt_int n) n.
Proof.
  intros n. unfold fmt_int. destruct (n <? 0) eqn:E.
  - right. split; [lia|]. exists (fmt_nat (- n)). split; [reflexivity|]. apply fmt_nat_decimal. lia.
  - left. split; [lia|]. apply fmt_nat_decimal. lia.
Qed.

(* ------------------------------------------------------------------ the order of the keys *)
Lemma hex_char_lt : forall x y, 0 <= x < 16 -> 0 <= y < 16 -> (hex_char x <? hex_char y) = (x <? y).
Proof. intros x y Hx Hy. unfold hex_char. destruct (x <? 10) eqn:E, (y <? 10) eqn:F; lia. Qed.
Lemma text_ltb_hex : forall b c s t, is_byte b -> is_byte c ->
  text_ltb (fmt_02x b ++ s) (fmt_02x c ++ t) = if b <? c then true else if c <? b then false else text_ltb s t.
Proof.
  intros b c s t Hb Hc. unfold is_byte in *. unfold fmt_02x. cbn [app text_ltb]. rewrite !hex_char_lt by lia.
  destruct (b / 16 <? c / 16) eqn:E1; [replace (b <? c) with true by lia; reflexivity|].
  destruct (c / 16 <? b / 16) eqn:E2; [replace (b <? c) with false by lia; replace (c <? b) with true by lia; reflexivity|].
  destruct (b mod 16 <? c mod 16) eqn:E3; [replace (b <? c) with true by lia; reflexivity|].
  destruct (c mod 16 <? b mod 16) eqn:E4; [replace (b <? c) with false by lia; replace (c <? b) with true by lia; reflexivity|].
  replace (b <? c) with false by lia. replace (c <? b) with false by lia. reflexivity.
Qed.
Lemma text_ltb_dot : forall s t, text_ltb ([ch_dot] ++ s) ([ch_dot] ++ t) = text_ltb s t.
Proof. reflexivity. Qed.
Lemma text_ltb_addr : forall a b, 0 <= a < 2 ^ 24 -> 0 <= b < 2 ^ 24 -> text_ltb (addr_string a) (addr_string b) = (a <? b).
Proof.
  intros a b Ha Hb. change (2 ^ 24) with 16777216 in *. unfold addr_string.
  rewrite text_ltb_hex by apply byte_of_range. rewrite text_ltb_dot. rewrite text_ltb_hex by apply byte_of_range. rewrite text_ltb_dot.
  rewrite <- (app_nil_r (fmt_02x (byte_of a))), <- (app_nil_r (fmt_02x (byte_of b))). rewrite text_ltb_hex by apply byte_of_range. cbn [text_ltb].
  unfold byte_of. repeat match goal with |- context [if ?x <? ?y then _ else _] => destruct (x <? y) eqn:? end; lia.
Qed.

Definition by_address (l : list (Z * dinfo)) : Prop := StronglySorted (fun x y => fst x < fst y) l.
Definition keyed (kv : Z * dinfo) : list Z * dinfo := (addr_string (fst kv), snd kv).
Lemma insert_sorted_by : forall kv l, 0 <= fst kv < 2 ^ 24 -> Forall (fun x => 0 <= fst x < 2 ^ 24) l -> ~ In (fst kv) (map fst l) -> by_address l ->
  exists l1, insert_sorted (keyed kv) (map keyed l) = map keyed l1 /\ Permutation (kv :: l) l1 /\ by_address l1.
Proof.
  intros kv l Hk Hl. induction l as [|h t IH]; intros Hn Hs; cbn [map insert_sorted].
  - exists [kv]. split; [reflexivity|]. split; [apply Permutation_refl|]. repeat constructor.
  - inversion Hl as [|? ? H1 H2]; subst. inversion Hs as [|? ? S1 S2]; subst. unfold keyed at 1 2. cbn [fst]. rewrite text_ltb_addr by assumption.
    destruct (fst h <? fst kv) eqn:E.
    + destruct IH as (l1 & E1 & P & S); [exact H2|intros I; apply Hn; right; exact I|exact S1|]. exists (h :: l1). cbn [map]. rewrite E1. split; [reflexivity|].
      split; [rewrite perm_swap; constructor; exact P|]. constructor; [exact S|]. apply (Permutation_Forall P). constructor; [lia|exact S2].
    + exists (kv :: h :: t). split; [reflexivity|]. split; [apply Permutation_refl|]. constructor; [exact Hs|].
      assert (L : fst kv < fst h) by (assert (fst kv <> fst h) by (intros C; apply Hn; left; auto); lia).
      constructor; [exact L|]. eapply Forall_impl; [|exact S2]. intros x Hx. cbn in *. lia.
Qed.
Lemma sorted_members_by : forall m, NoDup (map fst m) -> Forall (fun x => 0 <= fst x < 2 ^ 24) m ->
  exists m1, sorted_members m = map keyed m1 /\ Permutation m m1 /\ by_address m1.
Proof.
  induction m as [|kv m IH]; intros N F; [exists []; split; [reflexivity|]; split; constructor|].
  inversion N as [|? ? N1 N2]; subst. inversion F as [|? ? F1 F2]; subst. destruct (IH N2 F2) as (m1 & E & P & S).
  unfold sorted_members in *. cbn [map fold_right]. rewrite E. fold (keyed kv).
  destruct (insert_sorted_by kv m1) as (m2 & E2 & P2 & S2); [exact F1|apply (Permutation_Forall P); exact F2| |exact S|].
  - intros I. apply N1. apply (Permutation_in _ (Permutation_sym (Permutation_map fst P))). exact I.
  - exists m2. split; [exact E2|]. split; [rewrite <- P2; constructor; exact P|exact S2].
Qed.

(* ------------------------------------------------------------------ the text *)
Lemma plain_string : forall t, Forall (fun c => 33 <= c < 127 /\ c <> 34 /\ c <> 92 /\ c <> 60 /\ c <> 62 /\ c <> 38) t ->
  jprint_string t = zs """" ++ t ++ zs """".
Proof.
  intros t H. unfold jprint_string. change [ch_quote] with (zs """"). do 2 f_equal. induction H as [|c t Hc Ht IH]; [reflexivity|].
  cbn [flat_map]. rewrite IH. unfold jprint_char, ch_quote, ch_bslash.
  replace ((c =? 34) || (c =? 92)) with false by lia. replace (c =? 10) with false by lia. replace (c =? 13) with false by lia.
  replace (c =? 9) with false by lia. replace ((c <? 32) || (c =? 60) || (c =? 62) || (c =? 38)) with false by lia. reflexivity.
Qed.
Definition plain (c : Z) : Prop := 33 <= c < 127 /\ c <> 34 /\ c <> 92 /\ c <> 60 /\ c <> 62 /\ c <> 38.
Lemma fmt_02x_plain : forall b, is_byte b -> Forall plain (fmt_02x b).
Proof.
  intros b H. unfold is_byte in H. unfold fmt_02x, hex_char. repeat (apply Forall_cons || apply Forall_nil); unfold plain; destruct (_ <? _) eqn:?; lia.
Qed.
Lemma addr_plain : forall a, Forall plain (addr_string a).
Proof.
  intros a. unfold addr_string. rewrite !Forall_app.
  repeat split; try (apply fmt_02x_plain; apply byte_of_range); repeat (apply Forall_cons || apply Forall_nil); unfold plain, ch_dot; lia.
Qed.
Lemma member_is : forall kv, 0 <= fst kv < 2 ^ 24 -> info_ok (snd kv) ->
  member_text (jprint_string (addr_string (fst kv)) ++ [ch_colon] ++ jprint (info_json (snd kv))) kv.
Proof.
  intros [k i] Hk (Ha & H0 & H1 & _). cbn [fst snd] in *.
  exists (addr_string k), (addr_string (di_addr i)), (fmt_02x (di_dc0 i)), (fmt_02x (di_dc1 i)), (fmt_int (di_fw i)), (fmt_int (di_engine i)). cbn [fst snd].
  change (2 ^ 24) with 16777216 in *.
  split; [|split; [apply dotted_addr; exact Hk|]; split; [apply dotted_addr; exact Ha|]; split; [apply hex2_fmt; exact H0|]; split; [apply hex2_fmt; exact H1|];
           split; apply fmt_int_signed].
  unfold info_json. cbn [jprint map fst snd join]. rewrite (plain_string (addr_string k)) by apply addr_plain.
  rewrite (plain_string (addr_string (di_addr i))) by apply addr_plain.
  rewrite (plain_string (devcat_string (di_dc0 i) (di_dc1 i))).
  2:{ unfold devcat_string. rewrite !Forall_app. repeat split; try (apply fmt_02x_plain; assumption). repeat (apply Forall_cons || apply Forall_nil). unfold ch_dot; lia. }
  change (jprint_string n_address) with (zs """address"""). change (jprint_string n_devCat) with (zs """devCat""").
  change (jprint_string n_firmwareVersion) with (zs """firmwareVersion"""). change (jprint_string n_engineVersion) with (zs """engineVersion""").
  unfold devcat_string. repeat rewrite <- app_assoc. cbn [zs list_ascii_of_string map app]. reflexivity.
Qed.
Lemma members_are : forall m, Forall (fun kv => 0 <= fst kv < 2 ^ 24 /\ info_ok (snd kv)) m ->
  members_text (join [ch_comma] (map (fun kv => jprint_string (fst kv) ++ [ch_colon] ++ jprint (snd kv))
                 (map (fun kv => (fst kv, info_json (snd kv))) (map keyed m)))) m.
Proof.
  intros m H. induction H as [|kv m [Hk Hi] Hm IH]; [constructor|]. cbn [map fst snd keyed].
  pose proof (member_is kv Hk Hi) as Hkv. destruct m as [|kw m]; [apply Mt1; exact Hkv|].
  cbn [join map]. apply Mt2; [exact Hkv|exact IH].
Qed.

(** C40: the text of the file is one JSON object; its members stand in the order of the addresses, each with the key, the device's
    address, its category, firmware and engine version under their names, in this order and without a space. *)
Theorem C40_file_text : forall m f, db_ok (mkDB (Some m) f) ->
  exists t m1, db_marshal (mkDB (Some m) f) = zs "{" ++ t ++ zs "}" /\ Permutation m m1 /\ by_address m1 /\ members_text t m1.
Proof.
  intros m f (m0 & E & N & F). cbn in E. injection E as <-. destruct (sorted_members_by m N) as (m1 & Es & P & S).
  - eapply Forall_impl; [|exact F]. intros kv [H _]. exact H.
  - unfold db_marshal, map_json. cbn [db_values]. rewrite Es. cbn [jprint]. eexists. exists m1.
    split; [reflexivity|]. split; [exact P|]. split; [exact S|]. apply members_are. apply (Permutation_Forall P). exact F.
Qed.
(** The text of a file tells which devices it is about and everything about them. *)
Example C40_file_text_case :
  db_marshal (mkDB (Some [(0x445566, mkDI 0x445566 2 31 (-1) 1); (0x112233, mkDI 0x112233 1 32 65 2)]) true) =
  zs "{""11.22.33"":{""address"":""11.22.33"",""devCat"":""01.20"",""firmwareVersion"":65,""engineVersion"":2},""44.55.66"":{""address"":""44.55.66"",""devCat"":""02.1f"",""firmwareVersion"":-1,""engineVersion"":1}}".
Proof. vm_compute. reflexivity. Qed.
(** A database without a map, as a file with the text null loads: it is saved as null again. *)
Example C40_null_text_case : db_marshal (mkDB None true) = zs "null".
Proof. reflexivity. Qed.
(** C62: the lines of a device's description. *)
Definition engine_name (t : list Z) (e : Z) : Prop :=
  t = zs "I1" /\ e = 0 \/ t = zs "I2" /\ e = 1 \/ t = zs "I2Cs" /\ e = 2 \/ t = zs "unknown" /\ ~ 0 <= e <= 2.
Theorem C62_description_lines : forall i, word24 (di_addr i) -> is_byte (di_dc0 i) -> is_byte (di_dc1 i) ->
  exists v a x y f,
    basic_dump i = zs "        Device: " ++ v ++ zs " Device (" ++ a ++ zs ")" ++ [10] ++
                   zs "      Category: " ++ x ++ zs "." ++ y ++ [10] ++
                   zs "      Firmware: " ++ f ++ [10] ++
                   zs "Engine Version: " ++ v ++ [10] /\
    engine_name v (di_engine i) /\ dotted a (di_addr i) /\ hex2 x (di_dc0 i) /\ hex2 y (di_dc1 i) /\ signed f (di_fw i).
Proof.
  intros i Ha H0 H1. exists (ev_string (di_engine i)), (addr_string (di_addr i)), (fmt_02x (di_dc0 i)), (fmt_02x (di_dc1 i)), (fmt_int (di_fw i)).
  split; [unfold basic_dump, basic_string, Display.devcat_string, fw_string; rewrite <- ?app_assoc; reflexivity|].
  split; [|split; [apply dotted_addr; exact Ha|split; [apply hex2_fmt; exact H0|split; [apply hex2_fmt; exact H1|apply fmt_int_signed]]]].
  unfold engine_name, ev_string. destruct (di_engine i =? 0) eqn:E0; [left; split; [reflexivity|lia]|].
  destruct (di_engine i =? 1) eqn:E1; [right; left; split; [reflexivity|lia]|].
  destruct (di_engine i =? 2) eqn:E2; [right; right; left; split; [reflexivity|lia]|]. right; right; right. split; [reflexivity|lia].
Qed.
Example C62_description_lines_case : word24 0x1a2b3c /\ is_byte 1 /\ is_byte 0x20 /\ basic_dump (mkDI 0x1a2b3c 1 0x20 (-7) 3) =
  zs "        Device: unknown Device (1a.2b.3c)" ++ [10] ++ zs "      Category: 01.20" ++ [10] ++ zs "      Firmware: -7" ++ [10] ++
  zs "Engine Version: unknown" ++ [10].
Proof. split; [unfold word24; lia|]. split; [unfold is_byte; lia|]. split; [unfold is_byte; lia|]. vm_compute. reflexivity. Qed.

Print Assumptions C40_file_text.
Print Assumptions C62_description_lines.
