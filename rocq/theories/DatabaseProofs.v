(** Lemmas about the device database model. *)
From Coq Require Import ZArith List Bool Lia ZifyBool ZifyNat Permutation.
From Verif Require Import GoBase GoLemmas GoText GoJson JsonProofs GoProg Address AddressSpec AddressProofs Command Message MsgWriter
  BasicDevice Query Database DatabaseSpec.
Import ListNotations.
Open Scope Z_scope.
Ltac Zify.zify_post_hook ::= Z.div_mod_to_equations.

Lemma dinfo_eqb_eq : forall x y, dinfo_eqb x y = true <-> x = y.
Proof.
  intros [a b c d e] [a' b' c' d' e']. unfold dinfo_eqb. cbn. split.
  - intros H. f_equal; lia.
  - intros H. inversion H; subst. lia.
Qed.
Lemma dinfo_eqb_neq : forall x y, dinfo_eqb x y = false <-> x <> y.
Proof. intros x y. rewrite <- dinfo_eqb_eq. destruct (dinfo_eqb x y); split; congruence. Qed.

(* ------------------------------------------------------------------ the map *)
Lemma mget_mset : forall m a v b, mget (mset m a v) b = if b =? a then Some v else mget m b.
Proof.
  unfold mget. induction m as [|[k w] m IH]; intros a v b; cbn.
  - rewrite (Z.eqb_sym a b). destruct (b =? a); reflexivity.
  - destruct (Z.eqb_spec k a) as [Hk|Hk]; cbn.
    + subst. rewrite (Z.eqb_sym a b). destruct (b =? a); reflexivity.
    + destruct (Z.eqb_spec k b) as [Hb|Hb]; cbn; [replace (b =? a) with false by lia; reflexivity|]. apply IH.
Qed.

Lemma mget_In : forall m a v, NoDup (map fst m) -> (mget m a = Some v <-> In (a, v) m).
Proof.
  unfold mget. induction m as [|[k w] m IH]; intros a v H; cbn.
  - split; [discriminate|tauto].
  - inversion H as [|? ? Hn Hd]; subst. destruct (Z.eqb_spec k a) as [Hk|Hk]; cbn.
    + subst. split; [intros E; inversion E; left; reflexivity|]. intros [E|I]; [inversion E; reflexivity|].
      exfalso. apply Hn. apply (in_map fst) in I. exact I.
    + rewrite IH by exact Hd. split; [right; assumption|]. intros [E|I]; [inversion E; contradiction|exact I].
Qed.

Lemma mget_none : forall m a, mget m a = None <-> ~ In a (map fst m).
Proof.
  unfold mget. induction m as [|[k w] m IH]; intros a; cbn; [tauto|].
  destruct (Z.eqb_spec k a) as [Hk|Hk]; cbn; [split; [discriminate|intros H; exfalso; apply H; left; exact Hk]|].
  rewrite IH. tauto.
Qed.

Lemma mset_keys : forall m a v, map fst (mset m a v) = if existsb (fun k => k =? a) (map fst m) then map fst m else map fst m ++ [a].
Proof.
  induction m as [|[k w] m IH]; intros a v; cbn; [reflexivity|].
  destruct (Z.eqb_spec k a) as [Hk|Hk]; cbn; [subst; reflexivity|]. rewrite IH. destruct (existsb _ _); reflexivity.
Qed.

Lemma mset_nodup : forall m a v, NoDup (map fst m) -> NoDup (map fst (mset m a v)).
Proof.
  intros m a v H. rewrite mset_keys. destruct (existsb _ _) eqn:E; [exact H|].
  apply Permutation_NoDup with (l := a :: map fst m); [apply Permutation_cons_append|]. constructor; [|exact H].
  intros I. assert (existsb (fun k => k =? a) (map fst m) = true) by (apply existsb_exists; exists a; split; [exact I|lia]). congruence.
Qed.

Lemma mset_absent : forall m a v, ~ In a (map fst m) -> mset m a v = m ++ [(a, v)].
Proof.
  induction m as [|[k w] m IH]; intros a v H; cbn; [reflexivity|]. cbn in H.
  destruct (Z.eqb_spec k a) as [Hk|Hk]; [exfalso; apply H; left; exact Hk|]. rewrite IH by tauto. reflexivity.
Qed.

Lemma mset_forall : forall (P : Z * dinfo -> Prop) m a v, Forall P m -> P (a, v) -> Forall P (mset m a v).
Proof.
  intros P m a v H Hv. induction H as [|[k w] m Hk Hm IH]; cbn; [constructor; [exact Hv|constructor]|].
  destruct (Z.eqb_spec k a) as [E|E]; constructor; try assumption. rewrite E. exact Hv.
Qed.

Lemma mget_perm : forall m m', NoDup (map fst m) -> Permutation m m' -> forall a, mget m' a = mget m a.
Proof.
  intros m m' H P a. assert (H' : NoDup (map fst m')) by (apply (Permutation_NoDup (Permutation_map fst P)); exact H).
  destruct (mget m a) as [v|] eqn:E.
  - apply mget_In in E; [|exact H]. apply mget_In; [exact H'|]. apply (Permutation_in _ P); exact E.
  - apply mget_none in E. apply mget_none. intros I. apply E. apply (Permutation_in _ (Permutation_sym (Permutation_map fst P))); exact I.
Qed.

(* ------------------------------------------------------------------ get and put *)
Lemma db_get_mget : forall db a, db_get db a = match mget (db_map db) a with Some i => (i, true) | None => (dinfo_zero, false) end.
Proof. reflexivity. Qed.

Lemma db_put_spec : forall db info, db_values db <> None ->
  exists db1, db_put db info = Ret db1 /\ db_values db1 <> None /\
    (forall a, a <> di_addr info -> db_get db1 a = db_get db a) /\
    fst (db_get db1 (di_addr info)) = info /\
    (snd (db_get db1 (di_addr info)) = true <-> snd (db_get db (di_addr info)) = true \/ info <> dinfo_zero) /\
    (db_dirty db1 = false -> db_dirty db = false /\ db1 = db).
Proof.
  intros db info Hv. unfold db_put. destruct (dinfo_eqb (fst (db_get db (di_addr info))) info) eqn:E.
  - apply dinfo_eqb_eq in E. exists db. repeat split; try tauto; try reflexivity; try exact E; try assumption.
    intros [H|H]; [exact H|]. rewrite <- E in H. rewrite db_get_mget in *. destruct (mget (db_map db) (di_addr info)); [reflexivity|]. cbn in H. congruence.
  - apply dinfo_eqb_neq in E. destruct (db_values db) as [m|] eqn:Em; [|contradiction].
    eexists; split; [reflexivity|]. cbn [db_values db_dirty]. split; [discriminate|].
    assert (Hmap : db_map db = m) by (unfold db_map; rewrite Em; reflexivity).
    split; [|split; [|split]].
    + intros a Ha. rewrite !db_get_mget. unfold db_map at 1. cbn [db_values]. rewrite mget_mset, Hmap. replace (a =? di_addr info) with false by lia. reflexivity.
    + rewrite db_get_mget. unfold db_map. cbn [db_values]. rewrite mget_mset, Z.eqb_refl. reflexivity.
    + rewrite db_get_mget at 1. unfold db_map at 1. cbn [db_values]. rewrite mget_mset, Z.eqb_refl. cbn. split; [|reflexivity].
      intros _. destruct (mget m (di_addr info)) as [o|] eqn:Eo.
      * left. rewrite db_get_mget, Hmap, Eo. reflexivity.
      * right. intros Hz. apply E. rewrite db_get_mget, Hmap, Eo. cbn. congruence.
    + discriminate.
Qed.

Lemma last_put_snoc : forall h i a, last_put (h ++ [i]) a = if di_addr i =? a then Some i else last_put h a.
Proof. intros h i a. unfold last_put. rewrite rev_app_distr. cbn. destruct (di_addr i =? a); reflexivity. Qed.

Lemma run_ops_spec : forall h db sv past,
  db_values db <> None ->
  (forall a, fst (db_get db a) = match last_put past a with Some i => i | None => dinfo_zero end) ->
  (forall a, snd (db_get db a) = true <-> some_real_put past a) ->
  (db_dirty db = false -> same_contents db sv) ->
  exists db1 sv1, run_ops db sv h = Ret (db1, sv1) /\
    (forall a, fst (db_get db1 a) = match last_put (past ++ puts_of h) a with Some i => i | None => dinfo_zero end) /\
    (forall a, snd (db_get db1 a) = true <-> some_real_put (past ++ puts_of h) a) /\
    (db_dirty db1 = false -> same_contents db1 sv1).
Proof.
  induction h as [|o h IH]; intros db sv past Hv Hf Hs Hd.
  - exists db, sv. cbn. rewrite app_nil_r. auto.
  - destruct o as [i|a0|ds|w]; cbn [run_ops puts_of flat_map].
    + destruct (db_put_spec db i Hv) as (db1 & E & Hv1 & Ho & Hi & Hin & Hdd). rewrite E.
      destruct (IH db1 sv (past ++ [i]) Hv1) as (db2 & sv2 & R & A & B & C).
      * intros a. rewrite last_put_snoc. destruct (Z.eqb_spec (di_addr i) a) as [Ha|Ha]; [rewrite <- Ha; exact Hi|]. rewrite Ho by congruence. apply Hf.
      * intros a. destruct (Z.eq_dec a (di_addr i)) as [Ha|Ha].
        -- subst a. rewrite Hin, Hs. unfold some_real_put. split.
           ++ intros [(j & J1 & J2 & J3)|Hz]; [exists j; rewrite in_app_iff; tauto|exists i; rewrite in_app_iff; cbn; tauto].
           ++ intros (j & J1 & J2 & J3). rewrite in_app_iff in J1. destruct J1 as [J1|[->|[]]]; [left; exists j; tauto|right; exact J3].
        -- rewrite Ho by exact Ha. rewrite Hs. unfold some_real_put. split; intros (j & J1 & J2 & J3); exists j; rewrite in_app_iff in *; cbn in *; intuition congruence.
      * intros D. apply Hdd in D. destruct D as [D ->]. apply Hd; exact D.
      * exists db2, sv2. change (flat_map (fun o => match o with OpPut i => [i] | _ => [] end) h) with (puts_of h).
        rewrite <- app_assoc in A, B. auto.
    + apply IH; assumption.
    + apply IH; assumption.
    + destruct w as [e|]; cbn [db_save]; apply IH; try assumption. intros _ a. reflexivity.
Qed.

(* ------------------------------------------------------------------ JSON of the contents *)
Lemma hex_char_ascii : forall n, 0 <= n < 16 -> 0 <= hex_char n < 128.
Proof. intros n H. unfold hex_char. destruct (n <? 10); lia. Qed.
Lemma fmt_02x_ascii : forall b, is_byte b -> is_ascii (fmt_02x b).
Proof. intros b H. unfold is_byte in H. unfold fmt_02x, is_ascii. repeat constructor; apply hex_char_ascii; lia. Qed.
Lemma addr_string_ascii : forall a, is_ascii (addr_string a).
Proof.
  intros a. unfold addr_string, is_ascii. rewrite !Forall_app.
  repeat split; try (apply fmt_02x_ascii; apply byte_of_range); repeat constructor; cbn; try lia; unfold ch_dot; lia.
Qed.
Lemma devcat_string_ascii : forall x y, is_byte x -> is_byte y -> is_ascii (devcat_string x y).
Proof.
  intros x y Hx Hy. unfold devcat_string, is_ascii. rewrite !Forall_app.
  repeat split; try (apply fmt_02x_ascii; assumption). repeat constructor; unfold ch_dot; lia.
Qed.
Ltac ascii_const := unfold is_ascii; repeat constructor; lia.

Lemma info_json_wf : forall i, is_byte (di_dc0 i) -> is_byte (di_dc1 i) -> jwf (info_json i).
Proof.
  intros i H0 H1. unfold info_json. apply wf_obj.
  repeat (apply Forall_cons; [cbn [fst snd]; split; [ascii_const|]|]); try apply Forall_nil.
  - apply wf_str, addr_string_ascii.
  - apply wf_str, devcat_string_ascii; assumption.
  - apply wf_int.
  - apply wf_int.
Qed.

Lemma insert_sorted_perm : forall kv l, Permutation (insert_sorted kv l) (kv :: l).
Proof.
  induction l as [|h t IH]; cbn; [apply Permutation_refl|]. destruct (text_ltb (fst h) (fst kv)); [|apply Permutation_refl].
  rewrite IH. apply perm_swap.
Qed.
Lemma sorted_members_perm : forall m, Permutation (sorted_members m) (map (fun kv => (addr_string (fst kv), snd kv)) m).
Proof.
  intros m. unfold sorted_members. induction (map _ m) as [|h t IH]; cbn; [constructor|].
  rewrite insert_sorted_perm. constructor. exact IH.
Qed.
Lemma sorted_members_from : forall m, exists m1, Permutation m m1 /\ sorted_members m = map (fun kv => (addr_string (fst kv), snd kv)) m1.
Proof.
  intros m. destruct (Permutation_map_inv _ _ (sorted_members_perm m)) as (m1 & E & P).
  exists m1. split; [exact P|exact E].
Qed.

Lemma map_json_wf : forall m, Forall (fun kv => info_ok (snd kv)) m -> jwf (map_json m).
Proof.
  intros m H. unfold map_json. apply wf_obj. destruct (sorted_members_from m) as (m1 & P & E). rewrite E. rewrite map_map. cbn [fst snd].
  apply Forall_map. apply (Permutation_Forall P) in H. eapply Forall_impl; [|exact H].
  intros [k i] (_ & H0 & H1 & _). cbn [fst snd] in *. split; [apply addr_string_ascii|apply info_json_wf; assumption].
Qed.

Lemma devcat_scan_string : forall x y, is_byte x -> is_byte y -> devcat_scan (devcat_string x y) = Some (x, y).
Proof.
  intros x y Hx Hy.
  pose proof (sweep2 (fun x y => match devcat_scan (devcat_string x y) with Some (a, b) => (a =? x) && (b =? y) | None => false end)
                     ltac:(vm_compute; reflexivity) x y Hx Hy) as H.
  cbv beta in H. destruct (devcat_scan (devcat_string x y)) as [[a b]|]; [|discriminate]. f_equal. f_equal; lia.
Qed.

Lemma addr_string_parses : forall old a, 0 <= a < 2 ^ 24 -> addr_unmarshal_text old (addr_string a) = (a, None).
Proof.
  intros old a H. apply (addr_rendering_parses old a). apply addr_string_rendering; exact H.
Qed.

Lemma decode_info_json : forall i, info_ok i -> decode_info None (info_json i) = inr (i, None).
Proof.
  intros [a x y fw en] (Ha & Hx & Hy & Hf & He). cbn [di_addr di_dc0 di_dc1 di_fw di_engine] in *.
  unfold info_json, decode_info. cbn [di_addr di_dc0 di_dc1 di_fw di_engine].
  cbn [decode_fields]. 
  replace (fold_eqb n_address n_address) with true by (vm_compute; reflexivity). cbn [json_text]. rewrite addr_string_parses by exact Ha.
  replace (fold_eqb n_devCat n_address) with false by (vm_compute; reflexivity).
  replace (fold_eqb n_devCat n_devCat) with true by (vm_compute; reflexivity). rewrite devcat_scan_string by assumption.
  replace (fold_eqb n_firmwareVersion n_address) with false by (vm_compute; reflexivity).
  replace (fold_eqb n_firmwareVersion n_devCat) with false by (vm_compute; reflexivity).
  replace (fold_eqb n_firmwareVersion n_firmwareVersion) with true by (vm_compute; reflexivity).
  replace (fold_eqb n_engineVersion n_address) with false by (vm_compute; reflexivity).
  replace (fold_eqb n_engineVersion n_devCat) with false by (vm_compute; reflexivity).
  replace (fold_eqb n_engineVersion n_firmwareVersion) with false by (vm_compute; reflexivity).
  replace (fold_eqb n_engineVersion n_engineVersion) with true by (vm_compute; reflexivity).
  unfold json_int. replace ((- 2 ^ 63 <=? fw) && (fw <? 2 ^ 63)) with true by lia.
  replace ((- 2 ^ 63 <=? en) && (en <? 2 ^ 63)) with true by lia. reflexivity.
Qed.

Lemma decode_map_members : forall m1 m0, NoDup (map fst (m0 ++ m1)) ->
  Forall (fun kv => 0 <= fst kv < 2 ^ 24 /\ info_ok (snd kv)) m1 ->
  decode_map m0 None (map (fun kv => (fst kv, info_json (snd kv))) (map (fun kv => (addr_string (fst kv), snd kv)) m1)) = (m0 ++ m1, None).
Proof.
  induction m1 as [|[a i] m1 IH]; intros m0 Hn Hf; cbn [map decode_map fst snd]; [rewrite app_nil_r; reflexivity|].
  inversion Hf as [|? ? [Ha Hi] Hf1]; subst. cbn [fst snd] in *. rewrite decode_info_json by exact Hi.
  rewrite addr_string_parses by exact Ha. rewrite mset_absent.
  - rewrite IH; [rewrite <- app_assoc; reflexivity|rewrite <- app_assoc; exact Hn|exact Hf1].
  - rewrite map_app in Hn. cbn in Hn. apply NoDup_remove_2 in Hn. intros I. apply Hn. apply in_or_app. left. exact I.
Qed.

Lemma db_unmarshal_marshal : forall m d db0,
  NoDup (map fst m) -> Forall (fun kv => 0 <= fst kv < 2 ^ 24 /\ info_ok (snd kv)) m ->
  exists m1, Permutation m m1 /\ db_unmarshal db0 (db_marshal (mkDB (Some m) d)) = (mkDB (Some m1) (db_dirty db0), None).
Proof.
  intros m d db0 Hn Hf. destruct (sorted_members_from m) as (m1 & P & E). exists m1. split; [exact P|].
  unfold db_marshal, db_unmarshal. cbn [db_values]. rewrite json_parse_print.
  - unfold map_json. rewrite E. rewrite (decode_map_members m1 []); [reflexivity| |].
    + cbn. apply (Permutation_NoDup (Permutation_map fst P)); exact Hn.
    + apply (Permutation_Forall P); exact Hf.
  - apply map_json_wf. eapply Forall_impl; [|exact Hf]. intros kv [_ H]; exact H.
Qed.

(* ------------------------------------------------------------------ the file *)
Lemma run_appends : forall l x, fold_left fstep_run (map FAppend l) (Some x) = Some (x ++ l).
Proof.
  induction l as [|b l IH]; intros x; cbn; [rewrite app_nil_r; reflexivity|]. rewrite IH. rewrite <- app_assoc. reflexivity.
Qed.

Lemma crash_after_dirty : forall n f db, db_dirty db = true -> crash_after (S n) f db = Some (firstn n (db_marshal db)).
Proof.
  intros n f db H. unfold crash_after, save_db_steps, db_needs_saving. rewrite H. cbn [firstn fold_left fstep_run].
  rewrite firstn_map, run_appends. reflexivity.
Qed.
Lemma crash_after_clean : forall n f db, db_dirty db = false -> crash_after n f db = f.
Proof. intros n f db H. unfold crash_after, save_db_steps, db_needs_saving. rewrite H. destruct n; reflexivity. Qed.

Lemma db_marshal_cut : forall m d p x, Forall (fun kv => info_ok (snd kv)) m ->
  db_marshal (mkDB (Some m) d) = p ++ x -> x <> [] -> json_parse p = None.
Proof.
  intros m d p x Hf E Hx. unfold db_marshal in E. cbn [db_values] in E. unfold map_json in E.
  eapply json_parse_cut; [|exact E|exact Hx]. apply (map_json_wf m); exact Hf.
Qed.
