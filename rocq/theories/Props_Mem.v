(** C75: what happens to the memory of a list of links handed to a function. *)
From Coq Require Import ZArith List Bool Lia ZifyBool ZifyNat.
From Verif Require Import GoBase GoLemmas GoProg GoSlice Command Message MsgWriter Link LinkSpec BasicDevice DevLinkdb UtilLink DeviceSpec DevLinkdbSpec Props_DevLinkdb MemLinks MemSpec MemProofs.
Import ListNotations.
Open Scope Z_scope.
Ltac Zify.zify_post_hook ::= Z.div_mod_to_equations.

Lemma memory_of : forall (h : heap link) s, sl_ok h s -> exists pre post, h = list_set h (sl_arr s) (pre ++ sl_view h s ++ post) /\ length pre = sl_off s /\
  length (sl_view h s) = sl_len s.
Proof.
  intros h s Hok. pose proof (view_length h s Hok) as HL. destruct Hok as (H1 & H2 & H3). exists (firstn (sl_off s) (arr h (sl_arr s))), (skipn (sl_len s) (skipn (sl_off s) (arr h (sl_arr s)))).
  unfold sl_view. rewrite firstn_skipn, firstn_skipn. split; [|split; [rewrite firstn_length; lia|exact HL]].
  symmetry. apply set_same. unfold arr. apply nth_error_nth'. exact H1.
Qed.
Lemma only_elements_of : forall (h : heap link) s pre post ls', sl_ok h s -> h = list_set h (sl_arr s) (pre ++ sl_view h s ++ post) -> length pre = sl_off s ->
  length ls' = length (sl_view h s) -> only_elements h s ls' (list_set h (sl_arr s) (pre ++ ls' ++ post)).
Proof.
  intros h s pre post ls' Hok Eh Hp Hl. pose proof (view_length h s Hok) as HL. destruct Hok as (H1 & _).
  assert (EA : arr h (sl_arr s) = pre ++ sl_view h s ++ post) by (rewrite Eh at 1; apply arr_same, H1).
  unfold only_elements. split; [unfold sl_view at 1; rewrite arr_same by exact H1|split; [apply list_set_length|split]].
  - rewrite skipn_app, <- Hp, skipn_all, Nat.sub_diag. cbn [skipn app]. rewrite <- HL, <- Hl, firstn_app, Nat.sub_diag, firstn_all. cbn [firstn]. apply app_nil_r.
  - intros b Hb. apply nth_error_list_set_neq. congruence.
  - intros i Hi. rewrite arr_same by exact H1. rewrite EA. destruct (Nat.lt_ge_cases i (length pre)) as [L|G]; [rewrite !nth_error_app1 by exact L; reflexivity|].
    rewrite !(nth_error_app2 pre) by exact G. rewrite !nth_error_app2 by lia. rewrite Hl. reflexivity.
Qed.
Lemma more_follow_eq : forall l, with_flags rcf_clear_last_record l = more_follow l.
Proof. reflexivity. Qed.
Lemma unknown_eq : forall ix l, match index_find (link_id l) ix with None => true | Some _ => false end = unknown (map fst ix) l.
Proof.
  assert (B : forall a, byte_of (Z.shiftr (Z.land a 65280) 8) = byte_of (Z.shiftr a 8)).
  { intro a. unfold byte_of. change 256 with (2 ^ 8). rewrite <- !Z.land_ones by lia. rewrite Z.shiftr_land, <- Z.land_assoc. reflexivity. }
  assert (C : forall a, byte_of (Z.land a 255) = byte_of a).
  { intro a. unfold byte_of. change 256 with (2 ^ 8). rewrite <- !Z.land_ones by lia. rewrite <- Z.land_assoc. reflexivity. }
  intros ix l. unfold unknown. unfold link_id. rewrite B, C. induction ix as [|[k v] t IH]; cbn [index_find map existsb fst]; [reflexivity|].
  destruct (list_eq_dec Z.eq_dec k _) as [->|N]; [rewrite bytes_eqb_refl; reflexivity|].
  rewrite (proj2 (bytes_eqb_neq _ k)) by congruence. exact IH.
Qed.
Lemma agrees_use : forall W A B (R : A -> B -> heap link -> Prop) (p : outcome A * (linkdb * W)) (q : outcome B * (heap link * (linkdb * W))), agrees R p q ->
  forall r st, p = (r, st) -> match r with Ret x => exists y k, q = (Ret y, (k, st)) /\ R x y k | Panic => exists k, q = (Panic, (k, st)) | NoFuel => exists k, q = (NoFuel, (k, st)) end.
Proof.
  intros W A B R p [r' [k st']] [H1 H2] r st ->. cbn [fst snd] in *. subst st'. destruct r, r'; try contradiction; eauto.
Qed.

(** [WriteLinks]: the effect is that on the list as a value.  The caller's list: each record that was sent got the bit "more records
    follow"; all of them if no error is reported.  Nothing else in memory changes. *)
Theorem C75_write_links : forall W (mw : mwriter W) now h s st r st', sl_ok h s -> ld_write_links mw now (sl_view h s) st = (r, st') ->
  exists h', mem_write_links mw now s (h, st) = (r, (h', st')) /\ forall e, r = Ret e ->
    exists n, (e = None -> n = sl_len s) /\ only_elements h s (map more_follow (firstn n (sl_view h s)) ++ skipn n (sl_view h s)) h'.
Proof.
  intros W mw now h s st r st' Hok E. destruct (memory_of h s Hok) as (pre & post & Eh & Hp & HL).
  pose proof (write_links_agrees h (sl_arr s) (proj1 Hok) mw now (sl_view h s) pre post (sl_cap s) st) as H. unfold mem in H.
  rewrite Hp, HL, <- Eh in H. destruct s as [a off len cap]. cbn [sl_arr sl_off sl_len sl_cap] in *.
  apply agrees_use with (1 := H) in E. destruct r as [e| |]; [|destruct E as (k & E); exists k; split; [exact E|discriminate]..].
  destruct E as (y & k & E & <- & n & -> & Hn). exists (list_set h a (pre ++ map (with_flags rcf_clear_last_record) (firstn n (sl_view h (mkSl a off len cap))) ++ skipn n (sl_view h (mkSl a off len cap)) ++ post)).
  split; [exact E|]. intros e0 E0. injection E0 as <-. exists n. split; [exact Hn|].
  rewrite (app_assoc (map _ _)). apply (only_elements_of h (mkSl a off len cap)); try assumption.
  rewrite app_length, map_length, <- app_length, firstn_skipn. reflexivity.
Qed.
(** [AddLinks]: each record of the caller's list is unchanged or got the bits "in use" and "more records follow". *)
Theorem C75_add_links : forall W fuel (mw : mwriter W) now h s st r st', sl_ok h s -> ld_add_links fuel mw now (sl_view h s) st = (r, st') ->
  exists h', mem_add_links fuel mw now s (h, st) = (r, (h', st')) /\ forall e, r = Ret e ->
    exists ls, only_elements h s ls h' /\ Forall2 (fun x y => y = x \/ y = in_use x) (sl_view h s) ls.
Proof.
  intros W fuel mw now h s st r st' Hok E. destruct (memory_of h s Hok) as (pre & post & Eh & Hp & HL).
  pose proof (add_links_agrees h (sl_arr s) (proj1 Hok) mw fuel now (sl_view h s) pre post (sl_cap s) st) as H. unfold mem in H.
  rewrite Hp, HL, <- Eh in H. specialize (H (proj1 (proj2 Hok))). destruct s as [a off len cap]. cbn [sl_arr sl_off sl_len sl_cap] in *.
  apply agrees_use with (1 := H) in E. destruct r as [e| |]; [|destruct E as (k & E); exists k; split; [exact E|discriminate]..].
  destruct E as (y & k & E & <- & ls & -> & Hn). exists (list_set h a (pre ++ ls ++ post)). split; [exact E|]. intros e0 _. exists ls. split; [|exact Hn].
  apply (only_elements_of h (mkSl a off len cap)); try assumption. clear - Hn. induction Hn as [|? ? ? ? _ _ IH]; cbn [length]; [reflexivity|]. rewrite IH. reflexivity.
Qed.
(** [UpdateLinks], for any way of growing arrays: the links the device has are dropped from the caller's list, the others move to the
    front, the first ones of them with the bit "more records follow", and the rest of the list is filled with its last record. *)
Theorem C75_update_links : forall W grow fuel (mw : mwriter W) now h s st r st', sl_ok h s -> ld_update_links fuel mw now (sl_view h s) st = (r, st') ->
  exists h', mem_update_links grow fuel mw now s (h, st) = (r, (h', st')) /\ forall e, r = Ret e ->
    exists ls, only_elements h s ls h' /\
      (e = None -> exists db w dn rest, ld_refresh fuel mw now st = (Ret None, (db, w)) /\ dn ++ rest = filter (unknown (map fst (ld_index db))) (sl_view h s) /\
         ls = map more_follow dn ++ rest ++ repeat (last (sl_view h s) link_zero) (sl_len s - length (dn ++ rest))).
Proof.
  intros W grow fuel mw now h s st r st' Hok E. destruct (memory_of h s Hok) as (pre & post & Eh & Hp & HL).
  pose proof (update_links_agrees h (sl_arr s) (proj1 Hok) mw grow fuel now (sl_view h s) pre post (sl_cap s) st) as H. unfold mem in H.
  rewrite Hp, HL, <- Eh in H. specialize (H (proj1 (proj2 Hok))). destruct s as [a off len cap]. cbn [sl_arr sl_off sl_len sl_cap] in *.
  apply agrees_use with (1 := H) in E. destruct r as [e| |]; [|destruct E as (k & E); exists k; split; [exact E|discriminate]..].
  destruct E as (y & k & E & <- & ls & -> & Hl & Hn). exists (list_set h a (pre ++ ls ++ post)). split; [exact E|]. intros e0 E0. injection E0 as <-. exists ls.
  split; [apply (only_elements_of h (mkSl a off len cap)); try assumption; lia|]. intro He. destruct (Hn He) as (db & w & dn & rest & ER & EF & EL).
  exists db, w, dn, rest. split; [exact ER|]. rewrite (filter_ext _ (unknown (map fst (ld_index db)))) in EF by (intro l; apply unknown_eq).
  split; [exact EF|]. rewrite EL, app_length. reflexivity.
Qed.
(** The list is not kept: given to two devices one after the other, the second gets other links than the caller wrote down. *)
Theorem C75_same_list_refuted : exists (h : heap link) s h1 st1 h2 db2 d2, sl_ok h s /\ sl_view h s = [ex_a; ex_b] /\
  mem_update_links (fun _ => 0%nat) 20 ex_mw 5000 s (h, (linkdb_new, ex_dev [ex_a; ex_end; ex_end; ex_end])) = (Ret None, (h1, st1)) /\
  mem_update_links (fun _ => 0%nat) 20 ex_mw 5000 s (h1, (linkdb_new, ex_dev [ex_end; ex_end; ex_end; ex_end])) = (Ret None, (h2, (db2, d2))) /\
  below (dv_slots d2) = [ex_b; ex_b] /\ sl_view h2 s = [ex_b; ex_b].
Proof. exists [[ex_a; ex_b]], (mkSl 0 0 2 2). do 5 eexists. split; [unfold sl_ok; cbn; lia|]. split; [reflexivity|]. split; [vm_compute; reflexivity|]. split; [vm_compute; reflexivity|]. vm_compute. auto. Qed.

(** [fixCrosslinks] keeps the caller's list and returns what the function on values returns if the list has no capacity to spare or no
    free record. *)
Theorem C75_fix : forall grow h s addrs, sl_ok h s -> sl_cap s = sl_len s \/ (forall l, In l (sl_view h s) -> is_free l = false) ->
  exists h' new, mem_fix_crosslinks grow s addrs h = Ret (h', new) /\ sl_view h' new = fix_crosslinks (sl_view h s) addrs /\ sl_view h' s = sl_view h s.
Proof.
  intros grow h s addrs Hok Hc. apply fix_agrees; [exact Hok|]. destruct Hc as [Hc|Hc]; [left; exact Hc|right]. apply Forall_forall. intros l Hl.
  specialize (Hc l Hl). unfold is_free, bit in Hc. unfold rcf_available. apply Z.eqb_neq. apply Z.eqb_neq in Hc. intro E. apply Hc.
  rewrite <- Z.testbit_spec' by lia. assert (T : Z.testbit (Z.land (l_flags l) 128) 7 = false) by (rewrite E; reflexivity).
  rewrite Z.land_spec in T. change (Z.testbit 128 7) with true in T. rewrite andb_true_r in T. rewrite T. reflexivity.
Qed.
(** With capacity to spare and a free record the list returned lies in the caller's own list, which is changed, and another missing link
    is lost than the function on values would lose. *)
Theorem C75_fix_shared_refuted : exists (h : heap link) s addrs h' new, sl_ok h s /\ mem_fix_crosslinks (fun _ => 0%nat) s addrs h = Ret (h', new) /\
  sl_view h' new <> fix_crosslinks (sl_view h s) addrs /\ sl_view h' s <> sl_view h s /\ sl_arr new = sl_arr s.
Proof.
  exists [[ex_free; mkLink 0xe2 1 1 0 0 0; mkLink 0xe2 1 2 0 0 0; mkLink 0xe2 1 3 0 0 0; mkLink 0xe2 1 4 0 0 0; ex_end]], (mkSl 0 0 5 6), [1; 2; 3; 4].
  do 2 eexists. split; [unfold sl_ok; cbn; lia|]. split; [vm_compute; reflexivity|]. split; [vm_compute; discriminate|]. split; [vm_compute; discriminate|reflexivity].
Qed.

(** A list in the middle of an array with room behind it. *)
Example C75_ex : match mem_update_links (fun _ => 0%nat) 20 ex_mw 5000 (mkSl 1 1 3 4) ([[ex_c]; [ex_c; mkLink 0xe0 9 5 0 0 0; ex_b; ex_c; ex_c; ex_b]],
    (linkdb_new, ex_dev [ex_a; ex_free; ex_b; ex_end; ex_end; ex_a])) with
  | (r, (h, (_, d))) => r = Ret None /\ below (dv_slots d) = [ex_a; mkLink 0xe2 9 5 0 0 0; ex_b; ex_c] /\
      h = [[ex_c]; [ex_c; mkLink 0xe2 9 5 0 0 0; ex_c; ex_c; ex_c; ex_b]]
  end.
Proof. vm_compute. auto. Qed.
Example C75_ex_write : match mem_write_links ex_mw 5000 (mkSl 0 1 2 2) ([[ex_c; mkLink 0xe0 9 5 0 0 0; ex_b; ex_c]], (linkdb_new, ex_dev [ex_a; ex_end; ex_end; ex_end])) with
  | (r, (h, (_, d))) => r = Ret None /\ h = [[ex_c; mkLink 0xe2 9 5 0 0 0; ex_b; ex_c]]
  end.
Proof. vm_compute. auto. Qed.
Example C75_ex_add : match mem_add_links 20 ex_mw 5000 (mkSl 0 1 2 2) ([[ex_c; mkLink 0x60 9 5 0 0 0; mkLink 0x60 9 6 0 0 0; ex_c]], (linkdb_new, ex_dev [ex_free; ex_end; ex_end; ex_end])) with
  | (r, (h, (_, d))) => r = Ret None /\ h = [[ex_c; mkLink 0xe2 9 5 0 0 0; mkLink 0x60 9 6 0 0 0; ex_c]]
  end.
Proof. vm_compute. auto. Qed.
(** No spare capacity: four missing links, one free record. *)
Example C75_ex_fix : match mem_fix_crosslinks (fun n => n) (mkSl 0 0 3 3) [1; 2] [[ex_free; mkLink 0xe2 1 1 0 0 0; mkLink 0xe2 1 2 0 0 0]] with
  | Ret (h, new) => sl_view h new = fix_crosslinks [ex_free; mkLink 0xe2 1 1 0 0 0; mkLink 0xe2 1 2 0 0 0] [1; 2] /\ arr h 0 = [ex_free; mkLink 0xe2 1 1 0 0 0; mkLink 0xe2 1 2 0 0 0]
  | _ => False
  end.
Proof. vm_compute. auto. Qed.
(** The hypotheses: slices within their arrays, and both conditions of [C75_fix]. *)
Example C75_ok_case : sl_ok [[ex_c]; [ex_c; mkLink 0xe0 9 5 0 0 0; ex_b; ex_c; ex_c; ex_b]] (mkSl 1 1 3 4) /\
  sl_ok [[ex_c; mkLink 0xe0 9 5 0 0 0; ex_b; ex_c]] (mkSl 0 1 2 2) /\ sl_ok [[ex_free; mkLink 0xe2 1 1 0 0 0; mkLink 0xe2 1 2 0 0 0]] (mkSl 0 0 3 3).
Proof. unfold sl_ok. cbn. lia. Qed.
Example C75_fix_case : exists h' new, mem_fix_crosslinks (fun n => n) (mkSl 0 0 2 3) [1; 2] [[mkLink 0xe2 1 1 0 0 0; mkLink 0xe2 1 2 0 0 0; ex_c]] = Ret (h', new) /\
  sl_view h' new = fix_crosslinks [mkLink 0xe2 1 1 0 0 0; mkLink 0xe2 1 2 0 0 0] [1; 2] /\ sl_view h' (mkSl 0 0 2 3) = [mkLink 0xe2 1 1 0 0 0; mkLink 0xe2 1 2 0 0 0].
Proof.
  apply (C75_fix (fun n => n) [[mkLink 0xe2 1 1 0 0 0; mkLink 0xe2 1 2 0 0 0; ex_c]] (mkSl 0 0 2 3) [1; 2]); [unfold sl_ok; cbn; lia|].
  right. cbn. intros l [<-|[<-|[]]]; reflexivity.
Qed.

Print Assumptions C75_write_links.
Print Assumptions C75_add_links.
Print Assumptions C75_update_links.
Print Assumptions C75_same_list_refuted.
Print Assumptions C75_fix.
Print Assumptions C75_fix_shared_refuted.
