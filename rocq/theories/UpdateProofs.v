(** Proofs about [UpdateLinks] for lists that also change flags of known links. *)
From Coq Require Import ZArith List Bool Lia ZifyBool ZifyNat.
From Verif Require Import GoBase GoLemmas GoProg Command Message Link LinkSpec LinkProofs CodecProofs MsgWriter BasicDevice DevLinkdb DeviceSpec DevLinkdbSpec DevLinkdbProofs.
Import ListNotations.
Open Scope Z_scope.
Ltac Zify.zify_post_hook ::= Z.div_mod_to_equations.

Definition unfound (ix : list (list Z * nat)) (l : link) : bool := match index_find (link_id l) ix with None => true | Some _ => false end.
Definition in_range (db : linkdb) : Prop := forall id j, index_find id (ld_index db) = Some j -> (j < length (ld_links db))%nat.

Lemma write_far : forall info db d i l, handle info d -> mirrored db d -> memory_ok (dv_slots d) -> link_wf l -> is_last l = false ->
  exists r db' d', ld_write_link (bd_mw info dev_mw) (Z.of_nat i) l (db, d) = (Ret r, (db', d')) /\ same_device d d' /\ mirrored db' d' /\ memory_ok (dv_slots d') /\
    ld_index db' = ld_index db /\ (length (ld_links db) <= length (ld_links db'))%nat /\
    (forall k, (k < length (ld_links db))%nat -> k <> i -> nth_error (ld_links db') k = nth_error (ld_links db) k).
Proof.
  intros info db d i l Hh Hm Hok Hl Hn.
  destruct (write_step_mirror info db d (Z.of_nat i) l Hh Hm Hok Hl ltac:(lia)) as (r & db' & d' & E & Hs & Hm' & Hok' & _).
  destruct (write_step info db d (Z.of_nat i) l Hh (mirrored_length _ _ Hm) Hok Hl ltac:(lia)) as (r1 & db1 & d1 & E1 & _ & _ & Hix & Hr & _).
  rewrite E in E1. injection E1 as <- <- <-.
  exists r, db', d'. split; [exact E|]. split; [exact Hs|]. split; [exact Hm'|]. split; [exact Hok'|]. split; [exact Hix|].
  destruct Hr as [(_ & H1 & H2 & H3 & H4)|(_ & -> & _)]; [|auto].
  rewrite Nat2Z.id in H4. unfold cache_after in H4. rewrite Hn in H4. unfold zlen in H1. rewrite H4. split.
  - rewrite app_length, firstn_length. cbn [length]. rewrite skipn_length. lia.
  - intros k Hk Hki. destruct (Nat.eq_dec i (length (ld_links db))) as [Ei|Ei].
    + rewrite nth_error_app1 by (rewrite firstn_length; lia). rewrite firstn_all2 by lia. reflexivity.
    + rewrite <- list_set_split' by lia. apply nth_error_list_set_neq. auto.
Qed.

Lemma update_match_any : forall info todo kept db d, handle info d -> mirrored db d -> memory_ok (dv_slots d) -> in_range db ->
  Forall link_wf todo -> Forall (fun l => is_last l = false) todo -> Forall link_wf kept ->
  exists out r db' d', ld_update_match (bd_mw info dev_mw) kept todo (db, d) = (Ret (out, r), (db', d')) /\ same_device d d' /\ mirrored db' d' /\
    memory_ok (dv_slots d') /\ Forall link_wf out /\ (length (ld_links db) <= length (ld_links db'))%nat /\
    (r = None -> out = rev kept ++ filter (unfound (ld_index db)) todo) /\
    (forall k, (k < length (ld_links db))%nat -> (length kept + length (filter (unfound (ld_index db)) todo) < k)%nat -> nth_error (ld_links db') k = nth_error (ld_links db) k).
Proof.
  intros info todo. induction todo as [|l todo IH]; intros kept db d Hh Hm Hok Hix Hl Hn Hk.
  - exists (rev kept), None, db, d. cbn [ld_update_match filter]. rewrite app_nil_r.
    split; [reflexivity|]. split; [apply same_device_refl|]. split; [exact Hm|]. split; [exact Hok|]. split; [apply Forall_rev; exact Hk|]. split; [lia|]. split; auto.
  - cbn [ld_update_match filter]. unfold pbind at 1. unfold pfst at 1, pget at 1. cbn [fst snd].
    destruct (index_find (link_id l) (ld_index db)) as [j|] eqn:Ej.
    + assert (Hu : unfound (ld_index db) l = false) by (unfold unfound; rewrite Ej; reflexivity). rewrite Hu.
      destruct (nth_error (ld_links db) j) as [old|] eqn:Eo; [|apply nth_error_None in Eo; specialize (Hix _ _ Ej); lia].
      destruct (negb (l_flags old =? l_flags l)).
      * destruct (write_far info db d (length kept) l Hh Hm Hok (Forall_inv Hl) (Forall_inv Hn)) as (r & db1 & d1 & E & Hs & Hm1 & Hok1 & Hi1 & Hlen1 & Hoth).
        unfold zlen. unfold pbind at 1. rewrite E. destruct r as [e|].
        -- exists (rev kept ++ todo), (Some e), db1, d1. split; [reflexivity|]. split; [exact Hs|]. split; [exact Hm1|]. split; [exact Hok1|].
           split; [apply Forall_app; split; [apply Forall_rev; exact Hk|exact (Forall_inv_tail Hl)]|]. split; [exact Hlen1|]. split; [discriminate|].
           intros k H1 H2. apply Hoth; lia.
        -- assert (Hix1 : in_range db1) by (intros id j1 H; rewrite Hi1 in H; specialize (Hix _ _ H); lia).
           destruct (IH kept db1 d1 (handle_same _ _ _ Hs Hh) Hm1 Hok1 Hix1 (Forall_inv_tail Hl) (Forall_inv_tail Hn) Hk)
             as (out & r2 & db2 & d2 & E2 & Hs2 & Hm2 & Hok2 & Ho2 & Hlen2 & Hsucc2 & Hfar2).
           rewrite Hi1 in Hsucc2, Hfar2. exists out, r2, db2, d2. split; [exact E2|]. split; [eapply same_device_trans; eassumption|]. split; [exact Hm2|].
           split; [exact Hok2|]. split; [exact Ho2|]. split; [lia|]. split; [exact Hsucc2|].
           intros k H1 H2. rewrite Hfar2 by lia. apply Hoth; lia.
      * unfold pbind at 1, pret at 1.
        destruct (IH kept db d Hh Hm Hok Hix (Forall_inv_tail Hl) (Forall_inv_tail Hn) Hk) as (out & r2 & db2 & d2 & E2 & H2).
        exists out, r2, db2, d2. split; [exact E2|exact H2].
    + assert (Hu : unfound (ld_index db) l = true) by (unfold unfound; rewrite Ej; reflexivity). rewrite Hu.
      destruct (IH (l :: kept) db d Hh Hm Hok Hix (Forall_inv_tail Hl) (Forall_inv_tail Hn) (Forall_cons _ (Forall_inv Hl) Hk))
        as (out & r2 & db2 & d2 & E2 & Hs2 & Hm2 & Hok2 & Ho2 & Hlen2 & Hsucc2 & Hfar2).
      exists out, r2, db2, d2. split; [exact E2|]. split; [exact Hs2|]. split; [exact Hm2|]. split; [exact Hok2|]. split; [exact Ho2|]. split; [exact Hlen2|].
      split; [intro H; rewrite (Hsucc2 H); cbn [rev]; rewrite <- app_assoc; reflexivity|]. cbn [length] in *. intros k H1 H2. apply Hfar2; lia.
Qed.

Lemma index_range : forall db, index_ok (ld_links db) (ld_index db) -> in_range db.
Proof. intros db [H _] id j E. destruct (H _ _ E) as (x & Hx & _). apply nth_error_Some. congruence. Qed.

Lemma unfound_absent : forall recs ix l, index_ok recs ix -> Forall link_wf recs -> link_wf l -> unfound ix l = absent recs l.
Proof.
  intros recs ix l [H1 H2] Hr Hl. rewrite <- (known_absent recs l Hr Hl). unfold unfound. destruct (index_find (link_id l) ix) as [j|] eqn:E.
  - destruct (H1 _ _ E) as (x & Hx & Hid). assert (K : known recs l = true).
    { apply existsb_exists. exists x. split; [exact (nth_error_In _ _ Hx)|]. unfold link_equal. rewrite Hid. apply bytes_eqb_refl. }
    rewrite K. reflexivity.
  - destruct (known recs l) eqn:K; [|reflexivity]. exfalso. apply existsb_exists in K. destruct K as (x & Hx & He).
    unfold link_equal in He. apply bytes_eqb_eq in He. apply (H2 x Hx). rewrite He. exact E.
Qed.

Lemma update_any : forall info fuel now ls db d, handle info d -> memory_ok (dv_slots d) -> existsb is_last (dv_slots d) = true -> quiet_device d ->
  ld_age db + 3600 < now -> (length (stream d 0 (dv_slots d)) < fuel)%nat -> Forall link_wf ls -> Forall (fun l => is_last l = false) ls ->
  exists r db' d', ld_update_links fuel (bd_mw info dev_mw) now ls (db, d) = (Ret r, (db', d')) /\ same_device d d' /\ memory_ok (dv_slots d') /\
    (forall k x, nth_error (below (dv_slots d)) k = Some x -> is_free x = false -> (length (filter (absent (below (dv_slots d))) ls) < k)%nat ->
       nth_error (below (dv_slots d')) k = Some x) /\
    (r = None -> forall l, In l ls -> absent (below (dv_slots d)) l = true -> In (not_last l) (below (dv_slots d'))).
Proof.
  intros info fuel now ls db d Hh Hok Hl Hq Hage Hfuel Hls Hnl. unfold ld_update_links.
  destruct (refresh_cases info fuel now db d Hh Hok Hl Hq Hage Hfuel) as (r0 & db0 & d0 & E0 & Hs0 & Hslots0 & Hm0 & Hsucc0 & _).
  unfold pbind at 1. rewrite E0. destruct r0 as [e|].
  { exists (Some e), db0, d0. split; [reflexivity|]. split; [exact Hs0|]. rewrite Hslots0. split; [exact Hok|]. split; [auto|discriminate]. }
  destruct (Hsucc0 eq_refl) as [Hlinks0 Hix0].
  assert (Hok0 : memory_ok (dv_slots d0)) by (rewrite Hslots0; exact Hok).
  assert (Hwf0 : Forall link_wf (ld_links db0)) by (exact (mirrored_wf _ _ Hm0 Hok0)).
  assert (Hnew : filter (unfound (ld_index db0)) ls = filter (absent (below (dv_slots d))) ls).
  { apply filter_ext_in'. intros l Hin. rewrite <- Hlinks0. apply unfound_absent; [exact Hix0|exact Hwf0|]. rewrite Forall_forall in Hls. apply Hls. exact Hin. }
  destruct (update_match_any info ls [] db0 d0 (handle_same _ _ _ Hs0 Hh) Hm0 Hok0 (index_range _ Hix0) Hls Hnl (Forall_nil _))
    as (out & r1 & db1 & d1 & E1 & Hs1 & Hm1 & Hok1 & Ho1 & Hlen1 & Hsucc1 & Hfar1).
  rewrite Hnew in Hsucc1, Hfar1. rewrite Hlinks0 in Hlen1, Hfar1. cbn [length rev app Nat.add] in Hsucc1, Hfar1.
  unfold pbind at 1. rewrite E1.
  assert (Hs01 : same_device d d1) by (eapply same_device_trans; eassumption).
  assert (Hkeep : forall db' d' k x, mirrored db' d' -> nth_error (ld_links db') k = Some x -> nth_error (below (dv_slots d')) k = Some x).
  { intros db' d' k x Hm' Hx. destruct (mirrored_below _ _ Hm') as (more & ->). rewrite nth_error_app1; [exact Hx|]. apply nth_error_Some. congruence. }
  assert (Hfar : forall k x, nth_error (below (dv_slots d)) k = Some x -> (length (filter (absent (below (dv_slots d))) ls) < k)%nat -> nth_error (ld_links db1) k = Some x).
  { intros k x Hx Hk. rewrite Hfar1; [exact Hx| |exact Hk]. apply nth_error_Some. congruence. }
  destruct r1 as [e|].
  { exists (Some e), db1, d1. split; [reflexivity|]. split; [exact Hs01|]. split; [exact Hok1|]. split; [|discriminate].
    intros k x Hx Hfx Hk. apply (Hkeep db1); [exact Hm1|]. apply Hfar; assumption. }
  specialize (Hsucc1 eq_refl). unfold pbind at 1. unfold pfst at 1, pget at 1. cbn [fst snd].
  destruct Hm1 as (rest & Hrest & Hnl1). assert (Ho : over rest db1 d1) by (split; assumption).
  destruct (update_fill_step info rest (length (ld_links db1)) 0 out db1 d1 (handle_same _ _ _ Hs01 Hh) Ho Hok1 Ho1 ltac:(lia))
    as (left & r2 & db2 & d2 & E2 & Hs2 & Ho2 & Hok2 & Hsucc2 & _ & Hlen2 & Hwl2 & Hkeep2).
  change (Z.of_nat 0) with 0 in E2. cbn [skipn firstn app] in Hsucc2. unfold pbind at 1. rewrite E2.
  assert (Hs02 : same_device d d2) by (eapply same_device_trans; eassumption).
  assert (Hfar2 : forall k x, nth_error (below (dv_slots d)) k = Some x -> is_free x = false -> (length (filter (absent (below (dv_slots d))) ls) < k)%nat -> nth_error (ld_links db2) k = Some x).
  { intros k x Hx Hfx Hk. apply Hkeep2; [apply Hfar; assumption|exact Hfx]. }
  pose proof (over_mirrored _ _ _ Ho2) as Hm2.
  destruct r2 as [e|].
  { exists (Some e), db2, d2. split; [reflexivity|]. split; [exact Hs02|]. split; [exact Hok2|]. split; [|discriminate].
    intros k x Hx Hfx Hk. apply (Hkeep db2); [exact Hm2|]. apply Hfar2; assumption. }
  destruct (Hsucc2 eq_refl) as [Ea Eb].
  assert (Hst : forall l, In l ls -> absent (below (dv_slots d)) l = true -> In (not_last l) (ld_links db2) \/ In l left).
  { intros l Hin Hab. rewrite Ea, Eb. apply place_stored. rewrite Hsucc1. apply filter_In. auto. }
  assert (Hinb : forall db' d' x, mirrored db' d' -> In x (ld_links db') -> In x (below (dv_slots d'))).
  { intros db' d' x Hm' Hx. destruct (mirrored_below _ _ Hm') as (more & ->). apply in_or_app. left. exact Hx. }
  destruct left as [|l0 left].
  { exists None, db2, d2. split; [reflexivity|]. split; [exact Hs02|]. split; [exact Hok2|]. split.
    - intros k x Hx Hfx Hk. apply (Hkeep db2); [exact Hm2|]. apply Hfar2; assumption.
    - intros _ l Hin Hab. destruct (Hst l Hin Hab) as [H|[]]. apply (Hinb db2); assumption. }
  unfold pbind at 1. unfold pfst at 1, pget at 1. cbn [fst snd].
  destruct (update_append_step info (l0 :: left) db2 d2 (handle_same _ _ _ Hs02 Hh) Hm2 Hok2 Hwl2)
    as (j & r3 & db3 & d3 & E3 & Hs3 & Hm3 & Hok3 & _ & Hsucc3 & (more & Hmore) & _).
  unfold pbind at 1. rewrite E3.
  assert (Hs03 : same_device d d3) by (eapply same_device_trans; eassumption).
  assert (Hfar3 : forall k x, nth_error (below (dv_slots d)) k = Some x -> is_free x = false -> (length (filter (absent (below (dv_slots d))) ls) < k)%nat -> nth_error (ld_links db3) k = Some x).
  { intros k x Hx Hfx Hk. specialize (Hfar2 k x Hx Hfx Hk). rewrite Hmore, nth_error_app1; [exact Hfar2|]. apply nth_error_Some. congruence. }
  destruct r3 as [e|].
  { exists (Some e), db3, d3. split; [reflexivity|]. split; [exact Hs03|]. split; [exact Hok3|]. split; [|discriminate].
    intros k x Hx Hfx Hk. apply (Hkeep db3); [exact Hm3|]. apply Hfar3; assumption. }
  destruct (Hsucc3 eq_refl) as [Ea3 ->].
  destruct (write_step_mirror info db3 d3 (zlen (ld_links db3)) terminator (handle_same _ _ _ Hs03 Hh) Hm3 Hok3 terminator_wf ltac:(unfold zlen; lia))
    as (r4 & db4 & d4 & E4 & Hs4 & Hm4 & Hok4 & _).
  destruct (write_step info db3 d3 (zlen (ld_links db3)) terminator (handle_same _ _ _ Hs03 Hh) (mirrored_length _ _ Hm3) Hok3 terminator_wf ltac:(unfold zlen; lia))
    as (r' & db' & d' & E' & _ & _ & _ & Hr & _).
  rewrite E4 in E'. injection E' as <- <- <-.
  assert (Hsame : ld_links db4 = ld_links db3).
  { destruct Hr as [(_ & _ & _ & _ & H)|(_ & -> & _)]; [|reflexivity]. unfold cache_after in H. rewrite terminator_last in H. rewrite H.
    apply firstn_all2. unfold zlen. lia. }
  exists r4, db4, d4. split; [exact E4|]. split; [eapply same_device_trans; eassumption|]. split; [exact Hok4|]. split.
  - intros k x Hx Hfx Hk. apply (Hkeep db4); [exact Hm4|]. rewrite Hsame. apply Hfar3; assumption.
  - intros _ l Hin Hab. apply (Hinb db4); [exact Hm4|]. rewrite Hsame, Ea3. apply in_or_app. destruct (Hst l Hin Hab) as [H|H]; [left; exact H|right; apply in_map; exact H].
Qed.

(** One known link whose flags differ: it is written over the first record. *)
Lemma update_single : forall info fuel now l db d, handle info d -> memory_ok (dv_slots d) -> existsb is_last (dv_slots d) = true -> quiet_device d ->
  ld_age db + 3600 < now -> (length (stream d 0 (dv_slots d)) < fuel)%nat -> link_wf l ->
  (exists x, In x (below (dv_slots d)) /\ same_link x l) -> (forall x, In x (below (dv_slots d)) -> same_link x l -> l_flags x <> l_flags l) ->
  (forall n, dv_fate d n = None) ->
  exists db' d', ld_update_links fuel (bd_mw info dev_mw) now [l] (db, d) = (Ret None, (db', d')) /\ same_device d d' /\
    dv_slots d' = list_set (dv_slots d) 0 l.
Proof.
  intros info fuel now l db d Hh Hok Hl Hq Hage Hfuel Hw (x & Hx & Hsx) Hdiff Hf. unfold ld_update_links.
  destruct (refresh_cases info fuel now db d Hh Hok Hl Hq Hage Hfuel) as (r0 & db0 & d0 & E0 & Hs0 & Hslots0 & Hm0 & Hsucc0 & Hfate0).
  assert (r0 = None) by (apply Hfate0; apply Hf). subst r0. destruct (Hsucc0 eq_refl) as [Hlinks0 Hix0].
  assert (Hok0 : memory_ok (dv_slots d0)) by (rewrite Hslots0; exact Hok).
  assert (Hwf0 : Forall link_wf (ld_links db0)) by (exact (mirrored_wf _ _ Hm0 Hok0)). rewrite Forall_forall in Hwf0.
  unfold pbind at 1. rewrite E0. cbn [ld_update_match]. unfold pbind at 1. unfold pbind at 1. unfold pfst at 1, pget at 1. cbn [fst snd].
  destruct Hix0 as [Hi1 Hi2]. rewrite <- Hlinks0 in Hx, Hdiff.
  assert (Eid : link_id x = link_id l) by (apply bytes_eqb_eq; apply (link_equal_iff x l (Hwf0 x Hx) Hw); exact Hsx).
  destruct (index_find (link_id l) (ld_index db0)) as [j|] eqn:Ej; [|exfalso; apply (Hi2 x Hx); rewrite Eid; exact Ej].
  destruct (Hi1 _ _ Ej) as (y & Hy & Hidy). rewrite Hy.
  assert (Hsy : same_link y l) by (apply link_equal_iff; [apply Hwf0; exact (nth_error_In _ _ Hy)|exact Hw|unfold link_equal; rewrite Hidy; apply bytes_eqb_refl]).
  specialize (Hdiff y (nth_error_In _ _ Hy) Hsy). replace (l_flags y =? l_flags l) with false by lia. cbn [negb].
  change (zlen (@nil link)) with 0.
  destruct (write_step info db0 d0 0 l (handle_same _ _ _ Hs0 Hh) (mirrored_length _ _ Hm0) Hok0 Hw ltac:(lia)) as (r & db1 & d1 & E & Hs & _ & _ & Hr & Hc).
  assert (Hne : (0 < length (ld_links db0))%nat) by (destruct (ld_links db0); [destruct Hx|cbn [length]; lia]).
  assert (Hsl : 0 < zlen (dv_slots d0)) by (pose proof (mirrored_length _ _ Hm0); unfold zlen; lia).
  assert (r = None) by (apply (Hc ltac:(unfold zlen; lia) Hsl); destruct Hs0 as (_ & _ & A & _); rewrite A; apply Hf). subst r.
  unfold pbind at 1. rewrite E. cbn [rev app]. unfold pret at 1. unfold pbind at 1. unfold pfst at 1, pget at 1. cbn [fst snd].
  destruct Hr as [(_ & _ & _ & H3 & _)|(H & _)]; [|congruence].
  assert (Efill : forall n i, (i + n = length (ld_links db1))%nat -> ld_update_fill (bd_mw info dev_mw) n (Z.of_nat i) [] (db1, d1) = (Ret ([], None), (db1, d1))).
  { intros [|n] i Hi; [reflexivity|]. cbn [ld_update_fill]. unfold pbind at 1. unfold pfst at 1, pget at 1. cbn [fst snd]. unfold pbind at 1, plift.
    destruct (nth_error (ld_links db1) i) as [z|] eqn:Ez; [|apply nth_error_None in Ez; lia].
    rewrite (go_index_in _ (ld_links db1) (Z.of_nat i) z) by (try lia; rewrite Nat2Z.id; exact Ez). reflexivity. }
  specialize (Efill (length (ld_links db1)) 0%nat eq_refl). change (Z.of_nat 0) with 0 in Efill. unfold pbind at 1. rewrite Efill.
  exists db1, d1. split; [reflexivity|]. split; [eapply same_device_trans; eassumption|]. rewrite H3, Hslots0. reflexivity.
Qed.
