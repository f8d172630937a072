(** C31-C38: link management. *)
From Coq Require Import ZArith List Bool Lia ZifyBool ZifyNat.
From Verif Require Import GoBase GoText GoLemmas GoProg Command Message MsgWriter Address AddressSpec AddressProofs Link LinkSpec LinkProofs LinkText BasicDevice DevLinkdb DeviceSpec DevLinkdbSpec DevLinkdbProofs Props_DevLinkdb.
From Verif Require Import UtilLink UtilLinkSpec UtilLinkProofs UtilLinkEditProofs UtilLinkListProofs.
Import ListNotations.
Open Scope Z_scope.
Ltac Zify.zify_post_hook ::= Z.div_mod_to_equations.

(** * C31 AddLinks.  [fill existing add]: free records filled in order, and what is left over. *)
(** Devices that only write whole databases. *)
Theorem C31_whole_list : forall W (lk : linkable W) add, lk_write_one lk = None -> adds (add_links (lk_logged lk) add) (fun e t =>
  exists ls err t', t = (lk_id lk, OLinks (ls, err)) :: t' /\ (err <> None -> e = err /\ t' = []) /\
    (err = None -> Forall link_wf ls ->
       let new := fst (fill ls add) ++ snd (fill ls add) in (new = [] -> e = None /\ t' = []) /\ (new <> [] -> t' = [(lk_id lk, OWrite new e)]))).
Proof.
  intros W lk add Hw. unfold add_links. eapply adds_weaken.
  - eapply adds_bind; [apply adds_logged|]. intros [ls [x|]].
    + instantiate (1 := fun r e t => (snd r <> None -> e = snd r /\ t = []) /\ (snd r = None -> let (n, q) := add_merge (fst r) add in (n ++ q = [] -> e = None /\ t = []) /\ (n ++ q <> [] -> t = [(lk_id lk, OWrite (n ++ q) e)]))).
      eapply adds_weaken; [apply adds_ret|]. cbn. intros e t [-> ->]. split; [auto|discriminate].
    + cbn [lk_logged lk_write_one]. rewrite Hw. cbn [snd fst]. destruct (add_merge ls add) as [n q]. destruct (n ++ q) as [|y new].
      * eapply adds_weaken; [apply adds_ret|]. cbn. intros e t [-> ->]. split; [congruence|]. intros _. split; [auto|congruence].
      * eapply adds_weaken; [apply adds_logged|]. cbn. intros e t ->. split; [congruence|]. intros _. split; [discriminate|reflexivity].
  - cbn. intros e t ([ls err] & t1 & t2 & -> & -> & H1 & H2). cbn [fst snd] in *. exists ls, err, t2. split; [reflexivity|]. split; [exact H1|]. intros He Hls.
    specialize (H2 He). rewrite (add_merge_fill ls add Hls) in H2. destruct (fill ls add) as [n q]. exact H2.
Qed.
(** A device that knows three records, one of them free, and writes whole databases only. *)
Definition ex_whole : linkable unit := mkLk 1 (pret 0x111111) (fun _ => pret None) (fun _ => pret None) (pret None) (pret ([ex_a; ex_free; ex_b], None)) (fun _ => pret None) (fun _ => pret None) None.
Example C31_whole_list_case : lk_write_one ex_whole = None /\ add_links (lk_logged ex_whole) [ex_c; mkLink 0xe2 9 5 0 0 0] (tt, []) =
  (Ret None, (tt, [(1, OLinks ([ex_a; ex_free; ex_b], None)); (1, OWrite ([ex_a; ex_c; ex_b] ++ [mkLink 0xe2 9 5 0 0 0]) None)])).
Proof. split; vm_compute; reflexivity. Qed.
(** Devices that write single records: every write goes to a free record or behind the last; when all succeed the list is as it should be. *)
Theorem C31_single_records : forall W (lk : linkable W) w add, lk_write_one lk = Some w -> adds (add_links (lk_logged lk) add) (fun e t =>
  exists ls err t', t = (lk_id lk, OLinks (ls, err)) :: t' /\ (err <> None -> e = err /\ t' = []) /\
    (err = None -> Forall link_wf ls ->
       Forall (one_write (lk_id lk)) t' /\
       (forall i l, In (i, l) (writes t') -> zlen ls <= i \/ exists k r, i = Z.of_nat k /\ nth_error ls k = Some r /\ is_free r = true) /\
       (Forall (eq None) (write_errors t') -> e = None /\ apply_writes ls (writes t') = fst (fill ls add) ++ snd (fill ls add)) /\
       (e = None -> (length (snd (fill ls add)) <= 1)%nat -> Forall (eq None) (write_errors t')))).
Proof.
  intros W lk w add Hw. unfold add_links. eapply adds_weaken.
  - eapply adds_bind; [apply adds_logged|]. intros [ls [x|]].
    + instantiate (1 := fun r e t => (snd r <> None -> e = snd r /\ t = []) /\ (snd r = None -> Forall link_wf (fst r) ->
        Forall (one_write (lk_id lk)) t /\ (forall i l, In (i, l) (writes t) -> zlen (fst r) <= i \/ exists k x, i = Z.of_nat k /\ nth_error (fst r) k = Some x /\ is_free x = true) /\
        (Forall (eq None) (write_errors t) -> e = None /\ apply_writes (fst r) (writes t) = fst (fill (fst r) add) ++ snd (fill (fst r) add)) /\
        (e = None -> (length (snd (fill (fst r) add)) <= 1)%nat -> Forall (eq None) (write_errors t)))).
      eapply adds_weaken; [apply adds_ret|]. cbn. intros e t [-> ->]. split; [auto|discriminate].
    + cbn [lk_logged lk_write_one]. rewrite Hw. cbn [snd fst]. intros wo log r wo' log' E.
      assert (Hdec : Forall link_wf ls \/ ~ Forall link_wf ls).
      { assert (D : forall l, {link_wf l} + {~ link_wf l}).
        { intro l. unfold link_wf, is_byte. repeat match goal with |- {?A /\ ?B} + {_} => let H1 := fresh in let H2 := fresh in
            assert (H1 : {A} + {~ A}); [|assert (H2 : {B} + {~ B}); [|destruct H1, H2; [left; tauto|right; tauto|right; tauto|right; tauto]]] end; (apply Z_lt_dec || apply Z_le_dec). }
        destruct (Forall_dec link_wf D ls); auto. }
      destruct Hdec as [Hls|Hnls].
      * revert wo log r wo' log' E. change (adds (do (rest, err1) <- add_fill (fun i l => logged (lk_id lk) (OWriteOne i l) (w i l)) 0 ls add;;
          match err1 with Some e => pret (Some e) | None => add_append (fun i l => logged (lk_id lk) (OWriteOne i l) (w i l)) (zlen ls) rest None end)
          (fun e t => (@None error <> None -> e = None /\ t = []) /\ (@None error = None -> Forall link_wf ls -> Forall (one_write (lk_id lk)) t /\
            (forall i l, In (i, l) (writes t) -> zlen ls <= i \/ exists k x, i = Z.of_nat k /\ nth_error ls k = Some x /\ is_free x = true) /\
            (Forall (eq None) (write_errors t) -> e = None /\ apply_writes ls (writes t) = fst (fill ls add) ++ snd (fill ls add)) /\
            (e = None -> (length (snd (fill ls add)) <= 1)%nat -> Forall (eq None) (write_errors t))))).
        eapply adds_weaken.
        -- eapply adds_bind; [apply (add_fill_trace W (lk_id lk) w ls add 0 Hls)|]. intros [rest [e1|]].
           ++ instantiate (1 := fun r e t => match snd r with Some x => e = Some x /\ t = [] | None =>
                Forall (one_write (lk_id lk)) t /\ writes t = numbered (zlen ls) (fst r) /\ length (write_errors t) = length (fst r) /\ e = last (write_errors t) None end). cbn. apply adds_ret.
           ++ cbn beta iota delta [fst snd]. apply add_append_trace.
        -- cbn beta. intros e t ([rest err1] & t1 & t2 & -> & (Hone1 & n & Hw1 & H1) & H2). cbn [fst snd] in *. split; [congruence|]. intros _ _.
           assert (Hin1 : forall i l, In (i, l) (writes t1) -> zlen ls <= i \/ exists k x, i = Z.of_nat k /\ nth_error ls k = Some x /\ is_free x = true).
           { intros i l H. rewrite Hw1 in H. assert (H' : In (i, l) (placements 0 ls add)).
             { rewrite <- (firstn_skipn n (placements 0 ls add)). apply in_or_app. left. exact H. }
             apply placements_In in H'. destruct H' as (k & x & A & B & C). right. exists k, x. cbn [fst] in A. auto. }
           assert (Hwa : writes (t1 ++ t2) = writes t1 ++ writes t2) by apply flat_map_app. assert (Hea : write_errors (t1 ++ t2) = write_errors t1 ++ write_errors t2) by apply flat_map_app.
           rewrite Hwa, Hea. destruct err1 as [x|].
           ++ destruct H2 as [-> ->]. destruct H1 as [k Hk]. rewrite !app_nil_r. split; [exact Hone1|]. split; [exact Hin1|]. split; [|discriminate].
              intro Hf. exfalso. rewrite Hk in Hf. apply Forall_app in Hf. destruct Hf as [_ Hf]. inversion Hf. discriminate.
           ++ destruct H1 as (Hp1 & -> & He1). destruct H2 as (Hone2 & Hw2 & Hl2 & ->). split; [apply Forall_app; auto|]. split; [|split].
              ** intros i l H. apply in_app_iff in H. destruct H as [H|H]; [apply Hin1 in H; exact H|]. left. rewrite Hw2 in H. apply numbered_In in H. cbn [fst] in H. lia.
              ** intro Hf. apply Forall_app in Hf. destruct Hf as [_ Hf]. split.
                 --- clear - Hf. induction Hf as [|y l Hy Hf IH]; [reflexivity|]. subst y. rewrite last_cons_app. exact IH.
                 --- rewrite apply_writes_app, Hp1, Hw2. pose proof (apply_placements ls add []) as Ha. cbn [app] in Ha. change (zlen []) with 0 in Ha. rewrite Ha.
                     replace (zlen ls) with (zlen (fst (fill ls add))) by (unfold zlen; rewrite fill_length; reflexivity). apply apply_numbered.
              ** intros He Hlen. apply Forall_app. split; [exact He1|]. destruct (write_errors t2) as [|y [|z q]]; [constructor| |cbn in Hl2; lia]. cbn in He. subst y. constructor; [reflexivity|constructor].
      * (* not bytes: nothing is claimed *)
        assert (Hadd : exists t, log' = log ++ t).
        { destruct (add_single_adds W (lk_id lk) w ls add _ _ _ _ _ E) as (t & -> & _). exists t. reflexivity. }
        destruct Hadd as [t ->]. exists t. split; [reflexivity|]. intros a _. cbn [fst snd]. split; [congruence|]. intros _ Habs. contradiction.
  - cbn. intros e t ([ls err] & t1 & t2 & -> & -> & H1 & H2). cbn [fst snd] in *. exists ls, err, t2. auto.
Qed.
(** The same with single records; the second write fails. *)
Definition ex_single : linkable unit := mkLk 1 (pret 0x111111) (fun _ => pret None) (fun _ => pret None) (pret None) (pret ([ex_a; ex_free; ex_b], None)) (fun _ => pret None) (fun _ => pret None)
  (Some (fun i _ => pret (if i =? 3 then Some EDevNak else None))).
Example C31_single_records_case : lk_write_one ex_single <> None /\ add_links (lk_logged ex_single) [ex_c; mkLink 0xe2 9 5 0 0 0] (tt, []) =
  (Ret (Some EDevNak), (tt, [(1, OLinks ([ex_a; ex_free; ex_b], None)); (1, OWriteOne 1 ex_c None); (1, OWriteOne 3 (mkLink 0xe2 9 5 0 0 0) (Some EDevNak))])).
Proof. split; [discriminate|vm_compute; reflexivity]. Qed.
(** On an ideal device, whatever is lost: every in-use record below the mark stays where it is. *)
Theorem C31_device_keeps : forall info fuel now id db d add, dv_addr d = di_addr info -> (dv_checks d = true -> di_engine info = 2) ->
  memory_ok (dv_slots d) -> existsb is_last (dv_slots d) = true -> quiet_device d -> (now <= ld_age db + 3600 -> ld_links db = below (dv_slots d)) ->
  (length (stream d 0 (dv_slots d)) < fuel)%nat -> Forall link_wf add -> Forall (fun l => is_last l = false) add ->
  exists e db' d', add_links (dev_linkable fuel dev_mw now id info) add (db, d) = (Ret e, (db', d')) /\
    (forall k x, nth_error (below (dv_slots d)) k = Some x -> is_free x = false -> nth_error (dv_slots d') k = Some x).
Proof.
  intros info fuel now id db d add Ha Hc Hok Hl Hq Hage Hfuel Hwa Hna. pose proof (conj Ha Hc : handle info d) as Hh.
  destruct (links_cases info fuel now db d Hh Hok Hl Hq Hage Hfuel) as (ls & r & db1 & d1 & E1 & Hs1 & Hsl1 & Hr1 & _).
  destruct (below_prefix (dv_slots d)) as (rest & Erest & _).
  assert (Hpre : forall k x, nth_error (below (dv_slots d)) k = Some x -> nth_error (dv_slots d) k = Some x).
  { intros k x H. rewrite Erest. rewrite nth_error_app1; [exact H|]. apply nth_error_Some. congruence. }
  unfold add_links. cbn [dev_linkable lk_links lk_write_one]. unfold pbind at 1. rewrite E1. destruct r as [x|].
  - exists (Some x), db1, d1. split; [reflexivity|]. intros k y Hy _. rewrite Hsl1. apply Hpre. exact Hy.
  - destruct (Hr1 eq_refl) as [-> Hdb1]. assert (Ho1 : over rest db1 d1) by (split; [rewrite Hsl1, Hdb1; exact Erest|rewrite Hdb1; apply below_nonlast]).
    assert (Hok1 : memory_ok (dv_slots d1)) by (rewrite Hsl1; exact Hok).
    destruct (add_fill_dev info rest (below (dv_slots d)) add 0 db1 d1 (handle_same _ _ _ Hs1 Hh) Ho1 Hok1 Hwa Hna Hdb1) as (left & r & db2 & d2 & E2 & Hs2 & Ho2 & Hok2 & Hlen2 & _ & Hin2 & Hr2 & _).
    change (Z.of_nat 0) with 0 in E2. unfold pbind at 1. rewrite E2.
    assert (Hin : forall k x, nth_error (below (dv_slots d)) k = Some x -> is_free x = false -> nth_error (dv_slots d2) k = Some x).
    { intros k x Hk Hx. destruct Ho2 as [-> _]. rewrite nth_error_app1 by (rewrite Hlen2, Hdb1; apply nth_error_Some; congruence). apply Hin2; [rewrite Hdb1; exact Hk|exact Hx]. }
    destruct r as [x|]; [exists (Some x), db2, d2; split; [reflexivity|exact Hin]|].
    destruct (Hr2 eq_refl) as [_ Hleft]. assert (Hwl : Forall link_wf left).
    { rewrite Hleft. destruct (fill_all (below (dv_slots d)) add) as (p & Hp & _). rewrite Hp in Hwa. apply Forall_app in Hwa. apply Hwa. }
    destruct (add_append_keeps info left (zlen (below (dv_slots d))) db2 d2 None (handle_same _ _ _ Hs2 (handle_same _ _ _ Hs1 Hh)) (over_mirrored _ _ _ Ho2) Hok2 Hwl (zlen_nonneg _ _)) as (r3 & db3 & d3 & E3 & _ & Hk3 & _).
    exists r3, db3, d3. split; [exact E3|]. intros k x Hk Hx. rewrite Hk3; [apply Hin; assumption|].
    assert (k < length (below (dv_slots d)))%nat by (apply nth_error_Some; congruence). unfold zlen. lia.
Qed.
(** The first write to the device is lost. *)
Example C31_device_keeps_case : let d := mkDev 0x112233 true [ex_a; ex_free; ex_b; ex_end; ex_end] [] 0 (fun n => if (n =? 1)%nat then Some EDevReadTimeout else None) (fun _ => []) (fun _ => []) in
  exists e db' d', add_links (dev_linkable 40 dev_mw 5000 1 ex_info) [ex_c; mkLink 0xe2 9 5 0 0 0] (linkdb_new, d) = (Ret e, (db', d')) /\
  (forall k x, nth_error [ex_a; ex_free; ex_b] k = Some x -> is_free x = false -> nth_error (dv_slots d') k = Some x).
Proof.
  intros d. apply (C31_device_keeps ex_info 40 5000 1 linkdb_new d [ex_c; mkLink 0xe2 9 5 0 0 0]); try (subst d; on_example).
  intros H. vm_compute in H. congruence.
Qed.
(** When nothing is lost the new links are all there.  Missing: a record appended in front of old memory (below). *)
Theorem C31_device_partial : forall info fuel now id db d add, dv_addr d = di_addr info -> (dv_checks d = true -> di_engine info = 2) ->
  memory_ok (dv_slots d) -> existsb is_last (dv_slots d) = true -> quiet_device d -> (now <= ld_age db + 3600 -> ld_links db = below (dv_slots d)) ->
  (length (stream d 0 (dv_slots d)) < fuel)%nat -> Forall link_wf add -> Forall (fun l => is_last l = false) add ->
  (forall n, dv_fate d n = None) ->
  let (kept, more) := fill (below (dv_slots d)) add in
  (more = [] \/ blank_above (dv_slots d)) -> (length kept + length more <= length (dv_slots d))%nat ->
  exists db' d', add_links (dev_linkable fuel dev_mw now id info) add (db, d) = (Ret None, (db', d')) /\ below (dv_slots d') = kept ++ more.
Proof.
  intros info fuel now id db d add Ha Hc Hok Hl Hq Hage Hfuel Hwa Hna Hf. destruct (fill (below (dv_slots d)) add) as [kept more] eqn:Efill. intros Hblank Hroom. pose proof (conj Ha Hc : handle info d) as Hh.
  destruct (links_cases info fuel now db d Hh Hok Hl Hq Hage Hfuel) as (ls & r & db1 & d1 & E1 & Hs1 & Hsl1 & Hr1 & Hf1).
  rewrite (Hf1 Hf) in *. destruct (Hr1 eq_refl) as [-> Hdb1]. destruct (below_prefix (dv_slots d)) as (rest & Erest & Hrest).
  assert (Ho1 : over rest db1 d1) by (split; [rewrite Hsl1, Hdb1; exact Erest|rewrite Hdb1; apply below_nonlast]).
  assert (Hok1 : memory_ok (dv_slots d1)) by (rewrite Hsl1; exact Hok). assert (Hfd1 : forall n, dv_fate d1 n = None) by (intro n; destruct Hs1 as (_ & _ & -> & _); apply Hf).
  unfold add_links. cbn [dev_linkable lk_links lk_write_one]. unfold pbind at 1. rewrite E1.
  destruct (add_fill_dev info rest (below (dv_slots d)) add 0 db1 d1 (handle_same _ _ _ Hs1 Hh) Ho1 Hok1 Hwa Hna Hdb1) as (left & r2 & db2 & d2 & E2 & Hs2 & Ho2 & Hok2 & Hlen2 & _ & _ & Hr2 & Hf2).
  change (Z.of_nat 0) with 0 in E2. unfold pbind at 1. rewrite E2. rewrite (Hf2 Hfd1) in *. destruct (Hr2 eq_refl) as [Hdb2 ->]. rewrite Efill in *. cbn [firstn fst snd app] in *.
  assert (Hkl : length kept = length (below (dv_slots d))) by (pose proof (fill_length (below (dv_slots d)) add) as H; rewrite Efill in H; exact H).
  assert (Hw : Forall link_wf more /\ Forall (fun l => is_last l = false) more).
  { destruct (fill_all (below (dv_slots d)) add) as (p & Hp & _). rewrite Efill in Hp. cbn [snd] in Hp. rewrite Hp in Hwa, Hna. apply Forall_app in Hwa, Hna. split; [apply Hwa|apply Hna]. }
  replace (zlen (below (dv_slots d))) with (zlen (ld_links db2)) by (rewrite Hdb2; unfold zlen; rewrite Hkl; reflexivity).
  destruct (add_append_dev info more rest db2 d2 None (handle_same _ _ _ Hs2 (handle_same _ _ _ Hs1 Hh)) Ho2 Hok2 (proj1 Hw) (proj2 Hw)) as (r3 & db3 & d3 & E3 & _ & Ho3 & _ & Hl3 & Hr3).
  { assert (length (dv_slots d) = length (below (dv_slots d)) + length rest)%nat by (rewrite Erest at 1; apply app_length). lia. }
  { intro n. destruct Hs2 as (_ & _ & -> & _). apply Hfd1. }
  exists db3, d3. rewrite E3. split; [f_equal; rewrite Hr3; destruct more; reflexivity|]. destruct Ho3 as [-> Hn3]. rewrite below_app by exact Hn3. rewrite Hl3, Hdb2.
  enough (Hz : below (skipn (length more) rest) = []) by (rewrite Hz; apply app_nil_r). destruct Hblank as [->|Hb]; [exact Hrest|]. apply blank_below.
  unfold blank_above in Hb. rewrite Erest in Hb at 2. rewrite skipn_app, skipn_all, Nat.sub_diag in Hb. cbn [app skipn] in Hb. apply Forall_skipn. exact Hb.
Qed.
Example C31_device_case : exists db' d', add_links (dev_linkable 40 dev_mw 5000 1 ex_info) [ex_c; mkLink 0xe2 9 5 0 0 0] (linkdb_new, ex_chatty [ex_a; ex_free; ex_b; ex_end; ex_end]) = (Ret None, (db', d')) /\
  below (dv_slots d') = [ex_a; ex_c; ex_b] ++ [mkLink 0xe2 9 5 0 0 0].
Proof.
  refine (C31_device_partial ex_info 40 5000 1 linkdb_new (ex_chatty [ex_a; ex_free; ex_b; ex_end; ex_end]) [ex_c; mkLink 0xe2 9 5 0 0 0] _ _ _ _ _ _ _ _ _ _ _ _); try on_example.
  - intros H. vm_compute in H. congruence.
  - right. on_example.
Qed.
(** An append that fails is forgotten when a later one succeeds. *)
Definition ex_world_lk (links : list link) (fails : Z -> bool) : linkable unit :=
  mkLk 1 (pret 0x112233) (fun _ => pret None) (fun _ => pret None) (pret None) (pret (links, None)) (fun _ => pret None) (fun _ => pret None)
    (Some (fun i l => pret (if fails i then Some EDevReadTimeout else None))).
Theorem C31_lost_error_refuted : exists (lk : linkable unit) add e t w, add_links (lk_logged lk) add (tt, []) = (Ret e, (w, t)) /\ e = None /\
  write_errors t = [Some EDevReadTimeout; None].
Proof. exists (ex_world_lk [ex_a] (fun i => i =? 1)), [ex_b; ex_c]. eexists _, _, _. split; [reflexivity|]. vm_compute. auto. Qed.
(** A new link whose flags lack bit 1 cuts the database off where it is written. *)
Theorem C31_cut_short_refuted : exists d l db' d', dv_slots d = [ex_free; ex_a; ex_b; ex_end] /\ bit 7 (l_flags l) = 1 /\
  add_links (dev_linkable 20 dev_mw 5000 1 ex_info) [l] (linkdb_new, d) = (Ret None, (db', d')) /\ below (dv_slots d') = [].
Proof. exists (ex_dev [ex_free; ex_a; ex_b; ex_end]), (mkLink 0x80 9 5 0 0 0). eexists _, _. split; [reflexivity|]. vm_compute. auto. Qed.
(** Appending in front of old memory brings old records back: no new mark is written. *)
Theorem C31_stale_refuted : exists d db' d', below (dv_slots d) = [ex_a] /\
  add_links (dev_linkable 20 dev_mw 5000 1 ex_info) [ex_b] (linkdb_new, d) = (Ret None, (db', d')) /\ below (dv_slots d') = [ex_a; ex_b; ex_c].
Proof. exists (ex_dev [ex_a; ex_end; ex_c; ex_end]). eexists _, _. split; [reflexivity|]. vm_compute. auto. Qed.
Example C31_ex : match add_links (dev_linkable 40 dev_mw 5000 1 ex_info) [ex_c; mkLink 0xe2 9 5 0 0 0] (linkdb_new, ex_dev [ex_a; ex_free; ex_b; ex_end; ex_end]) with
  | (r, (_, d')) => r = Ret None /\ below (dv_slots d') = [ex_a; ex_c; ex_b; mkLink 0xe2 9 5 0 0 0]
  end.
Proof. vm_compute. auto. Qed.
Print Assumptions C31_whole_list.
Print Assumptions C31_single_records.
Print Assumptions C31_device_keeps.
Print Assumptions C31_device_partial.
Print Assumptions C31_lost_error_refuted.
Print Assumptions C31_cut_short_refuted.
Print Assumptions C31_stale_refuted.

(** * C32 RemoveLinks *)
Theorem C32_whole_list : forall W (lk : linkable W) remove, lk_write_one lk = None -> Forall link_wf remove -> adds (remove_links (lk_logged lk) remove) (fun e t =>
  exists ls err t', t = (lk_id lk, OLinks (ls, err)) :: t' /\ (err <> None -> e = err /\ t' = []) /\
    (err = None -> Forall link_wf ls ->
       let gone := map made_free (filter (described remove) ls) in (gone = [] -> e = None /\ t' = []) /\ (gone <> [] -> t' = [(lk_id lk, OUpdate gone e)]))).
Proof.
  intros W lk remove Hw Hrem w log r w' log' E. unfold remove_links in E. unfold pbind at 1 in E.
  destruct (lk_links (lk_logged lk) (w, log)) as [o [w1 log1]] eqn:E1. destruct (adds_logged _ _ _ _ _ _ _ _ _ _ E1) as (t1 & -> & H1).
  destruct o as [[ls err]| |].
  2: { injection E as <- <- <-. exists t1. split; [reflexivity|discriminate]. }
  2: { injection E as <- <- <-. exists t1. split; [reflexivity|discriminate]. }
  rewrite (H1 _ eq_refl) in *. clear H1 E1. destruct err as [x|].
  - injection E as <- <- <-. eexists. split; [reflexivity|]. intros a Ha. injection Ha as <-. exists ls, (Some x), []. split; [reflexivity|]. split; [auto|discriminate].
  - cbn [lk_logged lk_write_one] in E. rewrite Hw in E. cbv beta iota in E. unfold pbind at 1 in E.
    assert (Hgen : exists t, log' = log ++ [(lk_id lk, OLinks (ls, None))] ++ t /\ (Forall link_wf ls -> forall a, r = Ret a ->
      (map made_free (filter (described remove) ls) = [] -> a = None /\ t = []) /\ (map made_free (filter (described remove) ls) <> [] -> t = [(lk_id lk, OUpdate (map made_free (filter (described remove) ls)) a)]))).
    { assert (Hany : forall ls i w, exists rl, remove_loop (W := W * trace) None i ls remove w = (Ret rl, w)).
      { clear. induction ls as [|l ls IH]; intros i w; [exists []; reflexivity|]. cbn [remove_loop]. destruct (removes remove l); [|apply IH].
        destruct (IH (i + 1) w) as [rl Hrl]. exists (with_flags rcf_set_available l :: rl). unfold pbind. rewrite Hrl. reflexivity. }
      match type of E with context [remove_loop None 0 ls remove ?s] => destruct (Hany ls 0 s) as [rl Hrl] end. rewrite Hrl in E.
      assert (Hwf : Forall link_wf ls -> rl = map made_free (filter (described remove) ls)).
      { intro Hls. rewrite (remove_loop_all _ remove Hrem ls 0 Hls) in Hrl. injection Hrl as <-. reflexivity. }
      destruct rl as [|y rl].
      - injection E as <- <- <-. exists []. split; [rewrite app_nil_r; reflexivity|]. intros Hls a Ha. injection Ha as <-. rewrite <- (Hwf Hls). split; [auto|congruence].
      - destruct (adds_logged _ _ _ _ _ _ _ _ _ _ E) as (t & -> & Ht). exists t. split; [symmetry; apply app_assoc|]. intros Hls a Ha. rewrite <- (Hwf Hls). split; [discriminate|]. intros _. apply Ht. exact Ha. }
    destruct Hgen as (t & -> & Ht). eexists. split; [reflexivity|]. intros a Ha. exists ls, None, t. split; [reflexivity|]. split; [congruence|]. intros _ Hls. apply Ht; assumption.
Qed.
(** Three records of which one is described, with other flags and data. *)
Example C32_whole_list_case : lk_write_one ex_whole = None /\ Forall link_wf [mkLink 0 2 0x0d0e0f 0 0 0] /\
  remove_links (lk_logged ex_whole) [mkLink 0 2 0x0d0e0f 0 0 0] (tt, []) =
  (Ret None, (tt, [(1, OLinks ([ex_a; ex_free; ex_b], None)); (1, OUpdate [mkLink 0x22 2 0x0d0e0f 4 5 6] None)])).
Proof. split; [reflexivity|]. split; [on_example|vm_compute; reflexivity]. Qed.
(** Single records: exactly the described ones are written, made free, in place.  Missing: the errors are not looked at (below). *)
Theorem C32_single_partial : forall W (lk : linkable W) w remove, lk_write_one lk = Some w -> Forall link_wf remove -> forall wo log e wo' log',
  remove_links (lk_logged lk) remove (wo, log) = (Ret e, (wo', log')) ->
  exists ls err t', log' = log ++ (lk_id lk, OLinks (ls, err)) :: t' /\ (err <> None -> e = err /\ t' = []) /\
    (err = None -> Forall link_wf ls -> e = None /\ Forall (one_write (lk_id lk)) t' /\ writes t' = freed remove 0 ls).
Proof.
  intros W lk w remove Hw Hrem wo log e wo' log' E. unfold remove_links in E. unfold pbind at 1 in E.
  destruct (lk_links (lk_logged lk) (wo, log)) as [o [w1 log1]] eqn:E1. destruct (adds_logged _ _ _ _ _ _ _ _ _ _ E1) as (t1 & -> & H1).
  destruct o as [[ls err]| |]; [|discriminate|discriminate]. rewrite (H1 _ eq_refl) in *. clear H1 E1. destruct err as [x|].
  - injection E as <- <- <-. exists ls, (Some x), []. split; [reflexivity|]. split; [auto|discriminate].
  - cbn [lk_logged lk_write_one] in E. rewrite Hw in E. cbv beta iota in E. unfold pbind at 1 in E.
    match type of E with context [remove_loop ?a 0 ls remove ?s] => destruct (remove_loop a 0 ls remove s) as [o [w2 log2]] eqn:E2 end.
    assert (Hq : exists t, log2 = log ++ (lk_id lk, OLinks (ls, None)) :: t /\ (forall rl, o = Ret rl -> rl = []) /\ (forall rl, o = Ret rl -> Forall link_wf ls -> Forall (one_write (lk_id lk)) t /\ writes t = freed remove 0 ls)).
    { assert (Hnil : forall ls i w0 rl w0', remove_loop (Some (fun i l => logged (lk_id lk) (OWriteOne i l) (w i l))) i ls remove w0 = (Ret rl, w0') -> rl = []).
      { clear. induction ls as [|l ls IH]; intros i w0 rl w0' H; cbn [remove_loop] in H; [injection H as <- _; reflexivity|]. destruct (removes remove l); [|eapply IH; exact H].
        unfold pbind in H. destruct (logged _ _ _ w0) as [[a| |] w0'']; [eapply IH; exact H|discriminate|discriminate]. }
      pose proof (remove_loop_quiet _ (Some (fun i l => logged (lk_id lk) (OWriteOne i l) (w i l))) remove ls 0) as Hquiet.
      destruct (Hquiet ltac:(intros i l; apply (adds_logged_inv quiet); intro; apply quiet_one; auto) _ _ _ _ _ E2) as (t & -> & _). exists t. rewrite <- app_assoc. split; [reflexivity|]. split.
      - intros rl ->. eapply Hnil. exact E2.
      - intros rl -> Hls. destruct (remove_loop_one W (lk_id lk) w remove Hrem ls 0 Hls _ _ _ _ _ E2) as (t' & Et & Ht). apply app_inv_head in Et. subst t'. destruct (Ht _ eq_refl) as (_ & A & B). auto. }
    destruct Hq as (t & -> & Hnil & Hwf). destruct o as [rl| |]; [|discriminate|discriminate]. rewrite (Hnil rl eq_refl) in *. injection E as <- <- <-.
    exists ls, None, t. split; [reflexivity|]. split; [congruence|]. intros _ Hls. split; [reflexivity|]. destruct (Hwf _ eq_refl Hls). auto.
Qed.
Example C32_single_case : lk_write_one ex_single <> None /\ Forall link_wf [mkLink 0 2 0x0d0e0f 0 0 0; ex_a] /\
  remove_links (lk_logged ex_single) [mkLink 0 2 0x0d0e0f 0 0 0; ex_a] (tt, []) =
  (Ret None, (tt, [(1, OLinks ([ex_a; ex_free; ex_b], None)); (1, OWriteOne 0 (mkLink 0x62 1 0x0a0b0c 1 2 3) None); (1, OWriteOne 2 (mkLink 0x22 2 0x0d0e0f 4 5 6) None)])).
Proof. split; [discriminate|]. split; [on_example|vm_compute; reflexivity]. Qed.
(** On an ideal device: whatever is lost, no record is harmed; when nothing is lost exactly the described ones are marked. *)
Theorem C32_device_partial : forall info fuel now id db d remove, dv_addr d = di_addr info -> (dv_checks d = true -> di_engine info = 2) ->
  memory_ok (dv_slots d) -> existsb is_last (dv_slots d) = true -> quiet_device d -> (now <= ld_age db + 3600 -> ld_links db = below (dv_slots d)) ->
  (length (stream d 0 (dv_slots d)) < fuel)%nat -> Forall link_wf remove ->
  exists e db' d', remove_links (dev_linkable fuel dev_mw now id info) remove (db, d) = (Ret e, (db', d')) /\
    (forall k x, nth_error (dv_slots d) k = Some x -> nth_error (dv_slots d') k = Some x \/ (described remove x = true /\ nth_error (dv_slots d') k = Some (made_free x))) /\
    ((forall n, dv_fate d n = None) -> e = None /\ below (dv_slots d') = map (marked remove) (below (dv_slots d))).
Proof.
  intros info fuel now id db d remove Ha Hc Hok Hl Hq Hage Hfuel Hrem. pose proof (conj Ha Hc : handle info d) as Hh.
  destruct (links_cases info fuel now db d Hh Hok Hl Hq Hage Hfuel) as (ls & r & db1 & d1 & E1 & Hs1 & Hsl1 & Hr1 & Hf1).
  unfold remove_links. cbn [dev_linkable lk_links lk_write_one]. unfold pbind at 1. rewrite E1. destruct r as [x|].
  - exists (Some x), db1, d1. split; [reflexivity|]. split; [intros k y Hy; left; rewrite Hsl1; exact Hy|]. intro Hf. discriminate (Hf1 Hf).
  - destruct (Hr1 eq_refl) as [-> Hdb1]. destruct (below_prefix (dv_slots d)) as (rest & Erest & Hrest).
    assert (Ho1 : over rest db1 d1) by (split; [rewrite Hsl1, Hdb1; exact Erest|rewrite Hdb1; apply below_nonlast]).
    assert (Hok1 : memory_ok (dv_slots d1)) by (rewrite Hsl1; exact Hok).
    destruct (remove_loop_dev info rest remove Hrem (below (dv_slots d)) 0 db1 d1 (handle_same _ _ _ Hs1 Hh) Ho1 Hok1 Hdb1) as (db2 & d2 & E2 & Hs2 & Ho2 & Hok2 & Hlen2 & _ & Hor2 & Hf2).
    change (Z.of_nat 0) with 0 in E2. exists None, db2, d2. unfold pbind at 1. rewrite E2. split; [reflexivity|]. destruct Ho2 as [Es2 Hn2]. split.
    + intros k x Hk. rewrite Es2. rewrite Erest in Hk. destruct (Nat.lt_ge_cases k (length (below (dv_slots d)))) as [Hlt|Hge].
      * rewrite nth_error_app1 in Hk by exact Hlt. rewrite nth_error_app1 by (rewrite Hlen2, Hdb1; exact Hlt). apply Hor2. rewrite Hdb1. exact Hk.
      * left. rewrite nth_error_app2 in Hk by exact Hge. rewrite nth_error_app2 by (rewrite Hlen2, Hdb1; exact Hge). rewrite Hlen2, Hdb1. exact Hk.
    + intro Hf. split; [reflexivity|]. rewrite Es2, below_app by exact Hn2. rewrite Hrest, app_nil_r. rewrite Hf2; [reflexivity|]. intro n. destruct Hs1 as (_ & _ & -> & _). apply Hf.
Qed.
Example C32_device_case : exists db' d', remove_links (dev_linkable 40 dev_mw 5000 1 ex_info) [mkLink 0 2 0x0d0e0f 0 0 0] (linkdb_new, ex_chatty [ex_a; ex_b; ex_c; ex_end]) = (Ret None, (db', d')) /\
  below (dv_slots d') = [ex_a; mkLink 0x22 2 0x0d0e0f 4 5 6; ex_c].
Proof.
  destruct (C32_device_partial ex_info 40 5000 1 linkdb_new (ex_chatty [ex_a; ex_b; ex_c; ex_end]) [mkLink 0 2 0x0d0e0f 0 0 0]) as (e & db' & d' & E & _ & Hb); try on_example.
  - intros H. vm_compute in H. congruence.
  - destruct Hb as [-> Hb]; [on_example|]. exists db', d'. split; [exact E|exact Hb].
Qed.
(** A write that fails is not reported: the record is still there. *)
Theorem C32_silent_failure_refuted : exists d db' d', dv_slots d = [ex_a; ex_b; ex_end] /\
  remove_links (dev_linkable 20 dev_mw 5000 1 ex_info) [ex_a] (linkdb_new, d) = (Ret None, (db', d')) /\ below (dv_slots d') = [ex_a; ex_b].
Proof.
  exists (mkDev 0x112233 true [ex_a; ex_b; ex_end] [] 0 (fun n => if (n =? 1)%nat then Some EDevReadTimeout else None) (fun _ => []) (fun _ => [])). eexists _, _. split; [reflexivity|]. vm_compute. auto.
Qed.
Example C32_ex : match remove_links (dev_linkable 40 dev_mw 5000 1 ex_info) [mkLink 0xff 2 0x0d0e0f 0 0 0; mkLink 0 2 0x0d0e0f 0 0 0] (linkdb_new, ex_dev [ex_a; ex_b; ex_c; ex_end]) with
  | (r, (_, d')) => r = Ret None /\ below (dv_slots d') = [ex_a; mkLink 0x22 2 0x0d0e0f 4 5 6; ex_c]
  end.
Proof. vm_compute. auto. Qed.
Print Assumptions C32_whole_list.
Print Assumptions C32_single_partial.
Print Assumptions C32_device_partial.
Print Assumptions C32_silent_failure_refuted.
