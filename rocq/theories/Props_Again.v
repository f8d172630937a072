(** C89: doing something a second time changes nothing more, or what it changes. *)
From Coq Require Import ZArith List Bool Lia ZifyBool ZifyNat.
From Verif Require Import GoBase GoLemmas GoProg Command Message MessageSpec MessageProofs Link MsgWriter Filters FiltersSpec FiltersProofs BasicDevice DeviceSpec DeviceProofs
  Database DatabaseProofs DevLinkdb DevLinkdbSpec UtilLink MemProofs Props_Filters Props_DevLinkdb.
Import ListNotations.
Open Scope Z_scope.
Ltac Zify.zify_post_hook ::= Z.div_mod_to_equations.

(** * Sending the same message again *)

Lemma padded_bytes : forall n l, bytes_ok l -> bytes_ok (padded n l).
Proof.
  intros n l H. unfold padded, bytes_ok. apply Forall_app. split; [exact H|]. apply Forall_forall. intros x Hx.
  apply repeat_spec in Hx. subst x. unfold is_byte. lia.
Qed.

Lemma outgoing_twice : forall info m, di_engine info = ver_I2Cs -> bytes_ok (m_payload m) -> (0 < length (m_payload m) <= 14)%nat ->
  outgoing info (outgoing info m) = mkMsg (m_src m) (di_addr info) fl_ExtendedDirectMessage (m_cmd m) (padded 14 (m_payload m)).
Proof.
  intros info m He Hb Hl. destruct (outgoing_checksummed info m He Hl) as (body & x & E & Eb & Ho).
  assert (Hx : is_byte x).
  { pose proof (padded_bytes 14 _ Hb) as H. rewrite E in H. apply Forall_app in H. destruct H as [_ H]. inversion H. assumption. }
  assert (Hq : forall y, length (body ++ [y]) = 14%nat) by (intro y; rewrite app_length; cbn [length]; lia).
  rewrite Ho. set (c := (- _) mod 256).
  destruct (outgoing_checksummed info (mkMsg (m_src m) (di_addr info) fl_ExtendedDirectMessage (m_cmd m) (body ++ [c])) He) as (body' & x' & E' & _ & Ho').
  { cbn [m_payload]. rewrite Hq. lia. }
  cbn [m_payload m_src m_cmd] in *. rewrite padded_full in E' by apply Hq. apply app_inj_tail in E'. destruct E' as [<- <-]. rewrite Ho', E.
  f_equal. f_equal. f_equal. unfold c, is_byte in *. set (s := sum body). lia.
Qed.

(** A device that wants no checksum is sent the same bytes again.  A device that wants one is sent the caller's bytes without one the
    second time, the padded message as it was; the third time is as the first. *)
Theorem C89_sent_again : forall info m, bytes_ok (m_payload m) -> (length (m_payload m) <= 14)%nat ->
  (di_engine info <> 2 \/ m_payload m = [] -> outgoing info (outgoing info m) = outgoing info m) /\
  (di_engine info = 2 -> m_payload m <> [] -> m_payload (outgoing info (outgoing info m)) = padded 14 (m_payload m)) /\
  outgoing info (outgoing info (outgoing info m)) = outgoing info m.
Proof.
  intros info m Hb Hl.
  assert (H1 : di_engine info <> 2 \/ m_payload m = [] -> outgoing info (outgoing info m) = outgoing info m).
  { intros H. unfold outgoing. unfold ver_I2Cs in *. destruct (di_engine info =? 2) eqn:E.
    - destruct H as [H|H]; [lia|]. rewrite H. reflexivity.
    - reflexivity. }
  assert (H2 : di_engine info = 2 -> m_payload m <> [] -> outgoing info (outgoing info m) = mkMsg (m_src m) (di_addr info) fl_ExtendedDirectMessage (m_cmd m) (padded 14 (m_payload m))).
  { intros He Hn. apply outgoing_twice; [exact He|exact Hb|]. destruct (m_payload m); [congruence|cbn [length] in *; lia]. }
  split; [exact H1|]. split; [intros He Hn; rewrite (H2 He Hn); reflexivity|].
  destruct (Z.eq_dec (di_engine info) 2) as [He|He]; [|rewrite (H1 (or_introl He)); apply H1; left; exact He].
  destruct (m_payload m) as [|b t] eqn:Ep; [rewrite H1 by (right; reflexivity); apply H1; right; reflexivity|].
  rewrite <- Ep in *. assert (Hp : (0 < length (m_payload m) <= 14)%nat) by (rewrite Ep in *; cbn [length] in *; lia).
  rewrite (H2 He) by (rewrite Ep; discriminate).
  destruct (outgoing_checksummed info m He Hp) as (body & x & E & Eb & Ho).
  pose proof (padded_length 14 (m_payload m) ltac:(lia)) as Hpl.
  destruct (outgoing_checksummed info (mkMsg (m_src m) (di_addr info) fl_ExtendedDirectMessage (m_cmd m) (padded 14 (m_payload m))) He) as (body' & x' & E' & _ & Ho').
  { cbn [m_payload]. rewrite Hpl. lia. }
  cbn [m_payload m_src m_cmd] in *. rewrite padded_full in E' by exact Hpl. rewrite E in E'. apply app_inj_tail in E'. destruct E' as [<- <-].
  rewrite Ho', Ho. reflexivity.
Qed.
Example C89_sent_again_case : let info := mkDI 0x112233 1 2 3 2 in let m := mkMsg 0 0 0 0x2e00 [1; 2; 3] in
  bytes_ok (m_payload m) /\ (length (m_payload m) <= 14)%nat /\
  m_payload (outgoing info m) = [1; 2; 3; 0; 0; 0; 0; 0; 0; 0; 0; 0; 0; 0xcc] /\
  m_payload (outgoing info (outgoing info m)) = [1; 2; 3; 0; 0; 0; 0; 0; 0; 0; 0; 0; 0; 0] /\
  outgoing info (outgoing info (outgoing info m)) = outgoing info m.
Proof.
  cbn zeta. split; [repeat constructor; unfold is_byte; lia|]. split; [cbn; lia|]. split; [reflexivity|]. split; [reflexivity|]. reflexivity.
Qed.

(** Setting the hop counts again: only the last setting counts, through any number of filters. *)
Theorem C89_hops_again : forall W (mw : mwriter W) t u m w, 0 <= t <= 3 -> 0 <= u <= 3 -> is_byte (m_flags m) ->
  mw_write (ttl_filter u (ttl_filter t mw)) m w = mw_write (ttl_filter t mw) m w.
Proof.
  intros W mw t u m w Ht Hu Hm. destruct (C23_every_byte_has_a_layout _ Hm) as (k & e & l & h & Hf).
  assert (H : ttl_message t (ttl_message u m) = ttl_message t m).
  { pose proof (ttl_flags _ _ _ _ _ _ Hf Hu) as H1. pose proof (ttl_flags _ _ _ _ _ _ H1 Ht) as (_ & _ & H2). pose proof (ttl_flags _ _ _ _ _ _ Hf Ht) as (_ & _ & H3).
    unfold ttl_message. cbn [m_src m_dst m_flags m_cmd m_payload]. rewrite H2, H3. reflexivity. }
  cbn [ttl_filter mw_write]. rewrite H. reflexivity.
Qed.
Example C89_hops_again_case : ttl_message 1 (ttl_message 3 (mkMsg 5 6 0x1a 0x1234 [7])) = ttl_message 1 (mkMsg 5 6 0x1a 0x1234 [7]) /\
  m_flags (ttl_message 1 (mkMsg 5 6 0x1a 0x1234 [7])) = 0x15 /\ m_flags (ttl_message 3 (mkMsg 5 6 0x1a 0x1234 [7])) = 0x1f /\ is_byte 0x1a.
Proof. repeat split; try reflexivity; lia. Qed.

(** * Reading the link records again *)

(** Once read, the same records come back for an hour from the moment of the reading, with nothing sent and nothing read: whatever the
    connection would do, its state stays. *)
Theorem C89_read_again : forall W (mw mw2 : mwriter W) fuel fuel2 now now2 db w ls db' w',
  ld_get_links fuel mw now (db, w) = (Ret (ls, None), (db', w')) ->
  (ld_age db + 3600 < now -> now2 <= now + 3600) -> (now <= ld_age db + 3600 -> now2 <= ld_age db + 3600) ->
  ld_get_links fuel2 mw2 now2 (db', w') = (Ret (ls, None), (db', w')).
Proof.
  intros W mw mw2 fuel fuel2 now now2 db w ls db' w' H Hn Ho.
  assert (Hl : forall d x, ld_age d + 3600 >= now2 -> ld_get_links fuel2 mw2 now2 (d, x) = (Ret (ld_links d, None), (d, x))).
  { intros d x Hd. unfold ld_get_links, ld_refresh, pbind, pfst, pget. cbn [fst snd]. unfold ld_old, max_age.
    replace (ld_age d + 3600 <? now2) with false by lia. reflexivity. }
  unfold ld_get_links in H. unfold pbind at 1 in H. destruct (ld_refresh fuel mw now (db, w)) as [[o| |] [d1 w1]] eqn:E; try discriminate.
  destruct o as [e|]; [discriminate|]. unfold pbind, pfst, pget, pret in H. cbn [fst snd] in H. injection H as <- <- <-.
  apply Hl. unfold ld_refresh in E. unfold pbind at 1 in E. unfold pfst at 1, pget at 1 in E. cbn [fst snd] in E. unfold ld_old, max_age in E.
  destruct (ld_age db + 3600 <? now) eqn:Ea; cbn [negb] in E.
  - assert (Hage : ld_age d1 = now); [|lia].
    unfold pbind at 1 in E. unfold pfst at 1, pput at 1 in E. cbn [fst snd] in E. unfold pbind at 1 in E. unfold plift at 1 in E.
    destruct (lr_marshal _) as [buf| |]; try discriminate. unfold pbind at 1 in E.
    destruct (psnd _ _) as [[[? err]| |] s2]; try discriminate. unfold pbind at 1 in E.
    destruct ((match err with Some e => pret (Some e) | None => ld_refresh_loop fuel mw 0 end) s2) as [[[e|]| |] s3]; try discriminate.
    unfold pbind, pfst, pget, pput, pret in E. cbn [fst snd] in E. injection E as <- _. reflexivity.
  - unfold pret in E. injection E as <- _. lia.
Qed.
(** Nine hundred seconds later with a connection that fails at everything. *)
Example C89_read_again_case : exists db d, ld_get_links 20 ex_mw 5000 (linkdb_new, ex_dev [ex_a; ex_b; ex_end]) = (Ret ([ex_a; ex_b], None), (db, d)) /\
  ld_get_links 0 (mkMW (pret (None, Some EDevNak)) (fun _ => ppanic)) 5900 (db, d) = (Ret ([ex_a; ex_b], None), (db, d)).
Proof.
  eexists _, _. split; [vm_compute; reflexivity|]. eapply (C89_read_again _ ex_mw _ 20 0 5000 5900 linkdb_new (ex_dev [ex_a; ex_b; ex_end])); [vm_compute; reflexivity| |];
    vm_compute; intros; congruence.
Qed.

(** * Updating the link records again *)

(** Updating with links that are all known, with the flags they have: nothing is sent and nothing changes. *)
Theorem C89_update_known : forall W (mw : mwriter W) fuel now ls db w, now <= ld_age db + 3600 ->
  Forall (fun l => exists j old, index_find (link_id l) (ld_index db) = Some j /\ nth_error (ld_links db) j = Some old /\ l_flags old = l_flags l) ls ->
  ld_update_links fuel mw now ls (db, w) = (Ret None, (db, w)).
Proof.
  intros W mw fuel now ls db w Hn Hf.
  assert (Hm : ld_update_match mw [] ls (db, w) = (Ret ([], None), (db, w))).
  { induction ls as [|l t IH]; [reflexivity|]. inversion Hf as [|? ? (j & old & Hj & Ho & Hfl) Ht]; subst. cbn [ld_update_match].
    unfold pbind at 1. unfold pfst, pget. cbn [fst snd]. rewrite Hj, Ho, Hfl, Z.eqb_refl. cbn [negb]. unfold pbind at 1, pret at 1. apply IH. exact Ht. }
  assert (Hfill : forall n i s, exists r, (forall k, (k < n)%nat -> exists x, go_index (ld_links (fst s)) (i + Z.of_nat k) = Ret x) -> ld_update_fill mw n i [] s = (Ret r, s) /\ r = ([], None)).
  { intros n i s. exists ([], None). intros Hk. destruct n as [|n']; [split; reflexivity|]. split; [|reflexivity]. cbn [ld_update_fill].
    destruct (Hk 0%nat ltac:(lia)) as (x & Ex). rewrite Z.add_0_r in Ex. destruct s as [sd sw]. unfold pbind, pfst, pget, plift. cbn [fst snd] in *. rewrite Ex. reflexivity. }
  unfold ld_update_links. unfold pbind at 1. unfold ld_refresh at 1, pbind at 1. unfold pfst at 1, pget at 1. cbn [fst snd].
  unfold ld_old, max_age. replace (ld_age db + 3600 <? now) with false by lia. cbn [negb]. unfold pret at 1.
  unfold pbind at 1. rewrite Hm. unfold pbind at 1. unfold pfst at 1, pget at 1. cbn [fst snd]. unfold pbind at 1.
  destruct (Hfill (length (ld_links db)) 0 (db, w)) as (r & Hr). destruct Hr as [Hr ->].
  - intros k Hk. cbn [fst]. destruct (nth_error (ld_links db) k) as [x|] eqn:Ek; [|apply nth_error_None in Ek; lia].
    exists x. unfold go_index. replace (_ || _) with false by (unfold zlen; lia).
    replace (Z.to_nat (0 + Z.of_nat k)) with k by lia. rewrite Ek. reflexivity.
  - rewrite Hr. reflexivity.
Qed.
Example C89_update_known_case : exists db d, ld_get_links 20 ex_mw 5000 (linkdb_new, ex_dev [ex_a; ex_b; ex_end]) = (Ret ([ex_a; ex_b], None), (db, d)) /\
  ld_update_links 20 ex_mw 5001 [ex_b; ex_a] (db, d) = (Ret None, (db, d)).
Proof.
  eexists _, _. split; [vm_compute; reflexivity|]. apply C89_update_known; [vm_compute; discriminate|].
  constructor; [|constructor; [|constructor]]; eexists _, _; (split; [vm_compute; reflexivity|]); split; vm_compute; reflexivity.
Qed.
(** Updating with a new link is not the same done twice: the index does not learn what was written, so the second update writes the link a
    second time, into a second record. *)
Theorem C89_update_again_refuted : exists db d s2 db3 d3,
  ld_get_links 20 ex_mw 5000 (linkdb_new, ex_dev [ex_a; ex_end; ex_end; ex_end]) = (Ret ([ex_a], None), (db, d)) /\
  ld_update_links 20 ex_mw 5001 [ex_b] (db, d) = (Ret None, s2) /\ below (dv_slots (snd s2)) = [ex_a; ex_b] /\
  ld_update_links 20 ex_mw 5002 [ex_b] s2 = (Ret None, (db3, d3)) /\ below (dv_slots d3) = [ex_a; ex_b; ex_b].
Proof. eexists _, _, _, _, _. split; [vm_compute; reflexivity|]. split; [vm_compute; reflexivity|]. split; [vm_compute; reflexivity|]. split; vm_compute; reflexivity. Qed.

(** The same of every connection: an update with links that are new, while no record is free, appends them and does not tell the index, so
    done twice it leaves each of them twice, in the list the library remembers as well. *)
Lemma clear_not_last : forall l, rcf_last_record (l_flags (with_flags rcf_clear_last_record l)) = false.
Proof.
  intro l. cbn [with_flags l_flags]. unfold rcf_last_record, rcf_clear_last_record, rcf_set_bit. change (Z.shiftl 1 1) with 2. rewrite Z.land_lor_distr_l.
  change (Z.land 2 2) with 2. apply Z.eqb_neq. intros H. apply Z.lor_eq_0_iff in H. lia.
Qed.
Lemma clear_available : forall l, rcf_available (l_flags (with_flags rcf_clear_last_record l)) = rcf_available (l_flags l).
Proof.
  intro l. cbn [with_flags l_flags]. unfold rcf_available, rcf_clear_last_record, rcf_set_bit. change (Z.shiftl 1 1) with 2. rewrite Z.land_lor_distr_l.
  change (Z.land 2 0x80) with 0. rewrite Z.lor_0_r. reflexivity.
Qed.
Lemma append_write : forall W (mw : mwriter W) l db w r db1 w1, rcf_last_record (l_flags l) = false ->
  ld_write_link mw (zlen (ld_links db)) l (db, w) = (Ret r, (db1, w1)) ->
  (r = None /\ db1 = set_ld_links db (ld_links db ++ [l])) \/ (r <> None /\ db1 = db).
Proof.
  intros W mw l db w r db1 w1 Hl H. unfold ld_write_link in H. unfold pbind at 1 in H. unfold pfst at 1, pget at 1 in H. cbn [fst snd] in H.
  replace (zlen (ld_links db) <? zlen (ld_links db)) with false in H by lia. unfold pbind at 1 in H. unfold plift at 1 in H.
  destruct (lr_marshal _) as [buf| |]; try discriminate. unfold pbind at 1, psnd at 1 in H. cbn [fst snd] in H.
  destruct (mw_write mw _ w) as [[[a e]| |] w2]; try discriminate. destruct e as [e|].
  - unfold pret in H. injection H as <- <- <-. right. split; [discriminate|reflexivity].
  - rewrite Hl, Z.eqb_refl in H. unfold pbind, pfst, pput, pret in H. cbn [fst snd] in H. injection H as <- <- <-. left. split; reflexivity.
Qed.
Lemma append_late : forall W (mw : mwriter W) ls i e db w, zlen (ld_links db) < i -> e <> None \/ ls <> [] ->
  exists j e', ld_update_append mw i ls e (db, w) = (Ret (j, Some e'), (db, w)).
Proof.
  intros W mw. induction ls as [|l t IH]; intros i e db w Hi He.
  - destruct e as [e|]; [|destruct He; congruence]. exists i, e. reflexivity.
  - cbn [ld_update_append]. unfold pbind at 1. unfold ld_write_link, pbind at 1. unfold pfst at 1, pget at 1. cbn [fst snd].
    replace (zlen (ld_links db) <? i) with true by lia. unfold pret at 1. apply IH; [lia|left; discriminate].
Qed.
Lemma append_exact : forall W (mw : mwriter W) ls db w j db1 w1,
  ld_update_append mw (zlen (ld_links db)) ls None (db, w) = (Ret (j, None), (db1, w1)) ->
  db1 = set_ld_links db (ld_links db ++ map (with_flags rcf_clear_last_record) ls) /\ j = zlen (ld_links db1).
Proof.
  intros W mw. induction ls as [|l t IH]; intros db w j db1 w1 H.
  - cbn [ld_update_append] in H. unfold pret in H. injection H as <- <- <-. cbn [map]. rewrite app_nil_r. destruct db. split; reflexivity.
  - cbn [ld_update_append] in H. unfold pbind at 1 in H.
    destruct (ld_write_link mw _ _ (db, w)) as [[r| |] [d2 w2]] eqn:E; try discriminate.
    apply append_write in E; [|apply clear_not_last]. destruct E as [[-> ->]|[Hr ->]].
    + replace (zlen (ld_links db) + 1) with (zlen (ld_links (set_ld_links db (ld_links db ++ [with_flags rcf_clear_last_record l])))) in H
        by (cbn [set_ld_links ld_links]; unfold zlen; rewrite app_length; cbn [length]; lia).
      apply IH in H. destruct H as [-> Hj]. split; [|exact Hj]. cbn [set_ld_links ld_links ld_age ld_index map]. rewrite <- app_assoc. reflexivity.
    + destruct (append_late W mw t (zlen (ld_links db) + 1) r db w2) as (j' & e' & E'); [lia|left; exact Hr|]. rewrite E' in H. discriminate.
Qed.
Lemma fill_none : forall W (mw : mwriter W) n i ls db w, (forall x, In x (ld_links db) -> rcf_available (l_flags x) = false) -> 0 <= i ->
  i + Z.of_nat n <= zlen (ld_links db) -> ld_update_fill mw n i ls (db, w) = (Ret (ls, None), (db, w)).
Proof.
  intros W mw. induction n as [|n IH]; intros i ls db w Hx Hi Hn; [reflexivity|]. cbn [ld_update_fill].
  unfold pbind at 1. unfold pfst at 1, pget at 1. cbn [fst snd]. unfold pbind at 1. unfold plift at 1, go_index. unfold zlen in *.
  replace (_ || _) with false by lia. destruct (nth_error (ld_links db) (Z.to_nat i)) as [x|] eqn:E; [|apply nth_error_None in E; lia].
  destruct ls as [|l t]; [reflexivity|]. rewrite (Hx x) by (apply nth_error_In in E; exact E). apply IH; [exact Hx|lia|unfold zlen; lia].
Qed.
Lemma match_none : forall W (mw : mwriter W) ls kept db w, Forall (fun l => index_find (link_id l) (ld_index db) = None) ls ->
  ld_update_match mw kept ls (db, w) = (Ret (rev kept ++ ls, None), (db, w)).
Proof.
  intros W mw. induction ls as [|l t IH]; intros kept db w H; [cbn [ld_update_match]; rewrite app_nil_r; reflexivity|].
  inversion H as [|? ? Hl Ht]; subst. cbn [ld_update_match]. unfold pbind at 1. unfold pfst at 1, pget at 1. cbn [fst snd]. rewrite Hl, IH by exact Ht.
  cbn [rev]. rewrite <- app_assoc. reflexivity.
Qed.
Theorem C89_update_new : forall W (mw : mwriter W) fuel now ls db w db1 w1, now <= ld_age db + 3600 ->
  Forall (fun l => index_find (link_id l) (ld_index db) = None) ls -> (forall x, In x (ld_links db) -> rcf_available (l_flags x) = false) ->
  ld_update_links fuel mw now ls (db, w) = (Ret None, (db1, w1)) ->
  ld_age db1 = ld_age db /\ ld_index db1 = ld_index db /\ ld_links db1 = ld_links db ++ map (with_flags rcf_clear_last_record) ls.
Proof.
  intros W mw fuel now ls db w db1 w1 Hn Hi Ha H. unfold ld_update_links in H. unfold pbind at 1 in H. unfold ld_refresh at 1, pbind at 1 in H.
  unfold pfst at 1, pget at 1 in H. cbn [fst snd] in H. unfold ld_old, max_age in H. replace (ld_age db + 3600 <? now) with false in H by lia.
  cbn [negb] in H. unfold pret at 1 in H. unfold pbind at 1 in H. rewrite match_none in H by exact Hi. cbn [rev app] in H.
  unfold pbind at 1 in H. unfold pfst at 1, pget at 1 in H. cbn [fst snd] in H. unfold pbind at 1 in H.
  rewrite fill_none in H by (try exact Ha; unfold zlen; lia). destruct ls as [|l t].
  - unfold pret in H. injection H as <- _. cbn [map]. rewrite app_nil_r. auto.
  - unfold pbind at 1 in H. unfold pfst at 1, pget at 1 in H. cbn [fst snd] in H. unfold pbind at 1 in H.
    destruct (ld_update_append mw _ (l :: t) None (db, w)) as [[[j [e|]]| |] [d2 w2]] eqn:E; try discriminate.
    apply append_exact in E. destruct E as [-> ->]. set (d2 := set_ld_links _ _) in *.
    unfold ld_write_link in H. unfold pbind at 1 in H. unfold pfst at 1, pget at 1 in H. cbn [fst snd] in H.
    replace (zlen (ld_links d2) <? zlen (ld_links d2)) with false in H by lia. unfold pbind at 1 in H. unfold plift at 1 in H.
    destruct (lr_marshal _) as [buf| |]; try discriminate. unfold pbind at 1, psnd at 1 in H. cbn [fst snd] in H.
    destruct (mw_write mw _ w2) as [[[a [e|]]| |] w3]; try discriminate.
    change (rcf_last_record (l_flags terminator)) with true in H. cbn iota in H. unfold pret in H. injection H as <- _. unfold d2. auto.
Qed.
Theorem C89_update_twice : forall W (mw mw2 : mwriter W) fuel fuel2 now now2 ls db w db1 w1 db2 w2, now <= ld_age db + 3600 -> now2 <= ld_age db + 3600 ->
  Forall (fun l => index_find (link_id l) (ld_index db) = None /\ rcf_available (l_flags l) = false) ls ->
  (forall x, In x (ld_links db) -> rcf_available (l_flags x) = false) ->
  ld_update_links fuel mw now ls (db, w) = (Ret None, (db1, w1)) -> ld_update_links fuel2 mw2 now2 ls (db1, w1) = (Ret None, (db2, w2)) ->
  ld_links db2 = ld_links db ++ map (with_flags rcf_clear_last_record) ls ++ map (with_flags rcf_clear_last_record) ls.
Proof.
  intros W mw mw2 fuel fuel2 now now2 ls db w db1 w1 db2 w2 Hn Hn2 Hf Ha H1 H2.
  apply C89_update_new in H1; [|exact Hn| |exact Ha]; [|eapply Forall_impl; [|exact Hf]; intros l Hl; apply Hl].
  destruct H1 as (Hg & Hi & Hl). apply C89_update_new in H2.
  - destruct H2 as (_ & _ & ->). rewrite Hl, app_assoc. reflexivity.
  - lia.
  - rewrite Hi. eapply Forall_impl; [|exact Hf]. intros l Hx. apply Hx.
  - intros x Hx. rewrite Hl in Hx. apply in_app_or in Hx. destruct Hx as [Hx|Hx]; [exact (Ha x Hx)|]. apply in_map_iff in Hx. destruct Hx as (y & <- & Hy).
    rewrite clear_available. rewrite Forall_forall in Hf. apply (Hf y Hy).
Qed.
Example C89_update_twice_case : exists db d s2 s3, ld_get_links 20 ex_mw 5000 (linkdb_new, ex_dev [ex_a; ex_end; ex_end; ex_end]) = (Ret ([ex_a], None), (db, d)) /\
  5002 <= ld_age db + 3600 /\ Forall (fun l => index_find (link_id l) (ld_index db) = None /\ rcf_available (l_flags l) = false) [ex_b] /\
  (forall x, In x (ld_links db) -> rcf_available (l_flags x) = false) /\
  ld_update_links 20 ex_mw 5001 [ex_b] (db, d) = (Ret None, s2) /\ ld_update_links 20 ex_mw 5002 [ex_b] s2 = (Ret None, s3) /\ ld_links (fst s3) = [ex_a; ex_b; ex_b].
Proof.
  eexists _, _, _, _. split; [vm_compute; reflexivity|]. split; [vm_compute; discriminate|]. split; [constructor; [split; vm_compute; reflexivity|constructor]|].
  split; [intros x [<-|[]]; reflexivity|]. split; [vm_compute; reflexivity|]. split; vm_compute; reflexivity.
Qed.

(** * Saving again *)

(** After a save without error saving again does nothing, whatever the operating system would answer. *)
Theorem C89_saved_again : forall os os2 f db f' db', save_db os f db = (f', db', None) -> save_db os2 f' db' = (f', db', None).
Proof.
  intros os os2 f db f' db' H. unfold save_db, db_needs_saving in *. destruct (db_dirty db) eqn:Ed.
  - destruct (os_open os); [discriminate|]. destruct (snd (os_write os)) as [e|]; cbn [db_save] in H; [discriminate|].
    injection H as <- <-. reflexivity.
  - injection H as <- <-. rewrite Ed. reflexivity.
Qed.
Example C89_saved_again_case : exists f db, save_db (mkOS None (0%nat, None)) None (mkDB (Some [(5, mkDI 5 1 2 3 2)]) true) = (Some f, db, None) /\ f <> [] /\
  save_db (mkOS (Some EDevNak) (0%nat, None)) (Some f) db = (Some f, db, None).
Proof.
  eexists _, _. split; [reflexivity|]. split; [vm_compute; discriminate|].
  apply (C89_saved_again (mkOS None (0%nat, None)) _ None (mkDB (Some [(5, mkDI 5 1 2 3 2)]) true)). reflexivity.
Qed.

Lemma db_put_again : forall db info db1, db_put db info = Ret db1 -> db_put db1 info = Ret db1.
Proof.
  intros db info db1 H. unfold db_put in H. destruct (dinfo_eqb (fst (db_get db (di_addr info))) info) eqn:E.
  - injection H as <-. unfold db_put. rewrite E. reflexivity.
  - destruct (db_values db) as [m|]; [|discriminate]. injection H as <-. unfold db_put. rewrite db_get_mget. cbn [db_map db_values].
    rewrite mget_mset, Z.eqb_refl. cbn [fst]. assert (Hr : dinfo_eqb info info = true) by (apply dinfo_eqb_eq; reflexivity). rewrite Hr. reflexivity.
Qed.
(** Storing the same device again: nothing happens after a store without error.  After a store whose save failed the save is done again, so
    the whole database, with that device, reaches the file although the device itself is not new. *)
Theorem C89_stored_again : forall os os2 f db info f' db' e, filedb_put os f db info = Ret (f', db', e) ->
  (e = None -> filedb_put os2 f' db' info = Ret (f', db', None)) /\
  (e <> None -> os_open os2 = None -> snd (os_write os2) = None ->
     filedb_put os2 f' db' info = Ret (Some (db_marshal db'), mkDB (db_values db') false, None)).
Proof.
  intros os os2 f db info f' db' e H. unfold filedb_put in H. destruct (db_put db info) as [db1| |] eqn:E; try discriminate.
  injection H as H. pose proof (db_put_again _ _ _ E) as Ha.
  assert (Hc : e = None -> db' = db1 /\ db_dirty db1 = false \/ db' = mkDB (db_values db1) false).
  { intros ->. unfold filedb_save, save_db, db_needs_saving in H. destruct (db_dirty db1) eqn:Ed; [|left; injection H as _ <-; auto].
    right. destruct (os_open os); [discriminate|]. destruct (snd (os_write os)); cbn [db_save] in H; [discriminate|]. injection H as _ <-. reflexivity. }
  assert (Hf : e <> None -> db' = db1 /\ db_dirty db1 = true).
  { intros Hn. unfold filedb_save, save_db, db_needs_saving in H. destruct (db_dirty db1) eqn:Ed; [|injection H as _ _ <-; congruence].
    destruct (os_open os); [injection H as _ <- _; auto|]. destruct (snd (os_write os)); cbn [db_save] in H; injection H as _ <- He; subst; [auto|congruence]. }
  split.
  - intros He. destruct (Hc He) as [(-> & Hd)| ->].
    + unfold filedb_put. rewrite Ha. unfold filedb_save. rewrite Hd. reflexivity.
    + unfold filedb_put. assert (Hp : db_put (mkDB (db_values db1) false) info = Ret (mkDB (db_values db1) false)).
      { revert Ha. unfold db_put, db_get, db_map. cbn [db_values]. destruct (db_values db1) as [m|] eqn:Em.
        - destruct (dinfo_eqb _ info) eqn:Eq; [reflexivity|]. intros Ha. injection Ha as Ha. rewrite <- Ha in Em. cbn [db_values] in Em. injection Em as Em.
          exfalso. rewrite <- Em, mget_mset, Z.eqb_refl in Eq. cbn [fst] in Eq. assert (Hr : dinfo_eqb info info = true) by (apply dinfo_eqb_eq; reflexivity). congruence.
        - destruct (dinfo_eqb _ info); [reflexivity|discriminate]. }
      rewrite Hp. reflexivity.
  - intros He Ho Hw. destruct (Hf He) as (-> & Hd). unfold filedb_put. rewrite Ha. unfold filedb_save, save_db, db_needs_saving. rewrite Hd, Ho, Hw. reflexivity.
Qed.
(** The disk is full at first. *)
Example C89_stored_again_case : exists f db f2 db2,
  filedb_put (mkOS None (3%nat, Some EDevNak)) None new_memdb (mkDI 5 1 2 3 2) = Ret (f, db, Some EDevNak) /\ f = Some (firstn 3 (db_marshal db)) /\
  filedb_put (mkOS None (0%nat, None)) f db (mkDI 5 1 2 3 2) = Ret (f2, db2, None) /\ f2 = Some (db_marshal db) /\
  filedb_put (mkOS (Some EDevNak) (0%nat, None)) f2 db2 (mkDI 5 1 2 3 2) = Ret (f2, db2, None).
Proof.
  eexists _, _, _, _. split; [reflexivity|]. split; [reflexivity|]. split.
  - apply (C89_stored_again (mkOS None (3%nat, Some EDevNak)) (mkOS None (0%nat, None)) None new_memdb (mkDI 5 1 2 3 2) _ _ (Some EDevNak)); [reflexivity|discriminate|reflexivity|reflexivity].
  - split; reflexivity.
Qed.

(** * Adding links again *)

(** Adding the same link again through the library's utilities adds it again: the records are never compared. *)
Definition ex_lk89 : linkable (list link) :=
  mkLk 1 (pret 0x112233) (fun _ => pret None) (fun _ => pret None) (pret None) (fun w => (Ret (w, None), w)) (fun _ => pret None) (fun ls _ => (Ret None, ls)) None.
Theorem C89_add_again_refuted : exists l w1 w2, add_links ex_lk89 [l] [ex_a] = (Ret None, w1) /\ w1 = [ex_a; l] /\
  add_links ex_lk89 [l] w1 = (Ret None, w2) /\ w2 = [ex_a; l; l].
Proof. exists ex_b. eexists _, _. split; [vm_compute; reflexivity|]. split; [reflexivity|]. split; vm_compute; reflexivity. Qed.

(** * Completing links and removing them again *)

Lemma fill_first_split : forall m ls ls', fill_first m ls = Some ls' ->
  exists p x q, ls = p ++ x :: q /\ ls' = p ++ m :: q /\ rcf_available (l_flags x) = true /\ Forall (fun l => rcf_available (l_flags l) = false) p.
Proof.
  intros m. induction ls as [|l t IH]; intros ls' H; [discriminate|]. cbn [fill_first] in H. destruct (rcf_available (l_flags l)) eqn:E.
  - injection H as <-. exists [], l, t. auto.
  - destruct (fill_first m t) as [t'|]; [|discriminate]. injection H as <-. destruct (IH _ eq_refl) as (p & x & q & -> & -> & Hx & Hp).
    exists (l :: p), x, q. split; [reflexivity|]. split; [reflexivity|]. split; [exact Hx|]. constructor; assumption.
Qed.
Lemma missing_first_split : forall a ls m, missing_first a ls = [m] ->
  exists p l q, ls = p ++ l :: q /\ m = flip_role l /\ l_addr l = a /\ rcf_available (l_flags l) = false /\
    Forall (fun x => rcf_available (l_flags x) || negb (l_addr x =? a) = true) p.
Proof.
  intros a. induction ls as [|l t IH]; intros m H; [discriminate|]. cbn [missing_first] in H.
  destruct (rcf_available (l_flags l) || negb (l_addr l =? a)) eqn:E.
  - destruct (IH _ H) as (p & x & q & -> & Hm & Ha & Hu & Hp). exists (l :: p), x, q. repeat split; auto.
  - destruct (existsb _ t); [discriminate|]. injection H as <-. exists [], l, t. repeat split; auto; destruct (rcf_available _), (l_addr l =? a) eqn:E2; try discriminate; try reflexivity; lia.
Qed.
Lemma not_controller : forall f, rcf_controller f = false -> Z.land f 64 = 0.
Proof.
  intros f E. unfold rcf_controller in E. change 0x40 with 64 in E. apply Z.eqb_neq in E. apply Z.bits_inj'. intros n Hn. rewrite Z.land_spec, Z.bits_0.
  change 64 with (2 ^ 6). rewrite Z.pow2_bits_eqb by lia. destruct (6 =? n) eqn:E6; [|apply andb_false_r]. apply Z.eqb_eq in E6. subst n. rewrite andb_true_r.
  destruct (Z.testbit f 6) eqn:Et; [|reflexivity]. exfalso. apply E. apply Z.bits_inj'. intros n Hn'. rewrite Z.land_spec. change 64 with (2 ^ 6).
  rewrite Z.pow2_bits_eqb by lia. destruct (6 =? n) eqn:E6; [apply Z.eqb_eq in E6; subst n; rewrite Et; reflexivity|apply andb_false_r].
Qed.
Lemma flip_flags : forall l, rcf_controller (l_flags (flip_role l)) = rcf_responder (l_flags l) /\ rcf_controller (l_flags l) = rcf_responder (l_flags (flip_role l)).
Proof.
  intro l. cbn [flip_role with_flags l_flags]. destruct (rcf_controller (l_flags l)) eqn:E.
  - unfold rcf_controller, rcf_responder, rcf_set_responder, rcf_clear_bit in *. change (255 - Z.shiftl 1 6) with 191. rewrite <- !Z.land_assoc.
    change (Z.land 191 0x40) with 0. rewrite Z.land_0_r. apply Z.eqb_eq in E. rewrite E. split; reflexivity.
  - apply not_controller in E. unfold rcf_controller, rcf_responder, rcf_set_controller, rcf_set_bit. change (Z.shiftl 1 6) with 64. rewrite Z.land_lor_distr_l.
    change 0x40 with 64. rewrite E. split; reflexivity.
Qed.
Lemma missing_skip : forall a p r, Forall (fun x => rcf_available (l_flags x) || negb (l_addr x =? a) = true) p -> missing_first a (p ++ r) = missing_first a r.
Proof. intros a p r H. induction H as [|x p Hx _ IH]; [reflexivity|]. cbn [app missing_first]. rewrite Hx. exact IH. Qed.
Lemma missing_met : forall a l t x, rcf_available (l_flags l) = false -> l_addr l = a -> In x t -> crosslink_of a l x = true -> missing_first a (l :: t) = [].
Proof.
  intros a l t x Hl Ha Hx Hc. cbn [missing_first]. rewrite Hl, Ha, Z.eqb_refl. cbn [negb orb]. replace (existsb (crosslink_of a l) t) with true; [reflexivity|].
  symmetry. apply existsb_exists. exists x. auto.
Qed.
(** Completing the links with one address leaves nothing to complete. *)
Theorem C89_fixed_again : forall links a, missing_crosslinks (fix_crosslinks links [a]) [a] = [] /\
  fix_crosslinks (fix_crosslinks links [a]) [a] = fix_crosslinks links [a].
Proof.
  intros links a. assert (Hm : missing_first a (fix_crosslinks links [a]) = []).
  { unfold fix_crosslinks, missing_crosslinks. cbn [flat_map]. rewrite app_nil_r.
    destruct (missing_first a links) as [|m [|m2 ms]] eqn:E; cbn [fold_left].
    - exact E.
    - destruct (missing_first_split a links m E) as (p & l & q & -> & -> & Ha & Hu & Hp). destruct (flip_flags l) as [F1 F2].
      assert (Hlm : crosslink_of a l (flip_role l) = true) by (unfold crosslink_of; cbn [flip_role with_flags l_addr l_group]; rewrite Ha, !Z.eqb_refl, F2, Bool.eqb_reflx; reflexivity).
      assert (Hml : crosslink_of a (flip_role l) l = true) by (unfold crosslink_of; cbn [flip_role with_flags l_addr l_group]; rewrite Ha, !Z.eqb_refl; cbn [andb]; fold (flip_role l); rewrite <- F1; apply Bool.eqb_reflx).
      destruct (fill_first (flip_role l) (p ++ l :: q)) as [N|] eqn:Ef.
      + destruct (fill_first_split _ _ _ Ef) as (p' & x & q' & Es & -> & Hx & Hp'). apply app_eq_app in Es. destruct Es as (r & [[-> Er]|[-> Er]]).
        * destruct r as [|x2 r']; cbn [app] in Er; injection Er as <- ->; [congruence|].
          apply Forall_app in Hp. rewrite missing_skip by apply Hp.
          apply (missing_met a (flip_role l) _ l); [rewrite flip_in_use; exact Hu|exact Ha|apply in_or_app; right; left; reflexivity|exact Hml].
        * destruct r as [|x2 r']; cbn [app] in Er; injection Er as <- ->; [congruence|].
          rewrite <- app_assoc, missing_skip by exact Hp. cbn [app].
          apply (missing_met a l _ (flip_role l)); [exact Hu|exact Ha|apply in_or_app; right; left; reflexivity|exact Hlm].
      + rewrite <- app_assoc. rewrite missing_skip by exact Hp. cbn [app]. apply (missing_met a l _ (flip_role l)); [exact Hu|exact Ha|apply in_or_app; right; left; reflexivity|exact Hlm].
    - exfalso. clear -E. induction links as [|l t IH]; [discriminate|]. cbn [missing_first] in E. destruct (_ || _); [exact (IH E)|]. destruct (existsb _ t); discriminate. }
  assert (H : missing_crosslinks (fix_crosslinks links [a]) [a] = []) by (unfold missing_crosslinks; cbn [flat_map]; rewrite Hm; reflexivity).
  split; [exact H|]. unfold fix_crosslinks at 1. rewrite H. reflexivity.
Qed.
Example C89_fixed_again_case : let ls := [ex_free; mkLink 0xe2 1 5 0 0 0] in let fixed := fix_crosslinks ls [5] in
  missing_crosslinks ls [5] = [mkLink 0xa2 1 5 0 0 0] /\ fixed = [mkLink 0xa2 1 5 0 0 0; mkLink 0xe2 1 5 0 0 0] /\ fix_crosslinks fixed [5] = fixed.
Proof. cbn zeta. split; [reflexivity|]. split; [reflexivity|]. apply C89_fixed_again. Qed.
(** With two addresses and no free record it takes a second time to complete both. *)
Theorem C89_fixed_again_refuted : exists links, let once := fix_crosslinks links [5; 6] in let twice := fix_crosslinks once [5; 6] in
  missing_crosslinks once [5; 6] <> [] /\ twice <> once /\ missing_crosslinks twice [5; 6] = [].
Proof. exists [mkLink 0xe2 1 5 0 0 0; mkLink 0xe2 1 6 0 0 0]. cbn zeta. vm_compute. split; [discriminate|]. split; [discriminate|reflexivity]. Qed.

(** Removing links again, of a device that keeps a list and writes single records: the records concerned are written again, to what they
    are already. *)
Definition memory_lk : linkable (list link) :=
  mkLk 1 (pret 0x112233) (fun _ => pret None) (fun _ => pret None) (pret None) (fun w => (Ret (w, None), w)) (fun _ => ppanic) (fun _ => ppanic)
    (Some (fun i l w => (Ret None, list_set w (Z.to_nat i) l))).
Definition freed (remove : list link) (l : link) : link := if existsb (link_equal l) remove then with_flags rcf_set_available l else l.
Lemma remove_loop_is : forall r ls done, remove_loop (lk_write_one memory_lk) (zlen done) ls r (done ++ ls) = (Ret [], done ++ map (freed r) ls).
Proof.
  intros r. induction ls as [|l t IH]; intros done; [reflexivity|]. cbn [remove_loop map]. unfold freed at 1. unfold removes. destruct (existsb (link_equal l) r) eqn:E.
  - cbn [memory_lk lk_write_one]. unfold pbind at 1. replace (list_set (done ++ l :: t) (Z.to_nat (zlen done)) (with_flags rcf_set_available l))
      with ((done ++ [with_flags rcf_set_available l]) ++ t).
    + specialize (IH (done ++ [with_flags rcf_set_available l])). replace (zlen done + 1) with (zlen (done ++ [with_flags rcf_set_available l]))
        by (unfold zlen; rewrite app_length; cbn [length]; lia). etransitivity; [exact IH|]. rewrite <- app_assoc. reflexivity.
    + unfold zlen. rewrite Nat2Z.id. rewrite <- app_assoc. cbn [app]. clear. induction done as [|x d IHd]; [reflexivity|]. cbn [app length list_set]. rewrite <- IHd. reflexivity.
  - specialize (IH (done ++ [l])). replace (zlen done + 1) with (zlen (done ++ [l])) by (unfold zlen; rewrite app_length; cbn [length]; lia).
    rewrite <- !app_assoc in IH. exact IH.
Qed.
Lemma freed_again : forall r l, freed r (freed r l) = freed r l.
Proof.
  intros r l. unfold freed. destruct (existsb (link_equal l) r) eqn:E; [|rewrite E; reflexivity].
  assert (Hid : link_id (with_flags rcf_set_available l) = link_id l).
  { unfold link_id. cbn [with_flags l_flags l_group l_addr]. unfold rcf_set_available, rcf_clear_bit. rewrite <- Z.land_assoc. reflexivity. }
  assert (Hx : existsb (link_equal (with_flags rcf_set_available l)) r = true).
  { rewrite <- E. clear E. induction r as [|x t IH]; [reflexivity|]. cbn [existsb]. unfold link_equal at 1 3. rewrite Hid, IH. reflexivity. }
  rewrite Hx. unfold with_flags. cbn [l_flags l_group l_addr l_d0 l_d1 l_d2]. f_equal. unfold rcf_set_available, rcf_clear_bit. rewrite <- Z.land_assoc. reflexivity.
Qed.
Theorem C89_removed_again : forall remove ls, exists ls', remove_links memory_lk remove ls = (Ret None, ls') /\ ls' = map (freed remove) ls /\
  remove_links memory_lk remove ls' = (Ret None, ls').
Proof.
  assert (H : forall remove ls, remove_links memory_lk remove ls = (Ret None, map (freed remove) ls)).
  { intros remove ls. unfold remove_links. unfold pbind at 1. change (lk_links memory_lk ls) with (Ret (ls, @None error), ls). unfold pbind at 1.
    pose proof (remove_loop_is remove ls []) as E. cbn [app] in E. change (zlen []) with 0 in E. rewrite E. reflexivity. }
  intros remove ls. exists (map (freed remove) ls). split; [apply H|]. split; [reflexivity|]. rewrite H. f_equal. rewrite map_map. apply map_ext. intro l. apply freed_again.
Qed.
Example C89_removed_again_case : remove_links memory_lk [mkLink 0x40 1 0x0a0b0c 0 0 0] [ex_a; ex_b] = (Ret None, [mkLink 0x62 1 0x0a0b0c 1 2 3; ex_b]).
Proof. reflexivity. Qed.

Print Assumptions C89_sent_again.
Print Assumptions C89_hops_again.
Print Assumptions C89_read_again.
Print Assumptions C89_update_known.
Print Assumptions C89_update_again_refuted.
Print Assumptions C89_update_new.
Print Assumptions C89_update_twice.
Print Assumptions C89_saved_again.
Print Assumptions C89_stored_again.
Print Assumptions C89_add_again_refuted.
Print Assumptions C89_fixed_again.
Print Assumptions C89_fixed_again_refuted.
Print Assumptions C89_removed_again.
