(** Properties C26-C30, C51: a device's link database. *)
From Coq Require Import ZArith List Bool Lia ZifyBool ZifyNat.
From Verif Require Import GoBase GoLemmas GoProg Command Message Link LinkSpec LinkProofs CodecProofs MsgWriter BasicDevice DevLinkdb DeviceSpec DevLinkdbSpec DevLinkdbProofs UpdateProofs.
Import ListNotations.
Open Scope Z_scope.
Ltac Zify.zify_post_hook ::= Z.div_mod_to_equations.

(** The example device: address 0x112233, checksums checked, no noise. *)
Definition ex_info : dinfo := mkDI 0x112233 1 2 3 2.
Definition ex_dev (slots : list link) : device := mkDev 0x112233 true slots [] 0 (fun _ => None) (fun _ => []) (fun _ => []).
Definition ex_a : link := mkLink 0xe2 1 0x0a0b0c 1 2 3.
Definition ex_b : link := mkLink 0xa2 2 0x0d0e0f 4 5 6.
Definition ex_c : link := mkLink 0xa2 3 0x101112 7 8 9.
Definition ex_free : link := mkLink 0x62 4 0x131415 0 0 0.
Definition ex_end : link := mkLink 0 0 0 0 0 0.
Definition ex_mw := bd_mw ex_info dev_mw.

(** * C26 reading the database.  [quiet_device]: nothing else that is interleaved has the command byte 0x2f. *)
Theorem C26_reads_exactly : forall info fuel now db d recs mark rest,
  dv_addr d = di_addr info -> (dv_checks d = true -> di_engine info = 2) ->
  dv_slots d = recs ++ mark :: rest -> Forall (fun l => is_last l = false) recs -> is_last mark = true -> memory_ok (dv_slots d) ->
  quiet_device d -> ld_age db + 3600 < now -> dv_fate d (dv_count d) = None -> (length (stream d 0 (dv_slots d)) < fuel)%nat ->
  exists db' d', ld_get_links fuel (bd_mw info dev_mw) now (db, d) = (Ret (recs, None), (db', d')) /\ dv_slots d' = dv_slots d.
Proof.
  intros info fuel now db d recs mark rest Ha Hc Es Hn Hl Hok Hq Hage Hf Hfuel.
  assert (Hlast : existsb is_last (dv_slots d) = true) by (rewrite Es, existsb_app; cbn [existsb]; rewrite Hl; apply orb_true_r).
  destruct (refresh_device info fuel now db d (conj Ha Hc) Hok Hlast Hq Hage Hf Hfuel) as (ix & o & E & _).
  eexists _, _. unfold ld_get_links. unfold pbind at 1. rewrite E. unfold pbind, pfst, pget, pret. cbn [fst snd ld_links].
  replace (below (dv_slots d)) with recs by (rewrite Es; symmetry; apply below_app_last; assumption). split; reflexivity.
Qed.
(** Facts about concrete devices, for the cases below. *)
Ltac on_records := repeat (apply Forall_cons; [vm_compute; repeat split; (reflexivity || discriminate || intros [=])|]); apply Forall_nil.
Ltac on_example :=
  lazymatch goal with
  | |- memory_ok _ => split; [cbn; lia|on_records]
  | |- link_wf _ => repeat split; (reflexivity || discriminate)
  | |- same_link _ _ => repeat split; reflexivity
  | |- mirrored _ _ => fail
  | |- exists _, _ => fail
  | |- ld_write_links _ _ _ _ = _ => eassumption
  | |- ld_add_links _ _ _ _ _ = _ => eassumption
  | |- careful _ _ _ => vm_compute; repeat split; intros; try discriminate; reflexivity
  | |- quiet_device _ => intros k; split; cbn; repeat constructor; vm_compute; discriminate
  | |- Forall _ _ => on_records
  | |- blank_above _ => unfold blank_above; cbn; on_records
  | |- (_ < _)%nat => vm_compute; lia
  | |- (_ <= _)%nat => vm_compute; lia
  | |- forall _, _ => intros; reflexivity
  | |- _ /\ _ => repeat split; (reflexivity || on_records)
  | |- _ => first [reflexivity|discriminate|cbn; lia]
  end.
(** A chatty device with a message of somebody else before every response and two repetitions behind it. *)
Definition ex_chatty (slots : list link) : device := mkDev 0x112233 true slots [] 0 (fun _ => None)
  (fun _ => [mkMsg 0x998877 0x112233 0x0b 0x1100 []]) (fun _ => [([], 0x1b); ([mkMsg 1 2 3 0x1300 []], 0x17)]).
Example C26_reads_exactly_case : exists db' d', ld_get_links 40 ex_mw 5000 (linkdb_new, ex_chatty [ex_a; ex_b; ex_end; ex_c]) = (Ret ([ex_a; ex_b], None), (db', d')) /\
  dv_slots d' = [ex_a; ex_b; ex_end; ex_c].
Proof. apply (C26_reads_exactly ex_info 40 5000 linkdb_new (ex_chatty [ex_a; ex_b; ex_end; ex_c]) [ex_a; ex_b] ex_end [ex_c]); on_example. Qed.
(** A lost request is an error, and the reading ends. *)
Theorem C26_lost_request : forall info fuel now db d e, dv_addr d = di_addr info -> (dv_checks d = true -> di_engine info = 2) ->
  memory_ok (dv_slots d) -> existsb is_last (dv_slots d) = true -> quiet_device d -> ld_age db + 3600 < now -> dv_fate d (dv_count d) = Some e ->
  (length (stream d 0 (dv_slots d)) < fuel)%nat ->
  exists e' s', ld_get_links fuel (bd_mw info dev_mw) now (db, d) = (Ret ([], Some e'), s').
Proof.
  intros info fuel now db d e Ha Hc Hok Hlast Hq Hage Hf Hfuel.
  destruct (refresh_cases info fuel now db d (conj Ha Hc) Hok Hlast Hq Hage Hfuel) as (r & db' & d' & E & _ & _ & _ & _ & Hr).
  destruct r as [e'|]; [|destruct Hr as [Hr _]; rewrite Hr in Hf by reflexivity; discriminate].
  exists e', (db', d'). unfold ld_get_links. unfold pbind at 1. rewrite E. reflexivity.
Qed.
Example C26_lost_request_case : exists e' s', ld_get_links 20 ex_mw 5000
  (linkdb_new, mkDev 0x112233 true [ex_a; ex_b; ex_end] [] 3 (fun n => if (n =? 3)%nat then Some EDevNak else None) (fun _ => []) (fun _ => [])) = (Ret ([], Some e'), s').
Proof. eapply (C26_lost_request ex_info 20 5000 linkdb_new (mkDev 0x112233 true [ex_a; ex_b; ex_end] [] 3 (fun n => if (n =? 3)%nat then Some EDevNak else None) (fun _ => []) (fun _ => []))); on_example. Qed.
(** Within the hour the cache answers without any message. *)
Theorem C26_cached : forall W (mw : mwriter W) fuel now db w, now <= ld_age db + 3600 -> ld_get_links fuel mw now (db, w) = (Ret (ld_links db, None), (db, w)).
Proof.
  intros W mw fuel now db w H. unfold ld_get_links, ld_refresh, pbind, pfst, pget, pret, ld_old, max_age. cbn [fst snd].
  replace (ld_age db + 3600 <? now) with false by (symmetry; apply Z.ltb_ge; lia). reflexivity.
Qed.
Example C26_cached_case : ld_get_links 20 ex_mw 5000 (mkLdb 1400 [ex_a] [], ex_dev [ex_b; ex_end]) = (Ret ([ex_a], None), (mkLdb 1400 [ex_a] [], ex_dev [ex_b; ex_end])).
Proof. apply C26_cached. on_example. Qed.
(** A record of another device is taken as one of this device's: the sender is not looked at. *)
Theorem C26_foreign_record_refuted : exists d foreign, dv_addr d = 0x112233 /\ dv_slots d = [ex_a; ex_b; ex_end] /\
  (forall k m, In m (dv_noise d k) -> m = foreign) /\ m_src foreign <> dv_addr d /\ (forall k, dv_extra d k = []) /\
  fst (ld_get_links 20 ex_mw 5000 (linkdb_new, d)) = Ret ([ex_a; ex_c; ex_b], None).
Proof.
  exists (mkDev 0x112233 true [ex_a; ex_b; ex_end] [] 0 (fun _ => None) (fun k => match k with 1%nat => [response 0x445566 7 ex_c 0x1b] | _ => [] end) (fun _ => [])).
  exists (response 0x445566 7 ex_c 0x1b). repeat split; try (vm_compute; reflexivity).
  - intros [|[|k]] m H; cbn in H; destruct H as [H|[]] || destruct H; auto.
  - vm_compute. discriminate.
Qed.
(** A second copy of the acknowledgement ends the reading with an error. *)
Theorem C26_repeated_ack_refuted : exists d, dv_slots d = [ex_a; ex_b; ex_end] /\
  dv_noise d 0%nat = [mkMsg (dv_addr d) 0 0x27 0x2f00 []] /\
  fst (ld_get_links 20 ex_mw 5000 (linkdb_new, d)) = Ret ([], Some (EWrap EBufferTooShort)).
Proof.
  exists (mkDev 0x112233 true [ex_a; ex_b; ex_end] [] 0 (fun _ => None) (fun k => match k with O => [mkMsg 0x112233 0 0x27 0x2f00 []] | _ => [] end) (fun _ => [])).
  repeat split; vm_compute; reflexivity.
Qed.
(** A read request of somebody else on the line crashes the program. *)
Theorem C26_request_crash_refuted : exists d m, dv_slots d = [ex_a; ex_b; ex_end] /\ dv_noise d 0%nat = [m] /\
  m_payload m = [0; 0; 0x0f; 0xff; 1; 0; 0; 0; 0; 0; 0; 0; 0; 0] /\ fst (ld_get_links 20 ex_mw 5000 (linkdb_new, d)) = Panic.
Proof.
  exists (mkDev 0x112233 true [ex_a; ex_b; ex_end] [] 0 (fun _ => None)
    (fun k => match k with O => [mkMsg 0x445566 0x112233 0x1f 0x2f00 [0; 0; 0x0f; 0xff; 1; 0; 0; 0; 0; 0; 0; 0; 0; 0]] | _ => [] end) (fun _ => [])).
  eexists. split; [reflexivity|]. split; [reflexivity|]. split; vm_compute; reflexivity.
Qed.
Example C26_ex : let noisy := mkDev 0x112233 true [ex_a; ex_b; ex_end; ex_c] [] 0 (fun _ => None)
    (fun k => [mkMsg 0x998877 0x112233 0x0b 0x1100 []]) (fun k => [([], 0x1b); ([mkMsg 1 2 3 0x1300 []], 0x17)]) in
  fst (ld_get_links 40 ex_mw 5000 (linkdb_new, noisy)) = Ret ([ex_a; ex_b], None).
Proof. vm_compute. reflexivity. Qed.
Print Assumptions C26_reads_exactly.
Print Assumptions C26_lost_request.
Print Assumptions C26_cached.
Print Assumptions C26_foreign_record_refuted.
Print Assumptions C26_repeated_ack_refuted.
Print Assumptions C26_request_crash_refuted.

(** * C27 the cache and the device.  Full statement: after every history the cache is what the device holds below its mark.
    Proved for histories that never append in front of an old record ([careful]); in general the cache is a prefix. *)
Theorem C27_mirror_partial : forall info h db d, dv_addr d = di_addr info -> (dv_checks d = true -> di_engine info = 2) ->
  ld_links db = below (dv_slots d) -> memory_ok (dv_slots d) -> Forall (fun x => 0 <= fst x /\ link_wf (snd x)) h -> careful info h (db, d) ->
  exists rs db' d', run_writes info h (db, d) = (Ret rs, (db', d')) /\ length rs = length h /\ ld_links db' = below (dv_slots d').
Proof.
  intros info h db d Ha Hc Hm Hok Hf Hca.
  destruct (run_writes_mirror info h db d (conj Ha Hc) (mirror_mirrored _ _ Hm) Hok Hf) as (rs & db' & d' & E & Hl & _ & _ & _ & H).
  exists rs, db', d'. split; [exact E|]. split; [exact Hl|]. apply H; assumption.
Qed.
(** Two appends and a rewrite, with a lost message: nothing old lies behind the mark where the appends go. *)
Example C27_mirror_case : let d := mkDev 0x112233 true [ex_a; ex_end; ex_end; ex_end; ex_c] [] 0 (fun n => if (n =? 1)%nat then Some EDevReadTimeout else None) (fun _ => []) (fun _ => []) in
  exists rs db' d', run_writes ex_info [(1, ex_b); (0, ex_c); (2, ex_c)] (mkLdb 0 [ex_a] [], d) = (Ret rs, (db', d')) /\ length rs = 3%nat /\ ld_links db' = below (dv_slots d').
Proof.
  cbv zeta. apply (C27_mirror_partial ex_info [(1, ex_b); (0, ex_c); (2, ex_c)]); on_example.
Qed.
(** For a device whose memory above the mark is blank, every history of plain record writes is fine. *)
Theorem C27_mirror_blank : forall info h db d, dv_addr d = di_addr info -> (dv_checks d = true -> di_engine info = 2) ->
  ld_links db = below (dv_slots d) -> memory_ok (dv_slots d) -> blank_above (dv_slots d) ->
  Forall (fun x => 0 <= fst x /\ link_wf (snd x) /\ is_last (snd x) = false) h ->
  exists rs db' d', run_writes info h (db, d) = (Ret rs, (db', d')) /\ length rs = length h /\ ld_links db' = below (dv_slots d').
Proof.
  intros info h db d Ha Hc Hm Hok Hb Hf. apply C27_mirror_partial; auto.
  - eapply Forall_impl; [|exact Hf]. cbn. intros x (A & B & _). auto.
  - apply careful_blank; auto. split; assumption.
Qed.
Example C27_mirror_blank_case : exists rs db' d', run_writes ex_info [(1, ex_b); (2, ex_c); (1, ex_a); (9, ex_a)] (mkLdb 0 [ex_a] [], ex_dev [ex_a; ex_end; ex_end; ex_end]) = (Ret rs, (db', d')) /\
  length rs = 4%nat /\ ld_links db' = below (dv_slots d').
Proof. apply (C27_mirror_blank ex_info [(1, ex_b); (2, ex_c); (1, ex_a); (9, ex_a)]); on_example. Qed.
(** Every history, whatever is in the memory: nothing in the cache is missing on the device, at the same place. *)
Theorem C27_prefix : forall info h db d, dv_addr d = di_addr info -> (dv_checks d = true -> di_engine info = 2) ->
  ld_links db = below (dv_slots d) -> memory_ok (dv_slots d) -> Forall (fun x => 0 <= fst x /\ link_wf (snd x)) h ->
  exists rs db' d' more, run_writes info h (db, d) = (Ret rs, (db', d')) /\ length rs = length h /\ below (dv_slots d') = ld_links db' ++ more.
Proof.
  intros info h db d Ha Hc Hm Hok Hf.
  destruct (run_writes_mirror info h db d (conj Ha Hc) (mirror_mirrored _ _ Hm) Hok Hf) as (rs & db' & d' & E & Hl & Hm' & _).
  destruct (mirrored_below _ _ Hm') as (more & Hb). exists rs, db', d', more. auto.
Qed.
(** The history of C27_stale_refuted. *)
Example C27_prefix_case : exists rs db' d' more, run_writes ex_info [(0, ex_end); (0, ex_b)] (mkLdb 0 [ex_a; ex_b; ex_c] [], ex_dev [ex_a; ex_b; ex_c; ex_end]) = (Ret rs, (db', d')) /\
  length rs = 2%nat /\ below (dv_slots d') = ld_links db' ++ more.
Proof. apply (C27_prefix ex_info [(0, ex_end); (0, ex_b)]); on_example. Qed.
(** One write, from any state of the cache that fits into the memory: only its own record changes, and only if it succeeds. *)
Theorem C27_own_record_only : forall info db d i l, dv_addr d = di_addr info -> (dv_checks d = true -> di_engine info = 2) ->
  (length (ld_links db) <= length (dv_slots d))%nat -> memory_ok (dv_slots d) -> link_wf l -> 0 <= i ->
  exists r db' d', ld_write_link (bd_mw info dev_mw) i l (db, d) = (Ret r, (db', d')) /\
    (forall j, Z.of_nat j <> i -> nth_error (dv_slots d') j = nth_error (dv_slots d) j) /\
    (forall j, Z.of_nat j < i -> nth_error (ld_links db') j = nth_error (ld_links db) j) /\
    (is_last l = false -> forall j, Z.of_nat j <> i -> nth_error (ld_links db') j = nth_error (ld_links db) j) /\
    (r = None -> nth_error (dv_slots d') (Z.to_nat i) = Some l /\ i <= zlen (ld_links db)) /\
    (r <> None -> dv_slots d' = dv_slots d /\ db' = db) /\
    (zlen (ld_links db) < i -> r = Some EDevLinkIndexOutOfRange /\ d' = d).
Proof.
  intros info db d i l Ha Hc Hlen Hok Hl Hi.
  destruct (write_step info db d i l (conj Ha Hc) Hlen Hok Hl Hi) as (r & db' & d' & E & _ & _ & _ & Hr & _).
  exists r, db', d'. split; [exact E|].
  assert (Hrange : zlen (ld_links db) < i -> r = Some EDevLinkIndexOutOfRange /\ d' = d).
  { intro H. unfold ld_write_link, pbind, pfst, pget, pret in E. cbn [fst snd] in E. replace (zlen (ld_links db) <? i) with true in E by lia. injection E as <- <- <-. auto. }
  destruct Hr as [(-> & H1 & H2 & H3 & H4)|(Hne & -> & Hs)].
  - rewrite H3. split; [intros j Hj; apply nth_error_list_set_neq; lia|].
    assert (Hlt : forall j, Z.of_nat j < i -> nth_error (ld_links db') j = nth_error (ld_links db) j).
    { intros j Hj. rewrite H4. unfold cache_after. assert (Hf : nth_error (firstn (Z.to_nat i) (ld_links db)) j = nth_error (ld_links db) j).
      { rewrite <- (firstn_skipn (Z.to_nat i) (ld_links db)) at 2. rewrite nth_error_app1; [reflexivity|]. rewrite firstn_length. unfold zlen in H1. lia. }
      destruct (is_last l); [exact Hf|]. rewrite nth_error_app1; [exact Hf|]. rewrite firstn_length. unfold zlen in H1. lia. }
    split; [exact Hlt|]. split.
    + intros Hn j Hj. destruct (Z.lt_ge_cases (Z.of_nat j) i) as [Hji|Hji]; [apply Hlt; exact Hji|]. rewrite H4. unfold cache_after. rewrite Hn.
      destruct (Z.eq_dec i (zlen (ld_links db))) as [Ei|Ei].
      * assert (length (ld_links db) <= j)%nat by (unfold zlen in *; lia). rewrite (proj2 (nth_error_None (ld_links db) j)) by assumption.
        apply nth_error_None. rewrite app_length, firstn_length. cbn [length]. rewrite skipn_length. unfold zlen in *. lia.
      * rewrite <- list_set_split' by (unfold zlen in *; lia). apply nth_error_list_set_neq. lia.
    + split; [|split; [congruence|exact Hrange]]. intros _. split; [|exact H1]. apply nth_error_list_set_eq. unfold zlen in *. lia.
  - rewrite Hs. split; [auto|]. split; [auto|]. split; [auto|]. split; [congruence|]. split; [auto|exact Hrange].
Qed.
(** A cache that knows only half of the records. *)
Example C27_own_record_case : exists r db' d', ld_write_link ex_mw 1 ex_c (mkLdb 0 [ex_a] [], ex_dev [ex_a; ex_b; ex_end]) = (Ret r, (db', d')) /\
  nth_error (dv_slots d') 0 = Some ex_a /\ nth_error (dv_slots d') 2 = Some ex_end /\ (r = None -> nth_error (dv_slots d') 1 = Some ex_c).
Proof.
  destruct (C27_own_record_only ex_info (mkLdb 0 [ex_a] []) (ex_dev [ex_a; ex_b; ex_end]) 1 ex_c) as (r & db' & d' & E & Ho & _ & _ & Hn & _); try on_example.
  exists r, db', d'. split; [exact E|]. split; [apply (Ho 0%nat); discriminate|]. split; [apply (Ho 2%nat); discriminate|]. intros H. apply (Hn H).
Qed.
(** Cutting the database short and appending again brings old records back that the cache does not know. *)
Theorem C27_stale_refuted : exists d h db d', dv_slots d = [ex_a; ex_b; ex_c; ex_end] /\
  run_writes ex_info h (mkLdb 0 (below (dv_slots d)) [], d) = (Ret [None; None], (db, d')) /\ ld_links db = [ex_b] /\ below (dv_slots d') = [ex_b; ex_b; ex_c].
Proof. exists (ex_dev [ex_a; ex_b; ex_c; ex_end]), [(0, ex_end); (0, ex_b)]. eexists _, _. split; [reflexivity|]. vm_compute. auto. Qed.
(** A negative index is sent to the device before the program crashes. *)
Theorem C27_negative_index_refuted : exists i l, i < 0 /\
  fst (ld_write_link ex_mw i l (mkLdb 0 [ex_a] [], mkDev 0x112233 true [ex_a; ex_end] [] 0 (fun _ => None) (fun _ => []) (fun _ => []))) <> Panic /\
  fst (ld_write_link (mkMW (fun w => (Ret (None, None), w)) (fun m w => (Ret (None, None), w))) i l (mkLdb 0 [ex_a] [], tt)) = Panic.
Proof. exists (-1), ex_b. split; [lia|]. split; [vm_compute; discriminate|vm_compute; reflexivity]. Qed.
Example C27_ex : let d := mkDev 0x112233 true [ex_a; ex_end; ex_end; ex_end] [] 0 (fun n => if (n =? 1)%nat then Some EDevReadTimeout else None) (fun _ => []) (fun _ => []) in
  match run_writes ex_info [(1, ex_b); (0, ex_c); (2, ex_c); (5, ex_a)] (mkLdb 0 [ex_a] [], d) with
  | (rs, (db', d')) => rs = Ret [None; Some EDevReadTimeout; None; Some EDevLinkIndexOutOfRange] /\ ld_links db' = [ex_a; ex_b; ex_c] /\ below (dv_slots d') = [ex_a; ex_b; ex_c]
  end.
Proof. vm_compute. auto. Qed.
Print Assumptions C27_mirror_partial.
Print Assumptions C27_mirror_blank.
Print Assumptions C27_prefix.
Print Assumptions C27_own_record_only.
Print Assumptions C27_stale_refuted.
Print Assumptions C27_negative_index_refuted.

(** * C28 writing the whole database.  Full statement: for every previous database; proved when the cache does not hold more
    records than are written, in particular for a handle that has not read the database yet. *)
Theorem C28_write_links_partial : forall info now later fuel ls db d r db' d', dv_addr d = di_addr info -> (dv_checks d = true -> di_engine info = 2) ->
  mirrored db d -> memory_ok (dv_slots d) -> quiet_device d -> Forall link_wf ls -> (length (ld_links db) <= length ls)%nat ->
  ld_write_links (bd_mw info dev_mw) now ls (db, d) = (Ret r, (db', d')) -> r = None ->
  ld_links db' = map not_last ls /\ below (dv_slots d') = map not_last ls /\
  (3600 < later -> dv_fate d' (dv_count d') = None -> (length (stream d' 0 (dv_slots d')) < fuel)%nat ->
   fst (ld_get_links fuel (bd_mw info dev_mw) later (linkdb_new, d')) = Ret (map not_last ls, None)).
Proof.
  intros info now later fuel ls db d r db' d' Ha Hc Hm Hok Hq Hls Hlen E Hr.
  destruct (write_links_step info now ls db d (conj Ha Hc) Hm Hok Hls) as (r0 & db0 & d0 & E0 & Hs & Hm0 & Hok0 & Hsucc & _).
  rewrite E in E0. injection E0 as <- <- <-. destruct (Hsucc Hr) as (A & B & C & _). rewrite skipn_all2, app_nil_r in A by exact Hlen.
  split; [exact A|]. split; [congruence|]. intros Hlater Hf Hfuel.
  destruct (refresh_device info fuel later linkdb_new d' (handle_same _ _ _ Hs (conj Ha Hc)) Hok0 C (quiet_same _ _ Hs Hq) Hlater Hf Hfuel) as (ix & o & E1 & _).
  unfold ld_get_links. unfold pbind at 1. rewrite E1. unfold pbind, pfst, pget, pret. cbn [fst snd ld_links]. congruence.
Qed.
(** A handle that knows one of the records writes two. *)
Example C28_write_links_case : exists db' d', ld_write_links ex_mw 77 [ex_c; mkLink 0xe0 9 5 0 0 0] (mkLdb 0 [ex_a] [], ex_chatty [ex_a; ex_b; ex_free; ex_end]) = (Ret None, (db', d')) /\
  ld_links db' = [ex_c; mkLink 0xe2 9 5 0 0 0] /\ below (dv_slots d') = [ex_c; mkLink 0xe2 9 5 0 0 0].
Proof.
  destruct (ld_write_links ex_mw 77 [ex_c; mkLink 0xe0 9 5 0 0 0] (mkLdb 0 [ex_a] [], ex_chatty [ex_a; ex_b; ex_free; ex_end])) as [r [db' d']] eqn:E.
  assert (Er : r = Ret None) by (apply (f_equal fst) in E; vm_compute in E; symmetry; exact E). rewrite Er in E.
  destruct (C28_write_links_partial ex_info 77 5000 20%nat [ex_c; mkLink 0xe0 9 5 0 0 0] (mkLdb 0 [ex_a] []) (ex_chatty [ex_a; ex_b; ex_free; ex_end]) None db' d') as (H1 & H2 & _); try on_example.
  - exists [ex_b; ex_free; ex_end]. split; on_example.
  - exists db', d'. rewrite Er. auto.
Qed.
Theorem C28_fresh_handle : forall info now ls d, dv_addr d = di_addr info -> (dv_checks d = true -> di_engine info = 2) -> memory_ok (dv_slots d) -> Forall link_wf ls ->
  exists r db' d', ld_write_links (bd_mw info dev_mw) now ls (linkdb_new, d) = (Ret r, (db', d')) /\ (r = None -> below (dv_slots d') = map not_last ls) /\
    ((length ls < length (dv_slots d))%nat -> (forall n, (dv_count d <= n <= dv_count d + length ls)%nat -> dv_fate d n = None) -> r = None).
Proof.
  intros info now ls d Ha Hc Hok Hls.
  assert (Hm : mirrored linkdb_new d) by (exists (dv_slots d); split; [reflexivity|constructor]).
  destruct (write_links_step info now ls linkdb_new d (conj Ha Hc) Hm Hok Hls) as (r & db' & d' & E & _ & _ & _ & Hsucc & Hfate).
  exists r, db', d'. split; [exact E|]. split.
  - intro H. destruct (Hsucc H) as (A & B & _). rewrite B, A. cbn [linkdb_new ld_links]. rewrite skipn_nil. apply app_nil_r.
  - intros H1 H2. apply Hfate; [exact H1|cbn [linkdb_new ld_links length]; lia|exact H2].
Qed.
Example C28_fresh_handle_case : exists db' d', ld_write_links ex_mw 77 [ex_c; mkLink 0xe0 9 5 0 0 0] (linkdb_new, ex_dev [ex_a; ex_b; ex_free; ex_end]) = (Ret None, (db', d')) /\
  below (dv_slots d') = [ex_c; mkLink 0xe2 9 5 0 0 0].
Proof.
  destruct (C28_fresh_handle ex_info 77 [ex_c; mkLink 0xe0 9 5 0 0 0] (ex_dev [ex_a; ex_b; ex_free; ex_end])) as (r & db' & d' & E & Hb & Hr); try on_example.
  assert (Er : r = None) by (apply Hr; on_example). subst r. exists db', d'. split; [exact E|]. apply Hb. reflexivity.
Qed.
(** In every case: what is on the device afterwards. *)
Theorem C28_exact : forall info now ls db d r db' d', dv_addr d = di_addr info -> (dv_checks d = true -> di_engine info = 2) ->
  ld_links db = below (dv_slots d) -> memory_ok (dv_slots d) -> Forall link_wf ls ->
  ld_write_links (bd_mw info dev_mw) now ls (db, d) = (Ret r, (db', d')) -> r = None ->
  below (dv_slots d') = map not_last ls ++ skipn (length ls) (below (dv_slots d)).
Proof.
  intros info now ls db d r db' d' Ha Hc Hm Hok Hls E Hr.
  destruct (write_links_step info now ls db d (conj Ha Hc) (mirror_mirrored _ _ Hm) Hok Hls) as (r0 & db0 & d0 & E0 & _ & _ & _ & Hsucc & _).
  rewrite E in E0. injection E0 as <- <- <-. destruct (Hsucc Hr) as (A & B & _). rewrite B, A, Hm. reflexivity.
Qed.
Example C28_exact_case : exists db' d', ld_write_links ex_mw 77 [ex_c] (mkLdb 0 [ex_a; ex_b; ex_free] [], ex_dev [ex_a; ex_b; ex_free; ex_end]) = (Ret None, (db', d')) /\
  below (dv_slots d') = [ex_c] ++ [ex_b; ex_free].
Proof.
  destruct (ld_write_links ex_mw 77 [ex_c] (mkLdb 0 [ex_a; ex_b; ex_free] [], ex_dev [ex_a; ex_b; ex_free; ex_end])) as [r [db' d']] eqn:E.
  assert (Er : r = Ret None) by (apply (f_equal fst) in E; vm_compute in E; symmetry; exact E). rewrite Er in E. exists db', d'. rewrite Er. split; [reflexivity|].
  apply (C28_exact ex_info 77 [ex_c] (mkLdb 0 [ex_a; ex_b; ex_free] []) (ex_dev [ex_a; ex_b; ex_free; ex_end]) None db' d'); on_example.
Qed.
Theorem C28_shorter_list_refuted : exists d db' d', dv_slots d = [ex_a; ex_b; ex_end] /\
  ld_write_links ex_mw 0 [ex_c] (mkLdb 0 (below (dv_slots d)) [], d) = (Ret None, (db', d')) /\ below (dv_slots d') = [ex_c; ex_b].
Proof. exists (ex_dev [ex_a; ex_b; ex_end]). eexists _, _. split; [reflexivity|]. vm_compute. auto. Qed.
Example C28_ex : match ld_write_links ex_mw 77 [ex_c; mkLink 0xe0 9 5 0 0 0] (linkdb_new, ex_dev [ex_a; ex_b; ex_free; ex_end]) with
  | (r, (db', d')) => r = Ret None /\ fst (ld_get_links 20 ex_mw 5000 (linkdb_new, d')) = Ret ([ex_c; mkLink 0xe2 9 5 0 0 0], None)
  end.
Proof. vm_compute. auto. Qed.
Print Assumptions C28_write_links_partial.
Print Assumptions C28_fresh_handle.
Print Assumptions C28_exact.
Print Assumptions C28_shorter_list_refuted.

(** * C29 updating.  Full statement: a record of the same link gets the new flags in place.  That part is false (below); proved
    when the links that the database already has come with the flags that it has. *)
Theorem C29_update_partial : forall info fuel now ls db d, dv_addr d = di_addr info -> (dv_checks d = true -> di_engine info = 2) ->
  memory_ok (dv_slots d) -> existsb is_last (dv_slots d) = true -> quiet_device d ->
  ld_age db + 3600 < now -> (length (stream d 0 (dv_slots d)) < fuel)%nat -> Forall link_wf ls ->
  (forall l r, In l ls -> In r (below (dv_slots d)) -> same_link r l -> l_flags r = l_flags l) ->
  exists r db' d', ld_update_links fuel (bd_mw info dev_mw) now ls (db, d) = (Ret r, (db', d')) /\
    (* no record in use is touched, even if a write fails *)
    (forall k x, nth_error (below (dv_slots d)) k = Some x -> is_free x = false -> nth_error (below (dv_slots d')) k = Some x) /\
    (r = None ->
       (* every link that was not there is now *)
       (forall l, In l ls -> (forall x, In x (below (dv_slots d)) -> ~ same_link x l) -> In (not_last l) (below (dv_slots d'))) /\
       (* records are appended only when no free one is left *)
       let (a, b) := place (below (dv_slots d)) (filter (absent (below (dv_slots d))) ls) in
       below (dv_slots d') = a ++ map not_last b /\ length a = length (below (dv_slots d)) /\
       (b <> [] -> (length (filter is_free (below (dv_slots d))) + length b = length (filter (absent (below (dv_slots d))) ls))%nat)) /\
    ((length (below (dv_slots d)) + length ls < length (dv_slots d))%nat -> (forall n, dv_fate d n = None) -> r = None).
Proof.
  intros info fuel now ls db d Ha Hc Hok Hl Hq Hage Hfuel Hls Hsame.
  destruct (update_links_step info fuel now ls db d (conj Ha Hc) Hok Hl Hq Hage Hfuel Hls Hsame) as (r & db' & d' & E & _ & _ & Hkeep & Hsucc & Hfate).
  exists r, db', d'. split; [exact E|]. split; [exact Hkeep|]. split; [|exact Hfate]. intro Hr. specialize (Hsucc Hr).
  set (recs := below (dv_slots d)) in *. set (new := filter (absent recs) ls) in *.
  pose proof (place_length recs new) as Hlen. pose proof (place_full recs new) as Hfull. pose proof (place_stored recs new) as Hst.
  destruct (place recs new) as [a b]. cbn [fst snd] in *. split.
  - intros l Hin Habs. rewrite Hsucc. apply in_or_app.
    assert (Hnew : In l new).
    { apply filter_In. split; [exact Hin|]. apply forallb_forall. intros x Hx. destruct (same_linkb x l) eqn:Es; [|reflexivity]. exfalso. apply (Habs x Hx).
      unfold same_linkb in Es. apply andb_prop in Es. destruct Es as [Es E3]. apply andb_prop in Es. destruct Es as [E1 E2]. unfold same_link. lia. }
    destruct (Hst l Hnew) as [H|H]; [left; exact H|right; apply in_map; exact H].
  - auto.
Qed.
(** One known link with the flags it has, two new ones, one free record. *)
Example C29_update_case : exists r db' d', ld_update_links 40 ex_mw 5000 [ex_b; mkLink 0xe0 9 5 0 0 0; ex_c] (linkdb_new, ex_chatty [ex_a; ex_free; ex_b; ex_end; ex_end; ex_a]) = (Ret r, (db', d')) /\
  nth_error (below (dv_slots d')) 0 = Some ex_a /\ nth_error (below (dv_slots d')) 2 = Some ex_b.
Proof.
  destruct (C29_update_partial ex_info 40 5000 [ex_b; mkLink 0xe0 9 5 0 0 0; ex_c] linkdb_new (ex_chatty [ex_a; ex_free; ex_b; ex_end; ex_end; ex_a])) as (r & db' & d' & E & Hk & _); try on_example.
  - intros l x Hl Hx [H1 [H2 H3]]. cbn in Hl, Hx. repeat (destruct Hl as [<-|Hl]); try contradiction; repeat (destruct Hx as [<-|Hx]); try contradiction; vm_compute in H1, H2, H3 |- *; (reflexivity || discriminate).
  - exists r, db', d'. split; [exact E|]. split; [apply (Hk 0%nat); reflexivity|apply (Hk 2%nat); reflexivity].
Qed.
(** Whatever flags the known links come with (as long as none of them claims to be the last record): it does not crash, every new link is
    stored when no error is reported, and only records among the first few can be damaged, as many as there are new links and one more. *)
Theorem C29_damage_bounded : forall info fuel now ls db d, dv_addr d = di_addr info -> (dv_checks d = true -> di_engine info = 2) ->
  memory_ok (dv_slots d) -> existsb is_last (dv_slots d) = true -> quiet_device d ->
  ld_age db + 3600 < now -> (length (stream d 0 (dv_slots d)) < fuel)%nat -> Forall link_wf ls -> Forall (fun l => is_last l = false) ls ->
  exists r db' d', ld_update_links fuel (bd_mw info dev_mw) now ls (db, d) = (Ret r, (db', d')) /\
    (forall k x, nth_error (below (dv_slots d)) k = Some x -> is_free x = false -> (length (filter (absent (below (dv_slots d))) ls) < k)%nat ->
       nth_error (below (dv_slots d')) k = Some x) /\
    (r = None -> forall l, In l ls -> (forall x, In x (below (dv_slots d)) -> ~ same_link x l) -> In l (below (dv_slots d'))).
Proof.
  intros info fuel now ls db d Ha Hc Hok Hl Hq Hage Hfuel Hls Hnl.
  destruct (update_any info fuel now ls db d (conj Ha Hc) Hok Hl Hq Hage Hfuel Hls Hnl) as (r & db' & d' & E & _ & _ & Hkeep & Hst).
  exists r, db', d'. split; [exact E|]. split; [exact Hkeep|]. intros Hr l Hin Habs.
  replace l with (not_last l); [apply (Hst Hr l Hin)|].
  - apply forallb_forall. intros x Hx. destruct (same_linkb x l) eqn:Es; [|reflexivity]. exfalso. apply (Habs x Hx).
    unfold same_linkb in Es. apply andb_prop in Es. destruct Es as [Es E3]. apply andb_prop in Es. destruct Es as [E1 E2]. unfold same_link. lia.
  - rewrite Forall_forall in Hnl. specialize (Hnl l Hin). unfold is_last in Hnl. unfold not_last. destruct l as [f g a x0 x1 x2]. cbn [l_flags l_group l_addr l_d0 l_d1 l_d2] in *.
    f_equal. unfold bit in *. lia.
Qed.
(** The update of C29_ex_damage: record 3 is safe. *)
Example C29_damage_case : exists r db' d', ld_update_links 20 ex_mw 5000 [mkLink 0xe2 9 5 0 0 0; mkLink 0xb2 2 0x0d0e0f 4 5 6; mkLink 0xe2 8 5 0 0 0]
    (linkdb_new, ex_dev [ex_a; ex_b; ex_c; ex_a; ex_free; ex_end; ex_end; ex_end]) = (Ret r, (db', d')) /\ nth_error (below (dv_slots d')) 3 = Some ex_a.
Proof.
  destruct (C29_damage_bounded ex_info 20 5000 [mkLink 0xe2 9 5 0 0 0; mkLink 0xb2 2 0x0d0e0f 4 5 6; mkLink 0xe2 8 5 0 0 0] linkdb_new
    (ex_dev [ex_a; ex_b; ex_c; ex_a; ex_free; ex_end; ex_end; ex_end])) as (r & db' & d' & E & Hk & _); try on_example.
  exists r, db', d'. split; [exact E|]. apply (Hk 3%nat); on_example.
Qed.
(** A known link that comes alone with other flags is always written over the first record, wherever its record is; if it claims to be the
    last record the whole database is cut off. *)
Theorem C29_known_single : forall info fuel now l db d, dv_addr d = di_addr info -> (dv_checks d = true -> di_engine info = 2) ->
  memory_ok (dv_slots d) -> existsb is_last (dv_slots d) = true -> quiet_device d ->
  ld_age db + 3600 < now -> (length (stream d 0 (dv_slots d)) < fuel)%nat -> link_wf l ->
  (exists x, In x (below (dv_slots d)) /\ same_link x l) -> (forall x, In x (below (dv_slots d)) -> same_link x l -> l_flags x <> l_flags l) ->
  (forall n, dv_fate d n = None) ->
  exists db' d', ld_update_links fuel (bd_mw info dev_mw) now [l] (db, d) = (Ret None, (db', d')) /\
    below (dv_slots d') = if is_last l then [] else l :: tl (below (dv_slots d)).
Proof.
  intros info fuel now l db d Ha Hc Hok Hl Hq Hage Hfuel Hw Hx Hdiff Hf.
  destruct (update_single info fuel now l db d (conj Ha Hc) Hok Hl Hq Hage Hfuel Hw Hx Hdiff Hf) as (db' & d' & E & _ & Es).
  exists db', d'. split; [exact E|]. rewrite Es. destruct Hx as (x & Hx & _). destruct (dv_slots d) as [|h t]; [destruct Hx|].
  cbn [list_set below] in *. destruct (is_last l); [reflexivity|]. destruct (is_last h); [destruct Hx|reflexivity].
Qed.
Example C29_known_single_case : exists db' d', ld_update_links 20 ex_mw 5000 [mkLink 0xb2 2 0x0d0e0f 4 5 6] (linkdb_new, ex_dev [ex_a; ex_c; ex_b; ex_end]) = (Ret None, (db', d')) /\
  below (dv_slots d') = [mkLink 0xb2 2 0x0d0e0f 4 5 6; ex_c; ex_b].
Proof.
  apply (C29_known_single ex_info 20 5000 (mkLink 0xb2 2 0x0d0e0f 4 5 6) linkdb_new (ex_dev [ex_a; ex_c; ex_b; ex_end])); try on_example.
  - exists ex_b. split; [cbn; auto|on_example].
  - intros x Hx [H1 [H2 H3]]. cbn in Hx. repeat (destruct Hx as [<-|Hx]); try contradiction; vm_compute in H1, H2, H3 |- *; discriminate.
Qed.
(** New flags are written at the position of the link in the argument list, over another record. *)
Theorem C29_in_place_refuted : exists d l db' d', dv_slots d = [ex_a; ex_b; ex_end] /\ same_link ex_b l /\ l_flags l <> l_flags ex_b /\ is_free ex_a = false /\
  ld_update_links 20 ex_mw 5000 [l] (linkdb_new, d) = (Ret None, (db', d')) /\ below (dv_slots d') = [l; ex_b].
Proof.
  exists (ex_dev [ex_a; ex_b; ex_end]), (mkLink 0xb2 2 0x0d0e0f 4 5 6). eexists _, _. split; [reflexivity|]. split; [vm_compute; auto|]. split; [vm_compute; discriminate|].
  split; [reflexivity|]. vm_compute. auto.
Qed.
(** The index is not kept up to date: after the database was cut short, updating crashes. *)
Theorem C29_stale_index_refuted : exists db d s, ld_get_links 20 ex_mw 5000 (linkdb_new, ex_dev [ex_a; ex_b; ex_end]) = (Ret ([ex_a; ex_b], None), (db, d)) /\
  ld_write_link ex_mw 0 ex_end (db, d) = (Ret None, s) /\ fst (ld_update_links 20 ex_mw 5001 [ex_b] s) = Panic.
Proof. eexists _, _, _. split; [vm_compute; reflexivity|]. split; [vm_compute; reflexivity|]. vm_compute. reflexivity. Qed.
Example C29_ex : match ld_update_links 20 ex_mw 5000 [ex_b; mkLink 0xe0 9 5 0 0 0; ex_c] (linkdb_new, ex_dev [ex_a; ex_free; ex_b; ex_end; ex_end; ex_a]) with
  | (r, (db', d')) => r = Ret None /\ below (dv_slots d') = [ex_a; mkLink 0xe2 9 5 0 0 0; ex_b; ex_c]
  end.
Proof. vm_compute. auto. Qed.
(** A link that claims to be the last record empties the database. *)
Example C29_ex_cut : match ld_update_links 20 ex_mw 5000 [mkLink 0xa0 2 0x0d0e0f 4 5 6] (linkdb_new, ex_dev [ex_a; ex_b; ex_end]) with
  | (r, (db', d')) => r = Ret None /\ below (dv_slots d') = []
  end.
Proof. vm_compute. auto. Qed.
(** Two new links and one with other flags: records 0 to 2 may change, the others stay. *)
Example C29_ex_damage :
  match ld_update_links 20 ex_mw 5000 [mkLink 0xe2 9 5 0 0 0; mkLink 0xb2 2 0x0d0e0f 4 5 6; mkLink 0xe2 8 5 0 0 0] (linkdb_new, ex_dev [ex_a; ex_b; ex_c; ex_a; ex_free; ex_end; ex_end; ex_end]) with
  | (r, (db', d')) => r = Ret None /\ below (dv_slots d') = [ex_a; mkLink 0xb2 2 0x0d0e0f 4 5 6; ex_c; ex_a; mkLink 0xe2 9 5 0 0 0; mkLink 0xe2 8 5 0 0 0]
  end.
Proof. vm_compute. auto. Qed.
Print Assumptions C29_damage_bounded.
Print Assumptions C29_known_single.
Print Assumptions C29_update_partial.
Print Assumptions C29_in_place_refuted.
Print Assumptions C29_stale_index_refuted.

(** * C30 adding.  Full statement: every given link is stored.  False: as many links are dropped as there are records. *)
Theorem C30_exact : forall info fuel now add db d, dv_addr d = di_addr info -> (dv_checks d = true -> di_engine info = 2) ->
  memory_ok (dv_slots d) -> existsb is_last (dv_slots d) = true -> quiet_device d ->
  ld_age db + 3600 < now -> (length (stream d 0 (dv_slots d)) < fuel)%nat -> Forall link_wf add ->
  exists r db' d', ld_add_links fuel (bd_mw info dev_mw) now add (db, d) = (Ret r, (db', d')) /\
    (* no record is lost, even if a write fails *)
    firstn (length (below (dv_slots d))) (dv_slots d') = below (dv_slots d) /\
    (r = None -> dv_slots d' = below (dv_slots d) ++ map not_last (skipn (length (below (dv_slots d))) add) ++
                               skipn (length (below (dv_slots d)) + length (skipn (length (below (dv_slots d))) add)) (dv_slots d)) /\
    ((length (below (dv_slots d)) + length add <= length (dv_slots d))%nat -> (forall n, dv_fate d n = None) -> r = None).
Proof.
  intros info fuel now add db d Ha Hc Hok Hl Hq Hage Hfuel Hadd.
  destruct (add_links_step info fuel now add db d (conj Ha Hc) Hok Hl Hq Hage Hfuel Hadd) as (r & db' & d' & E & _ & H). exists r, db', d'. auto.
Qed.
Example C30_exact_case : exists db' d', ld_add_links 20 ex_mw 5000 [ex_b; ex_c] (linkdb_new, ex_dev [ex_a; ex_end; ex_end]) = (Ret None, (db', d')) /\ dv_slots d' = [ex_a; ex_c; ex_end].
Proof.
  destruct (C30_exact ex_info 20 5000 [ex_b; ex_c] linkdb_new (ex_dev [ex_a; ex_end; ex_end])) as (r & db' & d' & E & _ & Hd & Hr); try on_example.
  assert (Er : r = None) by (apply Hr; on_example). subst r. exists db', d'. split; [exact E|]. apply Hd. reflexivity.
Qed.
(** An empty database over blank memory: everything is stored. *)
Theorem C30_empty_partial : forall info fuel now add db d r db' d', dv_addr d = di_addr info -> (dv_checks d = true -> di_engine info = 2) ->
  memory_ok (dv_slots d) -> dv_slots d <> [] -> Forall (fun l => is_last l = true) (dv_slots d) -> quiet_device d ->
  ld_age db + 3600 < now -> (length (stream d 0 (dv_slots d)) < fuel)%nat -> Forall link_wf add ->
  ld_add_links fuel (bd_mw info dev_mw) now add (db, d) = (Ret r, (db', d')) -> r = None -> below (dv_slots d') = map not_last add.
Proof.
  intros info fuel now add db d r db' d' Ha Hc Hok Hne Hb Hq Hage Hfuel Hadd E Hr.
  assert (Hlast : existsb is_last (dv_slots d) = true) by (destruct Hb as [|x s Hx _]; [congruence|]; cbn [existsb]; rewrite Hx; reflexivity).
  destruct (add_links_step info fuel now add db d (conj Ha Hc) Hok Hlast Hq Hage Hfuel Hadd) as (r0 & db0 & d0 & E0 & _ & _ & H & _).
  rewrite E in E0. injection E0 as <- <- <-. rewrite (H Hr), (blank_below _ Hb). cbn [length app skipn Nat.add].
  rewrite below_app.
  - rewrite blank_below by (apply Forall_skipn; exact Hb). apply app_nil_r.
  - apply Forall_forall. intros x Hx. apply in_map_iff in Hx. destruct Hx as (y & <- & Hy). rewrite Forall_forall in Hadd. apply clear_last_not_last. apply Hadd. exact Hy.
Qed.
Example C30_empty_case : exists db' d', ld_add_links 20 ex_mw 5000 [ex_a; ex_b] (linkdb_new, ex_dev [ex_end; ex_end; ex_end]) = (Ret None, (db', d')) /\ below (dv_slots d') = [ex_a; ex_b].
Proof.
  destruct (ld_add_links 20 ex_mw 5000 [ex_a; ex_b] (linkdb_new, ex_dev [ex_end; ex_end; ex_end])) as [r [db' d']] eqn:E.
  assert (Er : r = Ret None) by (apply (f_equal fst) in E; vm_compute in E; symmetry; exact E). rewrite Er in E. exists db', d'. rewrite Er. split; [reflexivity|].
  apply (C30_empty_partial ex_info 20 5000 [ex_a; ex_b] linkdb_new (ex_dev [ex_end; ex_end; ex_end]) None db' d'); on_example.
Qed.
Theorem C30_dropped_refuted : exists d db' d', dv_slots d = [ex_a; ex_end; ex_end] /\ ld_add_links 20 ex_mw 5000 [ex_b] (linkdb_new, d) = (Ret None, (db', d')) /\
  below (dv_slots d') = [ex_a].
Proof. exists (ex_dev [ex_a; ex_end; ex_end]). eexists _, _. split; [reflexivity|]. vm_compute. auto. Qed.
(** With a free record the cache claims to have stored the link; the device was sent its own old record. *)
Theorem C30_free_record_refuted : exists d db' d', dv_slots d = [ex_free; ex_end] /\ ld_add_links 20 ex_mw 5000 [ex_b] (linkdb_new, d) = (Ret None, (db', d')) /\
  ld_links db' = [ex_b] /\ below (dv_slots d') = [ex_free].
Proof. exists (ex_dev [ex_free; ex_end]). eexists _, _. split; [reflexivity|]. vm_compute. auto. Qed.
Example C30_ex : match ld_add_links 20 ex_mw 5000 [ex_a; ex_b] (linkdb_new, ex_dev [ex_end; ex_end; ex_end]) with
  | (r, (db', d')) => r = Ret None /\ below (dv_slots d') = [ex_a; ex_b]
  end.
Proof. vm_compute. auto. Qed.
Print Assumptions C30_exact.
Print Assumptions C30_empty_partial.
Print Assumptions C30_dropped_refuted.
Print Assumptions C30_free_record_refuted.

(** * C51 request frames.  [frame kind mem num rec]: the bytes written down, [x] and [tail] unused. *)
Definition frame (x kind mem num : Z) (rec tail : list Z) : list Z := [x; kind; mem / 256; mem mod 256; num] ++ rec ++ tail.
Theorem C51_encode : forall kind mem num l, 0 <= mem < 65536 -> is_byte num -> link_wf l ->
  lr_marshal (mkLR 0 mem num None) = Ret (frame 0 0 mem num [] (zeros 9)) /\
  (kind = 1 \/ kind = 2 -> lr_marshal (mkLR kind mem num (Some l)) = Ret (frame 0 kind mem (if kind =? 1 then 0 else 8) (record_bytes l) [0])).
Proof.
  intros kind mem num l Hm Hn Hl. destruct (marshal_mem mem) as [E1 E2]. split.
  - unfold lr_marshal. cbn [lr_type lr_mem lr_num]. change (0 =? lt_readLink) with true. cbn iota. rewrite E1, E2. unfold frame, byte_of, is_byte in *. cbn [app zeros repeat].
    replace ((mem / 256) mod 256) with (mem / 256) by lia. replace (num mod 256) with num by lia. reflexivity.
  - intros [->| ->]; unfold lr_marshal; cbn [lr_type lr_mem lr_num lr_link]; rewrite E1, E2, record_bytes_marshal by exact Hl; unfold frame;
      replace ((mem / 256) mod 256) with (mem / 256) by lia; reflexivity.
Qed.
Theorem C51_decode : forall kind mem num l x tail, 0 <= mem < 65536 -> link_wf l ->
  lr_unmarshal linkreq_zero (frame x 0 mem num [] tail) = (mkLR 0 mem num None, None) /\
  (kind = 1 \/ kind = 2 -> lr_unmarshal linkreq_zero (frame x kind mem num (record_bytes l) tail) = (mkLR kind mem (if kind =? 1 then 0 else num) (Some l), None)).
Proof.
  intros kind mem num l x tail Hm Hl.
  assert (Hmem : Z.lor (Z.shiftl (mem / 256) 8) (mem mod 256) = mem) by (rewrite unmarshal_mem by (unfold is_byte; lia); lia).
  split.
  - unfold frame. cbn [app lr_unmarshal]. change (0 =? 0x00) with true. cbn iota. rewrite Hmem. reflexivity.
  - intros Hk. unfold frame. rewrite <- (record_bytes_marshal l Hl). cbn [app]. cbn [lr_unmarshal]. rewrite Hmem.
    rewrite (link_unmarshal_layout link_zero l (link_marshal l) tail (link_marshal_layout l Hl)).
    destruct Hk as [->| ->]; reflexivity.
Qed.
(** There and back.  A write request always says 8 records, a response none; only read requests carry a number. *)
Theorem C51_roundtrip : forall kind mem num l b, 0 <= mem < 65536 -> is_byte num -> link_wf l -> kind = 0 \/ kind = 1 \/ kind = 2 ->
  lr_marshal (mkLR kind mem num (if kind =? 0 then None else Some l)) = Ret b ->
  length b = 14%nat /\
  exists num', lr_unmarshal linkreq_zero b = (mkLR kind mem num' (if kind =? 0 then None else Some l), None) /\ (kind = 0 -> num' = num).
Proof.
  intros kind mem num l b Hm Hn Hl Hk E. destruct (C51_encode kind mem num l Hm Hn Hl) as [E0 E12].
  destruct Hk as [->|Hk].
  - change (0 =? 0) with true in *. cbn iota in *. rewrite E0 in E. injection E as <-. split; [reflexivity|]. exists num. split; [|auto].
    apply (C51_decode 0 mem num l 0 (zeros 9) Hm Hl).
  - specialize (E12 Hk). assert (Hk0 : kind =? 0 = false) by lia. rewrite Hk0 in *. rewrite E12 in E. injection E as <-. split; [reflexivity|].
    eexists. split; [|lia]. apply (C51_decode kind mem _ l 0 [0] Hm Hl). exact Hk.
Qed.
(** Which byte strings are accepted. *)
Theorem C51_accepts : forall b, snd (lr_unmarshal linkreq_zero b) = None <->
  exists x kind rest, b = x :: kind :: rest /\ ((kind = 0 /\ (3 <= length rest)%nat) \/ ((kind = 1 \/ kind = 2) /\ (11 <= length rest)%nat)).
Proof.
  intro b. destruct b as [|x [|t [|hi [|lo [|n rest]]]]];
    try (split; [discriminate|intros (x0 & k0 & r0 & E & H); (discriminate || (injection E as -> -> <-; cbn [length] in H; lia))]).
  cbn [lr_unmarshal]. pose proof (link_unmarshal_ok_iff link_zero rest) as Hr. split.
  - intro H. exists x, t, (hi :: lo :: n :: rest). split; [reflexivity|]. cbn [length]. cbn [lr_link linkreq_zero] in H.
    destruct (t =? 0x00) eqn:E0; [left; lia|]. destruct (t =? 0x01) eqn:E1; [|destruct (t =? 0x02) eqn:E2; [|discriminate]];
      right; (split; [lia|]); destruct (link_unmarshal link_zero rest) as [l1 e1]; cbn [snd] in *; subst; assert (8 <= length rest)%nat by (apply Hr; reflexivity); lia.
  - intros (x0 & k0 & r0 & E & H). injection E as -> -> <-. cbn [length lr_link linkreq_zero] in *.
    destruct H as [[-> _]|[[->| ->] Hlen]]; [reflexivity| |]; cbn [Z.eqb Pos.eqb]; destruct (link_unmarshal link_zero rest) as [l1 e1]; cbn [snd] in *; apply Hr; lia.
Qed.
(** Encoding never crashes unless the record is missing; a memory address is cut to 16 bits. *)
Theorem C51_marshal_crash : forall r, lr_marshal r = Panic <-> (lr_type r = 1 \/ lr_type r = 2) /\ lr_link r = None.
Proof.
  intros [t m n l]. unfold lr_marshal. cbn [lr_type lr_mem lr_num lr_link]. unfold lt_readLink, lt_linkResponse, lt_writeLink.
  destruct (t =? 0) eqn:E0; [split; [discriminate|lia]|]. destruct (t =? 1) eqn:E1; [|destruct (t =? 2) eqn:E2].
  - destruct l; split; intro H; try discriminate; try (destruct H; discriminate); [split; [lia|reflexivity]|reflexivity].
  - destruct l; split; intro H; try discriminate; try (destruct H; discriminate); [split; [lia|reflexivity]|reflexivity].
  - split; [discriminate|lia].
Qed.
Theorem C51_address_wraps : forall mem l, link_wf l -> lr_marshal (mkLR 2 mem 0 (Some l)) = lr_marshal (mkLR 2 (mem mod 65536) 0 (Some l)).
Proof.
  intros mem l Hl. change 2 with lt_writeLink. rewrite !lr_marshal_write by exact Hl. f_equal. f_equal. cons_lia. reflexivity.
Qed.
Example C51_ex : lr_marshal (mkLR 2 0x0ff7 3 (Some ex_a)) = Ret [0; 2; 0x0f; 0xf7; 8; 0xe2; 1; 0x0a; 0x0b; 0x0c; 1; 2; 3; 0] /\
  lr_unmarshal linkreq_zero [9; 1; 0x0f; 0xf7; 5; 0xe2; 1; 0x0a; 0x0b; 0x0c; 1; 2; 3; 0x44] = (mkLR 1 0x0ff7 0 (Some ex_a), None) /\
  snd (lr_unmarshal linkreq_zero [0; 3; 0; 0; 0]) = Some EDevInvalidResponse.
Proof. repeat split; vm_compute; reflexivity. Qed.
Print Assumptions C51_encode.
Print Assumptions C51_decode.
Print Assumptions C51_roundtrip.
Print Assumptions C51_accepts.
Print Assumptions C51_marshal_crash.
Print Assumptions C51_address_wraps.
