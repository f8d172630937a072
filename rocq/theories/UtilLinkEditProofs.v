(** Proofs about AddLinks and RemoveLinks of util/link.go. *)
From Coq Require Import ZArith List Bool Lia ZifyBool ZifyNat.
From Verif Require Import GoBase GoLemmas GoProg Address Link LinkSpec LinkProofs CodecProofs MsgWriter BasicDevice DevLinkdb DevLinkdbSpec DevLinkdbProofs UtilLink UtilLinkSpec UtilLinkProofs.
Import ListNotations.
Open Scope Z_scope.
Ltac Zify.zify_post_hook ::= Z.div_mod_to_equations.

Lemma removes_described : forall remove l, Forall link_wf remove -> link_wf l -> removes remove l = described remove l.
Proof.
  intros remove l H Hl. unfold removes, described. induction H as [|r remove Hr H IH]; [reflexivity|]. cbn [existsb]. rewrite IH. f_equal.
  pose proof (link_equal_iff l r Hl Hr) as E. unfold same_link in E. unfold same_linkb. apply eq_true_iff_eq. rewrite E, !andb_true_iff, !Z.eqb_eq. tauto.
Qed.
Lemma set_available_free : forall l, is_byte (l_flags l) -> with_flags rcf_set_available l = made_free l.
Proof.
  intros l H. unfold with_flags, made_free. f_equal.
  pose proof (sweep1 (fun f => rcf_set_available f =? f - 128 * bit 7 f) ltac:(vm_compute; reflexivity) _ H) as E. cbv beta in E. lia.
Qed.
Lemma made_free_wf : forall l, link_wf l -> link_wf (made_free l).
Proof.
  intros l (Hf & Hr). unfold link_wf, made_free. cbn [l_flags l_group l_addr l_d0 l_d1 l_d2]. split; [|exact Hr]. unfold is_byte, bit in *. change (2 ^ 7) with 128. lia.
Qed.
Lemma made_free_last : forall l, is_byte (l_flags l) -> is_last (made_free l) = is_last l.
Proof.
  intros l H. unfold is_last, made_free. cbn [l_flags].
  pose proof (sweep1 (fun f => bit 1 (f - 128 * bit 7 f) =? bit 1 f) ltac:(vm_compute; reflexivity) _ H) as E. cbv beta in E. apply Z.eqb_eq in E. rewrite E. reflexivity.
Qed.

(** ** Removing, as a trace *)
Lemma remove_loop_one : forall W id (w : Z -> link -> prog W (option error)) remove, Forall link_wf remove -> forall links i, Forall link_wf links ->
  adds (remove_loop (Some (fun i l => logged id (OWriteOne i l) (w i l))) i links remove)
    (fun rl t => rl = [] /\ writes t = freed remove i links /\ Forall (one_write id) t).
Proof.
  intros W id w remove Hr links. induction links as [|l links IH]; intros i Hl; cbn [remove_loop].
  - eapply adds_weaken; [apply adds_ret|]. cbn. intros rl t [-> ->]. repeat split. constructor.
  - inversion Hl as [|? ? Hwl Hl']; subst. rewrite (removes_described remove l Hr Hwl). unfold freed. cbn [numbered filter snd]. destruct (described remove l).
    + eapply adds_weaken; [eapply adds_bind; [apply adds_logged|intro; apply IH; exact Hl']|]. cbn. intros rl t (a & t1 & t2 & -> & -> & -> & H2 & H3).
      split; [reflexivity|]. split; [|constructor; [split; [reflexivity|exact I]|exact H3]]. cbn [writes flat_map app snd map fst]. rewrite set_available_free by apply Hwl. f_equal. exact H2.
    + apply IH. exact Hl'.
Qed.
Lemma remove_loop_all : forall W remove, Forall link_wf remove -> forall links i, Forall link_wf links ->
  forall w, remove_loop (W := W) None i links remove w = (Ret (map made_free (filter (described remove) links)), w).
Proof.
  intros W remove Hr links i Hl. revert i. induction links as [|l links IH]; intros i w; [reflexivity|].
  inversion Hl as [|? ? Hwl Hl']; subst. cbn [remove_loop filter]. rewrite (removes_described remove l Hr Hwl). destruct (described remove l); [|apply IH; exact Hl'].
  unfold pbind. rewrite IH by exact Hl'. cbn [map]. unfold pret. rewrite set_available_free by apply Hwl. reflexivity.
Qed.

(** ** Adding, as a trace *)
Fixpoint placements (i : Z) (recs new : list link) : list (Z * link) :=
  match recs, new with
  | r :: t, n :: new' => if is_free r then (i, n) :: placements (i + 1) t new' else placements (i + 1) t new
  | _, _ => []
  end.
Lemma fill_nil : forall recs, fill recs [] = (recs, []).
Proof. destruct recs; reflexivity. Qed.
Lemma add_merge_fill : forall existing add, Forall link_wf existing -> add_merge existing add = fill existing add.
Proof.
  intros existing. induction existing as [|x t IH]; intros add H; [reflexivity|]. inversion H as [|? ? Hx Ht]; subst. cbn [add_merge fill].
  destruct add as [|a add]; [rewrite IH by exact Ht; rewrite fill_nil; reflexivity|]. rewrite (available_free x Hx). destruct (is_free x); rewrite IH by exact Ht; reflexivity.
Qed.

Lemma adds_bind_opt : forall W B (m : prog (W * trace) (option error)) (k : prog (W * trace) B) f P Q, adds m P -> adds k Q ->
  adds (do err <- m ;; match err with Some e => pret (f e) | None => k end)
    (fun b t => (exists e, P (Some e) t /\ b = f e) \/ (exists t1 t2, t = t1 ++ t2 /\ P None t1 /\ Q b t2)).
Proof.
  intros W B m k f P Q Hm Hk w log r w' log' E. unfold pbind in E. destruct (m (w, log)) as [[[e|]| |] [w1 log1]] eqn:Em; destruct (Hm _ _ _ _ _ Em) as (t1 & -> & H1).
  - injection E as <- <- <-. exists t1. split; [reflexivity|]. intros b Hb. injection Hb as <-. left. exists e. auto.
  - destruct (Hk _ _ _ _ _ E) as (t2 & -> & H2). exists (t1 ++ t2). split; [symmetry; apply app_assoc|]. intros b Hb. right. exists t1, t2. auto.
  - injection E as <- <- <-. exists t1. split; [reflexivity|discriminate].
  - injection E as <- <- <-. exists t1. split; [reflexivity|discriminate].
Qed.
Lemma add_fill_trace : forall W id (w : Z -> link -> prog W (option error)) existing add i, Forall link_wf existing ->
  adds (add_fill (fun i l => logged id (OWriteOne i l) (w i l)) i existing add)
    (fun r t => Forall (one_write id) t /\ exists n, writes t = firstn n (placements i existing add) /\
       match snd r with
       | None => writes t = placements i existing add /\ fst r = snd (fill existing add) /\ Forall (eq None) (write_errors t)
       | Some e => exists k, write_errors t = repeat None k ++ [Some e]
       end).
Proof.
  intros W id w existing. induction existing as [|x existing IH]; intros add i H; cbn [add_fill].
  - eapply adds_weaken; [apply adds_ret|]. cbn. intros r t [-> ->]. split; [constructor|]. exists O. split; [reflexivity|]. cbn. split; [destruct add; reflexivity|]. split; [reflexivity|constructor].
  - inversion H as [|? ? Hx Ht]; subst. destruct add as [|a add].
    + eapply adds_weaken; [apply adds_ret|]. cbn. intros r t [-> ->]. split; [constructor|]. exists O. split; [reflexivity|]. cbn. repeat split. constructor.
    + rewrite (available_free x Hx). cbn [placements fill]. destruct (is_free x).
      * eapply adds_weaken.
        -- apply (adds_bind_opt W _ _ _ (fun e => (add, Some e))); [apply adds_logged|apply (IH add (i + 1) Ht)].
        -- cbn beta. intros r t [(e & -> & ->)|(t1 & t2 & -> & -> & Hr)].
           ++ split; [constructor; [split; [reflexivity|exact I]|constructor]|]. exists 1%nat. split; [reflexivity|]. cbn [snd]. exists O. reflexivity.
           ++ destruct Hr as (Hone & n & Hw & Hr). split; [constructor; [split; [reflexivity|exact I]|exact Hone]|]. exists (S n). cbn [writes flat_map app snd fst firstn]. unfold writes in Hw. rewrite Hw at 1. split; [reflexivity|].
              destruct (fill existing add) as [fa fb]. destruct (snd r) as [e|].
              ** destruct Hr as [k Hk]. exists (S k). cbn [write_errors flat_map snd app repeat]. f_equal. exact Hk.
              ** destruct Hr as (H1 & H2 & H3). split; [f_equal; exact H1|]. split; [exact H2|]. cbn [write_errors flat_map snd app]. constructor; [reflexivity|exact H3].
      * eapply adds_weaken; [apply (IH (a :: add) (i + 1) Ht)|]. cbn beta. intros r t (Hone & n & Hw & Hr). split; [exact Hone|]. exists n. split; [exact Hw|].
        destruct (fill existing (a :: add)) as [fa fb]. exact Hr.
Qed.
Lemma add_append_trace : forall W id (w : Z -> link -> prog W (option error)) add i err,
  adds (add_append (fun i l => logged id (OWriteOne i l) (w i l)) i add err)
    (fun e t => Forall (one_write id) t /\ writes t = numbered i add /\ length (write_errors t) = length add /\ e = last (write_errors t) err).
Proof.
  intros W id w add. induction add as [|a add IH]; intros i err; cbn [add_append].
  - eapply adds_weaken; [apply adds_ret|]. cbn. intros e t [-> ->]. repeat split. constructor.
  - eapply adds_weaken; [eapply adds_bind; [apply adds_logged|intro e1; apply (IH (i + 1) e1)]|]. cbn beta. intros e t (e1 & t1 & t2 & -> & -> & H1 & H2 & H3 & H4).
    split; [constructor; [split; [reflexivity|exact I]|exact H1]|]. cbn [app writes write_errors flat_map snd fst numbered length]. unfold writes, write_errors in H2, H3, H4. rewrite H2, H3.
    split; [reflexivity|]. split; [reflexivity|]. rewrite H4. symmetry. apply last_cons_app.
Qed.

Lemma numbered_In : forall ls i x, In x (numbered i ls) -> i <= fst x < i + zlen ls.
Proof.
  induction ls as [|l ls IH]; intros i x H; [destruct H|]. rewrite zlen_cons. pose proof (zlen_nonneg _ ls). destruct H as [<-|H]; [cbn; lia|]. apply IH in H. lia.
Qed.
Lemma placements_In : forall recs new i x, In x (placements i recs new) -> exists k r, fst x = i + Z.of_nat k /\ nth_error recs k = Some r /\ is_free r = true.
Proof.
  induction recs as [|r recs IH]; intros new i x H; [destruct new; destruct H|]. destruct new as [|n new]; [destruct H|]. cbn [placements] in H. destruct (is_free r) eqn:E.
  - destruct H as [<-|H]; [exists O, r; cbn; repeat split; auto; lia|]. apply IH in H. destruct H as (k & y & H1 & H2 & H3). exists (S k), y. cbn. repeat split; auto; lia.
  - apply IH in H. destruct H as (k & y & H1 & H2 & H3). exists (S k), y. cbn. repeat split; auto; lia.
Qed.
Lemma apply_writes_app : forall a b recs, apply_writes recs (a ++ b) = apply_writes (apply_writes recs a) b.
Proof. induction a as [|[i l] a IH]; intros b recs; [reflexivity|]. cbn [app apply_writes]. apply IH. Qed.
Lemma apply_placements : forall recs new pre, apply_writes (pre ++ recs) (placements (zlen pre) recs new) = pre ++ fst (fill recs new).
Proof.
  induction recs as [|r recs IH]; intros new pre; [destruct new; reflexivity|]. destruct new as [|n new]; [reflexivity|]. cbn [placements fill]. destruct (is_free r).
  - cbn [apply_writes]. replace (zlen pre =? zlen (pre ++ r :: recs)) with false by (symmetry; apply Z.eqb_neq; rewrite zlen_app, zlen_cons; pose proof (zlen_nonneg _ recs); lia).
    replace (Z.to_nat (zlen pre)) with (length pre) by (unfold zlen; lia). rewrite list_set_app2. specialize (IH new (pre ++ [n])). rewrite zlen_app in IH. change (zlen [n]) with 1 in IH.
    rewrite <- !app_assoc in IH. cbn [app] in IH. rewrite IH. destruct (fill recs new). reflexivity.
  - specialize (IH (n :: new) (pre ++ [r])). rewrite zlen_app in IH. change (zlen [r]) with 1 in IH. rewrite <- !app_assoc in IH. cbn [app] in IH. rewrite IH. destruct (fill recs (n :: new)). reflexivity.
Qed.
Lemma apply_numbered : forall new recs, apply_writes recs (numbered (zlen recs) new) = recs ++ new.
Proof.
  induction new as [|n new IH]; intros recs; [symmetry; apply app_nil_r|]. cbn [numbered apply_writes]. rewrite Z.eqb_refl.
  specialize (IH (recs ++ [n])). rewrite zlen_app in IH. change (zlen [n]) with 1 in IH. rewrite IH, <- app_assoc. reflexivity.
Qed.
Lemma fill_length : forall recs new, length (fst (fill recs new)) = length recs.
Proof.
  induction recs as [|r recs IH]; intros new; [reflexivity|]. destruct new as [|n new]; [reflexivity|]. cbn [fill].
  destruct (is_free r); [specialize (IH new); destruct (fill recs new)|specialize (IH (n :: new)); destruct (fill recs (n :: new))]; cbn [fst length] in *; lia.
Qed.
Lemma fill_keeps : forall recs new k r, nth_error recs k = Some r -> is_free r = false -> nth_error (fst (fill recs new)) k = Some r.
Proof.
  induction recs as [|x recs IH]; intros new k r Hk Hr; [destruct k; discriminate|]. destruct new as [|n new]; [exact Hk|]. cbn [fill]. destruct k as [|k].
  - injection Hk as ->. rewrite Hr. destruct (fill recs (n :: new)). reflexivity.
  - destruct (is_free x); [specialize (IH new k r Hk Hr); destruct (fill recs new)|specialize (IH (n :: new) k r Hk Hr); destruct (fill recs (n :: new))]; exact IH.
Qed.
(** The new links all end up somewhere, in order. *)
Lemma fill_all : forall recs new, exists placed, new = placed ++ snd (fill recs new) /\
  (length placed = Nat.min (length new) (length (filter is_free recs))) /\ (forall x, In x placed -> In x (fst (fill recs new))).
Proof.
  induction recs as [|r recs IH]; intros new; [exists []; split; [reflexivity|]; split; [cbn; lia|intros x []]|].
  destruct new as [|n new]; [exists []; split; [reflexivity|split; [reflexivity|intros x []]]|]. cbn [fill filter]. destruct (is_free r).
  - destruct (IH new) as (p & H1 & H2 & H3). destruct (fill recs new) as [a b]. cbn [fst snd] in *. exists (n :: p). split; [cbn [app]; f_equal; exact H1|]. split; [cbn [length]; lia|].
    intros x [->|Hx]; [left; reflexivity|right; auto].
  - destruct (IH (n :: new)) as (p & H1 & H2 & H3). destruct (fill recs (n :: new)) as [a b]. cbn [fst snd] in *. exists p. split; [exact H1|]. split; [exact H2|]. intros x Hx. right. auto.
Qed.

(** ** On an ideal device *)
Lemma links_cases : forall info fuel now db d, handle info d -> memory_ok (dv_slots d) -> existsb is_last (dv_slots d) = true -> quiet_device d ->
  (now <= ld_age db + 3600 -> ld_links db = below (dv_slots d)) -> (length (stream d 0 (dv_slots d)) < fuel)%nat ->
  exists ls r db' d', ld_get_links fuel (bd_mw info dev_mw) now (db, d) = (Ret (ls, r), (db', d')) /\ same_device d d' /\ dv_slots d' = dv_slots d /\
    (r = None -> ls = below (dv_slots d) /\ ld_links db' = below (dv_slots d)) /\ ((forall n, dv_fate d n = None) -> r = None).
Proof.
  intros info fuel now db d Hh Hok Hl Hq Hc Hfuel. destruct (Z_le_gt_dec now (ld_age db + 3600)) as [Hn|Hn].
  - exists (ld_links db), None, db, d. split; [|split; [apply same_device_refl|split; [reflexivity|split; [auto|auto]]]].
    unfold ld_get_links, ld_refresh, pbind, pfst, pget, pret, ld_old, max_age. cbn [fst snd]. replace (ld_age db + 3600 <? now) with false by (symmetry; apply Z.ltb_ge; lia). reflexivity.
  - destruct (refresh_cases info fuel now db d Hh Hok Hl Hq ltac:(lia) Hfuel) as (r & db' & d' & E & Hs & Hsl & _ & Hr & Hf). destruct r as [e|].
    + exists [], (Some e), db', d'. split; [unfold ld_get_links; unfold pbind at 1; rewrite E; reflexivity|]. split; [exact Hs|]. split; [exact Hsl|]. split; [discriminate|].
      intro H. apply Hf. apply H.
    + destruct (Hr eq_refl) as [Hb _]. exists (below (dv_slots d)), None, db', d'. split; [|auto].
      unfold ld_get_links. unfold pbind at 1. rewrite E. unfold pbind, pfst, pget, pret. cbn [fst snd]. rewrite Hb. reflexivity.
Qed.
Lemma skipn_nth : forall A (l : list A) i x t, skipn i l = x :: t -> nth_error l i = Some x /\ skipn (S i) l = t /\ (i < length l)%nat /\ firstn (S i) l = firstn i l ++ [x].
Proof.
  intros A l i. revert l. induction i as [|i IH]; intros [|h l] x t H; try discriminate.
  - injection H as -> ->. cbn [nth_error length firstn app]. split; [reflexivity|]. split; [reflexivity|]. split; [lia|reflexivity].
  - destruct (IH l x t H) as (H1 & H2 & H3 & H4). cbn [nth_error length]. split; [exact H1|]. split; [exact H2|]. split; [lia|]. cbn [firstn app] in *. rewrite H4. reflexivity.
Qed.

Lemma remove_loop_dev : forall info rest remove, Forall link_wf remove -> forall links i db d, handle info d -> over rest db d -> memory_ok (dv_slots d) ->
  skipn i (ld_links db) = links ->
  exists db' d', remove_loop (Some (ld_write_link (bd_mw info dev_mw))) (Z.of_nat i) links remove (db, d) = (Ret [], (db', d')) /\ same_device d d' /\ over rest db' d' /\
    memory_ok (dv_slots d') /\ length (ld_links db') = length (ld_links db) /\
    (forall k, (k < i)%nat -> nth_error (ld_links db') k = nth_error (ld_links db) k) /\
    (forall k x, nth_error (ld_links db) k = Some x -> nth_error (ld_links db') k = Some x \/ (described remove x = true /\ nth_error (ld_links db') k = Some (made_free x))) /\
    ((forall n, dv_fate d n = None) -> ld_links db' = firstn i (ld_links db) ++ map (marked remove) links).
Proof.
  intros info rest remove Hrem links. induction links as [|l links IH]; intros i db d Hh Ho Hok Hsk.
  - exists db, d. cbn [remove_loop map]. split; [reflexivity|]. split; [apply same_device_refl|]. split; [exact Ho|]. split; [exact Hok|]. split; [reflexivity|]. split; [auto|]. split; [auto|].
    intros _. rewrite <- (firstn_skipn i (ld_links db)) at 1. rewrite Hsk. reflexivity.
  - destruct (skipn_nth _ _ _ _ _ Hsk) as (Hx & Hsk' & Hi & Hfn).
    assert (Hwl : link_wf l). { pose proof (mirrored_wf _ _ (over_mirrored _ _ _ Ho) Hok) as H. rewrite Forall_forall in H. apply H. eapply nth_error_In, Hx. }
    assert (Hnl : is_last l = false). { destruct Ho as [_ H]. rewrite Forall_forall in H. apply H. eapply nth_error_In, Hx. }
    cbn [remove_loop]. rewrite (removes_described remove l Hrem Hwl). replace (Z.of_nat i + 1) with (Z.of_nat (S i)) by lia. destruct (described remove l) eqn:Ed.
    + rewrite set_available_free by apply Hwl.
      destruct (write_step_over info rest db d i (made_free l) Hh Ho Hok (made_free_wf l Hwl) ltac:(rewrite made_free_last; [exact Hnl|apply Hwl]) Hi) as (r & db1 & d1 & E1 & Hs1 & Ho1 & Hok1 & Hlen1 & Hr1 & Hf1 & Hk1).
      destruct (nth_error (ld_links db1) i) as [y|] eqn:Ey; [|apply nth_error_None in Ey; lia].
      assert (Hsk1 : skipn (S i) (ld_links db1) = links).
      { rewrite <- Hsk'. clear - Hk1 Hlen1. assert (forall k, nth_error (skipn (S i) (ld_links db1)) k = nth_error (skipn (S i) (ld_links db)) k).
        { intro k. assert (Hn : forall (l : list link) a b, nth_error (skipn a l) b = nth_error l (a + b)) by (induction l as [|h t IH]; intros [|a] b; try reflexivity; [destruct b; reflexivity|apply IH]).
          rewrite !Hn. apply Hk1. lia. }
        revert H. generalize (skipn (S i) (ld_links db1)) (skipn (S i) (ld_links db)). induction l as [|h t IH]; intros [|h' t'] H; [reflexivity|specialize (H O); discriminate|specialize (H O); discriminate|].
        pose proof (H O) as H0. injection H0 as ->. f_equal. apply IH. intro k. apply (H (S k)). }
      destruct (IH (S i) db1 d1 (handle_same _ _ _ Hs1 Hh) Ho1 Hok1 Hsk1) as (db2 & d2 & E2 & Hs2 & Ho2 & Hok2 & Hlen2 & Hlt2 & Hor2 & Hf2).
      exists db2, d2. unfold pbind at 1. rewrite E1. split; [exact E2|]. split; [eapply same_device_trans; eassumption|]. split; [exact Ho2|]. split; [exact Hok2|]. split; [lia|].
      split; [intros k Hk; rewrite Hlt2 by lia; apply Hk1; lia|]. split.
      * intros k x Hkx. destruct (Nat.eq_dec k i) as [->|Hne]; [|rewrite <- Hk1 in Hkx by exact Hne; apply Hor2; exact Hkx].
        rewrite Hx in Hkx. injection Hkx as <-. rewrite Hlt2 by lia. destruct r as [e|].
        -- left. rewrite <- Hx. destruct (write_step info db d (Z.of_nat i) (made_free l) Hh (mirrored_length _ _ (over_mirrored _ _ _ Ho)) Hok (made_free_wf l Hwl) ltac:(lia)) as (r' & db1' & d1' & E1' & _ & _ & _ & Hr' & _).
           rewrite E1 in E1'. injection E1' as <- <- <-. destruct Hr' as [(Habs & _)|(_ & -> & _)]; [discriminate|reflexivity].
        -- right. split; [exact Ed|]. rewrite (Hr1 eq_refl). rewrite nth_error_app2 by (rewrite firstn_length; lia). rewrite firstn_length. replace (i - Nat.min i (length (ld_links db)))%nat with O by lia. reflexivity.
      * intro Hf. rewrite Hf2 by (intro n; destruct Hs1 as (_ & _ & -> & _); apply Hf). rewrite (Hr1 (Hf1 Hf)). cbn [map]. unfold marked at 2. rewrite Ed.
        rewrite firstn_app, firstn_firstn, firstn_length. replace (Nat.min (S i) i) with i by lia. replace (S i - Nat.min i (length (ld_links db)))%nat with 1%nat by lia. cbn [firstn]. rewrite <- app_assoc. reflexivity.
    + destruct (IH (S i) db d Hh Ho Hok Hsk') as (db2 & d2 & E2 & Hs2 & Ho2 & Hok2 & Hlen2 & Hlt2 & Hor2 & Hf2).
      exists db2, d2. split; [exact E2|]. split; [exact Hs2|]. split; [exact Ho2|]. split; [exact Hok2|]. split; [exact Hlen2|]. split; [intros k Hk; apply Hlt2; lia|]. split; [exact Hor2|].
      intro Hf. rewrite (Hf2 Hf), Hfn. cbn [map]. unfold marked at 2. rewrite Ed, <- app_assoc. reflexivity.
Qed.

Lemma nth_skipn_eq : forall A (a b : list A) i, (forall k, (i <= k)%nat -> nth_error a k = nth_error b k) -> skipn i a = skipn i b.
Proof.
  intros A a b i H.
  assert (Hn : forall (l : list A) i k, nth_error (skipn i l) k = nth_error l (i + k)) by (induction l as [|h t IH]; intros [|j] k; try reflexivity; [destruct k; reflexivity|apply IH]).
  assert (G : forall k, nth_error (skipn i a) k = nth_error (skipn i b) k) by (intro k; rewrite !Hn; apply H; lia).
  revert G. generalize (skipn i a) (skipn i b). induction l as [|h t IH]; intros [|h' t'] G; [reflexivity|specialize (G O); discriminate|specialize (G O); discriminate|].
  pose proof (G O) as G0. injection G0 as ->. f_equal. apply IH. intro k. apply (G (S k)).
Qed.
Lemma add_fill_dev : forall info rest existing add i db d, handle info d -> over rest db d -> memory_ok (dv_slots d) ->
  Forall link_wf add -> Forall (fun l => is_last l = false) add -> skipn i (ld_links db) = existing ->
  exists left r db' d', add_fill (ld_write_link (bd_mw info dev_mw)) (Z.of_nat i) existing add (db, d) = (Ret (left, r), (db', d')) /\ same_device d d' /\ over rest db' d' /\
    memory_ok (dv_slots d') /\ length (ld_links db') = length (ld_links db) /\
    (forall k, (k < i)%nat -> nth_error (ld_links db') k = nth_error (ld_links db) k) /\
    (forall k x, nth_error (ld_links db) k = Some x -> is_free x = false -> nth_error (ld_links db') k = Some x) /\
    (r = None -> ld_links db' = firstn i (ld_links db) ++ fst (fill existing add) /\ left = snd (fill existing add)) /\
    ((forall n, dv_fate d n = None) -> r = None).
Proof.
  intros info rest existing. induction existing as [|x existing IH]; intros add i db d Hh Ho Hok Hwa Hna Hsk.
  - exists add, None, db, d. cbn [add_fill fill fst snd]. split; [reflexivity|]. split; [apply same_device_refl|]. split; [exact Ho|]. split; [exact Hok|]. split; [reflexivity|]. split; [auto|]. split; [auto|]. split; [|auto].
    intros _. split; [|reflexivity]. rewrite <- (firstn_skipn i (ld_links db)) at 1. rewrite Hsk. reflexivity.
  - destruct (skipn_nth _ _ _ _ _ Hsk) as (Hx & Hsk' & Hi & Hfn).
    assert (Hwx : link_wf x). { pose proof (mirrored_wf _ _ (over_mirrored _ _ _ Ho) Hok) as H. rewrite Forall_forall in H. apply H. eapply nth_error_In, Hx. }
    destruct add as [|a add].
    + exists [], None, db, d. cbn [add_fill fill fst snd]. split; [reflexivity|]. split; [apply same_device_refl|]. split; [exact Ho|]. split; [exact Hok|]. split; [reflexivity|]. split; [auto|]. split; [auto|]. split; [|auto].
      intros _. split; [|reflexivity]. rewrite <- Hsk. symmetry. apply firstn_skipn.
    + cbn [add_fill fill]. rewrite (available_free x Hwx). replace (Z.of_nat i + 1) with (Z.of_nat (S i)) by lia. destruct (is_free x) eqn:Ex.
      * inversion Hwa as [|? ? Hwa0 Hwa']; subst. inversion Hna as [|? ? Hna0 Hna']; subst.
        destruct (write_step_over info rest db d i a Hh Ho Hok Hwa0 Hna0 Hi) as (r & db1 & d1 & E1 & Hs1 & Ho1 & Hok1 & Hlen1 & Hr1 & Hf1 & Hk1).
        assert (Hsk1 : skipn (S i) (ld_links db1) = skipn (S i) (ld_links db)) by (apply nth_skipn_eq; intros k Hk; apply Hk1; lia).
        unfold pbind at 1. rewrite E1. destruct r as [e|].
        -- exists add, (Some e), db1, d1. split; [reflexivity|]. split; [exact Hs1|]. split; [exact Ho1|]. split; [exact Hok1|]. split; [exact Hlen1|].
           split; [intros k Hk; apply Hk1; lia|]. split; [|split; [discriminate|intro Hf; discriminate (Hf1 Hf)]].
           intros k y Hy Hfy. rewrite Hk1; [exact Hy|]. intros ->. rewrite Hx in Hy. injection Hy as <-. congruence.
        -- destruct (IH add (S i) db1 d1 (handle_same _ _ _ Hs1 Hh) Ho1 Hok1 Hwa' Hna' Hsk1) as (left & r & db2 & d2 & E2 & Hs2 & Ho2 & Hok2 & Hlen2 & Hlt2 & Hin2 & Hr2 & Hf2).
           exists left, r, db2, d2. split; [exact E2|]. split; [eapply same_device_trans; eassumption|]. split; [exact Ho2|]. split; [exact Hok2|]. split; [lia|].
           split; [intros k Hk; rewrite Hlt2 by lia; apply Hk1; lia|]. split.
           ++ intros k y Hy Hfy. apply Hin2; [|exact Hfy]. rewrite Hk1; [exact Hy|]. intros ->. rewrite Hx in Hy. injection Hy as <-. congruence.
           ++ split; [|intro Hf; apply Hf2; intro n; destruct Hs1 as (_ & _ & -> & _); apply Hf].
              intro Er. destruct (Hr2 Er) as [H1 H2]. destruct (fill (skipn (S i) (ld_links db)) add) as [fa fb]. cbn [fst snd] in *. split; [|exact H2]. rewrite H1, (Hr1 eq_refl).
              rewrite firstn_app, firstn_firstn, firstn_length. replace (Nat.min (S i) i) with i by lia. replace (S i - Nat.min i (length (ld_links db)))%nat with 1%nat by lia. cbn [firstn]. rewrite <- app_assoc. reflexivity.
      * destruct (IH (a :: add) (S i) db d Hh Ho Hok Hwa Hna Hsk') as (left & r & db2 & d2 & E2 & Hs2 & Ho2 & Hok2 & Hlen2 & Hlt2 & Hin2 & Hr2 & Hf2).
        exists left, r, db2, d2. split; [exact E2|]. split; [exact Hs2|]. split; [exact Ho2|]. split; [exact Hok2|]. split; [exact Hlen2|]. split; [intros k Hk; apply Hlt2; lia|]. split; [exact Hin2|]. split; [|exact Hf2].
        intro Er. destruct (Hr2 Er) as [H1 H2]. destruct (fill existing (a :: add)) as [fa fb]. cbn [fst snd] in *. split; [|exact H2]. rewrite H1, Hfn, <- app_assoc. reflexivity.
Qed.

(** Appending in front of blank memory, when nothing is lost. *)
Lemma add_append_dev : forall info add rest db d err, handle info d -> over rest db d -> memory_ok (dv_slots d) -> Forall link_wf add -> Forall (fun l => is_last l = false) add ->
  (length add <= length rest)%nat -> (forall n, dv_fate d n = None) ->
  exists r db' d', add_append (ld_write_link (bd_mw info dev_mw)) (zlen (ld_links db)) add err (db, d) = (Ret r, (db', d')) /\ same_device d d' /\
    over (skipn (length add) rest) db' d' /\ memory_ok (dv_slots d') /\ ld_links db' = ld_links db ++ add /\ r = match add with [] => err | _ => None end.
Proof.
  intros info add. induction add as [|a add IH]; intros rest db d err Hh Ho Hok Hwa Hna Hlen Hf.
  - exists err, db, d. cbn [add_append length skipn]. rewrite app_nil_r. split; [reflexivity|]. split; [apply same_device_refl|]. auto.
  - inversion Hwa as [|? ? Hwa0 Hwa']; subst. inversion Hna as [|? ? Hna0 Hna']; subst. destruct rest as [|x rest]; [cbn in Hlen; lia|]. destruct Ho as [Es Hnl].
    assert (Hroom : zlen (ld_links db) < zlen (dv_slots d)) by (rewrite Es, zlen_app, zlen_cons; pose proof (zlen_nonneg _ rest); lia).
    destruct (write_step info db d (zlen (ld_links db)) a Hh ltac:(rewrite Es, app_length; lia) Hok Hwa0 (zlen_nonneg _ _)) as (r & db1 & d1 & E1 & Hs1 & _ & _ & Hr1 & Hc1).
    destruct (Hc1 ltac:(lia) Hroom) as [Hc _]. assert (Er : r = None) by (apply Hc; apply Hf). subst r. destruct Hr1 as [(_ & _ & _ & H3 & H4)|(Habs & _)]; [|congruence].
    assert (Hto : Z.to_nat (zlen (ld_links db)) = length (ld_links db)) by (unfold zlen; lia). rewrite Hto in H3, H4.
    assert (Hl1 : ld_links db1 = ld_links db ++ [a]) by (rewrite H4; unfold cache_after; rewrite Hna0, firstn_all, skipn_all2 by lia; reflexivity).
    assert (Hs1' : dv_slots d1 = ld_links db1 ++ rest) by (rewrite H3, Es, list_set_app2, Hl1, <- app_assoc; reflexivity).
    assert (Ho1 : over rest db1 d1) by (split; [exact Hs1'|rewrite Hl1; apply Forall_app; auto]).
    assert (Hok1 : memory_ok (dv_slots d1)) by (rewrite H3; apply memory_set; assumption).
    destruct (IH rest db1 d1 None (handle_same _ _ _ Hs1 Hh) Ho1 Hok1 Hwa' Hna' ltac:(cbn [length] in Hlen; lia)) as (r & db2 & d2 & E2 & Hs2 & Ho2 & Hok2 & Hl2 & Hr2).
    { intro n. destruct Hs1 as (_ & _ & -> & _). apply Hf. }
    exists r, db2, d2. cbn [add_append]. unfold pbind at 1. rewrite E1. replace (zlen (ld_links db) + 1) with (zlen (ld_links db1)) by (rewrite Hl1, zlen_app; reflexivity).
    split; [exact E2|]. split; [eapply same_device_trans; eassumption|]. split; [exact Ho2|]. split; [exact Hok2|]. split; [rewrite Hl2, Hl1, <- app_assoc; reflexivity|]. rewrite Hr2. destruct add; reflexivity.
Qed.

(** Appending, whatever fails: records in front stay. *)
Lemma add_append_keeps : forall info add i db d err, handle info d -> mirrored db d -> memory_ok (dv_slots d) -> Forall link_wf add -> 0 <= i ->
  exists r db' d', add_append (ld_write_link (bd_mw info dev_mw)) i add err (db, d) = (Ret r, (db', d')) /\ same_device d d' /\
    (forall k, Z.of_nat k < i -> nth_error (dv_slots d') k = nth_error (dv_slots d) k) /\ length (dv_slots d') = length (dv_slots d).
Proof.
  intros info add. induction add as [|a add IH]; intros i db d err Hh Hm Hok Hwa Hi.
  - exists err, db, d. cbn [add_append]. split; [reflexivity|]. split; [apply same_device_refl|]. auto.
  - inversion Hwa as [|? ? Hwa0 Hwa']; subst. destruct (write_step_mirror info db d i a Hh Hm Hok Hwa0 Hi) as (r1 & db1 & d1 & E1 & Hs1 & Hm1 & Hok1 & Hr1 & Hn1 & _).
    destruct (IH (i + 1) db1 d1 r1 (handle_same _ _ _ Hs1 Hh) Hm1 Hok1 Hwa' ltac:(lia)) as (r & db2 & d2 & E2 & Hs2 & Hk2 & Hl2).
    assert (H1 : (forall k, Z.of_nat k < i -> nth_error (dv_slots d1) k = nth_error (dv_slots d) k) /\ length (dv_slots d1) = length (dv_slots d)).
    { destruct r1 as [e|]; [destruct (Hn1 ltac:(discriminate)) as [_ ->]; auto|]. destruct (Hr1 eq_refl) as [-> H]. split; [intros k Hk; apply nth_error_list_set_neq; lia|apply list_set_length]. }
    exists r, db2, d2. cbn [add_append]. unfold pbind at 1. rewrite E1. split; [exact E2|]. split; [eapply same_device_trans; eassumption|]. destruct H1 as [H1 H1'].
    split; [intros k Hk; rewrite Hk2 by lia; apply H1; exact Hk|lia].
Qed.

Lemma add_single_adds : forall W id (w : Z -> link -> prog W (option error)) ls add, adds (do (rest, err1) <- add_fill (fun i l => logged id (OWriteOne i l) (w i l)) 0 ls add;;
  match err1 with Some e => pret (Some e) | None => add_append (fun i l => logged id (OWriteOne i l) (w i l)) (zlen ls) rest None end) (fun _ _ => True).
Proof.
  intros W id w ls add. assert (Ht : forall a b : trace, True -> True -> True) by auto. apply (adds_bind_inv (fun _ => True) Ht).
  - generalize 0. revert add. induction ls as [|x ls IH]; intros add i; cbn [add_fill]; [apply (adds_ret_inv (fun _ => True)); exact I|]. destruct add; [apply (adds_ret_inv (fun _ => True)); exact I|].
    destruct (rcf_available (l_flags x)); [|apply IH]. apply (adds_bind_inv (fun _ => True) Ht); [apply (adds_logged_inv (fun _ => True)); auto|]. intros [e|]; [apply (adds_ret_inv (fun _ => True)); exact I|apply IH].
  - intros [rest [e|]]; [apply (adds_ret_inv (fun _ => True)); exact I|]. generalize (zlen ls) (@None error). induction rest as [|a rest IH]; intros i err; cbn [add_append]; [apply (adds_ret_inv (fun _ => True)); exact I|].
    apply (adds_bind_inv (fun _ => True) Ht); [apply (adds_logged_inv (fun _ => True)); auto|]. intro; apply IH.
Qed.
