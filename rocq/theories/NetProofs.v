(** Linking and unlinking on a network of parties. *)
From Coq Require Import ZArith List Bool Lia ZifyBool ZifyNat.
From Verif Require Import GoBase GoLemmas GoProg Link LinkSpec LinkProofs DevLinkdb DevLinkdbSpec UtilLink UtilLinkSpec UtilLinkProofs UtilLinkEditProofs NetSpec.
Import ListNotations.
Open Scope Z_scope.
Ltac Zify.zify_post_hook ::= Z.div_mod_to_equations.

Section Net.
  Variable s : storing.
  Variable addr : Z -> Z.
  Hypothesis Hs : stores_well s.
  Hypothesis Haddr : forall i, 0 <= addr i < 2 ^ 24.
  Notation party := (party s addr).

  Definition grown (P : Z -> bool -> Z -> Z -> Prop) (w w' : net) : Prop := n_wait w' = None /\ well w' /\
    forall i role a h, has (n_recs w' i) role a h <-> has (n_recs w i) role a h \/ P i role a h.
  Definition shrunk (P : Z -> bool -> Z -> Z -> Prop) (w w' : net) : Prop := n_wait w' = None /\ well w' /\
    forall i role a h, has (n_recs w' i) role a h <-> has (n_recs w i) role a h /\ ~ P i role a h.

  Lemma put_has : forall role a g rs x b h, has (st_put s role a g rs) x b h <-> has rs x b h \/ (x = role /\ b = a /\ h = g).
  Proof. apply Hs. Qed.
  Lemma del_has : forall role a g rs x b h, has (st_del s role a g rs) x b h <-> has rs x b h /\ ~ (x = role /\ b = a /\ h = g).
  Proof. apply Hs. Qed.
  Lemma put_wf : forall role a g rs, Forall link_wf rs -> 0 <= a < 2 ^ 24 -> is_byte g -> Forall link_wf (st_put s role a g rs).
  Proof. apply Hs. Qed.
  Lemma del_wf : forall role a g rs, Forall link_wf rs -> Forall link_wf (st_del s role a g rs).
  Proof. apply Hs. Qed.

  (** Linking, then unlinking. *)
  Lemma force_ok : forall sc sr c r g w, c <> r -> is_byte g -> n_wait w = None -> well w ->
    exists w', force_link g (party sc c) (party sr r) w = (Ret None, w') /\ grown (part_of addr c r g) w w'.
  Proof.
    intros sc sr c r g w Hcr Hg Hw Hwf. unfold force_link, pbind. cbn [NetSpec.party lk_enter lk_exit]. unfold net_enter at 1. rewrite Hw. cbn [waiting n_wait n_recs].
    unfold net_enter. cbn [n_wait waiting]. replace (c =? r) with false by lia. unfold net_exit. cbn [n_wait waiting change set_recs n_recs].
    eexists. split; [reflexivity|]. unfold grown. cbn [n_wait n_recs waiting NetSpec.change set_recs]. split; [reflexivity|]. split.
    - intro i. cbn [n_recs waiting NetSpec.change set_recs]. replace (r =? c) with false by lia. destruct (Z.eqb_spec i r) as [->|Hir]; [apply put_wf; auto|].
      destruct (Z.eqb_spec i c) as [->|Hic]; [apply put_wf; auto|apply Hwf].
    - intros i role a h. replace (r =? c) with false by lia. unfold part_of. destruct (Z.eqb_spec i r) as [->|Hir].
      + rewrite put_has. split; [intros [X|(-> & -> & ->)]; auto 10|]. intros [X|(-> & [(X & _)|(_ & -> & ->)])]; [auto|congruence|auto 10].
      + destruct (Z.eqb_spec i c) as [->|Hic].
        * rewrite put_has. split; [intros [X|(-> & -> & ->)]; auto 10|]. intros [X|(-> & [(_ & -> & ->)|(X & _)])]; [auto|auto 10|congruence].
        * split; [auto|]. intros [X|(_ & [(X & _)|(X & _)])]; [exact X|congruence|congruence].
  Qed.
  Lemma unlink_ok : forall sc sr c r g w, c <> r -> n_wait w = None -> well w ->
    exists w', unlink g (party sc c) (party sr r) w = (Ret None, w') /\ shrunk (part_of addr c r g) w w'.
  Proof.
    intros sc sr c r g w Hcr Hw Hwf. unfold unlink, pbind. cbn [NetSpec.party lk_enter lk_exit lk_unlink]. unfold net_unlink. cbn [waiting n_wait n_recs].
    unfold net_enter. cbn [n_wait waiting]. replace (c =? r) with false by lia. unfold net_exit. cbn [n_wait waiting change set_recs n_recs].
    eexists. split; [reflexivity|]. unfold shrunk. cbn [n_wait n_recs waiting NetSpec.change set_recs]. split; [reflexivity|]. split.
    - intro i. cbn [n_recs waiting NetSpec.change set_recs]. replace (r =? c) with false by lia. destruct (Z.eqb_spec i r) as [->|Hir]; [apply del_wf; auto|].
      destruct (Z.eqb_spec i c) as [->|Hic]; [apply del_wf; auto|apply Hwf].
    - intros i role a h. replace (r =? c) with false by lia. unfold part_of. destruct (Z.eqb_spec i r) as [->|Hir].
      + rewrite del_has. split; intros [X Y]; (split; [exact X|]); intro Z0; apply Y.
        * destruct Z0 as (-> & [(X1 & _)|(_ & -> & ->)]); [congruence|auto].
        * destruct Z0 as (-> & -> & ->). auto 10.
      + destruct (Z.eqb_spec i c) as [->|Hic].
        * rewrite del_has. split; intros [X Y]; (split; [exact X|]); intro Z0; apply Y.
          -- destruct Z0 as (-> & [(_ & -> & ->)|(X1 & _)]); [auto|congruence].
          -- destruct Z0 as (-> & -> & ->). auto 10.
        * split; [intro X; split; [exact X|]; intros (_ & [(X1 & _)|(X1 & _)]); congruence|intros [X _]; exact X].
  Qed.

  (** Removing a record. *)
  Definition freed_of (l0 l : link) : link := if link_equal l l0 then made_free l else l.
  Lemma list_set_mid : forall (pre : list link) l post x, list_set (pre ++ l :: post) (length pre) x = pre ++ x :: post.
  Proof. induction pre as [|p pre IH]; intros l post x; [reflexivity|]. cbn [app length list_set]. rewrite IH. reflexivity. Qed.
  Lemma remove_run : forall i l0 links pre w, n_recs w i = pre ++ links -> Forall link_wf links ->
    exists w', remove_loop (lk_write_one (party true i)) (Z.of_nat (length pre)) links [l0] w = (Ret [], w') /\ n_wait w' = n_wait w /\
      n_recs w' i = pre ++ map (freed_of l0) links /\ forall j, j <> i -> n_recs w' j = n_recs w j.
  Proof.
    intros i l0. induction links as [|l links IH]; intros pre w Hw Hl; cbn [remove_loop].
    - exists w. rewrite Hw. auto.
    - inversion Hl as [|? ? Hwl Hl']; subst. cbn [NetSpec.party lk_write_one]. unfold removes. cbn [existsb]. rewrite orb_false_r.
      cbn [map]. unfold freed_of at 1. destruct (link_equal l l0).
      + unfold pbind, net_write_one, change. rewrite Nat2Z.id, Hw, list_set_mid, set_available_free by apply Hwl.
        destruct (IH (pre ++ [made_free l]) (set_recs w i (pre ++ made_free l :: links))) as (w' & E & W1 & W2 & W3); [cbn [set_recs n_recs]; rewrite Z.eqb_refl, <- app_assoc; reflexivity|exact Hl'|].
        exists w'. rewrite app_length in E. cbn [length] in E. replace (Z.of_nat (length pre + 1)) with (Z.of_nat (length pre) + 1) in E by lia.
        split; [exact E|]. split; [exact W1|]. split; [rewrite W2, <- app_assoc; reflexivity|]. intros j Hj. rewrite (W3 j Hj). cbn [set_recs n_recs]. replace (j =? i) with false by lia. reflexivity.
      + destruct (IH (pre ++ [l]) w) as (w' & E & W1 & W2 & W3); [rewrite Hw, <- app_assoc; reflexivity|exact Hl'|].
        exists w'. rewrite app_length in E. cbn [length] in E. replace (Z.of_nat (length pre + 1)) with (Z.of_nat (length pre) + 1) in E by lia.
        split; [exact E|]. split; [exact W1|]. split; [rewrite W2, <- app_assoc; reflexivity|exact W3].
  Qed.
  Lemma freed_has : forall role a g l0 rs, Forall link_wf rs -> link_wf l0 -> wanted role a g l0 ->
    forall x b h, has (map (freed_of l0) rs) x b h <-> has rs x b h /\ ~ (x = role /\ b = a /\ h = g).
  Proof.
    intros role a g l0 rs Hwf H0 (B7 & B6 & A0 & G0) x b h. rewrite Forall_forall in Hwf. unfold has. split.
    - intros (l' & Hin & Hw'). apply in_map_iff in Hin. destruct Hin as (l & <- & Hin). pose proof (Hwf _ Hin) as Hl. unfold freed_of in Hw'.
      pose proof (link_equal_iff l l0 Hl H0) as He. unfold same_link in He. destruct (link_equal l l0) eqn:El.
      + destruct Hw' as (X & _). exfalso. unfold made_free in X. cbn [l_flags] in X. unfold bit in X. change (2 ^ 7) with 128 in X. destruct Hl as (Hb & _). unfold is_byte in Hb. lia.
      + split; [exists l; auto|]. intros (-> & -> & ->). destruct Hw' as (_ & X6 & Xa & Xg). assert (F : false = true) by (apply He; repeat split; congruence). discriminate F.
    - intros [(l & Hin & Hw') Hn]. pose proof (Hwf _ Hin) as Hl. exists l. split; [|exact Hw']. apply in_map_iff. exists l. split; [|exact Hin].
      unfold freed_of. pose proof (link_equal_iff l l0 Hl H0) as He. unfold same_link in He. destruct (link_equal l l0) eqn:El; [|reflexivity]. exfalso.
      apply Hn. destruct (proj1 He eq_refl) as (E6 & Eg & Ea). destruct Hw' as (_ & X6 & Xa & Xg). rewrite X6, B6 in E6. split; [destruct x, role; congruence|]. split; congruence.
  Qed.
  Lemma remove_ok : forall i l0 role a g w, n_wait w = None -> well w -> In l0 (n_recs w i) -> wanted role a g l0 ->
    exists w', remove_links (party true i) [l0] w = (Ret None, w') /\ shrunk (fun j x b h => j = i /\ x = role /\ b = a /\ h = g) w w'.
  Proof.
    intros i l0 role a g w Hw Hwf Hin Hl0. unfold remove_links, pbind. cbn [NetSpec.party lk_links].
    destruct (remove_run i l0 (n_recs w i) [] w eq_refl (Hwf i)) as (w' & E & W1 & W2 & W3). change (Z.of_nat (length [])) with 0 in E.
    cbn [NetSpec.party] in E. rewrite E. exists w'. split; [reflexivity|]. assert (H0 : link_wf l0) by (pose proof (Hwf i) as X; rewrite Forall_forall in X; auto).
    split; [congruence|]. cbn [app] in W2. split.
    - intro j. destruct (Z.eq_dec j i) as [->|Hj]; [|rewrite W3 by exact Hj; apply Hwf]. rewrite W2. apply Forall_forall. intros l' Hl'. apply in_map_iff in Hl'.
      destruct Hl' as (l & <- & Hl). pose proof (Hwf i) as X. rewrite Forall_forall in X. unfold freed_of. destruct (link_equal l l0); [apply made_free_wf|]; auto.
    - intros j x b h. destruct (Z.eq_dec j i) as [->|Hj].
      + rewrite W2, (freed_has role a g l0 _ (Hwf i) H0 Hl0). split; intros [X Y]; (split; [exact X|]); intro N; apply Y; intuition.
      + rewrite W3 by exact Hj. split; [intro X; split; [exact X|]; intros (Y & _); contradiction|intros [X _]; exact X].
  Qed.

  (** ** Link *)
  Lemma find_ok : forall sg i role a g w, well w ->
    (exists l, find_link_record (party sg i) role a g w = (Ret (l, None), w) /\ In l (n_recs w i) /\ wanted role a g l /\ has (n_recs w i) role a g) \/
    (find_link_record (party sg i) role a g w = (Ret (link_zero, Some EUtilLinkNotFound), w) /\ ~ has (n_recs w i) role a g).
  Proof.
    intros sg i role a g w Hwf. unfold find_link_record, pbind. cbn [NetSpec.party lk_links].
    pose proof (Hwf i) as X. rewrite Forall_forall in X. destruct (find (record_matches role a g) (n_recs w i)) as [l|] eqn:Ef.
    - apply find_some in Ef. destruct Ef as [Hin Hm]. apply record_matches_wanted in Hm; [|apply X; exact Hin]. left. exists l. split; [reflexivity|]. split; [exact Hin|]. split; [exact Hm|exists l; auto].
    - right. split; [reflexivity|]. intros (l & Hin & Hw). apply record_matches_wanted in Hw; [|apply X; exact Hin]. rewrite (find_none _ _ Ef l Hin) in Hw. discriminate.
  Qed.
  Lemma grown_refl : forall (P : Z -> bool -> Z -> Z -> Prop) w, n_wait w = None -> well w -> (forall i role a h, P i role a h -> has (n_recs w i) role a h) -> grown P w w.
  Proof. intros P w Hw Hwf HP. split; [exact Hw|]. split; [exact Hwf|]. intros i role a h. split; [auto|]. intros [X|X]; auto. Qed.
  Lemma grown_again : forall P (Q : Z -> bool -> Z -> Z -> Prop) w w1 w', shrunk Q w w1 -> grown P w1 w' -> (forall i role a h, Q i role a h -> P i role a h) ->
    (forall i role a h, Q i role a h \/ ~ Q i role a h) -> grown P w w'.
  Proof.
    intros P Q w w1 w' (_ & _ & S) (G1 & G2 & G3) HQ HD. split; [exact G1|]. split; [exact G2|]. intros i role a h. rewrite G3, S. split; [intros [[X _]|X]; auto|].
    intros [X|X]; [|auto]. destruct (HD i role a h) as [Y|Y]; auto.
  Qed.
  Lemma triple_dec : forall i0 role0 a0 g0 (i : Z) (role : bool) (a h : Z),
    (i = i0 /\ role = role0 /\ a = a0 /\ h = g0) \/ ~ (i = i0 /\ role = role0 /\ a = a0 /\ h = g0).
  Proof.
    intros. destruct (Z.eq_dec i i0), (Z.eq_dec a a0), (Z.eq_dec h g0), (bool_dec role role0); try (right; intuition; fail). left. auto.
  Qed.
  Lemma link_ok : forall sc sr c r g w, c <> r -> is_byte g -> n_wait w = None -> well w ->
    (sc = true \/ ~ has (n_recs w c) true (addr r) g \/ has (n_recs w r) false (addr c) g) ->
    (sr = true \/ ~ has (n_recs w r) false (addr c) g \/ has (n_recs w c) true (addr r) g) ->
    exists w', link_devices g (party sc c) (party sr r) w = (Ret None, w') /\ grown (part_of addr c r g) w w'.
  Proof.
    intros sc sr c r g w Hcr Hg Hw Hwf Hsc Hsr. unfold link_devices. unfold pbind. cbn [NetSpec.party lk_address]. unfold pret.
    destruct (find_ok sc c true (addr r) g w Hwf) as [(l & E & Hin & Hl & Hc)|[E Hc]]; cbn [NetSpec.party] in E; rewrite E.
    - destruct (find_ok sr r false (addr c) g w Hwf) as [(l2 & E2 & Hin2 & Hl2 & Hr)|[E2 Hr]]; cbn [NetSpec.party] in E2; rewrite E2.
      + exists w. split; [reflexivity|]. apply grown_refl; auto. intros i role a h (-> & [(-> & -> & ->)|(-> & -> & ->)]); assumption.
      + rewrite error_eqb_refl. destruct Hsc as [->|[X|X]]; [|contradiction|contradiction].
        destruct (remove_ok c l true (addr r) g w Hw Hwf Hin Hl) as (w1 & E3 & S). cbn [NetSpec.party] in E3. rewrite E3. pose proof S as (S1 & S2 & _).
        destruct (force_ok true sr c r g w1 Hcr Hg S1 S2) as (w' & E4 & G). exists w'. split; [exact E4|]. eapply grown_again; [exact S|exact G| |intros; apply triple_dec].
        intros i role a h (-> & -> & -> & ->). unfold part_of. auto.
    - rewrite error_eqb_refl. destruct (find_ok sr r false (addr c) g w Hwf) as [(l2 & E2 & Hin2 & Hl2 & Hr)|[E2 Hr]]; cbn [NetSpec.party] in E2; rewrite E2.
      + destruct Hsr as [->|[X|X]]; [|contradiction|contradiction].
        destruct (remove_ok r l2 false (addr c) g w Hw Hwf Hin2 Hl2) as (w1 & E3 & S). cbn [NetSpec.party] in E3. rewrite E3. pose proof S as (S1 & S2 & _).
        destruct (force_ok sc true c r g w1 Hcr Hg S1 S2) as (w' & E4 & G). exists w'. split; [exact E4|]. eapply grown_again; [exact S|exact G| |intros; apply triple_dec].
        intros i role a h (-> & -> & -> & ->). unfold part_of. auto.
      + rewrite error_eqb_refl. apply force_ok; assumption.
  Qed.
  Lemma grown_trans : forall P Q w w1 w', grown P w w1 -> grown Q w1 w' -> grown (fun i role a h => P i role a h \/ Q i role a h) w w'.
  Proof. intros P Q w w1 w' (_ & _ & S) (G1 & G2 & G3). split; [exact G1|]. split; [exact G2|]. intros i role a h. rewrite G3, S. tauto. Qed.
  Lemma grown_ext : forall P Q w w', grown P w w' -> (forall i role a h, P i role a h <-> Q i role a h) -> grown Q w w'.
  Proof. intros P Q w w' (G1 & G2 & G3) H. split; [exact G1|]. split; [exact G2|]. intros i role a h. rewrite G3, H. tauto. Qed.
  Lemma cross_ok : forall c r g w, c <> r -> is_byte g -> n_wait w = None -> well w ->
    exists w', cross_link g (party true c) (party true r) w = (Ret None, w') /\
      grown (fun i role a h => part_of addr c r g i role a h \/ part_of addr r c g i role a h) w w'.
  Proof.
    intros c r g w Hcr Hg Hw Hwf. destruct (link_ok true true c r g w Hcr Hg Hw Hwf) as (w1 & E1 & G1); auto. pose proof G1 as (W1 & F1 & _).
    destruct (link_ok true true r c g w1) as (w2 & E2 & G2); auto. exists w2. split; [|eapply grown_trans; eassumption].
    unfold cross_link, pbind. rewrite E1, E2. reflexivity.
  Qed.
  Lemma cross_one_ok : forall d g ds w, is_byte g -> n_wait w = None -> well w ->
    exists w', cross_link_one g (party true d) (map (party true) ds) w = (Ret None, w') /\
      grown (fun i role a h => exists e, In e ds /\ e <> d /\ (part_of addr d e g i role a h \/ part_of addr e d g i role a h)) w w'.
  Proof.
    intros d g. induction ds as [|e ds IH]; intros w Hg Hw Hwf; cbn [map cross_link_one].
    - exists w. split; [reflexivity|]. apply grown_refl; auto. intros i role a h (e & [] & _).
    - change (lk_id (party true d)) with d. change (lk_id (party true e)) with e. destruct (Z.eqb_spec d e) as [<-|Hde].
      + destruct (IH w Hg Hw Hwf) as (w' & E & G). exists w'. split; [exact E|]. eapply grown_ext; [exact G|]. intros i role a h.
        split; [intros (x & X & Y); exists x; split; [right; exact X|exact Y]|]. intros (x & [<-|X] & Y & Y'); [congruence|]. exists x. auto.
      + destruct (cross_ok d e g w Hde Hg Hw Hwf) as (w1 & E1 & G1). pose proof G1 as (W1 & F1 & _).
        destruct (IH w1 Hg W1 F1) as (w' & E & G). exists w'. split; [unfold pbind; rewrite E1; exact E|].
        eapply grown_ext; [eapply grown_trans; [exact G1|exact G]|]. intros i role a h. cbv beta. split.
        * intros [X|(x & X & Y)]; [exists e; split; [left; reflexivity|]; split; [congruence|exact X]|exists x; split; [right; exact X|exact Y]].
        * intros (x & [<-|X] & Y & Y'); [left; exact Y'|right; exists x; auto].
  Qed.
  Lemma cross_all_ok : forall g ds w, NoDup ds -> is_byte g -> n_wait w = None -> well w ->
    exists w', cross_link_all g (map (party true) ds) w = (Ret None, w') /\
      grown (fun i role a h => exists x y, In x ds /\ In y ds /\ x <> y /\ part_of addr x y g i role a h) w w'.
  Proof.
    intros g. induction ds as [|d ds IH]; intros w Hnd Hg Hw Hwf; cbn [map cross_link_all].
    - exists w. split; [reflexivity|]. apply grown_refl; auto. intros i role a h (x & y & [] & _).
    - inversion Hnd as [|? ? Hn Hnd']; subst. change (party true d :: map (party true) ds) with (map (party true) (d :: ds)).
      destruct (cross_one_ok d g (d :: ds) w Hg Hw Hwf) as (w1 & E1 & G1). pose proof G1 as (W1 & F1 & _).
      destruct (IH w1 Hnd' Hg W1 F1) as (w' & E & G). exists w'. split; [unfold pbind; rewrite E1; exact E|].
      eapply grown_ext; [eapply grown_trans; [exact G1|exact G]|]. intros i role a h. cbv beta. split.
      + intros [(e & X & Y & [Z0|Z0])|(x & y & X & Y & Z0)].
        * exists d, e. split; [left; reflexivity|]. auto.
        * exists e, d. split; [exact X|]. split; [left; reflexivity|]. auto.
        * exists x, y. split; [right; exact X|]. split; [right; exact Y|exact Z0].
      + intros (x & y & [<-|X] & [<-|Y] & Hxy & Z0); [congruence| | |].
        * left. exists y. split; [right; exact Y|]. auto.
        * left. exists x. split; [right; exact X|]. auto.
        * right. exists x, y. auto.
  Qed.

  (** ** Unlinking everything *)
  Lemma shrunk_trans : forall P Q w w1 w', shrunk P w w1 -> shrunk Q w1 w' -> shrunk (fun i role a h => P i role a h \/ Q i role a h) w w'.
  Proof. intros P Q w w1 w' (_ & _ & S) (G1 & G2 & G3). split; [exact G1|]. split; [exact G2|]. intros i role a h. rewrite G3, S. tauto. Qed.
  Lemma shrunk_ext : forall P Q w w', shrunk P w w' -> (forall i role a h, P i role a h <-> Q i role a h) -> shrunk Q w w'.
  Proof. intros P Q w w' (G1 & G2 & G3) H. split; [exact G1|]. split; [exact G2|]. intros i role a h. rewrite G3, H. tauto. Qed.
  Definition undone (c r : Z) (links : list link) (i : Z) (role : bool) (a h : Z) : Prop :=
    exists l, In l links /\ l_addr l = addr r /\ (if bit 6 (l_flags l) =? 1 then part_of addr c r (l_group l) i role a h else part_of addr r c (l_group l) i role a h).
  Lemma unlink_loop_ok : forall sc sr c r links w, c <> r -> Forall link_wf links -> n_wait w = None -> well w ->
    exists w', unlink_loop (party sc c) (party sr r) links None w = (Ret None, w') /\ shrunk (undone c r links) w w'.
  Proof.
    intros sc sr c r. induction links as [|l links IH]; intros w Hcr Hl Hw Hwf; cbn [unlink_loop].
    - exists w. split; [reflexivity|]. split; [exact Hw|]. split; [exact Hwf|]. intros i role a h. split; [intro X; split; [exact X|intros (l & [] & _)]|intros [X _]; exact X].
    - inversion Hl as [|? ? Hwl Hl']; subst. unfold pbind at 1. cbn [NetSpec.party lk_address]. unfold pret at 1.
      destruct (Z.eqb_spec (l_addr l) (addr r)) as [Ha|Ha].
      + assert (Hc : rcf_controller (l_flags l) = (bit 6 (l_flags l) =? 1)).
        { destruct Hwl as (Hb & _). destruct (rcf_accessors _ Hb) as (_ & _ & -> & _). unfold bitb. reflexivity. }
        rewrite Hc.
        assert (Hu : exists w1, (if bit 6 (l_flags l) =? 1 then unlink (l_group l) (party sc c) (party sr r) else unlink (l_group l) (party sr r) (party sc c)) w = (Ret None, w1) /\
          shrunk (if bit 6 (l_flags l) =? 1 then part_of addr c r (l_group l) else part_of addr r c (l_group l)) w w1).
        { destruct (bit 6 (l_flags l) =? 1); apply unlink_ok; auto. }
        destruct Hu as (w1 & E1 & S1). pose proof S1 as (W1 & F1 & _). unfold pbind. cbn [NetSpec.party] in E1. rewrite E1.
        destruct (IH w1 Hcr Hl' W1 F1) as (w' & E2 & S2). exists w'. split; [exact E2|]. eapply shrunk_ext; [eapply shrunk_trans; [exact S1|exact S2]|].
        intros i role a h. cbv beta. unfold undone. split.
        * intros [X|(l1 & X & Y)]; [exists l; split; [left; reflexivity|]; split; [exact Ha|]; destruct (bit 6 (l_flags l) =? 1); exact X|exists l1; split; [right; exact X|exact Y]].
        * intros (l1 & [<-|X] & Y & Y'); [left; destruct (bit 6 (l_flags l) =? 1); exact Y'|right; exists l1; auto].
      + destruct (IH w Hcr Hl' Hw Hwf) as (w' & E2 & S2). exists w'. split; [exact E2|]. eapply shrunk_ext; [exact S2|].
        intros i role a h. unfold undone. split; [intros (l1 & X & Y); exists l1; split; [right; exact X|exact Y]|]. intros (l1 & [<-|X] & Y & Y'); [contradiction|exists l1; auto].
  Qed.
End Net.
