From Coq Require Import ZArith List Bool Lia ZifyBool ZifyNat.
From Verif Require Import GoBase GoLemmas GoProg Address AddressProofs Link LinkSpec LinkProofs PlmPacket Plm PlmSpec PlmProofs
  CodecProofs PlmLinkdb PlmLinkdbSpec.
Import ListNotations.
Open Scope Z_scope.
Ltac Zify.zify_post_hook ::= Z.div_mod_to_equations.

(** ** Retried writes, logged *)
Lemma plogged_write : forall W (pw : packet_writer W) pkt w l,
  pw_write (plogged pw) pkt (w, l) = match pw_write pw pkt w with (r, w1) => (r, (w1, l ++ [OpW pkt r])) end.
Proof. reflexivity. Qed.
Lemma plogged_read : forall W (pw : packet_writer W) w l,
  pw_read (plogged pw) (w, l) = match pw_read pw w with (r, w1) => (r, (w1, l ++ [OpR r])) end.
Proof. reflexivity. Qed.

Lemma retry_ops : forall W (pw : packet_writer W) n nak pkt last w l r w' l',
  retry_loop (plogged pw) n nak pkt last (w, l) = (r, (w', l')) ->
  exists t, l' = l ++ t /\
    ((n = O /\ t = [] /\ r = Ret last) \/
     exists t0, t = t0 ++ [OpW pkt r] /\ Forall (fun o => exists r0, o = OpW pkt r0 /\ again nak r0) t0).
Proof.
  intros W pw n. induction n as [|n IH]; intros nak pkt last w l r w' l' H; cbn [retry_loop] in H.
  - injection H as <- <- <-. exists []. rewrite app_nil_r. auto.
  - rewrite plogged_write in H. destruct (pw_write pw pkt w) as [o w1] eqn:Ew.
    destruct o as [[ack err]| |].
    + destruct ((err_is err EPlmNak && nak) || err_is err EPlmReadTimeout) eqn:Er.
      * apply (retryable_spec nak ack err) in Er.
        destruct (IH _ _ _ _ _ _ _ _ H) as (t & -> & [(-> & -> & ->)|(t0 & -> & Ht)]).
        -- exists [OpW pkt (Ret (ack, err))]. split; [rewrite app_nil_r; reflexivity|]. right. exists []. auto.
        -- exists (OpW pkt (Ret (ack, err)) :: t0 ++ [OpW pkt r]). split; [rewrite <- app_assoc; reflexivity|].
           right. exists (OpW pkt (Ret (ack, err)) :: t0). split; [reflexivity|]. constructor; eauto.
      * injection H as <- <- <-. eexists. split; [reflexivity|]. right. exists []. auto.
    + injection H as <- <- <-. eexists. split; [reflexivity|]. right. exists []. auto.
    + injection H as <- <- <-. eexists. split; [reflexivity|]. right. exists []. auto.
Qed.

Lemma retry_ops0 : forall W (pw : packet_writer W) retries nak pkt w l r w' l', 0 <= retries ->
  pw_write (retry (plogged pw) retries nak) pkt (w, l) = (r, (w', l')) ->
  exists t0, l' = l ++ t0 ++ [OpW pkt r] /\ Forall (fun o => exists r0, o = OpW pkt r0 /\ again nak r0) t0.
Proof.
  intros W pw retries nak pkt w l r w' l' Hr H. unfold retry in H. cbn [pw_write] in H.
  destruct (retry_ops _ _ _ _ _ _ _ _ _ _ _ H) as (t & -> & [(Hn & _ & _)|(t0 & -> & Ht)]); [lia|eauto].
Qed.

Lemma accepted_app : forall a b, accepted (a ++ b) = accepted a ++ accepted b.
Proof. intros a b. apply flat_map_app. Qed.
Lemma records_app : forall a b, records (a ++ b) = records a ++ records b.
Proof. intros a b. apply flat_map_app. Qed.
Lemma requests_app : forall a b, requests (a ++ b) = requests a ++ requests b.
Proof. intros a b. apply flat_map_app. Qed.

Definition op_accepted (pkt : packet) (r : outcome pw_result) : list (list Z) := accepted [OpW pkt r].

Lemma accepted_error : forall pkt r, (forall a, r <> Ret (a, None)) -> accepted [OpW pkt r] = [].
Proof.
  intros pkt r H. unfold accepted. cbn [flat_map]. rewrite app_nil_r.
  destruct r as [[a [e|]]| |]; try reflexivity. exfalso. apply (H a). reflexivity.
Qed.

Lemma accepted_again : forall nak pkt t0, Forall (fun o => exists r0, o = OpW pkt r0 /\ again nak r0) t0 -> accepted t0 = [].
Proof.
  intros nak pkt t0 H. induction H as [|o t0 Ho Ht IH]; [reflexivity|].
  change (o :: t0) with ([o] ++ t0). rewrite accepted_app, IH, app_nil_r.
  destruct Ho as (r0 & -> & (a & e & -> & _)). apply accepted_error. intros b Hb. discriminate.
Qed.

Lemma records_again : forall nak pkt t0, Forall (fun o => exists r0, o = OpW pkt r0 /\ again nak r0) t0 -> records t0 = [].
Proof.
  intros nak pkt t0 H. induction H as [|o t0 Ho Ht IH]; [reflexivity|].
  change (o :: t0) with ([o] ++ t0). rewrite records_app, IH, app_nil_r. destruct Ho as (r0 & -> & _). reflexivity.
Qed.

(** ** WriteLinks over an arbitrary modem *)
Lemma delete_link_log : forall W (pw : packet_writer W) l w log r w' log',
  pdb_delete_link (plogged pw) l (w, log) = (r, (w', log')) ->
  exists t, log' = log ++ t /\ accepted t = [].
Proof.
  intros W pw l w log r w' log' H. unfold pdb_delete_link in H.
  destruct (retry_ops0 _ _ 3 true _ _ _ _ _ _ ltac:(lia) H) as (t0 & -> & Ht).
  eexists. split; [reflexivity|]. rewrite accepted_app, (accepted_again _ _ _ Ht). cbn [app].
  unfold accepted, mrr_marshal, pc_ManageAllLinkRecord, lc_DeleteFirst. cbn. destruct r as [[a [e|]]| |]; reflexivity.
Qed.

Lemma write_link_log : forall W (pw : packet_writer W) l w log r w' log',
  pdb_write_link (plogged pw) l (w, log) = (r, (w', log')) ->
  exists t, log' = log ++ t /\ accepted t = match r with Ret (_, None) => [link_marshal l] | _ => [] end.
Proof.
  intros W pw l w log r w' log' H. unfold pdb_write_link in H.
  destruct (retry_ops0 _ _ 3 true _ _ _ _ _ _ ltac:(lia) H) as (t0 & -> & Ht).
  eexists. split; [reflexivity|]. rewrite accepted_app, (accepted_again _ _ _ Ht). cbn [app].
  unfold accepted, mrr_marshal, pc_ManageAllLinkRecord, lc_ModFirstCtrl, lc_ModFirstResp. cbn.
  destruct r as [[a [e|]]| |]; try reflexivity. destruct (rcf_controller (l_flags l)); reflexivity.
Qed.

Lemma write_one_log : forall W (pw : packet_writer W) l w log r w' log',
  write_one (plogged pw) l (w, log) = (r, (w', log')) ->
  exists t, log' = log ++ t /\ accepted t = match r with Ret None => [link_marshal l] | _ => [] end.
Proof.
  intros W pw l w log r w' log' H. unfold write_one, pbind in H.
  destruct (pdb_write_link (plogged pw) l (w, log)) as [o1 [w1 log1]] eqn:E1.
  destruct (write_link_log _ _ _ _ _ _ _ _ E1) as (t1 & -> & A1).
  destruct o1 as [[ack [e|]]| |].
  - destruct (error_eqb e EPlmWrongPayload).
    + destruct ack as [a|].
      * destruct (pdb_delete_link (plogged pw) (fst (link_unmarshal link_zero (p_payload a))) (w1, log ++ t1)) as [o2 [w2 log2]] eqn:E2.
        destruct (delete_link_log _ _ _ _ _ _ _ _ E2) as (t2 & -> & A2).
        destruct o2 as [[ack2 [e2|]]| |].
        -- injection H as <- <- <-. exists (t1 ++ t2). rewrite app_assoc, accepted_app, A1, A2. auto.
        -- destruct (pdb_write_link (plogged pw) l (w2, (log ++ t1) ++ t2)) as [o3 [w3 log3]] eqn:E3.
           destruct (write_link_log _ _ _ _ _ _ _ _ E3) as (t3 & -> & A3).
           exists (t1 ++ t2 ++ t3). rewrite !accepted_app, A1, A2, A3.
           destruct o3 as [[ack3 [e3|]]| |]; injection H as <- <- <-; rewrite !app_assoc; auto.
        -- injection H as <- <- <-. exists (t1 ++ t2). rewrite app_assoc, accepted_app, A1, A2. auto.
        -- injection H as <- <- <-. exists (t1 ++ t2). rewrite app_assoc, accepted_app, A1, A2. auto.
      * injection H as <- <- <-. exists t1. auto.
    + injection H as <- <- <-. exists t1. auto.
  - injection H as <- <- <-. exists t1. auto.
  - injection H as <- <- <-. exists t1. auto.
  - injection H as <- <- <-. exists t1. auto.
Qed.

Lemma write_all_log : forall W (pw : packet_writer W) ls db w log r db' w' log',
  write_all (plogged pw) ls (db, (w, log)) = (r, (db', (w', log'))) ->
  exists t n, log' = log ++ t /\ pd_links db' = pd_links db ++ firstn n ls /\ accepted t = map link_marshal (firstn n ls) /\
    (n <= length ls)%nat /\ (r = Ret None <-> n = length ls) .
Proof.
  intros W pw ls. induction ls as [|l ls IH]; intros db w log r db' w' log' H; cbn [write_all] in H.
  - unfold pret in H. injection H as <- <- <- <-. exists [], O. rewrite !app_nil_r. cbn. repeat split; auto.
  - unfold pbind in H. unfold psnd in H at 1. cbn [fst snd] in H.
    destruct (write_one (plogged pw) l (w, log)) as [o1 [w1 log1]] eqn:E1.
    destruct (write_one_log _ _ _ _ _ _ _ _ E1) as (t1 & -> & A1).
    destruct o1 as [[e|]| |].
    + injection H as <- <- <- <-. exists t1, O. rewrite firstn_O, !app_nil_r. cbn [length map]. repeat split; auto; try lia; discriminate.
    + cbn [pfst pget pput fst snd] in H. unfold pfst, pget, pput in H. cbn [fst snd] in H.
      destruct (IH _ _ _ _ _ _ _ H) as (t2 & n & -> & H2 & H3 & H4 & H5).
      exists (t1 ++ t2), (S n). rewrite app_assoc. split; [reflexivity|].
      cbn [firstn map length]. split; [rewrite H2; cbn [set_pd_links pd_links]; rewrite <- app_assoc; reflexivity|].
      split; [rewrite accepted_app, A1, H3; reflexivity|]. split; [lia|].
      rewrite H5. split; lia.
    + injection H as <- <- <- <-. exists t1, O. rewrite firstn_O, !app_nil_r. cbn [length map]. repeat split; auto; try lia; discriminate.
    + injection H as <- <- <- <-. exists t1, O. rewrite firstn_O, !app_nil_r. cbn [length map]. repeat split; auto; try lia; discriminate.
Qed.

Lemma delete_all_log : forall W (pw : packet_writer W) ls w log r w' log',
  delete_all (plogged pw) ls (w, log) = (r, (w', log')) -> exists t, log' = log ++ t /\ accepted t = [].
Proof.
  intros W pw ls. induction ls as [|l ls IH]; intros w log r w' log' H; cbn [delete_all] in H.
  - unfold pret in H. injection H as <- <- <-. exists []. rewrite app_nil_r. auto.
  - unfold pbind in H. destruct (pdb_delete_link (plogged pw) l (w, log)) as [o1 [w1 log1]] eqn:E1.
    destruct (delete_link_log _ _ _ _ _ _ _ _ E1) as (t1 & -> & A1).
    destruct o1 as [[a [e|]]| |].
    + injection H as <- <- <-. exists t1. auto.
    + destruct (IH _ _ _ _ _ H) as (t2 & -> & A2). exists (t1 ++ t2). rewrite app_assoc, accepted_app, A1, A2. auto.
    + injection H as <- <- <-. exists t1. auto.
    + injection H as <- <- <-. exists t1. auto.
Qed.

(** What is remembered afterwards. *)
Lemma write_links_remembers : forall W (pw : packet_writer W) ls db w r db' w' log,
  pdb_write_links (plogged pw) ls (db, (w, [])) = (r, (db', (w', log))) ->
  (r = Ret None /\ pd_links db' = ls /\ accepted log = map link_marshal ls) \/
  (r <> Ret None /\ ((pd_links db' = pd_links db /\ accepted log = []) \/
     exists n, (n < length ls)%nat /\ pd_links db' = firstn n ls /\ accepted log = map link_marshal (firstn n ls))).
Proof.
  intros W pw ls db w r db' w' log H. unfold pdb_write_links, pbind in H.
  unfold pfst at 1 in H. unfold pget in H. cbn [fst snd] in H.
  unfold psnd in H at 1. cbn [fst snd] in H.
  destruct (delete_all (plogged pw) (pd_links db) (w, [])) as [o1 [w1 log1]] eqn:E1.
  destruct (delete_all_log _ _ _ _ _ _ _ _ E1) as (t1 & -> & A1). cbn [app] in *.
  destruct o1 as [[e|]| |].
  - injection H as <- <- <- <-. right. split; [discriminate|]. left. auto.
  - unfold pfst, pput in H. cbn [fst snd] in H.
    destruct (write_all_log _ _ _ _ _ _ _ _ _ _ H) as (t2 & n & -> & H2 & H3 & H4 & H5).
    cbn [set_pd_links pd_links app] in H2. rewrite accepted_app, A1. cbn [app].
    destruct (Nat.eq_dec n (length ls)) as [E|E].
    + left. subst n. rewrite firstn_all in *. tauto.
    + right. split; [tauto|]. right. exists n. split; [lia|auto].
  - injection H as <- <- <- <-. right. split; [discriminate|]. left. auto.
  - injection H as <- <- <- <-. right. split; [discriminate|]. left. auto.
Qed.

(** ** C18: what the repair deletes *)
Lemma repair_request : forall W (pw : packet_writer W) l w ack w1, bytes_ok (p_payload ack) -> (8 <= length (p_payload ack))%nat ->
  pdb_write_link pw l w = (Ret (Some ack, Some EPlmWrongPayload), w1) ->
  write_one pw l w =
    match pw_write (retry pw 3 true) (mkPkt 0x6f (0x80 :: firstn 8 (p_payload ack)) 0) w1 with
    | (Ret (_, Some e), w2) => (Ret (Some e), w2)
    | (Ret (_, None), w2) =>
        match pdb_write_link pw l w2 with (Ret (_, e), w3) => (Ret e, w3) | (Panic, w3) => (Panic, w3) | (NoFuel, w3) => (NoFuel, w3) end
    | (Panic, w2) => (Panic, w2)
    | (NoFuel, w2) => (NoFuel, w2)
    end.
Proof.
  intros W pw l w ack w1 Hb Hl H. unfold write_one, pbind. rewrite H. cbn [error_eqb].
  destruct (link_unmarshal link_zero (p_payload ack)) as [x e] eqn:Ex. cbn [fst].
  assert (He : e = None).
  { pose proof (link_unmarshal_ok_iff link_zero (p_payload ack)) as Hk. rewrite Ex in Hk. cbn [snd] in Hk. apply Hk. exact Hl. }
  subst e. destruct (link_reencode link_zero (p_payload ack) x Hb Ex) as [_ Hm].
  unfold pdb_delete_link, mrr_marshal, pc_ManageAllLinkRecord, lc_DeleteFirst. rewrite Hm.
  destruct (pw_write (retry pw 3 true) (mkPkt 111 (128 :: firstn 8 (p_payload ack)) 0) w1) as [[[a [e|]]| |] w2]; try reflexivity.
  destruct (pdb_write_link pw l w2) as [[[a3 e3]| |] w3]; reflexivity.
Qed.

(** ** Refresh over an arbitrary modem *)
Lemma retry_outcome_log : forall W (pw : packet_writer W) retries nak pkt w log r w' log', 0 <= retries ->
  pw_write (retry (plogged pw) retries nak) pkt (w, log) = (r, (w', log')) ->
  exists t, log' = log ++ t /\ records t = [] /\ Forall (fun o => exists r0, o = OpW pkt r0) t /\
    (forall a e, r = Ret (a, Some e) -> ends_in t e).
Proof.
  intros W pw retries nak pkt w log r w' log' Hr H.
  destruct (retry_ops0 _ _ _ _ _ _ _ _ _ _ Hr H) as (t0 & -> & Ht).
  eexists. split; [reflexivity|]. split; [rewrite records_app, (records_again _ _ _ Ht); reflexivity|]. split.
  - apply Forall_app. split; [|constructor; [eauto|constructor]].
    revert Ht. apply Forall_impl. intros o (r0 & -> & _). eauto.
  - intros a e ->. exists t0, (OpW pkt (Ret (a, Some e))), a. auto.
Qed.

Lemma ends_in_app : forall a b e, ends_in b e -> ends_in (a ++ b) e.
Proof. intros a b e (l0 & o & x & -> & H). exists (a ++ l0), o, x. rewrite app_assoc. auto. Qed.

Lemma refresh_loop_log : forall W (pw : packet_writer W) retries fuel links err w log ls e w' log', 0 <= retries ->
  refresh_loop fuel (plogged pw) retries links err (w, log) = (Ret (ls, e), (w', log')) ->
  exists x t, e = Some x /\ log' = log ++ t /\ Forall (eq (0x6a, [])) (requests t) /\
    (x = EPlmNak -> ls = links ++ records t /\ ((t = [] /\ err = Some EPlmNak) \/ ends_in t EPlmNak)).
Proof.
  intros W pw retries fuel. induction fuel as [|fuel IH]; intros links err w log ls e w' log' Hr H; cbn [refresh_loop] in H;
    (destruct err as [x|]; [unfold pret in H; injection H as <- <- <- <-; exists x, []; rewrite !app_nil_r; cbn;
       split; [reflexivity|]; split; [reflexivity|]; split; [constructor|]; intros ->; auto|]).
  - discriminate.
  - unfold pbind in H at 1. rewrite plogged_read in H. destruct (pw_read pw w) as [o w1].
    destruct o as [[pkt err1]| |]; try discriminate.
    destruct err1 as [e1|].
    { unfold pret in H. injection H as <- <- <- <-. exists e1, [OpR (Ret (pkt, Some e1))].
      split; [reflexivity|]. split; [reflexivity|]. split; [constructor|]. intros ->.
      split; [destruct pkt; symmetry; apply app_nil_r|]. right. exists [], (OpR (Ret (pkt, Some EPlmNak))), pkt. auto. }
    destruct pkt as [p|]; [|discriminate].
    destruct (p_cmd p =? pc_AllLinkRecordResp) eqn:Ec.
    + destruct (link_unmarshal link_zero (p_payload p)) as [l [e1|]] eqn:El.
      * unfold pret in H. injection H as <- <- <- <-. exists e1, [OpR (Ret (Some p, None))].
        split; [reflexivity|]. split; [reflexivity|]. split; [constructor|]. intros ->. exfalso.
        unfold link_unmarshal in El. destruct (p_payload p) as [|a [|b [|c [|d [|f [|g [|h [|i t]]]]]]]]; discriminate.
      * unfold pbind in H.
        match type of H with context [pw_write (retry (plogged pw) retries false) ?q ?s] =>
          destruct (pw_write (retry (plogged pw) retries false) q s) as [o2 [w2 log2]] eqn:E2 end.
        destruct (retry_outcome_log _ _ _ _ _ _ _ _ _ _ Hr E2) as (t2 & -> & R2 & F2 & N2).
        assert (Q2 : Forall (eq (0x6a, [])) (requests t2)).
        { clear - F2. induction F2 as [|o t (r0 & ->) Ft IHt]; [constructor|]. cbn. constructor; [reflexivity|exact IHt]. }
        destruct o2 as [[a2 e2]| |]; try discriminate.
        destruct (IH _ _ _ _ _ _ _ _ Hr H) as (x & t & H1 & -> & H3 & H4).
        exists x, ([OpR (Ret (Some p, None))] ++ t2 ++ t). split; [exact H1|]. split; [rewrite !app_assoc; reflexivity|].
        split; [rewrite !requests_app; cbn; apply Forall_app; auto|].
        intro Hx. destruct (H4 Hx) as [H5 H6]. rewrite !records_app, R2. cbn [app].
        assert (Hrec : records [OpR (Ret (Some p, None))] = [l]).
        { unfold records. cbn [flat_map]. unfold pc_AllLinkRecordResp in Ec. rewrite Ec, El. reflexivity. }
        rewrite Hrec. split; [rewrite H5, <- app_assoc; reflexivity|]. right.
        destruct H6 as [[-> ->]|H6].
        -- rewrite app_nil_r. apply (ends_in_app [OpR (Ret (Some p, None))] t2). apply (N2 a2). reflexivity.
        -- apply (ends_in_app [OpR (Ret (Some p, None))] (t2 ++ t)), ends_in_app. exact H6.
    + destruct (IH _ _ _ _ _ _ _ _ Hr H) as (x & t & H1 & -> & H3 & H4).
      exists x, ([OpR (Ret (Some p, None))] ++ t). split; [exact H1|]. split; [rewrite !app_assoc; reflexivity|].
      split; [rewrite !requests_app; cbn; exact H3|].
      intro Hx. destruct (H4 Hx) as [H5 H6]. rewrite !records_app.
      assert (Hrec : records [OpR (Ret (Some p, None))] = []).
      { unfold records. cbn [flat_map]. unfold pc_AllLinkRecordResp in Ec. rewrite Ec. reflexivity. }
      rewrite Hrec. split; [exact H5|]. right. destruct H6 as [[_ H6]|H6]; [discriminate|apply (ends_in_app [OpR (Ret (Some p, None))] t); exact H6].
Qed.

Lemma refresh_honest : forall W (pw : packet_writer W) fuel now db w e db' w' log, 0 <= pd_retries db -> pdb_old now db = true ->
  pdb_refresh fuel (plogged pw) now (db, (w, [])) = (Ret e, (db', (w', log))) ->
  (e = None -> pd_links db' = records log /\ ends_in log EPlmNak) /\
  (e <> None -> db' = db) /\
  (exists first rest, requests log = first ++ rest /\ first <> [] /\ Forall (eq (0x69, [])) first /\ Forall (eq (0x6a, [])) rest).
Proof.
  intros W pw fuel now db w e db' w' log Hr Ho H. unfold pdb_refresh, pbind in H.
  unfold pfst at 1 in H. unfold pget in H. cbn [fst snd] in H. rewrite Ho in H. cbn [negb] in H.
  unfold psnd in H at 1. cbn [fst snd] in H.
  destruct (pw_write (retry (plogged pw) (pd_retries db) true) (mkPkt pc_GetFirstAllLink [] 0) (w, [])) as [o1 [w1 log1]] eqn:E1.
  destruct (retry_ops0 _ _ _ _ _ _ _ _ _ _ Hr E1) as (t0 & Hl0 & Ht0).
  destruct (retry_outcome_log _ _ _ _ _ _ _ _ _ _ Hr E1) as (t1 & -> & R1 & F1 & N1). cbn [app] in *.
  assert (Q1 : Forall (eq (0x69, [])) (requests t1)).
  { clear - F1. induction F1 as [|o t (r0 & ->) Ft IHt]; [constructor|]. cbn. constructor; [reflexivity|exact IHt]. }
  assert (Qn : requests t1 <> []).
  { rewrite Hl0, requests_app. cbn. destruct (requests t0); discriminate. }
  destruct o1 as [[a1 e1]| |]; try discriminate.
  unfold psnd in H. cbn [fst snd] in H.
  destruct (refresh_loop fuel (plogged pw) (pd_retries db) [] e1 (w1, t1)) as [o2 [w2 log2]] eqn:E2.
  destruct o2 as [[ls e2]| |]; try discriminate.
  destruct (refresh_loop_log _ _ _ _ _ _ _ _ _ _ _ _ Hr E2) as (x & t & -> & -> & Q2 & H4).
  assert (Hreq : exists first rest, requests (t1 ++ t) = first ++ rest /\ first <> [] /\ Forall (eq (0x69, [])) first /\ Forall (eq (0x6a, [])) rest).
  { exists (requests t1), (requests t). rewrite requests_app. auto. }
  cbn [err_is] in H. destruct (error_eqb x EPlmNak) eqn:Ex.
  - apply error_eqb_eq in Ex. destruct (H4 Ex) as [H5 H6].
    unfold pfst, pput, pret in H. cbn [fst snd] in H. injection H as <- <- <- <-.
    split; [|split; [congruence|exact Hreq]]. intros _. cbn [set_pd_links pd_links]. rewrite records_app, R1. cbn [app].
    split; [exact H5|]. destruct H6 as [[-> ->]|H6].
    + rewrite app_nil_r. apply (N1 a1). reflexivity.
    + apply ends_in_app. exact H6.
  - unfold pret in H. injection H as <- <- <- <-. split; [discriminate|]. split; [reflexivity|exact Hreq].
Qed.

(** ** The ideal modem *)
Lemma retry_const : forall W (pw : packet_writer W) n nak pkt last w r, (0 < n)%nat ->
  pw_write pw pkt w = (Ret r, w) -> retry_loop pw n nak pkt last w = (Ret r, w).
Proof.
  intros W pw n nak pkt last w [a e] Hn H. revert last. induction n as [|n IH]; intro last; [lia|].
  cbn [retry_loop]. rewrite H. destruct ((err_is e EPlmNak && nak) || err_is e EPlmReadTimeout); [|reflexivity].
  destruct n as [|n]; [reflexivity|]. apply IH. lia.
Qed.

Lemma retry_ok : forall W (pw : packet_writer W) retries nak pkt w a w1, 0 <= retries ->
  pw_write pw pkt w = (Ret (a, None), w1) -> pw_write (retry pw retries nak) pkt w = (Ret (a, None), w1).
Proof.
  intros W pw retries nak pkt w a w1 Hr H. unfold retry. cbn [pw_write].
  destruct (Z.to_nat (retries + 1)) as [|n] eqn:En; [lia|]. cbn [retry_loop]. rewrite H. reflexivity.
Qed.

Lemma refresh_loop_modem : forall retries, 0 <= retries -> forall rest pre l m nz,
  quiet_noise m -> Forall link_wf (md_links m) -> md_links m = pre ++ l :: rest ->
  md_out m = nz ++ [mkPkt 0x57 (link_marshal l) 0] -> Forall (fun p => p_cmd p <> 0x57) nz -> md_next m = S (length pre) ->
  exists N m', md_links m' = md_links m /\
    forall fuel, (N <= fuel)%nat -> refresh_loop fuel modem_pw retries pre None m = (Ret (pre ++ l :: rest, Some EPlmNak), m').
Proof.
  intros retries Hr rest. induction rest as [|l2 rest IHr]; intros pre l m nz; revert m;
    induction nz as [|p nz IHn]; intros m Hq Hwf Hl Ho Hn Hx.
  - (* last record *)
    set (m1 := mkModem (md_links m) (md_next m) [] (md_noise m)).
    exists 1%nat, m1. split; [reflexivity|].
    intros [|fuel] Hf; [lia|]. cbn [refresh_loop]. unfold pbind at 1. cbn [modem_pw pw_read]. unfold modem_read. rewrite Ho.
    cbn [app p_cmd p_payload]. change (0x57 =? pc_AllLinkRecordResp) with true. cbv iota.
    assert (Hlw : link_wf l) by (rewrite Hl in Hwf; apply Forall_app in Hwf; destruct Hwf as [_ Hwf]; inversion Hwf; assumption).
    rewrite (link_roundtrip link_zero l Hlw). unfold pbind.
    unfold retry. cbn [pw_write]. rewrite (retry_const _ modem_pw _ _ _ _ m1 (nak_of (mkPkt pc_GetNextAllLink [] 0))).
    + cbn [nak_of]. destruct fuel; reflexivity.
    + lia.
    + cbn [modem_pw pw_write]. unfold modem_write. cbn [p_cmd]. change (pc_GetNextAllLink =? 0x69) with false.
      change (pc_GetNextAllLink =? 0x6a) with true. cbv iota. unfold send_record. cbn [md_links md_next m1].
      rewrite Hx, Hl. rewrite (proj2 (nth_error_None _ _)); [reflexivity|]. rewrite app_length. cbn. lia.
  - (* noise before the last record *)
    inversion Hn as [|? ? Hp Hn']; subst.
    destruct (IHn (mkModem (md_links m) (md_next m) (nz ++ [mkPkt 0x57 (link_marshal l) 0]) (md_noise m)) Hq Hwf Hl eq_refl Hn' Hx) as (N & m' & Hm & HN).
    exists (S N), m'. split; [exact Hm|]. intros [|fuel] Hf; [lia|].
    cbn [refresh_loop]. unfold pbind at 1. cbn [modem_pw pw_read]. unfold modem_read. rewrite Ho. cbn [app].
    unfold pc_AllLinkRecordResp. replace (p_cmd p =? 87) with false by lia. apply HN. lia.
  - (* a record with more to come *)
    set (m1 := mkModem (md_links m) (md_next m) [] (md_noise m)).
    set (m2 := mkModem (md_links m) (S (md_next m)) (md_noise m (md_next m) ++ [mkPkt 0x57 (link_marshal l2) 0]) (md_noise m)).
    destruct (IHr (pre ++ [l]) l2 m2 (md_noise m (md_next m))) as (N & m' & Hm & HN).
    { exact Hq. } { exact Hwf. } { cbn [m2 md_links]. rewrite Hl, <- app_assoc. reflexivity. } { reflexivity. } { apply Hq. }
    { cbn [m2 md_next]. rewrite Hx, app_length. cbn. lia. }
    exists (S N), m'. split; [exact Hm|]. intros [|fuel] Hf; [lia|].
    cbn [refresh_loop]. unfold pbind at 1. cbn [modem_pw pw_read]. unfold modem_read. rewrite Ho.
    cbn [app p_cmd p_payload]. change (0x57 =? pc_AllLinkRecordResp) with true. cbv iota.
    assert (Hlw : link_wf l) by (rewrite Hl in Hwf; apply Forall_app in Hwf; destruct Hwf as [_ Hwf]; inversion Hwf; assumption).
    rewrite (link_roundtrip link_zero l Hlw). unfold pbind. fold m1.
    change (mkPW modem_write modem_read) with modem_pw.
    rewrite (retry_ok _ modem_pw retries false (mkPkt pc_GetNextAllLink [] 0) m1 (fst (ack_of (mkPkt pc_GetNextAllLink [] 0))) m2 Hr).
    + specialize (HN fuel ltac:(lia)). rewrite <- app_assoc in HN. exact HN.
    + cbn [modem_pw pw_write]. unfold modem_write. cbn [p_cmd]. change (pc_GetNextAllLink =? 0x69) with false.
      change (pc_GetNextAllLink =? 0x6a) with true. cbv iota. unfold send_record. cbn [md_links md_next m1].
      rewrite Hx, Hl. rewrite nth_error_app2 by lia. replace (S (length pre) - length pre)%nat with 1%nat by lia.
      cbn [nth_error]. unfold m2. rewrite Hx, Hl. reflexivity.
  - (* noise *)
    inversion Hn as [|? ? Hp Hn']; subst.
    destruct (IHn (mkModem (md_links m) (md_next m) (nz ++ [mkPkt 0x57 (link_marshal l) 0]) (md_noise m)) Hq Hwf Hl eq_refl Hn' Hx) as (N & m' & Hm & HN).
    exists (S N), m'. split; [exact Hm|]. intros [|fuel] Hf; [lia|].
    cbn [refresh_loop]. unfold pbind at 1. cbn [modem_pw pw_read]. unfold modem_read. rewrite Ho. cbn [app].
    unfold pc_AllLinkRecordResp. replace (p_cmd p =? 87) with false by lia. apply HN. lia.
Qed.

Lemma links_of_modem : forall db m now, 0 <= pd_retries db -> pdb_old now db = true ->
  quiet_noise m -> Forall link_wf (md_links m) -> md_out m = [] ->
  exists N db' m', md_links m' = md_links m /\ pd_links db' = md_links m /\
    forall fuel, (N <= fuel)%nat -> pdb_links fuel modem_pw now (db, m) = (Ret (md_links m, None), (db', m')).
Proof.
  intros db m now Hr Ho Hq Hwf Hout.
  destruct (md_links m) as [|l rest] eqn:El.
  - exists O, (set_pd_links db []), m. split; [exact El|]. split; [reflexivity|]. intros fuel _.
    unfold pdb_links, pdb_refresh, pbind, pfst, pget, psnd. cbn [fst snd]. rewrite Ho. cbn [negb].
    unfold retry. cbn [pw_write]. rewrite (retry_const _ modem_pw _ _ _ _ m (nak_of (mkPkt pc_GetFirstAllLink [] 0))).
    + cbn [nak_of]. destruct fuel; reflexivity.
    + lia.
    + cbn [modem_pw pw_write]. unfold modem_write, send_record. rewrite El. reflexivity.
  - set (m1 := mkModem (md_links m) 1 (md_noise m 0%nat ++ [mkPkt 0x57 (link_marshal l) 0]) (md_noise m)).
    destruct (refresh_loop_modem (pd_retries db) Hr rest [] l m1 (md_noise m 0%nat)) as (N & m' & Hm & HN).
    { exact Hq. } { cbn [m1 md_links]. rewrite El. exact Hwf. } { cbn [m1 md_links app]. exact El. } { reflexivity. } { apply Hq. } { reflexivity. }
    exists N, (set_pd_links db (l :: rest)), m'. split; [rewrite Hm; exact El|]. split; [reflexivity|]. intros fuel Hf.
    unfold pdb_links, pdb_refresh, pbind, pfst, pget, psnd. cbn [fst snd]. rewrite Ho. cbn [negb]. cbn [fst snd].
    rewrite (retry_ok _ modem_pw (pd_retries db) true (mkPkt pc_GetFirstAllLink [] 0) m (fst (ack_of (mkPkt pc_GetFirstAllLink [] 0))) m1 Hr).
    + cbn [ack_of fst snd]. rewrite (HN fuel Hf). reflexivity.
    + cbn [modem_pw pw_write]. unfold modem_write, send_record. rewrite El, Hout. unfold m1. rewrite El. reflexivity.
Qed.

(** ** WriteLinks on the ideal modem *)
Lemma delete_all_modem : forall ls m, Forall link_wf ls -> md_links m = ls ->
  exists m', delete_all modem_pw ls m = (Ret None, m') /\ md_links m' = [] /\ md_next m' = md_next m /\ md_out m' = md_out m /\ md_noise m' = md_noise m.
Proof.
  induction ls as [|l ls IH]; intros m Hwf Hm; cbn [delete_all].
  - exists m. unfold pret. auto.
  - inversion Hwf as [|? ? Hl Hwf']; subst. unfold pbind, pdb_delete_link.
    rewrite (retry_ok _ modem_pw 3 true _ m (fst (ack_of (mkPkt pc_ManageAllLinkRecord (mrr_marshal lc_DeleteFirst l) 0)))
      (mkModem ls (md_next m) (md_out m) (md_noise m)) ltac:(lia)).
    + destruct (IH (mkModem ls (md_next m) (md_out m) (md_noise m)) Hwf' eq_refl) as (m' & H1 & H2 & H3 & H4 & H5).
      exists m'. auto.
    + cbn [modem_pw pw_write]. unfold modem_write, mrr_marshal. cbn [p_cmd p_payload].
      change (pc_ManageAllLinkRecord =? 0x69) with false. change (pc_ManageAllLinkRecord =? 0x6a) with false.
      change (pc_ManageAllLinkRecord =? 0x6f) with true. change (lc_DeleteFirst =? 0x80) with true. cbv iota.
      rewrite (link_roundtrip link_zero l Hl). cbn [fst]. rewrite Hm. cbn [remove_first].
      unfold same_target at 1. rewrite !Z.eqb_refl. reflexivity.
Qed.

Lemma update_first_fresh : forall f new ls, Forall (fun x => f x = false) ls -> update_first f new ls = ls ++ [new].
Proof.
  intros f new ls H. induction H as [|x ls Hx H IH]; cbn [update_first app]; [reflexivity|]. rewrite Hx, IH. reflexivity.
Qed.

Lemma target_role_same : forall a b, same_target a b && same_role a b = true -> same_link a b.
Proof.
  intros a b H. unfold same_target, same_role in H. apply andb_true_iff in H. destruct H as [H1 H2].
  apply andb_true_iff in H1. apply eqb_prop in H2. unfold same_link.
  destruct (bit_range 6 (l_flags a)) as [Ea|Ea], (bit_range 6 (l_flags b)) as [Eb|Eb]; rewrite Ea, Eb in *; try discriminate; lia.
Qed.

Lemma write_all_modem : forall ls db m, Forall link_wf ls ->
  ForallOrdPairs (fun a b => ~ same_link b a) ls ->
  (forall a b, In a (md_links m) -> In b ls -> ~ same_link b a) ->
  exists db' m', write_all modem_pw ls (db, m) = (Ret None, (db', m')) /\ md_links m' = md_links m ++ ls /\ pd_links db' = pd_links db ++ ls.
Proof.
  induction ls as [|l ls IH]; intros db m Hwf Hd Hm; cbn [write_all].
  - exists db, m. rewrite !app_nil_r. auto.
  - inversion Hwf as [|? ? Hl Hwf']; subst. inversion Hd as [|? ? Hd1 Hd2]; subst.
    set (m1 := mkModem (md_links m ++ [l]) (md_next m) (md_out m) (md_noise m)).
    assert (Hw : exists a, pdb_write_link modem_pw l m = (Ret (a, None), m1)).
    { unfold pdb_write_link.
      exists (fst (ack_of (mkPkt pc_ManageAllLinkRecord (mrr_marshal (if rcf_controller (l_flags l) then lc_ModFirstCtrl else lc_ModFirstResp) l) 0))).
      apply (retry_ok _ modem_pw 3 true _ m _ m1 ltac:(lia)).
      cbn [modem_pw pw_write]. unfold modem_write, mrr_marshal. cbn [p_cmd p_payload].
      change (pc_ManageAllLinkRecord =? 0x69) with false. change (pc_ManageAllLinkRecord =? 0x6a) with false.
      change (pc_ManageAllLinkRecord =? 0x6f) with true. cbv iota.
      rewrite (link_roundtrip link_zero l Hl). cbn [fst].
      rewrite update_first_fresh.
      - rewrite (proj1 (proj2 (proj2 (rcf_accessors (l_flags l) (proj1 Hl))))).
        unfold bitb. destruct (bit 6 (l_flags l) =? 1); reflexivity.
      - apply Forall_forall. intros x Hx. destruct (same_target l x && same_role l x) eqn:E; [|reflexivity].
        exfalso. apply (Hm x l Hx (or_introl eq_refl)). apply target_role_same. exact E. }
    destruct Hw as (a & Hw).
    destruct (IH (set_pd_links db (pd_links db ++ [l])) m1 Hwf' Hd2) as (db' & m' & H1 & H2 & H3).
    { intros x y Hx Hy. cbn [m1 md_links] in Hx. apply in_app_or in Hx. destruct Hx as [Hx|[<-|[]]].
      - apply Hm; [exact Hx|right; exact Hy].
      - rewrite Forall_forall in Hd1. apply Hd1. exact Hy. }
    exists db', m'. unfold pbind, psnd, pfst, pget, pput, write_one, pbind. cbn [fst snd]. rewrite Hw.
    unfold pret at 1. cbn [fst snd].
    split; [exact H1|]. rewrite H2, H3. cbn [m1 md_links set_pd_links pd_links]. rewrite <- !app_assoc. auto.
Qed.

Lemma write_links_modem : forall db m ls, pd_links db = md_links m -> Forall link_wf (md_links m) -> Forall link_wf ls ->
  ForallOrdPairs (fun a b => ~ same_link b a) ls ->
  exists db' m', pdb_write_links modem_pw ls (db, m) = (Ret None, (db', m')) /\ md_links m' = ls /\ pd_links db' = ls.
Proof.
  intros db m ls Hc Hwm Hwf Hd. unfold pdb_write_links, pbind, pfst, pget, psnd, pput. cbn [fst snd].
  destruct (delete_all_modem (md_links m) m Hwm eq_refl) as (m1 & H1 & H2 & _).
  rewrite Hc, H1. cbn [fst snd].
  destruct (write_all_modem ls (set_pd_links db []) m1 Hwf Hd) as (db' & m' & H3 & H4 & H5).
  { rewrite H2. intros a b []. }
  exists db', m'. rewrite H3, H4, H5, H2. auto.
Qed.

(** ** IterateDevices *)
Lemma iterate_read_ext : forall ls r1 r2, (forall a, In a r1 <-> In a r2) -> iterate_addrs r1 ls = iterate_addrs r2 ls.
Proof.
  induction ls as [|l ls IH]; intros r1 r2 H; cbn [iterate_addrs]; [reflexivity|].
  assert (E : existsb (Z.eqb (l_addr l)) r1 = existsb (Z.eqb (l_addr l)) r2).
  { apply eq_true_iff_eq. rewrite !existsb_exists. split; intros (x & Hx & Ex); exists x; split; auto; apply H; exact Hx. }
  rewrite E. destruct (existsb (Z.eqb (l_addr l)) r2); [apply IH; exact H|].
  f_equal. apply IH. intro a. cbn. rewrite H. tauto.
Qed.

Lemma iterate_snoc : forall ls r l, iterate_addrs r (ls ++ [l]) =
  iterate_addrs r ls ++ (if existsb (Z.eqb (l_addr l)) (r ++ map l_addr ls) then [] else [l_addr l]).
Proof.
  induction ls as [|x ls IH]; intros r l; cbn [iterate_addrs app map].
  - rewrite app_nil_r. destruct (existsb (Z.eqb (l_addr l)) r); reflexivity.
  - destruct (existsb (Z.eqb (l_addr x)) r) eqn:E.
    + rewrite IH. f_equal. rewrite !existsb_app. cbn [existsb].
      destruct (Z.eqb_spec (l_addr l) (l_addr x)) as [E1|E1]; [|reflexivity].
      rewrite E1, E. reflexivity.
    + cbn [app]. rewrite IH. f_equal. f_equal. cbn [existsb app]. rewrite !existsb_app. cbn [existsb].
      destruct (l_addr l =? l_addr x), (existsb (Z.eqb (l_addr l)) r); reflexivity.
Qed.

Lemma iterate_firsts : forall ls, firsts (map l_addr ls) (iterate_addrs [] ls).
Proof.
  induction ls as [|l ls IH] using rev_ind; [constructor|].
  rewrite map_app, iterate_snoc. cbn [map app].
  destruct (existsb (Z.eqb (l_addr l)) (map l_addr ls)) eqn:E.
  - rewrite app_nil_r. apply firsts_old; [exact IH|].
    apply existsb_exists in E. destruct E as (x & Hx & Ex). apply Z.eqb_eq in Ex. subst x. exact Hx.
  - apply firsts_new; [exact IH|]. intro Hx.
    assert (existsb (Z.eqb (l_addr l)) (map l_addr ls) = true); [|congruence].
    apply existsb_exists. exists (l_addr l). rewrite Z.eqb_refl. auto.
Qed.

Lemma firsts_complete : forall l f, firsts l f -> (forall a, In a f <-> In a l) /\ NoDup f.
Proof.
  intros l f H. induction H as [|l f a H [IH1 IH2] Hn|l f a H [IH1 IH2] Hn].
  - split; [tauto|constructor].
  - split.
    + intro x. rewrite !in_app_iff, IH1. tauto.
    + apply NoDup_rev in IH2. rewrite <- (rev_involutive f). rewrite <- (rev_involutive (rev (rev f) ++ [a])).
      apply NoDup_rev. rewrite rev_app_distr, rev_involutive. cbn. constructor; [|exact IH2].
      rewrite <- in_rev, IH1. exact Hn.
  - split; [|exact IH2]. intro x. rewrite in_app_iff, IH1. cbn. split; [tauto|]. intros [Hx|[<-|[]]]; auto.
Qed.

Lemma iterate_callbacks : forall W (pw : packet_writer W) fuel now db w addrs err s',
  pdb_iterate fuel pw now (db, w) = (Ret (addrs, err), s') ->
  exists links, pdb_links fuel pw now (db, w) = (Ret (links, err), s') /\
    (err = None -> firsts (map l_addr links) addrs) /\ (err <> None -> addrs = []).
Proof.
  intros W pw fuel now db w addrs err s' H. unfold pdb_iterate, pbind in H.
  destruct (pdb_links fuel pw now (db, w)) as [[[links e]| |] s1] eqn:E; try discriminate.
  destruct e as [e|]; unfold pret in H; injection H as <- <- <-; exists links.
  - split; [reflexivity|]. split; [discriminate|reflexivity].
  - split; [reflexivity|]. split; [intros _; apply iterate_firsts|congruence].
Qed.
