(** What the library's functions for links and the walk over the network cost. *)
From Coq Require Import ZArith List Bool Lia ZifyBool ZifyNat.
From Verif Require Import GoBase GoProg Command Message Link MsgWriter BasicDevice Query PlmPacket Plm PlmProofs PlmLinkdb Database DevLinkdb UtilLink IcCmd IcDev IcLine IcWalk IcLink
  Parties EndsSpec EndsProofs EndsNetProofs CostSpec CostProofs.
Import ListNotations.
Open Scope Z_scope.
Ltac Zify.zify_post_hook ::= Z.div_mod_to_equations.

(** With [N] units for this program and for dealing with what it leaves over. *)
Definition leaves {W} (X : nat -> W -> W -> Prop) (N : nat) (p : prog W (list link * option error)) : Prop :=
  forall w r w', p w = (r, w') -> exists c, (c <= N)%nat /\ X c w w' /\ forall ls, r = Ret (ls, None) -> (c + List.length ls <= N)%nat.
Section Leaves.
  Variable W : Type.
  Variable X : nat -> W -> W -> Prop.
  Hypothesis HX : adds X.
  Lemma lv_ret : forall N ls, (List.length ls <= N)%nat -> leaves X N (pret (ls, None)).
  Proof. intros N ls H w r w' E. injection E as <- <-. exists O. split; [lia|]. split; [apply HX|]. intros x Hx. injection Hx as <-. lia. Qed.
  Lemma lv_err : forall N ls e, leaves X N (pret (ls, Some e)).
  Proof. intros N ls e w r w' E. injection E as <- <-. exists O. split; [lia|]. split; [apply HX|discriminate]. Qed.
  Lemma lv_panic : forall N, leaves X N ppanic.
  Proof. intros N w r w' E. injection E as <- <-. exists O. split; [lia|]. split; [apply HX|discriminate]. Qed.
  Lemma lv_bind : forall a N A (m : prog W A) f, cost X a m -> (a <= N)%nat -> (forall x, leaves X (N - a) (f x)) -> leaves X N (pbind m f).
  Proof.
    intros a N A m f Hm Ha Hf w r w' E. unfold pbind in E. destruct (m w) as [[x| |] w1] eqn:E1; destruct (Hm _ _ _ E1) as [H1 _].
    - destruct (Hf x _ _ _ E) as (c & C1 & C2 & C3). exists (a + c)%nat. split; [lia|]. split; [eapply X_then; [exact HX| |exact H1|exact C2]; lia|]. intros ls Hl. specialize (C3 _ Hl). lia.
    - injection E as <- <-. exists a. split; [exact Ha|]. split; [exact H1|discriminate].
    - injection E as <- <-. exists a. split; [exact Ha|]. split; [exact H1|discriminate].
  Qed.
  Lemma lv_le : forall a N p, leaves X a p -> (a <= N)%nat -> leaves X N p.
  Proof. intros a N p Hp Ha w r w' E. destruct (Hp _ _ _ E) as (c & C1 & C2 & C3). exists c. split; [lia|]. split; [exact C2|]. intros ls Hl. specialize (C3 _ Hl). lia. Qed.
  Lemma lv_then : forall N extra A p (f : list link * option error -> prog W A), leaves X N p -> (forall ls e, cost X O (f (ls, Some e))) ->
    (forall ls, cost X (List.length ls + extra) (f (ls, None))) -> cost X (N + extra) (pbind p f).
  Proof.
    intros N extra A p f Hp He Hf w r w' E. split; [|trivial]. unfold pbind in E. destruct (p w) as [o w1] eqn:E1. destruct (Hp _ _ _ E1) as (c & C1 & C2 & C3).
    destruct o as [[ls [e|]]| |].
    - destruct (He ls e _ _ _ E) as [H _]. apply (X_then _ _ HX c 0 _ w w1); [lia|exact C2|exact H].
    - specialize (C3 _ eq_refl). destruct (Hf ls _ _ _ E) as [H _]. eapply (X_then _ _ HX c); [|exact C2|exact H]. lia.
    - injection E as <- <-. apply (X_le _ _ HX c); [lia|exact C2].
    - injection E as <- <-. apply (X_le _ _ HX c); [lia|exact C2].
  Qed.
End Leaves.

Section Db.
  Variable W : Type.
  Variable X : nat -> W -> W -> Prop.
  Hypothesis HX : adds X.
  Variable i : dinfo.
  Variable mw : mwriter W.
  Hypothesis Hmw : mw_cost X mw.
  Variable n : nat.
  Definition X2 : nat -> linkdb * W -> linkdb * W -> Prop := fun k x y => X k (snd x) (snd y).
  Lemma H2X : adds X2. Proof. exact (HX2 W X HX). Qed.
  Lemma get2 : forall k, cost X2 k (@pfst linkdb W _ pget). Proof. exact (k_pget W X HX). Qed.
  Lemma put2 : forall k x, cost X2 k (@pfst linkdb W _ (pput x)). Proof. exact (k_pput W X HX). Qed.
  Lemma send2 : forall m, cost X2 1 (psnd (mw_write (bd_mw i mw) m)). Proof. intro m. apply (k_psnd W X), k_write. exact Hmw. Qed.
  Lemma refresh2 : forall now, cost X2 2 (ld_refresh n (bd_mw i mw) now).
  Proof.
    pose proof H2X as H2. intro now. unfold ld_refresh.
    apply (k_bind _ _ H2 O); [apply get2|lia|]. intro db. destruct (negb (ld_old now db)); [apply k_ret; exact H2|].
    apply (k_bind _ _ H2 O); [apply put2|lia|]. intros _. apply (k_bind _ _ H2 O); [apply kb_lift; exact H2|lia|]. intro buf.
    apply (k_bind _ _ H2 1); [apply send2|lia|]. intros [a err]. apply (k_bind _ _ H2 1); [destruct err; [apply k_ret; exact H2|apply (k_refresh_loop W X HX i mw Hmw n)]|lia|].
    intros [e|]; [apply k_ret; exact H2|]. apply (k_bind _ _ H2 O); [apply get2|lia|]. intro. apply (k_bind _ _ H2 O); [apply put2|lia|]. intro. apply k_ret; exact H2.
  Qed.
  Lemma write_link2 : forall k l, cost X2 1 (ld_write_link (bd_mw i mw) k l).
  Proof.
    pose proof H2X as H2. intros k l. unfold ld_write_link. apply (k_bind _ _ H2 O); [apply get2|lia|]. intro db. destruct (zlen (ld_links db) <? k); [apply k_ret; exact H2|].
    apply (k_bind _ _ H2 O); [apply kb_lift; exact H2|lia|]. intro buf. apply (k_bind _ _ H2 1); [apply send2|lia|]. intros [a [e|]]; [apply k_ret; exact H2|].
    repeat first [co1 | apply (k_bind _ _ H2 O); [apply put2|lia|]].
  Qed.
  Lemma write_loop2 : forall ls k, cost X2 (List.length ls) (ld_write_loop (bd_mw i mw) k ls).
  Proof.
    pose proof H2X as H2. induction ls as [|l ls IH]; intro k; cbn [ld_write_loop List.length]; [apply k_ret; exact H2|].
    apply (k_bind _ _ H2 1); [apply write_link2|lia|]. intros [e|]; [apply k_ret; exact H2|]. replace (S (List.length ls) - 1)%nat with (List.length ls) by lia. apply IH.
  Qed.
  Lemma write_links2 : forall now ls, cost X2 (List.length ls + 1) (ld_write_links (bd_mw i mw) now ls).
  Proof.
    pose proof H2X as H2. intros now ls. unfold ld_write_links. apply (k_bind _ _ H2 (List.length ls)); [apply write_loop2|lia|]. intros [e|]; [apply k_ret; exact H2|].
    apply (k_bind _ _ H2 O); [apply get2|lia|]. intro db. apply (k_bind _ _ H2 1); [apply write_link2|lia|]. intros [e|]; [apply k_ret; exact H2|].
    apply (k_bind _ _ H2 O); [apply get2|lia|]. intro. apply (k_bind _ _ H2 O); [apply put2|lia|]. intro. apply k_ret; exact H2.
  Qed.
  Lemma match2 : forall todo kept, leaves X2 (List.length kept + List.length todo) (ld_update_match (bd_mw i mw) kept todo).
  Proof.
    pose proof H2X as H2. induction todo as [|l t IH]; intro kept; cbn [ld_update_match List.length]; [apply (lv_ret _ _ H2); rewrite rev_length; lia|].
    apply (lv_bind _ _ H2 O); [apply get2|lia|]. intro db. rewrite Nat.sub_0_r. destruct (index_find (link_id l) (ld_index db)) as [j|].
    - destruct (nth_error (ld_links db) j) as [old|]; [|apply (lv_panic _ _ H2)]. apply (lv_bind _ _ H2 1); [destruct (negb (l_flags old =? l_flags l)); [apply write_link2|apply k_ret; exact H2]|lia|].
      intros [e|]; [apply (lv_err _ _ H2)|]. apply (lv_le _ X2 (List.length kept + List.length t)); [apply IH|lia].
    - apply (lv_le _ X2 (List.length (l :: kept) + List.length t)); [apply IH|cbn [List.length]; lia].
  Qed.
  Lemma fill2 : forall m k ls, leaves X2 (List.length ls) (ld_update_fill (bd_mw i mw) m k ls).
  Proof.
    pose proof H2X as H2. induction m as [|m IH]; intros k ls; cbn [ld_update_fill]; [apply (lv_ret _ _ H2); lia|].
    apply (lv_bind _ _ H2 O); [apply get2|lia|]. intro db. apply (lv_bind _ _ H2 O); [apply kb_lift; exact H2|lia|]. intro x. rewrite !Nat.sub_0_r.
    destruct ls as [|l t]; [apply (lv_ret _ _ H2); cbn; lia|]. destruct (rcf_available (l_flags x)); [|apply IH].
    apply (lv_bind _ _ H2 1); [apply write_link2|cbn [List.length]; lia|]. intros [e|]; [apply (lv_err _ _ H2)|]. cbn [List.length]. replace (S (List.length t) - 1)%nat with (List.length t) by lia. apply IH.
  Qed.
  Lemma append2 : forall ls k e, cost X2 (List.length ls) (ld_update_append (bd_mw i mw) k ls e).
  Proof.
    pose proof H2X as H2. induction ls as [|l ls IH]; intros k e; cbn [ld_update_append List.length]; [apply k_ret; exact H2|].
    apply (k_bind _ _ H2 1); [apply write_link2|lia|]. intro. replace (S (List.length ls) - 1)%nat with (List.length ls) by lia. apply IH.
  Qed.
  Lemma update2 : forall now ls, cost X2 (List.length ls + 3) (ld_update_links n (bd_mw i mw) now ls).
  Proof.
    pose proof H2X as H2. intros now ls. unfold ld_update_links. apply (k_bind _ _ H2 2); [apply refresh2|lia|]. intros [e|]; [apply k_ret; exact H2|].
    replace (List.length ls + 3 - 2)%nat with (List.length ls + 1)%nat by lia.
    apply (lv_then _ _ H2 (List.length ls) 1); [exact (match2 ls [])|intros; apply k_ret; exact H2|]. intro l1.
    apply (k_bind _ _ H2 O); [apply get2|lia|]. intro db. rewrite Nat.sub_0_r. apply (lv_then _ _ H2 (List.length l1) 1); [apply fill2|intros; apply k_ret; exact H2|]. intro l2.
    destruct l2 as [|x l2]; [apply k_ret; exact H2|]. apply (k_bind _ _ H2 O); [apply get2|lia|]. intro db1. rewrite Nat.sub_0_r.
    apply (k_bind _ _ H2 (List.length (x :: l2))); [apply append2|lia|]. intros [j [e|]]; [apply k_ret; exact H2|].
    apply (k_le _ _ H2 1); [apply write_link2|lia].
  Qed.
  Lemma get_links2 : forall now, cost X2 2 (ld_get_links n (bd_mw i mw) now). Proof. exact (k_get_links W X HX i mw Hmw n). Qed.
End Db.

(** A [Linkable] that can write single records. *)
Definition dev_lk_cost {W} (X : nat -> W -> W -> Prop) (l : linkable W) : Prop :=
  cost X 2 (lk_links l) /\ (forall ls, cost X (List.length ls + 3) (lk_update l ls)) /\ (forall ls, cost X (List.length ls + 1) (lk_write l ls)) /\
  exists wr, lk_write_one l = Some wr /\ forall k x, cost X 1 (wr k x).
Definition mode_cost {W} (X : nat -> W -> W -> Prop) (l : linkable W) : Prop :=
  (forall g, cost X 1 (lk_enter l g)) /\ (forall g, cost X 1 (lk_unlink l g)) /\ cost X 1 (lk_exit l).
Section Util.
  Variable W : Type.
  Variable X : nat -> W -> W -> Prop.
  Hypothesis HX : adds X.
  Lemma unlink_cost : forall g c r, mode_cost X c -> mode_cost X r -> cost X 4 (unlink g c r).
  Proof.
    intros g c r (C1 & C2 & C3) (R1 & R2 & R3). unfold unlink. apply (k_bind _ _ HX 1); [apply C2|lia|]. intros [e|]; [apply k_ret; exact HX|].
    apply (k_bind _ _ HX 1); [apply R1|lia|]. intro. apply (k_bind _ _ HX 1); [apply C3|lia|]. intros _. apply (k_bind _ _ HX 1); [apply R3|lia|]. intros _. apply k_ret; exact HX.
  Qed.
  Lemma add_fill_cost : forall wr, (forall k x, cost X 1 (wr k x)) -> forall ex k add, leaves X (List.length add) (add_fill wr k ex add).
  Proof.
    intros wr Hw. induction ex as [|x ex IH]; intros k add; cbn [add_fill]; [apply (lv_ret _ _ HX); lia|]. destruct add as [|a add]; [apply (lv_ret _ _ HX); cbn; lia|].
    destruct (rcf_available (l_flags x)); [|apply IH]. apply (lv_bind _ _ HX 1); [apply Hw|cbn [List.length]; lia|]. intros [e|]; [apply (lv_err _ _ HX)|].
    cbn [List.length]. replace (S (List.length add) - 1)%nat with (List.length add) by lia. apply IH.
  Qed.
  Lemma add_append_cost : forall wr, (forall k x, cost X 1 (wr k x)) -> forall add k e, cost X (List.length add) (add_append wr k add e).
  Proof.
    intros wr Hw. induction add as [|a add IH]; intros k e; cbn [add_append List.length]; [apply k_ret; exact HX|]. apply (k_bind _ _ HX 1); [apply Hw|lia|]. intro.
    replace (S (List.length add) - 1)%nat with (List.length add) by lia. apply IH.
  Qed.
  Lemma add_links_cost : forall l add, dev_lk_cost X l -> cost X (List.length add + 2) (add_links l add).
  Proof.
    intros l add (L1 & _ & _ & wr & L2 & L3). unfold add_links. apply (k_bind _ _ HX 2); [exact L1|lia|]. intros [ex [e|]]; [apply k_ret; exact HX|]. rewrite L2.
    replace (List.length add + 2 - 2)%nat with (List.length add + 0)%nat by lia. apply (lv_then _ _ HX); [apply add_fill_cost; exact L3|intros; apply k_ret; exact HX|].
    intro ls. rewrite Nat.add_0_r. apply add_append_cost; exact L3.
  Qed.
  Lemma duplicates_cost : forall l same, dev_lk_cost X l -> cost X 2 (find_duplicate_links l same).
  Proof. intros l same (L1 & _). unfold find_duplicate_links. apply (k_bind _ _ HX 2); [exact L1|lia|]. repeat co1. Qed.
End Util.

(** ** The members *)
Lemma on_dev_cost : forall h sc k A j (p : prog (linkdb * plm) A), cost (X2 plm (spent h sc)) k p -> cost (@spent2 memory h sc) k (on_dev j p).
Proof.
  intros h sc k A j p Hp [m st] r w' H. unfold on_dev in H. destruct (p (me_dev m j, st)) as [o [db st1]] eqn:E. injection H as <- <-. destruct (Hp _ _ _ E) as [H1 _]. split; [exact H1|trivial].
Qed.
Lemma member_modes : forall h sc k n now p, mode_cost (@spent2 memory h sc) (member_lk k n sc now p).
Proof.
  intros h sc k n now p. pose proof (spent_adds h sc) as HX. pose proof (plm_cost h sc k) as Hmw.
  assert (Hpk : forall pkt, cost (@spent2 memory h sc) 1 (psnd (do (_, err) <- pw_write (plm_pw sc) pkt ;; pret err))).
  { intro pkt. apply psnd_cost. apply (k_bind _ _ HX 1); [apply packet_cost|lia|intros [x e]; apply k_ret; exact HX]. }
  destruct p as [j i|]; unfold mode_cost; cbn [member_lk]; cbv zeta; cbn [lk_enter lk_unlink lk_exit].
  - split; [intro g; apply psnd_cost, k_enter; assumption|]. split; [intro g; apply psnd_cost, k_unenter; assumption|apply psnd_cost, k_exit; assumption].
  - split; [intro g; apply Hpk|]. split; [intro g; apply Hpk|apply Hpk].
Qed.
Lemma member_dev : forall h sc k n now j i, dev_lk_cost (@spent2 memory h sc) (member_lk k n sc now (PDev j i)).
Proof.
  intros h sc k n now j i. pose proof (spent_adds h sc) as HX. pose proof (plm_cost h sc k) as Hmw. unfold dev_lk_cost. cbn [member_lk]; cbv zeta; cbn [lk_links lk_update lk_write lk_write_one].
  split; [apply on_dev_cost, get_links2; assumption|]. split; [intro ls; apply on_dev_cost, update2; assumption|]. split; [intro ls; apply on_dev_cost, write_links2; assumption|].
  eexists. split; [reflexivity|]. intros m x. apply on_dev_cost, write_link2; assumption.
Qed.

(** ** The walk *)
Lemma refresh_length : forall sc k r0 links err st ls e st', refresh_loop k (plm_pw sc) r0 links err st = (Ret (ls, e), st') ->
  exists u, used sc u st st' /\ (List.length ls <= List.length links + u)%nat.
Proof.
  intros sc. destruct (used_counts sc) as (Hr & Ht & _). induction k as [|k IH]; intros r0 links err st ls e st' H.
  { destruct err; cbn [refresh_loop] in H; [|discriminate]. injection H as <- _ <-. exists O. split; [apply Hr|lia]. }
  destruct err as [e0|]; cbn [refresh_loop] in H; [injection H as <- _ <-; exists O; split; [apply Hr|lia]|]. cbn [plm_pw pw_read] in H. unfold pbind at 1, plm_read_packet in H.
  destruct (receive sc QPkt st) as [x st1] eqn:E. apply receive_used in E. assert (E0 : used sc O st st1) by (apply (proj2 (proj2 (used_counts sc)) _ (one x)); [lia|exact E]).
  destruct x as [p| |]; try discriminate; [|injection H as <- _ <-; exists O; split; [exact E0|lia]].
  destruct (p_cmd p =? pc_AllLinkRecordResp); [|destruct (IH _ _ _ _ _ _ _ H) as (u & U1 & U2); exists u; split; [exact (Ht _ _ _ _ _ E0 U1)|exact U2]].
  destruct (link_unmarshal link_zero (p_payload p)) as [l [e1|]]; [injection H as <- _ <-; exists O; split; [exact E0|lia]|].
  unfold pbind in H. match type of H with context [pw_write ?a ?b st1] => destruct (pw_write a b st1) as [o st2] eqn:E2 end. unfold retry in E2. cbn [pw_write] in E2. apply retry_used in E2.
  destruct o as [[y e1]| |]; try discriminate. destruct (IH _ _ _ _ _ _ _ H) as (u & U1 & U2). exists (1 + (0 + u))%nat. split; [exact (Ht _ _ _ _ _ E (Ht _ _ _ _ _ E2 U1))|].
  rewrite app_length in U2. cbn [List.length] in U2. lia.
Qed.
Lemma links_length : forall sc n now st ls e w', pdb_links n (plm_pw sc) now (modem_db st, st) = (Ret (ls, e), w') -> exists u, used sc u st (snd w') /\ (List.length ls <= u)%nat.
Proof.
  intros sc n now st ls e w' H. destruct (used_counts sc) as (Hr & Ht & _). unfold pdb_links, pdb_refresh, pbind, pfst, psnd, pget, pput, pret in H. cbn [fst snd] in H.
  destruct (negb (pdb_old now (modem_db st))); [injection H as <- _ <-; exists O; split; [apply Hr|cbn; lia]|].
  match type of H with context [pw_write ?a ?b ?c] => destruct (pw_write a b c) as [o st1] eqn:E end. unfold retry in E. cbn [pw_write] in E. apply retry_used in E.
  destruct o as [[a err]| |]; try discriminate.
  match type of H with context [refresh_loop ?a ?b ?c ?d ?e ?f] => destruct (refresh_loop a b c d e f) as [x st2] eqn:E3 end. cbn [fst snd] in H.
  destruct x as [[l1 err1]| |]; try discriminate. apply refresh_length in E3. destruct E3 as (u & U1 & U2). cbn [List.length] in U2. pose proof (Ht _ _ _ _ _ E U1) as U3. cbn [Nat.add] in U3.
  destruct (err_is err1 EPlmNak); injection H as <- _ <-; exists u; (split; [exact U3|cbn; lia]).
Qed.
Lemma iterate_length : forall ls read, (List.length (iterate_addrs read ls) <= List.length ls)%nat.
Proof. induction ls as [|l ls IH]; intro read; cbn [iterate_addrs List.length]; [lia|]. destruct (existsb _ read); cbn [List.length]; [specialize (IH read)|specialize (IH (l_addr l :: read))]; lia. Qed.
Lemma walk_all_cost : forall W (X : nat -> W -> W -> Prop) n now (open : dev_opener W), adds X -> (forall a, cost_by X 3 (dev_cost X) (open a)) ->
  forall addrs, cost X (5 * List.length addrs) (walk_all open (device_links n now) addrs).
Proof.
  intros W X n now open HX Ho. induction addrs as [|a addrs IH]; cbn [walk_all List.length]; [apply k_ret; exact HX|].
  apply (k_bind _ _ HX 5); [|lia|intro l1; apply (k_bind _ _ HX (5 * List.length addrs)); [exact IH|lia|intro; apply k_ret; exact HX]].
  unfold walk_one. eapply (kb_bind _ _ HX 3); [apply Ho|lia|]. intros [d [e|]] Hd; [apply k_ret; exact HX|]. destruct d as [d|]; [|apply k_panic; exact HX].
  apply (k_bind _ _ HX 2); [apply k_device_links; [exact HX|apply Hd; reflexivity]|lia|]. repeat co1.
Qed.
Lemma walk_cost : forall P sc k n os now filters f db st r w', at_most P sc st -> walk_network k n os sc now filters ((f, db), st) = (r, w') -> spent true sc (2 + 5 * P) st (snd w').
Proof.
  intros P sc k n os now filters f db st r w' Hm H. pose proof (spent_adds true sc) as HX. pose proof (spent2_adds (fstate * memdb) true sc) as HX2. unfold walk_network, iwalk in H. unfold pbind at 1 in H.
  unfold modem_devices, psnd, pdb_iterate, pbind in H. cbn [fst snd] in H.
  destruct (pdb_links n (plm_pw sc) now (modem_db st, st)) as [o [d1 st1]] eqn:E. pose proof E as E1. apply pdb_links_cost in E1; [|reflexivity]. cbn [snd] in E1.
  assert (E2 : spent true sc (2 + 5 * P) st st1) by (apply (X_le _ _ HX 2); [lia|exact E1]).
  destruct o as [[ls [e|]]| |]; cbn [fst snd] in H; try (injection H as <- <-; exact E2).
  apply links_length in E. destruct E as (u & U1 & U2). cbn [snd] in U1.
  assert (Hu : (u <= P)%nat) by (destruct (Nat.le_gt_cases u P) as [|Hgt]; [assumption|destruct (never_used P sc st st1 u Hm Hgt U1)]). pose proof (iterate_length ls []) as Hi. unfold pret at 1 in H. cbn [fst snd] in H.
  destruct (walk_all (db_opener k os (plm_mw k sc) filters) (device_links n now) (iterate_addrs [] ls) (f, db, st1)) as [o w2] eqn:E3.
  destruct (walk_all_cost _ _ n now _ HX2 (fun a => opener_cost true sc k os filters a) _ _ _ _ E3) as [E4 _].
  assert (E5 : spent true sc (2 + 5 * P) st (snd w2)) by (eapply (X_then _ _ HX 2); [|exact E1|exact E4]; lia).
  destruct o as [l| |]; injection H as <- <-; exact E5.
Qed.

(** ** How many records a device lists *)
Section Listing.
  Variable sc : schedule.
  Variable k0 : nat.
  Variable i : dinfo.
  Notation mw := (bd_mw i (plm_mw k0 sc)).
  Lemma listing_loop : forall k last db st r w', ld_refresh_loop k mw last (db, st) = (r, w') ->
    exists u, used sc u st (snd w') /\ (List.length (ld_links (fst w')) <= List.length (ld_links db) + u)%nat.
  Proof.
    pose proof (used_counts sc) as HU. destruct HU as (Hr & Ht & _). pose proof (plm_fits sc 0 k0 k0 (Nat.le_0_l _) (Nat.le_refl _)) as Hmw.
    induction k as [|k IH]; intros last db st r w' H; [injection H as <- <-; exists O; split; [apply Hr|cbn; lia]|]. cbn [ld_refresh_loop] in H.
    destruct (read_match_fits plm (used sc) (used_counts sc) 0 mw mw (cmd_matcher c_ReadWriteALDB) (bd_mw_fits _ _ _ i _ _ Hmw) k k (Nat.le_refl _)) as [F1 F2].
    unfold pbind at 1, psnd at 1 in H. cbn [fst snd] in H. destruct (read_match k mw (cmd_matcher c_ReadWriteALDB) st) as [o st1] eqn:E. destruct (F1 _ _ _ E) as [F3 _].
    destruct o as [[msg [e|]]| |]; try (injection H as <- <-; exists O; split; [exact F3|cbn; lia]).
    specialize (F2 _ _ _ E). destruct msg as [m|]; [|injection H as <- <-; exists O; split; [exact F3|cbn; lia]].
    destruct (lr_unmarshal linkreq_zero (m_payload m)) as [lr [e|]]; [injection H as <- <-; exists O; split; [exact F3|cbn; lia]|].
    destruct (lr_mem lr =? last); [destruct (IH _ _ _ _ _ H) as (u & U1 & U2); exists u; split; [exact (Ht _ _ _ _ _ F3 U1)|exact U2]|].
    destruct (lr_link lr) as [l|]; [|injection H as <- <-; exists O; split; [exact F3|cbn; lia]].
    destruct (rcf_last_record (l_flags l)); [injection H as <- <-; exists O; split; [exact F3|cbn; lia]|].
    unfold pbind, pfst, pget, pput in H. cbn [fst snd] in H. destruct (IH _ _ _ _ _ H) as (u & U1 & U2). exists (1 + u)%nat. split; [exact (Ht _ _ _ _ _ F2 U1)|].
    cbn [ld_links] in U2. rewrite app_length in U2. cbn [List.length] in U2. lia.
  Qed.
  Lemma listing_refresh : forall n now db st r w', ld_refresh n mw now (db, st) = (r, w') ->
    (List.length (ld_links (fst w')) <= List.length (ld_links db))%nat \/ exists u, used sc u st (snd w') /\ (List.length (ld_links (fst w')) <= u)%nat.
  Proof.
    intros n now db st r w' H. destruct (used_counts sc) as (Hr & Ht & _). unfold ld_refresh in H. unfold pbind, pfst, pget, pput, psnd, pret in H. cbn [fst snd] in H.
    destruct (negb (ld_old now db)); [injection H as <- <-; left; cbn; lia|]. destruct (plift _ _) as [[buf| |] s1] eqn:E0; unfold plift in E0; injection E0 as E0 <-;
      [|injection H as <- <-; left; cbn; lia|injection H as <- <-; left; cbn; lia]. cbn [fst snd] in H.
    match type of H with context [mw_write mw ?m st] => destruct (mw_write mw m st) as [o st1] eqn:E end.
    assert (U1 : used sc O st st1) by (cbn [bd_mw mw_write] in E; unfold bd_write in E; eapply (write_fits sc 0 k0 k0); [lia|lia|exact E]).
    destruct o as [[a [e|]]| |]; cbn [fst snd] in H; try (injection H as <- <-; left; cbn; lia).
    destruct (ld_refresh_loop n mw 0 (mkLdb (ld_age db) [] [], st1)) as [o w2] eqn:E2. destruct (listing_loop _ _ _ _ _ _ E2) as (u & U2 & U3). cbn [ld_links List.length Nat.add] in U3.
    pose proof (Ht _ _ _ _ _ U1 U2) as U4. cbn [Nat.add] in U4.
    destruct o as [[e|]| |]; cbn [fst snd] in H; injection H as <- <-; right; exists u; (split; [exact U4|exact U3]).
  Qed.
  Lemma listing : forall n now db st r w', ld_get_links n mw now (db, st) = (r, w') ->
    ((List.length (ld_links (fst w')) <= List.length (ld_links db))%nat \/ exists u, used sc u st (snd w') /\ (List.length (ld_links (fst w')) <= u)%nat) /\
    forall ls e, r = Ret (ls, e) -> (List.length ls <= List.length (ld_links (fst w')))%nat.
  Proof.
    intros n now db st r w' H. unfold ld_get_links, pbind in H. destruct (ld_refresh n mw now (db, st)) as [o w1] eqn:E. apply listing_refresh in E.
    destruct o as [[e|]| |]; unfold pfst, pget, pret in H; cbn [fst snd] in H; injection H as <- <-; (split; [exact E|]); intros ls x Hx; try discriminate; injection Hx as <- _; cbn [fst List.length]; lia.
  Qed.
End Listing.

Lemma at_most_used : forall P sc st st', at_most P sc st -> used sc O st st' -> at_most P sc st'.
Proof. intros P sc st st' Hm (d & T & H) d'. specialize (Hm (d + d')%nat). rewrite arrivals_app in Hm. rewrite T. unfold held in H. lia. Qed.
Lemma spent_used : forall h sc k st st', spent h sc k st st' -> used sc O st st'.
Proof. intros h sc k st st' (_ & _ & u & _ & _ & U & _). apply (proj2 (proj2 (used_counts sc)) _ u); [lia|exact U]. Qed.

(** No device object remembers more than [M] records, and no more than [M] packets come in. *)
Definition remembered (M : nat) (m : memory) : Prop := forall j, (List.length (ld_links (me_dev m j)) <= M)%nat.
Section Counted.
  Variable sc : schedule.
  Variables P M : nat.
  Hypothesis HPM : (P <= M)%nat.
  Variables k n : nat.
  Variable now : Z.
  Notation lk := (member_lk k n sc now).
  Notation X := (@spent2 memory false sc).
  Definition inv (w : memory * plm) : Prop := at_most P sc (snd w) /\ remembered M (fst w).
  Lemma links_inv : forall j i w r w', inv w -> lk_links (lk (PDev j i)) w = (r, w') -> X 2 w w' /\ inv w' /\ forall ls e, r = Ret (ls, e) -> (List.length ls <= M)%nat.
  Proof.
    intros j i [m st] r w' [H1 H2] H. destruct (member_dev false sc k n now j i) as [C _]. destruct (C _ _ _ H) as [C1 _]. split; [exact C1|].
    assert (U : used sc O st (snd w')) by exact (spent_used false sc 2 st (snd w') C1). cbn [member_lk] in H. cbv zeta in H. cbn [lk_links] in H. unfold on_dev in H.
    destruct (ld_get_links n (bd_mw i (plm_mw k sc)) now (me_dev m j, st)) as [o [db st1]] eqn:E. injection H as <- <-. cbn [snd] in U.
    destruct (listing sc k i _ _ _ _ _ _ E) as [L1 L2]. cbn [fst snd] in L1, L2, H1, H2.
    assert (L3 : (List.length (ld_links db) <= M)%nat).
    { destruct L1 as [L1|(u & U1 & U2)]; [specialize (H2 j); lia|]. destruct (Nat.le_gt_cases u P) as [|Hgt]; [lia|destruct (never_used P sc st st1 u H1 Hgt U1)]. }
    split; [|intros ls e He; specialize (L2 _ _ He); lia]. split; cbn [fst snd]; [exact (at_most_used _ _ _ _ H1 U)|].
    intro a. cbn [me_dev]. destruct (Nat.eqb a j); [exact L3|apply H2].
  Qed.
  Lemma find_inv : forall j i c a g w r w', inv w -> find_link_record (lk (PDev j i)) c a g w = (r, w') -> X 2 w w' /\ inv w'.
  Proof.
    intros j i c a g w r w' Hi H. unfold find_link_record, pbind in H. destruct (lk_links (lk (PDev j i)) w) as [o w1] eqn:E. destruct (links_inv _ _ _ _ _ Hi E) as (H1 & H2 & _).
    destruct o as [[ls [e|]]| |]; [| |injection H as <- <-; auto|injection H as <- <-; auto]; [injection H as <- <-; auto|].
    destruct (find (record_matches c a g) ls); injection H as <- <-; auto.
  Qed.
  Lemma remove_loop_cost : forall wr rm, (forall k x, cost X 1 (wr k x)) -> forall ls p, cost_by X (List.length ls) (fun r => r = []) (remove_loop (Some wr) p ls rm).
  Proof.
    pose proof (spent2_adds memory false sc) as HX. intros wr rm Hw. induction ls as [|l ls IH]; intro p; cbn [remove_loop List.length]; [apply kb_ret; [exact HX|reflexivity]|].
    destruct (removes rm l).
    - apply (kb_bind _ _ HX 1 _ _ _ (fun _ => True)); [apply Hw|lia|]. intros _ _. replace (S (List.length ls) - 1)%nat with (List.length ls) by lia. apply IH.
    - intros w r w' E. destruct (IH _ _ _ _ E) as [A B]. split; [apply (X_le _ _ HX (List.length ls)); [lia|exact A]|exact B].
  Qed.
  Lemma remove_inv : forall j i rm w r w', inv w -> remove_links (lk (PDev j i)) rm w = (r, w') -> X (2 + M) w w'.
  Proof.
    pose proof (spent2_adds memory false sc) as HX. intros j i rm w r w' Hi H. unfold remove_links in H. unfold pbind at 1 in H. destruct (lk_links (lk (PDev j i)) w) as [o w1] eqn:E.
    destruct (links_inv _ _ _ _ _ Hi E) as (H1 & H2 & H3). assert (H4 : X (2 + M) w w1) by (apply (X_le _ _ HX 2); [lia|exact H1]).
    destruct o as [[ls [e|]]| |]; try (injection H as <- <-; exact H4). specialize (H3 _ _ eq_refl).
    destruct (member_dev false sc k n now j i) as (_ & _ & _ & wr & W1 & W2). rewrite W1 in H. unfold pbind in H.
    destruct (remove_loop (Some wr) 0 ls rm w1) as [o w2] eqn:E2. destruct (remove_loop_cost wr rm W2 _ _ _ _ _ E2) as [H5 H6].
    assert (H7 : X (2 + M) w w2) by (eapply (X_then _ _ HX 2); [|exact H1|exact H5]; lia).
    destruct o as [rl| |]; [|injection H as <- <-; exact H7|injection H as <- <-; exact H7]. rewrite (H6 _ eq_refl) in H. injection H as <- <-. exact H7.
  Qed.
  Lemma force_members : forall g x y, cost X 4 (force_link g (lk x) (lk y)).
  Proof.
    intros g x y. destruct (member_modes false sc k n now x) as (A1 & A2 & A3). destruct (member_modes false sc k n now y) as (B1 & B2 & B3).
    apply force_cost; [apply spent2_adds|split; assumption|split; assumption].
  Qed.
  Lemma link_devices_inv : forall g j i j' i' w r w', inv w -> link_devices g (lk (PDev j i)) (lk (PDev j' i')) w = (r, w') -> X (10 + M) w w'.
  Proof.
    pose proof (spent2_adds memory false sc) as HX. intros g j i j' i' w r w' Hi H. unfold link_devices in H.
    assert (Aj : forall j i, lk_address (lk (PDev j i)) = pret (di_addr i)) by reflexivity. rewrite !Aj in H. unfold pbind at 1, pret at 1 in H. unfold pbind at 1 in H.
    destruct (find_link_record (lk (PDev j i)) true (di_addr i') g w) as [o w1] eqn:E1. destruct (find_inv _ _ _ _ _ _ _ _ Hi E1) as [H1 I1].
    assert (K1 : X (10 + M) w w1) by (apply (X_le _ _ HX 2); [lia|exact H1]).
    destruct o as [[cl err]| |]; [|injection H as <- <-; exact K1|injection H as <- <-; exact K1].
    assert (T : forall (p q : prog (memory * plm) (option error)) (v : memory * plm) r' v' (f : option error -> prog (memory * plm) (option error)),
      (forall u x u', p u = (x, u') -> inv u -> X (2 + M) u u') -> inv v -> (forall e, cost X 4 (f e)) -> X 4 w v -> pbind p f v = (r', v') -> X (10 + M) w v').
    { intros p q v r' v' f Hp Hv Hf Hwv E. unfold pbind in E. destruct (p v) as [o v1] eqn:Ep. pose proof (Hp _ _ _ Ep Hv) as P1.
      pose proof (X_then _ _ HX 4 (2 + M) (6 + M) _ _ _ ltac:(lia) Hwv P1) as P2. assert (P3 : X (10 + M) w v1) by (apply (X_le _ _ HX (6 + M)); [lia|exact P2]).
      destruct o as [e| |]; [|injection E as <- <-; exact P3|injection E as <- <-; exact P3]. destruct (Hf e _ _ _ E) as [P4 _]. eapply (X_then _ _ HX (6 + M)); [|exact P2|exact P4]. lia. }
    destruct err as [e|].
    - destruct (error_eqb e EUtilLinkNotFound); [|injection H as <- <-; exact K1]. unfold pbind at 1, pret at 1 in H. unfold pbind at 1 in H.
      destruct (find_link_record (lk (PDev j' i')) false (di_addr i) g w1) as [o w2] eqn:E2. destruct (find_inv _ _ _ _ _ _ _ _ I1 E2) as [H2 I2].
      pose proof (X_then _ _ HX 2 2 4 _ _ _ ltac:(lia) H1 H2) as K2. assert (K3 : X (10 + M) w w2) by (apply (X_le _ _ HX 4); [lia|exact K2]).
      destruct o as [[rl err1]| |]; [|injection H as <- <-; exact K3|injection H as <- <-; exact K3].
      eapply (T _ (pret None)); [|exact I2| |exact K2|exact H].
      + intros u x u' Eu Hu. destruct err1 as [e1|]; [injection Eu as <- <-; apply HX|exact (remove_inv _ _ _ _ _ _ Hu Eu)].
      + intros [e2|]; [destruct (error_eqb e2 EUtilLinkNotFound); [apply force_members|apply k_ret; exact HX]|apply force_members].
    - unfold pbind at 1, pret at 1 in H. unfold pbind at 1 in H.
      destruct (find_link_record (lk (PDev j' i')) false (di_addr i) g w1) as [o w2] eqn:E2. destruct (find_inv _ _ _ _ _ _ _ _ I1 E2) as [H2 I2].
      pose proof (X_then _ _ HX 2 2 4 _ _ _ ltac:(lia) H1 H2) as K2. assert (K3 : X (10 + M) w w2) by (apply (X_le _ _ HX 4); [lia|exact K2]).
      destruct o as [[rl [e|]]| |]; try (injection H as <- <-; exact K3). destruct (error_eqb e EUtilLinkNotFound); [|injection H as <- <-; exact K3].
      eapply (T _ (pret None)); [|exact I2| |exact K2|exact H]; [intros u x u' Eu Hu; exact (remove_inv _ _ _ _ _ _ Hu Eu)|].
      intros [e2|]; [apply k_ret; exact HX|apply force_members].
  Qed.
  Lemma address_cost : forall p, cost X 1 (lk_address (lk p)).
  Proof.
    intros [j i|]; [apply k_ret; apply spent2_adds|]. cbn [member_lk lk_address]. apply psnd_cost. intros st r st' H. split; [|trivial]. pose proof (spent_adds false sc) as HX.
    unfold plm_address in H. destruct (p_addr st =? 0); [|injection H as <- <-; apply HX]. destruct (plm_info sc st) as [o st1] eqn:E. destruct (info_cost false sc _ _ _ E) as [F _].
    destruct o as [[[a|] [e|]]| |]; injection H as <- <-; exact F.
  Qed.
  Lemma unlink_loop_cost : forall x y ls e, cost X (5 * List.length ls) (unlink_loop (lk x) (lk y) ls e).
  Proof.
    pose proof (spent2_adds memory false sc) as HX. intros x y. induction ls as [|l ls IH]; intro e; cbn [unlink_loop List.length]; [apply k_ret; exact HX|].
    apply (k_bind _ _ HX 1); [apply address_cost|lia|]. intro a. destruct (l_addr l =? a); [|eapply (k_le _ _ HX); [apply IH|lia]].
    apply (k_bind _ _ HX 4); [destruct (rcf_controller (l_flags l)); apply unlink_cost; try exact HX; apply member_modes|lia|]. intro. eapply (k_le _ _ HX); [apply IH|lia].
  Qed.
  Lemma unlink_all_inv : forall j i y w r w', inv w -> unlink_all (lk (PDev j i)) (lk y) w = (r, w') -> X (2 + 5 * M) w w'.
  Proof.
    pose proof (spent2_adds memory false sc) as HX. intros j i y w r w' Hi H. unfold unlink_all, pbind in H. destruct (lk_links (lk (PDev j i)) w) as [o w1] eqn:E.
    destruct (links_inv _ _ _ _ _ Hi E) as (H1 & H2 & H3). assert (H4 : X (2 + 5 * M) w w1) by (apply (X_le _ _ HX 2); [lia|exact H1]).
    destruct o as [[ls [e|]]| |]; try (injection H as <- <-; exact H4). specialize (H3 _ _ eq_refl).
    destruct (unlink_loop_cost (PDev j i) y ls None _ _ _ H) as [H5 _]. eapply (X_then _ _ HX 2); [|exact H1|exact H5]. lia.
  Qed.
End Counted.

(** ** The modem's own records: each wait is for the acknowledgement of a frame. *)
Definition flat (k : nat) (st st' : plm) : Prop := p_timeout st' = p_timeout st /\ at_cost k k st st'.
Lemma flat_adds : adds flat.
Proof.
  split; [|split].
  - intros k st. split; [reflexivity|]. exists [], []. rewrite !app_nil_r. cbn. repeat split; auto; lia.
  - intros a b x y z (T1 & fs & ws & A1 & A2 & A3 & A4 & A5) (T2 & gs & vs & B1 & B2 & B3 & B4 & B5). split; [congruence|]. exists (fs ++ gs), (ws ++ vs).
    rewrite B1, A1, B2, A2, !app_assoc, !app_length. split; [reflexivity|]. split; [reflexivity|]. split; [lia|]. split; [lia|]. apply Forall_app. split; [exact A5|rewrite <- T1; exact B5].
  - intros a b x y Hab (T1 & fs & ws & A1 & A2 & A3 & A4 & A5). split; [exact T1|]. exists fs, ws. repeat split; auto; lia.
Qed.
Lemma packet_flat : forall sc pkt, cost flat 1 (plm_write_packet sc pkt).
Proof.
  intros sc pkt st r st' H. split; [|trivial].
  assert (P : forall e s1, port_write sc st (pkt_marshal pkt) = (e, s1) -> p_timeout s1 = p_timeout st /\ p_sent s1 = p_sent st ++ [pkt_marshal pkt] /\ p_waits s1 = p_waits st).
  { intros e s1 E1. destruct (port_write_fields _ _ _ _ _ E1) as (G1 & G2 & G3 & G4 & G5 & G6 & G7). auto. }
  assert (Q : forall q s1 x s2, receive sc q s1 = (x, s2) -> p_timeout s1 = p_timeout st -> p_sent s1 = p_sent st ++ [pkt_marshal pkt] -> p_waits s1 = p_waits st -> flat 1 st s2).
  { intros q s1 x s2 E T1 S1 W1. destruct (receive_fields _ _ _ _ _ E) as (F1 & F2 & F3 & F4 & F5 & F6). split; [congruence|]. exists [pkt_marshal pkt], [p_timeout st].
    rewrite F1, F2, S1, W1, T1. cbn. repeat split; auto. }
  destruct (write_packet_cases _ _ _ _ _ H) as [e s1 E1|s1 s2 E1 E2|s1 s2 E1 E2|p s1 s2 E1 E2]; destruct (P _ _ E1) as (T1 & S1 & W1); [|exact (Q _ _ _ _ E2 T1 S1 W1)..].
  split; [exact T1|]. exists [pkt_marshal pkt], []. rewrite S1, W1, app_nil_r. cbn. repeat split; auto.
Qed.
Lemma retry_flat : forall sc n nak pkt last, cost flat n (retry_loop (plm_pw sc) n nak pkt last).
Proof.
  pose proof flat_adds as HX. intros sc n nak pkt. induction n as [|n IH]; intros last st r st' H; (split; [|trivial]); cbn [retry_loop] in H; [injection H as _ <-; apply HX|].
  cbn [plm_pw pw_write] in H. destruct (plm_write_packet sc pkt st) as [o st1] eqn:E. destruct (packet_flat _ _ _ _ _ E) as [F _].
  assert (E1 : flat (S n) st st1) by (apply (X_le _ _ HX 1); [lia|exact F]).
  destruct o as [[a e]| |]; [|injection H as _ <-; exact E1|injection H as _ <-; exact E1].
  destruct ((err_is e EPlmNak && nak) || err_is e EPlmReadTimeout); [|injection H as _ <-; exact E1]. destruct (IH _ _ _ _ H) as [G _]. apply (X_then _ _ HX 1 n _ _ st1); [lia|exact F|exact G].
Qed.
Lemma delete_flat : forall sc ls, cost flat (4 * List.length ls) (delete_all (plm_pw sc) ls).
Proof.
  pose proof flat_adds as HX. intros sc. induction ls as [|l ls IH]; cbn [delete_all List.length]; [apply k_ret; exact HX|].
  apply (k_bind _ _ HX 4); [apply (retry_flat sc 4)|lia|]. intros [a [e|]]; [apply k_ret; exact HX|]. eapply (k_le _ _ HX); [exact IH|lia].
Qed.
Lemma one_flat : forall sc l, cost flat 12 (write_one (plm_pw sc) l).
Proof.
  pose proof flat_adds as HX. intros sc l. unfold write_one. apply (k_bind _ _ HX 4); [apply (retry_flat sc 4)|lia|]. intros [a [e|]]; [|apply k_ret; exact HX].
  destruct (error_eqb e EPlmWrongPayload); [|apply k_ret; exact HX]. destruct a as [a|]; [|apply k_panic; exact HX].
  apply (k_bind _ _ HX 4); [apply (retry_flat sc 4)|lia|]. intros [a1 [e1|]]; [apply k_ret; exact HX|].
  apply (k_bind _ _ HX 4); [apply (retry_flat sc 4)|lia|]. intros [a2 e2]. apply k_ret. exact HX.
Qed.
Lemma all_flat : forall sc ls (db : plmdb) st r w', write_all (plm_pw sc) ls (db, st) = (r, w') -> flat (12 * List.length ls) st (snd w').
Proof.
  pose proof flat_adds as HX. intros sc. induction ls as [|l ls IH]; intros db st r w' H; cbn [write_all List.length] in *; [injection H as <- <-; apply HX|].
  unfold pbind at 1, psnd in H. cbn [fst snd] in H. destruct (write_one (plm_pw sc) l st) as [o st1] eqn:E. destruct (one_flat _ _ _ _ _ E) as [F _].
  assert (F1 : flat (12 * S (List.length ls)) st st1) by (apply (X_le _ _ HX 12); [lia|exact F]).
  destruct o as [[e|]| |]; try (injection H as <- <-; exact F1). unfold pbind, pfst, pget, pput in H. cbn [fst snd] in H. apply IH in H. apply (X_then _ _ HX 12 (12 * List.length ls) _ _ st1); [lia|exact F|exact H].
Qed.
Lemma write_links_flat : forall sc ls (db : plmdb) st r w', pdb_write_links (plm_pw sc) ls (db, st) = (r, w') -> flat (4 * List.length (pd_links db) + 12 * List.length ls) st (snd w').
Proof.
  pose proof flat_adds as HX. intros sc ls db st r w' H. unfold pdb_write_links in H. unfold pbind at 1, pfst, pget in H. cbn [fst snd] in H. unfold pbind at 1, psnd in H. cbn [fst snd] in H.
  destruct (delete_all (plm_pw sc) (pd_links db) st) as [o st1] eqn:E. destruct (delete_flat _ _ _ _ _ E) as [F _].
  assert (F1 : flat (4 * List.length (pd_links db) + 12 * List.length ls) st st1) by (eapply (X_le _ _ HX); [|exact F]; lia).
  destruct o as [[e|]| |]; try (injection H as <- <-; exact F1). unfold pbind, pput in H. cbn [fst snd] in H. apply all_flat in H. eapply (X_then _ _ HX); [|exact F|exact H]. lia.
Qed.
