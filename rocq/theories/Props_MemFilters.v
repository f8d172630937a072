(** Property C80: filters and the message objects they share. *)
From Coq Require Import ZArith List Bool Lia ZifyBool ZifyNat.
From Verif Require Import GoBase GoLemmas GoProg Message MsgWriter Filters FiltersSpec BasicDevice UtilSnoop MemFilters MemFiltersSpec MemFiltersProofs.
Import ListNotations.
Open Scope Z_scope.

(** * C80.  The TTL filter changes the caller's message, and the filters above it keep pointers to that message; still any chain of
    filters does what it would do if every filter had its own copy: the same results, lines shown and use of the writer below, crash
    or not. *)
Theorem C80_same : forall W (I : W -> Prop) fuel (base : mwriter W) ch w ops M0,
  from_others I base -> I w -> own_messages ops -> steady ch ->
  match do_ops (vchain fuel base ch) ops (vinit w ch), do_mops (pchain fuel base ch) ops (M0, pinit w ch) with
  | (r, s), (r1, (_, t)) => r1 = r /\ pshown ch t = vshown ch s
  end.
Proof.
  intros W I fuel base ch w ops M0 Hb Hw Ho Hs.
  pose proof (chain_layer W I fuel base Hb ch (steady_steadyb ch Hs)) as L.
  pose proof (do_mops_sim _ _ _ _ _ _ _ L ops M0 _ _ (chain_rel_init W I w M0 ch Hw) Ho) as K. unfold sim in K.
  destruct (do_ops (vchain fuel base ch) ops (vinit w ch)) as [r s].
  destruct (do_mops (pchain fuel base ch) ops (M0, pinit w ch)) as [r1 [M1 t]]. destruct K as [_ K].
  destruct r as [a| |], r1 as [b| |]; try contradiction.
  - destruct K as [K <-]. split; [reflexivity|]. eapply chain_rel_shown. exact K.
  - split; [reflexivity|]. eapply chain_rel_shown. exact K.
  - split; [reflexivity|]. eapply chain_rel_shown. exact K.
Qed.
(** The objects: whatever is done later, a message received stays as it was, and of one's own message only the hop counts can
    change. *)
Theorem C80_objects : forall W (I : W -> Prop) fuel (base : mwriter W) ch w ops1 ops2 M0 rs M1 t1 r M2 t2,
  from_others I base -> I w -> own_messages (ops1 ++ ops2) -> steady ch ->
  do_mops (pchain fuel base ch) ops1 (M0, pinit w ch) = (Ret rs, (M1, t1)) ->
  do_mops (pchain fuel base ch) ops2 (M1, t1) = (r, (M2, t2)) ->
  forall p m, nth_error M1 p = Some m -> exists m1, nth_error M2 p = Some m1 /\ same_but_hops m1 m /\ (m_src m <> 0 -> m1 = m).
Proof.
  intros W I fuel base ch w ops1 ops2 M0 rs M1 t1 r M2 t2 Hb Hw Ho Hs H1 H2.
  pose proof (chain_layer W I fuel base Hb ch (steady_steadyb ch Hs)) as L.
  assert (O1 : own_messages ops1) by (intros m Hm; apply Ho; apply in_or_app; left; exact Hm).
  assert (O2 : own_messages ops2) by (intros m Hm; apply Ho; apply in_or_app; right; exact Hm).
  pose proof (do_mops_sim _ _ _ _ _ _ _ L ops1 M0 _ _ (chain_rel_init W I w M0 ch Hw) O1) as K. unfold sim in K. rewrite H1 in K.
  destruct (do_ops (vchain fuel base ch) ops1 (vinit w ch)) as [[a| |] s]; destruct K as [_ K]; try contradiction. destruct K as [K _].
  pose proof (do_mops_sim _ _ _ _ _ _ _ L ops2 M1 _ _ K O2) as K2. unfold sim in K2. rewrite H2 in K2.
  destruct (do_ops (vchain fuel base ch) ops2 s) as [a2 s2]. destruct K2 as [E _]. exact E.
Qed.

(** The filters of the commands of ic (cmd/ic/main.go:103-108) and of iwalk (cmd/iwalk/main.go:80). *)
Definition ic_filters (log : option (option (Z -> dinfo * bool))) (ttl : Z) : list fkind :=
  [FRetry 3; FTtl ttl] ++ match log with Some db => [FSnoop db] | None => [] end.
Definition iwalk_filters (ttl : Z) : list fkind := [FTtl ttl; FRetry 3].
Lemma list_mw_others : forall e, from_others (fun x : list message * list mev => Forall (fun m => m_src m <> 0) (fst x)) (mlogged (list_mw e)).
Proof.
  intros e [w log] H. cbn [fst] in H. split.
  - intros r w1 E. destruct w as [|m w]; cbn in E; injection E as <- <-; cbn [fst]; [split; [constructor|discriminate]|].
    apply Forall_cons_iff in H. destruct H as [Hm H]. split; [exact H|]. intros m1 e1 K. injection K as <- _. exact Hm.
  - intros x r w1 E. cbn in E. injection E as <- <-. exact H.
Qed.
Lemma ic_steady : forall log ttl, steady (ic_filters log ttl).
Proof.
  intros log ttl a n b db c t d E. destruct log; cbn in E.
  - destruct a as [|f a]; [|destruct a as [|f1 a]]; cbn in E; try discriminate.
    + destruct b as [|g b]; cbn in E; [discriminate|]. injection E as _ <- E. exists ttl. left. reflexivity.
    + injection E as _ _ E. destruct a as [|f2 a]; cbn in E; [discriminate|]. destruct a; discriminate.
  - destruct a as [|f a]; [|destruct a as [|f1 a]]; cbn in E; try discriminate.
    + destruct b as [|g b]; cbn in E; [discriminate|]. injection E as _ <- E. exists ttl. left. reflexivity.
    + destruct a; discriminate.
Qed.
Lemma iwalk_steady : forall ttl, steady (iwalk_filters ttl).
Proof.
  intros ttl a n b db c t d E. destruct a as [|f a]; [|destruct a as [|f1 a]]; cbn in E; try discriminate.
  - destruct b as [|g b]; cbn in E; discriminate.
  - destruct a; discriminate.
Qed.
Theorem C80_tools : (forall log ttl, steady (ic_filters log ttl)) /\ (forall ttl, steady (iwalk_filters ttl)).
Proof. split; [apply ic_steady|apply iwalk_steady]. Qed.
Definition ex_own : message := mkMsg 0 0x0a0b0c 0x0f 0x19ff00 [].
Definition ex_in : message := mkMsg 0x0a0b0c 0x010203 0x2b 0x190080 [].
(** ic with -log: a message that times out goes out three times with two hops, and each is shown so; the caller's object has two
    hops afterwards; a message is then read. *)
Example C80_ex :
  from_others (fun x : list message * list mev => Forall (fun m => m_src m <> 0) (fst x)) (mlogged (list_mw EDevReadTimeout)) /\
  Forall (fun m => m_src m <> 0) [ex_in] /\ own_messages [DoWrite ex_own; DoRead] /\ steady (ic_filters (Some None) 2) /\
  exists M t ls, do_mops (pchain 5 (mlogged (list_mw EDevReadTimeout)) (ic_filters (Some None) 2)) [DoWrite ex_own; DoRead] ([], pinit ([ex_in], []) (ic_filters (Some None) 2)) =
      (Ret [(None, Some EDevReadTimeout); (Some ex_in, None)], (M, t)) /\
    nth_error M 0 = Some (ttl_message 2 ex_own) /\ ttl_message 2 ex_own <> ex_own /\
    pshown (ic_filters (Some None) 2) t = ([ls], ([], [MW (ttl_message 2 ex_own) (Ret (None, Some EDevReadTimeout)); MW (ttl_message 2 ex_own) (Ret (None, Some EDevReadTimeout));
       MW (ttl_message 2 ex_own) (Ret (None, Some EDevReadTimeout)); MR (Ret (Some ex_in, None))])) /\
    map sn_left ls = [2; 2; 2; 2] /\ map sn_wh ls = [WhCommand 0x19ff00; WhCommand 0x19ff00; WhCommand 0x19ff00; WhAck 0x19ff00].
Proof.
  split; [apply list_mw_others|]. split; [repeat constructor; discriminate|]. split; [intros m [H|[H|[]]]; inversion H; reflexivity|].
  split; [apply ic_steady|]. eexists _, _, _. split; [vm_compute; reflexivity|]. split; [reflexivity|]. split; [discriminate|].
  split; [vm_compute; reflexivity|]. split; vm_compute; reflexivity.
Qed.
(** What is not so without the conditions.  A snooper between the retries and the TTL filter shows the first attempt with the
    caller's hop counts and the next with the changed ones. *)
Theorem C80_retry_snoop_needed : exists ch ops s M t r,
  own_messages ops /\ ch = [FRetry 2; FSnoop None; FTtl 1] /\
  do_ops (vchain 5 (list_mw EDevReadTimeout) ch) ops (vinit [] ch) = (r, s) /\
  do_mops (pchain 5 (list_mw EDevReadTimeout) ch) ops ([], pinit [] ch) = (r, (M, t)) /\
  map (map sn_left) (fst (vshown ch s)) = [[3; 3]] /\ map (map sn_left) (fst (pshown ch t)) = [[3; 1]].
Proof.
  exists [FRetry 2; FSnoop None; FTtl 1], [DoWrite ex_own]. eexists _, _, _, _.
  split; [intros m [H|[]]; inversion H; reflexivity|]. split; [reflexivity|]. split; [vm_compute; reflexivity|]. split; [vm_compute; reflexivity|].
  split; vm_compute; reflexivity.
Qed.
(** A message received without the address of a sender can be dropped as a duplicate of one's own message, whose hop counts were
    changed after it was cached. *)
Theorem C80_no_source_needed : exists ch ops w,
  own_messages ops /\ steady ch /\
  fst (do_ops (vchain 5 (list_mw EEOF) ch) ops (vinit w ch)) = Ret [(None, Some EEOF); (Some (ttl_message 1 ex_own), None)] /\
  fst (do_mops (pchain 5 (list_mw EEOF) ch) ops ([], pinit w ch)) = Ret [(None, Some EEOF); (None, Some EEOF)].
Proof.
  exists [FDup; FTtl 1], [DoWrite ex_own; DoRead], [ttl_message 1 ex_own].
  split; [intros m [H|[H|[]]]; inversion H; reflexivity|]. split.
  - intros a n b db c t d E. destruct a as [|f [|f1 [|f2 a]]]; discriminate.
  - split; vm_compute; reflexivity.
Qed.
(** The duplicate filter above a TTL filter; the second copy of the message read is dropped. *)
Example C80_objects_case : exists rs M1 t1 r M2 t2, let ch := [FDup; FTtl 2] in
  steady ch /\ own_messages ([DoRead] ++ [DoWrite ex_own; DoRead]) /\
  do_mops (pchain 5 (mlogged (list_mw EEOF)) ch) [DoRead] ([], pinit ([ex_in; ttl_message 3 ex_in; ex_in], []) ch) = (Ret rs, (M1, t1)) /\
  do_mops (pchain 5 (mlogged (list_mw EEOF)) ch) [DoWrite ex_own; DoRead] (M1, t1) = (r, (M2, t2)) /\
  nth_error M1 0 = Some ex_in /\ rs = [(Some ex_in, None)] /\ nth_error M2 0 = Some ex_in /\ r = Ret [(None, Some EEOF); (None, Some EEOF)].
Proof.
  eexists _, _, _, _, _, _. cbv zeta. split; [intros a n b db c t d E; destruct a as [|f [|f1 [|f2 a]]]; discriminate|].
  split; [intros m [H|[H|[H|[]]]]; inversion H; reflexivity|]. split; [vm_compute; reflexivity|]. split; [vm_compute; reflexivity|].
  repeat split; vm_compute; reflexivity.
Qed.

Print Assumptions C80_same.
Print Assumptions C80_objects.
Print Assumptions C80_tools.
Print Assumptions C80_retry_snoop_needed.
Print Assumptions C80_no_source_needed.
