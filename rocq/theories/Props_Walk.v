(** * C66.  iwalk over the modem: which devices are asked, and the bytes on the serial line. *)
From Coq Require Import ZArith List Bool Lia.
From Verif Require Import GoBase GoProg PlmPacket Plm PlmSpec PlmLinkdb PlmLinkdbSpec MsgWriter Query Database DatabaseProofs Link LineSpec
  IcDev IcDevSpec IcDevProofs IcLine IcWalk WalkSpec WalkProofs Props_IcReport Props_Line.
Import ListNotations.
Open Scope Z_scope.

Definition asked (lines : list wline) : list Z := map line_addr (filter is_query lines).

Lemma came : forall sc st, sched_all (comes_in sc st) sc /\ queues_all (comes_in sc st) st.
Proof.
  intros sc st. split; [intros u p Hp; right; right; exists u; exact Hp|]. split; apply Forall_forall; intros p Hp; unfold comes_in; auto.
Qed.

(** However the walk ends, and whatever the modem, the devices and the disk do: the modem is asked for its first record and then for the
    next ones, and after that only devices the modem has a record of are spoken to, one after the other, none of them twice.  A walk that
    comes to its end has spoken to just the devices its log names, in that order. *)
Theorem C66_line : forall fuel n os sc now filters f db st r f' db' st', all_bytes sc st -> own_addresses db ->
  walk_network fuel n os sc now filters ((f, db), st) = (r, ((f', db'), st')) ->
  exists addrs, walk_line addrs (p_sent st) (p_sent st') /\ NoDup addrs /\
    (forall a, In a addrs -> exists p, comes_in sc st p /\ record_about a p) /\
    (forall lines e, r = Ret (lines, e) -> addrs = asked lines /\ (e <> None -> lines = [])).
Proof.
  intros fuel n os sc now filters f db st r f' db' st' Hb Ho H. destruct (came sc st) as [Hs Hq]. unfold walk_network, iwalk, pbind in H.
  destruct (modem_devices n sc now ((f, db), st)) as [o [fd1 st1]] eqn:E.
  destruct (devices_line _ _ _ _ _ _ _ _ _ Hs Hq E) as (F1 & (first & rest & S1 & Q1 & Q2) & D1). cbn [fst snd] in F1, S1. subst fd1.
  assert (Hnone : (forall lines e, r = Ret (lines, e) -> [] = asked lines /\ (e <> None -> lines = [])) -> st' = st1 ->
    exists addrs, walk_line addrs (p_sent st) (p_sent st') /\ NoDup addrs /\
    (forall a, In a addrs -> exists p, comes_in sc st p /\ record_about a p) /\
    (forall lines e, r = Ret (lines, e) -> addrs = asked lines /\ (e <> None -> lines = []))).
  { intros Hr ->. exists []. split; [exists first, rest, []; cbn [concat]; rewrite app_nil_r; auto|]. split; [constructor|]. split; [intros a []|exact Hr]. }
  destruct o as [[addrs [e1|]]| |]; unfold pret in H.
  - apply pair_equal_spec in H. destruct H as [<- H]. injection H as _ _ ->. apply Hnone; [|reflexivity]. intros lines e X. injection X as <- <-. split; reflexivity.
  - destruct (D1 _ _ eq_refl) as (N1 & _ & R1).
    assert (Hrec : forall a, In a addrs -> 0 <= a < 16777216 /\ exists p, comes_in sc st p /\ record_about a p).
    { intros a Ha. destruct (R1 _ Ha) as (p & l & Hp & Hc & Hu & <-). destruct (record_addr p l (Hb _ Hp) Hc Hu) as [X Y]. split; [exact Y|]. exists p. auto. }
    match type of H with context [walk_all ?x ?y ?z ?u] => destruct (walk_all x y z u) as [o2 [[f2 db2] st2]] eqn:E2 end.
    assert (Hrange : Forall (fun a => 0 <= a < 16777216) addrs) by (apply Forall_forall; intros a Ha; apply Hrec; exact Ha).
    destruct (walk_all_line _ _ _ _ _ _ _ _ _ _ _ _ _ _ Hrange Ho E2) as (_ & dn & lt & bs & -> & L2 & S2 & F2).
    assert (Hst : st' = st2) by (destruct o2; apply pair_equal_spec in H; destruct H as [_ H]; injection H as _ _ ->; reflexivity). subst st'.
    exists dn. split; [exists first, rest, bs; rewrite S2, S1, <- !app_assoc; auto|]. split.
    { clear - N1. induction dn as [|x t IH]; [constructor|]. inversion N1; subst. constructor; [intro X; apply H1, in_or_app; auto|auto]. }
    split; [intros a Ha; apply Hrec, in_or_app; auto|].
    intros lines e Hr. destruct o2 as [l2| |]; apply pair_equal_spec in H; destruct H as [X _]; rewrite <- X in Hr; try discriminate Hr.
    injection Hr as -> <-. split; [|congruence]. rewrite (L2 _ eq_refl), app_nil_r in *.
    assert (W : iwalk (pret (dn, None)) (db_opener fuel os (plm_mw fuel sc) filters) (device_links n now) ((f, db), st1) = (Ret (lines, None), ((f2, db2), st2))).
    { unfold iwalk, pbind, pret. rewrite E2. reflexivity. }
    destruct (C64_walk_lines _ _ _ _ _ _ _ _ _ _ eq_refl W) as (_ & X2 & _). symmetry. exact X2.
  - apply pair_equal_spec in H. destruct H as [<- H]. injection H as _ _ ->. apply Hnone; [discriminate|reflexivity].
  - apply pair_equal_spec in H. destruct H as [<- H]. injection H as _ _ ->. apply Hnone; [discriminate|reflexivity].
Qed.

(** No device is left out: if the modem tells its records one by one, the walk asks every device they are about, once each, in the order
    they first come up, and it ends well unless it crashes. *)
Theorem C66_every_device_asked : forall fuel n os sc now filters f db st addrs recs r st',
  idle st -> 0 <= p_retries st -> p_timeout st < now -> Forall2 record_about addrs recs -> tells sc (p_time st) 0x69 recs -> (length recs <= n)%nat ->
  walk_network fuel n os sc now filters ((f, db), st) = (r, st') ->
  forall lines e, r = Ret (lines, e) -> e = None /\ firsts addrs (asked lines).
Proof.
  intros fuel n os sc now filters f db st addrs recs r st' Hi Hr Hold HF T Hn H lines e ->.
  destruct (devices_told _ sc n now (f, db) st addrs recs Hi Hr Hold HF T Hn) as (as1 & st1 & E & F).
  destruct (C64_walk_lines _ _ _ _ _ _ _ _ _ _ E H) as (-> & <- & _). split; [reflexivity|exact F].
Qed.

(** Every device asked is in the database afterwards unless the log says that it could not be opened, and no device is forgotten. *)
Theorem C66_stores : forall fuel n os sc now filters f db st lines f' db' st',
  walk_network fuel n os sc now filters ((f, db), st) = (Ret (lines, None), ((f', db'), st')) -> ~ In 0 (asked lines) ->
  (forall b, knows db b -> knows db' b) /\ (forall a, In a (asked lines) -> knows db' a \/ exists x, In (WOpenFailed a x) lines).
Proof.
  intros fuel n os sc now filters f db st lines f' db' st' H H0. destruct (came sc st) as [Hs Hq]. pose proof H as H1. unfold walk_network, iwalk, pbind in H1.
  destruct (modem_devices n sc now ((f, db), st)) as [o [fd1 st1]] eqn:E. destruct (devices_line _ _ _ _ _ _ _ _ _ Hs Hq E) as (F1 & _). cbn [fst] in F1. subst fd1.
  destruct o as [[addrs [e1|]]| |]; try discriminate H1. clear H1. destruct (C64_walk_lines _ _ _ _ _ _ _ _ _ _ E H) as (_ & Ha & _).
  unfold asked in *. rewrite Ha in *. exact (C64_walk_stores _ _ _ _ _ _ _ _ _ _ _ _ _ _ _ _ _ (device_links_keep _ n now) E H0 H).
Qed.

(** Three records about two devices; one device is in the database, the other never answers. *)
Definition ex_rec66 (a : Z) : packet := mkPkt 0x57 [0xe2; 1; a; 0x22; 0x33; 1; 32; 65] 0.
Definition ex_sc66 : schedule := fun t =>
  match t with
  | 1%nat => mkStep [] [EvPacket (mkPkt 0x69 [] 6)] false None
  | 2%nat => mkStep [] [EvPacket (ex_rec66 0x11)] false None
  | 4%nat => mkStep [] [EvPacket (mkPkt 0x6a [] 6)] false None
  | 5%nat => mkStep [] [EvPacket (ex_rec66 0x44)] false None
  | 7%nat => mkStep [] [EvPacket (mkPkt 0x6a [] 6)] false None
  | 8%nat => mkStep [] [EvPacket (ex_rec66 0x11)] false None
  | 10%nat => mkStep [] [EvPacket (mkPkt 0x6a [] 0x15)] false None
  | _ => mkStep [] [] false None
  end.
Definition ex_plm66 : plm := mkPlm [] [] false [] [] 0 3 0 0.
Example C66_ex : Forall2 record_about [0x112233; 0x442233; 0x112233] [ex_rec66 0x11; ex_rec66 0x44; ex_rec66 0x11] /\ tells ex_sc66 0 0x69 [ex_rec66 0x11; ex_rec66 0x44; ex_rec66 0x11] /\
  all_bytes ex_sc66 ex_plm66 /\ own_addresses ex_db65 /\ idle ex_plm66 /\
  exists lines st', walk_network 9 9 (mkOS None (0%nat, None)) ex_sc66 100000 [] ((None, ex_db65), ex_plm66) = (Ret (lines, None), ((None, ex_db65), st')) /\
    asked lines = [0x112233; 0x442233] /\
    firstn 4 (p_sent st') = [[2; 0x69]; [2; 0x6a]; [2; 0x6a]; [2; 0x6a]] /\ (4 < length (p_sent st'))%nat.
Proof.
  assert (R : forall a, 0 <= a <= 255 -> record_about (a * 65536 + 0x2233) (ex_rec66 a)).
  { intros a Ha. split; [reflexivity|]. exists 0xe2, 1, a, 0x22, 0x33, 1, 32, 65, []. split; [reflexivity|]. unfold addr3, is_byte. lia. }
  split; [constructor; [apply (R 0x11); lia|constructor; [apply (R 0x44); lia|constructor; [apply (R 0x11); lia|constructor]]]|].
  split; [repeat (eapply tells_more; try reflexivity); eapply tells_end; reflexivity|].
  split.
  { intros p [[]|[[]|(t & Ht)]]. do 11 (destruct t as [|t]; [cbn in Ht; destruct Ht as [Ht|Ht]; repeat (destruct Ht as [Ht|Ht]; [injection Ht as <-; unfold bytes_ok, is_byte; cbn; repeat constructor; lia|]); destruct Ht|]).
    cbn in Ht. destruct Ht as [[]|[]]. }
  split; [exact C65_ex_own|]. split; [repeat split|]. eexists _, _. split; [vm_compute; reflexivity|]. split; [vm_compute; reflexivity|]. split; vm_compute; [reflexivity|lia].
Qed.
Print Assumptions C66_line.
Print Assumptions C66_every_device_asked.
Print Assumptions C66_stores.
