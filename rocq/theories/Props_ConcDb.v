(** C76, C77: the modem's link database and its address when several goroutines share the modem. *)
From Coq Require Import ZArith List Bool Lia ZifyBool ZifyNat.
From Verif Require Import GoBase GoLemmas GoSlice Link Message PlmPacket Plm PlmSpec PlmProofs PlmLinkdb PlmLinkdbSpec Conc ConcSpec ConcProofs ConcDbSpec MemProofs ConcDbProofs.
Import ListNotations.
Open Scope Z_scope.

Lemma sane_port : forall l, (forall i, ~ In (ASend i (Some EPlmNak)) l) -> Forall (port_ok sane) l.
Proof. intros l H. apply Forall_forall. intros [e|i e|i|i|i|i] Hi; cbn; try exact I. intros ->. exact (H i Hi). Qed.
Lemma seen_all : forall got i, seen got i (by_gor i got).
Proof. intros got i. exists []. symmetry. apply app_nil_r. Qed.
Lemma seen_nil : forall got i, seen got i [].
Proof. intros got i. exists (by_gor i got). reflexivity. Qed.

Lemma genuine_inv : forall st d calls l y, acts (started st d calls) l = Some y -> (forall i, ~ In (ASend i (Some EPlmNak)) l) ->
  inv (told_addr st (y_got y)) (all_genuine d calls (y_got y)) (seen (y_got y)) (fun _ _ _ => True) (fun _ _ => True) sane (result_genuine st d calls (y_got y)) y.
Proof.
  intros st d calls l y H Hp. apply (acts_inv _ _ _ _ _ _ _ (fun _ _ => I) (fun _ _ _ _ _ _ => I) (seen_prefix (y_got y)) l (started st d calls) y H (sane_port l Hp)); [intro; apply seen_all|].
  apply (started_inv _ _ _ _ _ _ _ (fun _ _ => I)).
  - left. reflexivity.
  - apply Forall_forall. intros a Ha. apply Forall_forall. intros x Hx. right. left. exists a. auto.
  - intros i k Hk. apply genuine_call; [eapply nth_error_In; eauto|apply seen_nil].
Qed.

(** C76.  Whatever calls run and however they interleave: every record that Links returns or that is remembered is blank, was in memory
    at the beginning, was given to a WriteLinks, or came from the modem. *)
Theorem C76_genuine : forall st d calls l y, acts (started st d calls) l = Some y -> (forall i, ~ In (ASend i (Some EPlmNak)) l) ->
  Forall (genuine d calls (y_got y)) (remembered (y_db y)) /\
  forall i ls e, finished y i = Some (Ret (RsLinks (ls, e))) -> Forall (genuine d calls (y_got y)) ls.
Proof.
  intros st d calls l y H Hp. pose proof (genuine_inv st d calls l y H Hp) as Hi. split.
  - destruct Hi as (_ & I2 & _). apply sl_view_forall. exact I2.
  - intros i ls e Hf. destruct (inv_finished _ _ _ _ _ _ _ _ _ _ Hi Hf) as (d0 & _ & R0). exact R0.
Qed.

(** C76.  While nobody writes links, the remembered list is always the first one or the one some Links call received up to a refusal,
    and what Links returns has the length of one such list and the records of one such list, blanks where that is too short. *)
Theorem C76_readers : forall st d calls l y, acts (started st d calls) l = Some y -> (forall i, ~ In (ASend i (Some EPlmNak)) l) -> db_ok d ->
  (forall k ls, In k calls -> ~ writes_links k ls) ->
  known d calls (y_got y) (remembered (y_db y)) /\
  forall i ls e, finished y i = Some (Ret (RsLinks (ls, e))) ->
    exists l1 l2, known d calls (y_got y) l1 /\ known d calls (y_got y) l2 /\
      ls = firstn (length l1) l2 ++ repeat (mkLink 0 0 0 0 0 0) (length l1 - length l2).
Proof.
  intros st d calls l y H Hp Hd Hw.
  assert (Hi : inv (fun _ => True) (readable d calls (y_got y)) (seen (y_got y)) only_grows (fun _ _ => True) sane (result_known d calls (y_got y)) y).
  { apply (acts_inv _ _ _ _ _ _ _ only_grows_refl only_grows_trans (seen_prefix (y_got y)) l (started st d calls) y H (sane_port l Hp)); [intro; apply seen_all|].
    apply (started_inv _ _ _ _ _ _ _ only_grows_refl); [exact I|split; [exact Hd|left; reflexivity]|].
    intros i k Hk. apply reader_call; [exact Hk| |apply seen_nil]. intro ls. apply Hw. eapply nth_error_In; eauto. }
  split.
  - destruct Hi as (_ & [_ I2] & _). exact I2.
  - intros i ls e Hf. destruct (inv_finished _ _ _ _ _ _ _ _ _ _ Hi Hf) as (d0 & _ & R0). exact R0.
Qed.

(** C76.  One Links call among calls that leave the link database alone: without an error it returns, and leaves remembered, exactly the
    records this goroutine itself received, or the list that is still fresh; with an error the list stays as it was. *)
Theorem C76_one_reader : forall st d calls l y i fuel spare now ls e, acts (started st d calls) l = Some y ->
  (forall j, ~ In (ASend j (Some EPlmNak)) l) -> db_ok d -> nth_error calls i = Some (KLinks fuel spare now) ->
  (forall j k, nth_error calls j = Some k -> j <> i -> ~ reads_links k /\ forall ls, ~ writes_links k ls) ->
  finished y i = Some (Ret (RsLinks (ls, e))) -> remembered (y_db y) = ls /\
  match e with
  | None => if dm_age d + dm_timeout d <? now then ls = walked (by_gor i (y_got y)) /\ ends_refused (by_gor i (y_got y))
            else ls = remembered d /\ by_gor i (y_got y) = []
  | Some _ => ls = remembered d
  end.
Proof.
  intros st d calls l y i fuel spare now ls e H Hp Hd Hk Ho Hf.
  set (R := fun j hi d1 r => if Nat.eqb j i then own_links d now hi d1 r else True).
  assert (Hi : inv (fun _ => True) (fun _ => True) (seen (y_got y)) (alone_with i) (fun _ _ => True) sane R y).
  { apply (acts_inv _ _ _ _ _ _ _ (alone_refl i) (alone_trans i) (seen_prefix (y_got y)) l (started st d calls) y H (sane_port l Hp)); [intro; apply seen_all|].
    apply (started_inv _ _ _ _ _ _ _ (alone_refl i)); [exact I|exact I|]. intros j k Hj. unfold R. destruct (Nat.eqb_spec j i) as [->|Hn].
    - rewrite Hk in Hj. injection Hj as <-. apply one_reader; [exact Hd|apply seen_nil].
    - destruct (Ho j k Hj Hn) as [O1 O2]. apply other_call; auto. apply seen_nil. }
  destruct (inv_finished _ _ _ _ _ _ _ _ _ _ Hi Hf) as (d0 & A0 & R0). unfold R in R0. unfold alone_with in A0. rewrite Nat.eqb_refl in A0, R0. rewrite A0.
  cbn [own_links] in R0. unfold pdb_old in R0. change (pd_age (db_of d)) with (dm_age d) in R0. change (pd_timeout (db_of d)) with (dm_timeout d) in R0.
  destruct e as [e|]; destruct R0 as [R1 R2]; [|auto]. rewrite R2. auto.
Qed.

(** C76.  One WriteLinks call among calls that leave the link database alone: without an error its links are remembered, with one the
    list is what it was or the first few of them. *)
Theorem C76_one_writer : forall st d calls l y i fuel grow ls r, acts (started st d calls) l = Some y ->
  (forall j, ~ In (ASend j (Some EPlmNak)) l) -> db_ok d -> nth_error calls i = Some (KWriteLinks fuel grow ls) ->
  (forall j k, nth_error calls j = Some k -> j <> i -> ~ reads_links k /\ forall ls, ~ writes_links k ls) ->
  finished y i = Some (Ret r) -> exists e, r = RsError e /\
  match e with
  | None => remembered (y_db y) = ls
  | Some _ => remembered (y_db y) = remembered d \/ exists n, (n < length ls)%nat /\ remembered (y_db y) = firstn n ls
  end.
Proof.
  intros st d calls l y i fuel grow ls r H Hp Hd Hk Ho Hf.
  set (R := fun j hi d1 r => if Nat.eqb j i then own_write d ls hi d1 r else True).
  assert (Hi : inv (fun _ => True) (fun _ => True) (seen (y_got y)) (alone_with i) (fun _ _ => True) sane R y).
  { apply (acts_inv _ _ _ _ _ _ _ (alone_refl i) (alone_trans i) (seen_prefix (y_got y)) l (started st d calls) y H (sane_port l Hp)); [intro; apply seen_all|].
    apply (started_inv _ _ _ _ _ _ _ (alone_refl i)); [exact I|exact I|]. intros j k Hj. unfold R. destruct (Nat.eqb_spec j i) as [->|Hn].
    - rewrite Hk in Hj. injection Hj as <-. apply one_writer. exact Hd.
    - destruct (Ho j k Hj Hn) as [O1 O2]. apply other_call; auto. apply seen_nil. }
  destruct (inv_finished _ _ _ _ _ _ _ _ _ _ Hi Hf) as (d0 & A0 & R0). unfold R in R0. unfold alone_with in A0. rewrite Nat.eqb_refl in A0, R0. rewrite A0.
  destruct r as [| | |e| | |]; try contradiction R0. exists e. split; [reflexivity|]. destruct e; exact R0.
Qed.

(** C77.  The modem's address, and whatever an Address call returns, is the one known at first or came in a GetInfo acknowledgement. *)
Theorem C77_values : forall st d calls l y, acts (started st d calls) l = Some y -> (forall i, ~ In (ASend i (Some EPlmNak)) l) ->
  told_addr st (y_got y) (p_addr (y_plm y)) /\ forall i a, finished y i = Some (Ret (RsAddr a)) -> told_addr st (y_got y) a.
Proof.
  intros st d calls l y H Hp. pose proof (genuine_inv st d calls l y H Hp) as Hi. split.
  - destruct Hi as (I1 & _). exact I1.
  - intros i a Hf. destruct (inv_finished _ _ _ _ _ _ _ _ _ _ Hi Hf) as (d0 & _ & R0). exact R0.
Qed.
(** C77.  Once it is known it never changes, every Address call returns it, and none of them sends anything. *)
Theorem C77_known : forall st d calls l y, acts (started st d calls) l = Some y -> p_addr st <> 0 ->
  p_addr (y_plm y) = p_addr st /\
  forall i, nth_error calls i = Some KAddress -> by_gor i (y_put y) = [] /\ forall r, finished y i = Some (Ret r) -> r = RsAddr (p_addr st).
Proof.
  intros st d calls l y H Ha.
  set (Sd := fun i (_ : list Z) => nth_error calls i <> Some KAddress).
  set (R := fun i (_ : hist) (_ : dbmem) r => nth_error calls i = Some KAddress -> r = RsAddr (p_addr st)).
  assert (Hi : inv (fun a => a = p_addr st) (fun _ => True) (fun _ _ => True) (fun _ _ _ => True) Sd (fun _ => True) R y).
  { apply (acts_inv _ _ _ _ _ _ _ (fun _ _ => I) (fun _ _ _ _ _ _ => I) (fun _ _ _ _ => I) l (started st d calls) y H).
    - apply Forall_forall. intros [e|i e|i|i|i|i] _; exact I.
    - intro. exact I.
    - apply (started_inv _ _ _ _ _ _ _ (fun _ _ => I)); [reflexivity|exact I|]. intros i k Hk.
      assert (D : k = KAddress \/ k <> KAddress) by (destruct k; auto; right; discriminate). destruct D as [->|D].
      + cbn. intros a ->. destruct (p_addr st =? 0) eqn:E; [apply Z.eqb_eq in E; contradiction|]. cbn. intros a -> r Hr. injection Hr as <-. intro. reflexivity.
      + apply noaddr_keeps; [apply noaddr_call; exact D|auto|intros a b j _; exact I|intros b; unfold Sd; rewrite Hk; intro E; injection E as E; contradiction|].
        intros hi dd a. unfold R. rewrite Hk. intro E. injection E as E. contradiction. }
  split; [exact (proj1 Hi)|]. intros i Hk. split.
  - destruct (by_gor i (y_put y)) as [|b t] eqn:Eb; [reflexivity|]. exfalso. destruct Hi as (_ & _ & I3 & _).
    assert (Hb : In (i, b) (y_put y)) by (apply by_gor_in; rewrite Eb; left; reflexivity). exact (I3 i b Hb Hk).
  - intros r Hf. destruct (inv_finished _ _ _ _ _ _ _ _ _ _ Hi Hf) as (d0 & _ & R0). exact (R0 Hk).
Qed.

(** ** Witnesses, with an ideal modem at the other end *)
Definition rec_of (b : Z) : link := mkLink 0xe2 1 (0x112200 + b) 1 2 3.
Definition idle : plm := mkPlm [] [] false [] [] 0 3 3 0.
Definition memory (ls : list link) : dbmem := mkDm 0 [[]; ls] (mkSl 1 0 (length ls) (length ls)) 3 3.
Definition holding (ls : list link) (next : nat) : modem := mkModem ls next [] (fun _ => []).
Definition turn (cmd ack : Z) : action := AReader (EvPacket (mkPkt cmd [] ack)).
Definition turn_rec (b : Z) : action := AReader (EvPacket (mkPkt 0x57 (link_marshal (rec_of b)) 0)).
Definition recv (i : nat) : list action := [AWait i; ARecv i].

(** An execution known by what it shows. *)
Lemma acts_shows : forall A (f : sys -> A) s l v, option_map f (acts s l) = Some v -> exists y, acts s l = Some y /\ f y = v.
Proof. intros A f s l v H. destruct (acts s l) as [y|]; [|discriminate H]. exists y. split; [reflexivity|]. injection H as H. exact H. Qed.

(** C76.  That Links returns the modem's records is false when two of them overlap: both succeed, and each lacks a record the other has. *)
Theorem C76_split_refuted : exists l y, acts (started idle (memory []) [KLinks 9 0 5; KLinks 9 0 5]) l = Some y /\
  serves (holding [rec_of 1; rec_of 2; rec_of 3] 0) [] (map snd (y_put y)) l (holding [rec_of 1; rec_of 2; rec_of 3] 3) /\
  finished y 0 = Some (Ret (RsLinks ([rec_of 1; rec_of 2], None))) /\ finished y 1 = Some (Ret (RsLinks ([rec_of 1; rec_of 3], None))).
Proof.
  exists ([AMem 0; AMem 1; ASend 0 None; ASend 1 None; turn 0x69 6; turn_rec 1; turn 0x69 6; turn_rec 1] ++ recv 0 ++ recv 0 ++ [ASend 0 None] ++ recv 1 ++ recv 1 ++
          [ASend 1 None; turn 0x6a 6; turn_rec 2; turn 0x6a 6; turn_rec 3] ++ recv 0 ++ recv 0 ++ recv 1 ++ recv 1 ++
          [ASend 0 None; turn 0x6a 0x15] ++ recv 0 ++ [AMem 0; AMem 0; AMem 0; AMem 0; ASend 1 None; turn 0x6a 0x15] ++ recv 1 ++ [AMem 1; AMem 1; AMem 1; AMem 1]).
  eexists. split; [vm_compute; reflexivity|]. split; [vm_compute; repeat split; reflexivity|]. split; reflexivity.
Qed.

(** C76.  Nor does Links return only records: it takes the length of one list and the records of another, and the rest is blank. *)
Theorem C76_blank_refuted : exists l y, acts (started idle (memory []) [KLinks 9 0 5; KLinks 9 0 5]) l = Some y /\
  serves (holding [rec_of 1; rec_of 2] 0) [] (map snd (y_put y)) l (holding [rec_of 1; rec_of 2] 2) /\
  finished y 0 = Some (Ret (RsLinks ([rec_of 1; mkLink 0 0 0 0 0 0], None))).
Proof.
  set (l := ([AMem 0; AMem 1; ASend 0 None; ASend 1 None; turn 0x69 6; turn_rec 1; turn 0x69 6; turn_rec 1] ++ recv 0 ++ recv 0 ++ recv 1 ++ recv 1 ++
          [ASend 0 None; ASend 1 None; turn 0x6a 6; turn_rec 2; turn 0x6a 0x15] ++ recv 0 ++ recv 0 ++ recv 1 ++
          [ASend 0 None; turn 0x6a 0x15] ++ recv 0 ++ [AMem 0; AMem 0; AMem 1; AMem 0; AMem 0])).
  destruct (acts_shows _ (fun y => (map snd (y_put y), finished y 0)) (started idle (memory []) [KLinks 9 0 5; KLinks 9 0 5]) l ([[2; 0x69]; [2; 0x69]; [2; 0x6a]; [2; 0x6a]; [2; 0x6a]], Some (Ret (RsLinks ([rec_of 1; mkLink 0 0 0 0 0 0], None)))) ltac:(vm_compute; reflexivity)) as (y & Hy & Hv).
  exists l, y. split; [exact Hy|]. pose proof (f_equal fst Hv) as H1. pose proof (f_equal snd Hv) as H2. cbn [fst snd] in H1, H2. rewrite H1, H2. split; [vm_compute; repeat split; reflexivity|reflexivity].
Qed.

(** C76.  One Links is not safe either: the refusal another goroutine's command drew ends the walk, and the shorter list is success. *)
Theorem C76_cut_refuted : exists l y, acts (started idle (memory []) [KLinks 9 0 5; KWritePacket (mkPkt 0x6f (0x80 :: link_marshal (rec_of 9)) 0)]) l = Some y /\
  serves (holding [rec_of 1; rec_of 2] 0) [] (map snd (y_put y)) l (holding [rec_of 1; rec_of 2] 2) /\
  finished y 0 = Some (Ret (RsLinks ([rec_of 1], None))) /\ remembered (y_db y) = [rec_of 1].
Proof.
  set (l := ([AMem 0; ASend 0 None; turn 0x69 6; turn_rec 1] ++ recv 0 ++ recv 0 ++ [ASend 1 None; ASend 0 None; AReader (EvPacket (mkPkt 0x6f (0x80 :: link_marshal (rec_of 9)) 0x15))] ++
          recv 0 ++ [AMem 0; AMem 0; AMem 0; AMem 0])).
  destruct (acts_shows _ (fun y => (map snd (y_put y), (finished y 0, remembered (y_db y)))) (started idle (memory []) [KLinks 9 0 5; KWritePacket (mkPkt 0x6f (0x80 :: link_marshal (rec_of 9)) 0)]) l ([[2; 0x69]; 2 :: 0x6f :: 0x80 :: link_marshal (rec_of 9); [2; 0x6a]], (Some (Ret (RsLinks ([rec_of 1], None))), [rec_of 1])) ltac:(vm_compute; reflexivity)) as (y & Hy & Hv).
  exists l, y. split; [exact Hy|]. pose proof (f_equal fst Hv) as H1. pose proof (f_equal (fun x => fst (snd x)) Hv) as H2. pose proof (f_equal (fun x => snd (snd x)) Hv) as H3. cbn [fst snd] in H1, H2, H3. rewrite H1, H2, H3. split; [vm_compute; repeat split; reflexivity|split; reflexivity].
Qed.

(** C76.  Two overlapping WriteLinks can crash: one finds the record it was about to delete gone from the list. *)
Theorem C76_crash_refuted : exists l y, acts (started idle (memory [rec_of 1]) [KWriteLinks 9 (fun _ => 0%nat) [rec_of 2]; KWriteLinks 9 (fun _ => 0%nat) [rec_of 3]]) l = Some y /\
  serves (holding [rec_of 1] 0) [] (map snd (y_put y)) l (holding [] 0) /\ finished y 0 = Some Panic.
Proof.
  set (l := ([AMem 0; AMem 1; AMem 1; AMem 1; ASend 1 None; AReader (EvPacket (mkPkt 0x6f (0x80 :: link_marshal (rec_of 1)) 6))] ++ recv 1 ++ [AMem 1; AMem 1; AMem 0])).
  destruct (acts_shows _ (fun y => (map snd (y_put y), finished y 0)) (started idle (memory [rec_of 1]) [KWriteLinks 9 (fun _ => 0%nat) [rec_of 2]; KWriteLinks 9 (fun _ => 0%nat) [rec_of 3]]) l ([2 :: 0x6f :: 0x80 :: link_marshal (rec_of 1)], Some Panic) ltac:(vm_compute; reflexivity)) as (y & Hy & Hv).
  exists l, y. split; [exact Hy|]. pose proof (f_equal fst Hv) as H1. pose proof (f_equal snd Hv) as H2. cbn [fst snd] in H1, H2. rewrite H1, H2. split; [vm_compute; repeat split; reflexivity|reflexivity].
Qed.

(** C76.  Or both succeed, the modem holds both records, and one of them is forgotten. *)
Theorem C76_lost_refuted : exists l y, acts (started idle (memory []) [KWriteLinks 9 (fun _ => 0%nat) [rec_of 2]; KWriteLinks 9 (fun _ => 0%nat) [rec_of 3]]) l = Some y /\
  serves (holding [] 0) [] (map snd (y_put y)) l (holding [rec_of 2; rec_of 3] 0) /\
  finished y 0 = Some (Ret (RsError None)) /\ finished y 1 = Some (Ret (RsError None)) /\ remembered (y_db y) = [rec_of 3].
Proof.
  exists ([AMem 0; AMem 0; AMem 1; AMem 1; ASend 0 None; AReader (EvPacket (mkPkt 0x6f (0x40 :: link_marshal (rec_of 2)) 6))] ++ recv 0 ++
          [ASend 1 None; AReader (EvPacket (mkPkt 0x6f (0x40 :: link_marshal (rec_of 3)) 6))] ++ recv 1 ++ [AMem 0; AMem 1; AMem 0; AMem 1; AMem 0; AMem 1]).
  eexists. split; [vm_compute; reflexivity|]. split; [vm_compute; repeat split; reflexivity|]. repeat split.
Qed.

(** One Links and one command that does not disturb it; one WriteLinks likewise. *)
Example C76_ex : exists y, acts (started idle (memory [rec_of 9]) [KLinks 9 2 5; KEnterLinking 1])
  ([AMem 0; ASend 0 None; turn 0x69 6] ++ recv 0 ++ [turn_rec 1] ++ recv 0 ++ [ASend 0 None; turn 0x6a 6; turn_rec 2] ++ recv 0 ++ [ASend 1 None] ++ recv 0 ++
   [AReader (EvPacket (mkPkt 0x64 [3; 1] 6))] ++ recv 1 ++ [ASend 0 None; turn 0x6a 0x15] ++ recv 0 ++ [AMem 0; AMem 0; AMem 0; AMem 0]) = Some y /\
  finished y 0 = Some (Ret (RsLinks ([rec_of 1; rec_of 2], None))) /\ walked (by_gor 0 (y_got y)) = [rec_of 1; rec_of 2] /\
  finished y 1 = Some (Ret (RsError None)) /\ remembered (y_db y) = [rec_of 1; rec_of 2].
Proof. eexists. split; [vm_compute; reflexivity|]. vm_compute. repeat split. Qed.
Example C76_ex_write : exists y, acts (started idle (memory [rec_of 9]) [KWriteLinks 9 (fun n => n) [rec_of 1; rec_of 2]; KConfig])
  ([AMem 0; AMem 0; AMem 0; ASend 0 None; AReader (EvPacket (mkPkt 0x6f (0x80 :: link_marshal (rec_of 9)) 6)); ASend 1 None] ++ recv 0 ++ [AMem 0; AMem 0] ++
   [AReader (EvPacket (mkPkt 0x73 [8; 0; 0] 6))] ++ recv 1 ++ [ASend 0 None; AReader (EvPacket (mkPkt 0x6f (0x40 :: link_marshal (rec_of 1)) 6))] ++ recv 0 ++ [AMem 0; AMem 0; AMem 0] ++
   [ASend 0 None; AReader (EvPacket (mkPkt 0x6f (0x40 :: link_marshal (rec_of 2)) 6))] ++ recv 0 ++ [AMem 0; AMem 0; AMem 0]) = Some y /\
  finished y 0 = Some (Ret (RsError None)) /\ remembered (y_db y) = [rec_of 1; rec_of 2] /\ finished y 1 = Some (Ret (RsConfig (8, None))).
Proof. eexists. split; [vm_compute; reflexivity|]. vm_compute. repeat split. Qed.

Definition info_is (a b c : Z) : packet := mkPkt 0x60 [a; b; c; 3; 0x15; 0x9e] 6.
(** C77.  Address asks the modem only while the address is not known, but two overlapping calls both ask ... *)
Theorem C77_twice_refuted : exists l y, acts (started idle (memory []) [KAddress; KAddress]) l = Some y /\
  map snd (y_put y) = [[0x02; 0x60]; [0x02; 0x60]] /\ finished y 0 = Some (Ret (RsAddr 0x112233)) /\ finished y 1 = Some (Ret (RsAddr 0x112233)).
Proof.
  exists ([AMem 0; AMem 1; ASend 0 None; ASend 1 None; AReader (EvPacket (info_is 0x11 0x22 0x33)); AReader (EvPacket (info_is 0x11 0x22 0x33))] ++ recv 0 ++ recv 1 ++
          [AMem 0; AMem 0; AMem 1; AMem 1]).
  eexists. split; [vm_compute; reflexivity|]. repeat split.
Qed.
(** ... and a call that overlaps with another command can return 0 although the modem answered at once: each took the other's
    acknowledgement, and Address does not report errors. *)
Theorem C77_zero_refuted : exists l y, acts (started idle (memory []) [KAddress; KConfig]) l = Some y /\ prompt l /\
  reads l = [EvPacket (info_is 0x11 0x22 0x33); EvPacket (mkPkt 0x73 [8; 0; 0] 6)] /\ map snd (y_put y) = [[0x02; 0x60]; [0x02; 0x73]] /\
  finished y 0 = Some (Ret (RsAddr 0)) /\ p_addr (y_plm y) = 0.
Proof.
  exists ([AMem 0; ASend 0 None; ASend 1 None; AReader (EvPacket (info_is 0x11 0x22 0x33)); AReader (EvPacket (mkPkt 0x73 [8; 0; 0] 6))] ++ recv 1 ++ recv 0 ++ [AMem 0]).
  eexists. split; [vm_compute; reflexivity|]. split; [split; [intros i H|intros i e H]; cbn in H; intuition discriminate|]. repeat split.
Qed.
Example C77_ex : exists y, acts (started (mkPlm [] [] false [] [] 0 3 3 0x445566) (memory []) [KAddress; KInfo; KAddress])
  ([AMem 0; ASend 1 None; AMem 0; AReader (EvPacket (info_is 0x11 0x22 0x33))] ++ recv 1 ++ [AMem 2; AMem 2]) = Some y /\
  finished y 0 = Some (Ret (RsAddr 0x445566)) /\ finished y 2 = Some (Ret (RsAddr 0x445566)) /\ p_addr (y_plm y) = 0x445566 /\ map fst (y_put y) = [1%nat].
Proof. eexists. split; [vm_compute; reflexivity|]. vm_compute. repeat split. Qed.

Print Assumptions C76_genuine.
Print Assumptions C76_readers.
Print Assumptions C76_one_reader.
Print Assumptions C76_one_writer.
Print Assumptions C76_split_refuted.
Print Assumptions C76_blank_refuted.
Print Assumptions C76_cut_refuted.
Print Assumptions C76_crash_refuted.
Print Assumptions C76_lost_refuted.
Print Assumptions C76_ex.
Print Assumptions C76_ex_write.
Print Assumptions C77_values.
Print Assumptions C77_known.
Print Assumptions C77_twice_refuted.
Print Assumptions C77_zero_refuted.
Print Assumptions C77_ex.
