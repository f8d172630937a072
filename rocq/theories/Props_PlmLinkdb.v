(** Properties C16-C19: the modem's link database. *)
From Coq Require Import ZArith List Bool Lia ZifyBool ZifyNat.
From Verif Require Import GoBase GoLemmas GoProg Link LinkSpec PlmPacket Plm PlmSpec PlmLinkdb PlmLinkdbSpec PlmLinkdbProofs DevLinkdbProofs.
Import ListNotations.
Open Scope Z_scope.

Definition ex_l1 : link := mkLink 0xe2 1 0x010203 1 2 3.
Definition ex_l2 : link := mkLink 0xa2 1 0x0a0b0c 4 5 6.
Definition ex_l3 : link := mkLink 0xa2 2 0x010203 7 8 9.
Definition ex_db : plmdb := mkPdb 0 [] 3 5.
Definition ex_noise (k : nat) : list packet :=
  match k with 1%nat => [mkPkt 0x53 [1;2;3] 0; mkPkt 0x50 [] 0] | _ => [] end.
Definition ex_modem (ls : list link) : modem := mkModem ls 0 [] ex_noise.
(** A packet writer that answers from a list. *)
Definition script_pw : packet_writer (list pw_result) :=
  mkPW (fun _ w => match w with [] => (Ret (None, Some (EWrap EPlmReadTimeout)), []) | r :: t => (Ret r, t) end)
       (fun w => match w with [] => (Ret (None, Some (EWrap EPlmReadTimeout)), []) | r :: t => (Ret r, t) end).

(** * C16.  A modem that answers as documented is read exactly, whatever it holds (nothing included) and whatever comes between. *)
Theorem C16_links_exact : forall db m now, 0 <= pd_retries db -> pd_age db + pd_timeout db < now ->
  quiet_noise m -> Forall link_wf (md_links m) -> md_out m = [] ->
  exists N db' m', md_links m' = md_links m /\ pd_links db' = md_links m /\
    forall fuel, (N <= fuel)%nat -> pdb_links fuel modem_pw now (db, m) = (Ret (md_links m, None), (db', m')).
Proof. intros db m now Hr Ho. apply links_of_modem; [exact Hr|]. unfold pdb_old. lia. Qed.
(** Any modem at all: success means that the last answer was the end-of-database NAK and that the list is exactly the records
    delivered; a failure changes nothing; only get-first and then get-next are asked. *)
Theorem C16_failures_reported : forall W (pw : packet_writer W) fuel now db w ls e db' w' log,
  0 <= pd_retries db -> pd_age db + pd_timeout db < now ->
  pdb_links fuel (plogged pw) now (db, (w, [])) = (Ret (ls, e), (db', (w', log))) ->
  (e = None -> ls = records log /\ ends_in log EPlmNak) /\
  (e <> None -> ls = pd_links db /\ db' = db) /\
  (exists first rest, requests log = first ++ rest /\ first <> [] /\ Forall (eq (0x69, [])) first /\ Forall (eq (0x6a, [])) rest).
Proof.
  intros W pw fuel now db w ls e db' w' log Hr Ho H. unfold pdb_links, pbind in H.
  destruct (pdb_refresh fuel (plogged pw) now (db, (w, []))) as [[e1| |] [db1 [w1 log1]]] eqn:E; try discriminate.
  cbn in H. injection H as <- <- <- <- <-. destruct (refresh_honest W pw fuel now db w e1 db1 w1 log1 Hr ltac:(unfold pdb_old; lia) E) as (H1 & H2 & H3).
  split; [exact H1|]. split; [|exact H3]. intro He. rewrite (H2 He). auto.
Qed.
(** A database that was read not long ago is not read again: the records are those remembered, and nothing is sent. *)
Theorem C16_remembered : forall W (pw : packet_writer W) fuel now db w, now <= pd_age db + pd_timeout db ->
  pdb_links fuel pw now (db, w) = (Ret (pd_links db, None), (db, w)).
Proof.
  intros W pw fuel now db w H. unfold pdb_links, pdb_refresh, pbind, pfst, pget, pret. cbn [fst snd]. replace (pdb_old now db) with false by (unfold pdb_old; lia). reflexivity.
Qed.
Example C16_remembered_case : fst (pdb_links 20 script_pw 5 (mkPdb 0 [ex_l1] 3 5, [])) = Ret ([ex_l1], None) /\ 5 <= pd_age (mkPdb 0 [ex_l1] 3 5) + pd_timeout (mkPdb 0 [ex_l1] 3 5).
Proof. split; [vm_compute; reflexivity|cbn; lia]. Qed.
(** The time of reading is not noted, so that what was just read is old at once: the next call reads everything again. *)
Theorem C16_reads_again : forall W (pw : packet_writer W) fuel now db w r db' w', pd_age db + pd_timeout db < now ->
  pdb_links fuel pw now (db, w) = (Ret r, (db', w')) -> forall later, now <= later -> pd_age db' + pd_timeout db' < later.
Proof.
  intros W pw fuel now db w r db' w' Ho H later Hl. assert (E : pd_age db' = pd_age db /\ pd_timeout db' = pd_timeout db); [|destruct E as [-> ->]; lia].
  unfold pdb_links, pdb_refresh, pbind, pfst, psnd, pget, pput, pret in H. cbn [fst snd] in H. replace (pdb_old now db) with true in H by (unfold pdb_old; lia). cbn [negb] in H. cbn [fst snd] in H.
  destruct (pw_write (retry pw (pd_retries db) true) (mkPkt pc_GetFirstAllLink [] 0) w) as [[[a e]| |] w1]; try discriminate. cbn [fst snd] in H.
  destruct (refresh_loop fuel pw (pd_retries db) [] e w1) as [[[ls e1]| |] w2]; try discriminate.
  destruct (err_is e1 EPlmNak); cbn [fst snd] in H; injection H as <- <- <-; split; reflexivity.
Qed.
Example C16_reads_again_case : exists db' m', pdb_links 20 modem_pw 100 (ex_db, ex_modem [ex_l1; ex_l2]) = (Ret ([ex_l1; ex_l2], None), (db', m')) /\ pd_age db' + pd_timeout db' < 100.
Proof. eexists. eexists. split; vm_compute; reflexivity. Qed.
Example C16_ex : pd_age ex_db + pd_timeout ex_db < 100 /\ quiet_noise (ex_modem [ex_l1; ex_l2; ex_l3]) /\ Forall link_wf [ex_l1; ex_l2; ex_l3] /\
  fst (pdb_links 20 modem_pw 100 (ex_db, ex_modem [ex_l1; ex_l2; ex_l3])) = Ret ([ex_l1; ex_l2; ex_l3], None) /\
  fst (pdb_links 20 modem_pw 100 (ex_db, ex_modem [])) = Ret ([], None) /\
  fst (pdb_links 20 (plogged script_pw) 100 (ex_db, ([ack_of (mkPkt 0x69 [] 0); (None, Some (EWrap EPlmReadTimeout))], [])))
    = Ret ([], Some (EWrap EPlmReadTimeout)).
Proof.
  split; [reflexivity|]. split; [intros [|[|k]]; repeat constructor; cbn; lia|].
  split; [repeat constructor; cbn; lia|]. vm_compute. auto.
Qed.
Print Assumptions C16_links_exact.
Print Assumptions C16_failures_reported.
Print Assumptions C16_remembered.
Print Assumptions C16_reads_again.

(** * C17.  With the database read beforehand, and links that describe different things, WriteLinks replaces the database. *)
Theorem C17_replaces_partial : forall db m ls, pd_links db = md_links m -> Forall link_wf (md_links m) -> Forall link_wf ls ->
  ForallOrdPairs (fun a b => ~ same_link b a) ls ->
  exists db' m', pdb_write_links modem_pw ls (db, m) = (Ret None, (db', m')) /\ md_links m' = ls /\ pd_links db' = ls.
Proof. exact write_links_modem. Qed.
(** Any modem at all: what is remembered afterwards is what was acknowledged, unless the deletions failed. *)
Theorem C17_remembered_prefix : forall W (pw : packet_writer W) ls db w r db' w' log,
  pdb_write_links (plogged pw) ls (db, (w, [])) = (r, (db', (w', log))) ->
  (r = Ret None /\ pd_links db' = ls /\ accepted log = map link_marshal ls) \/
  (r <> Ret None /\ ((pd_links db' = pd_links db /\ accepted log = []) \/
     exists n, (n < length ls)%nat /\ pd_links db' = firstn n ls /\ accepted log = map link_marshal (firstn n ls))).
Proof. exact write_links_remembers. Qed.
(** Missing from the full claim: a database that was not read first is not replaced, because only remembered links are deleted. *)
Theorem C17_unread_database_refuted : exists m ls db' m', Forall link_wf (md_links m) /\ Forall link_wf ls /\
  ForallOrdPairs (fun a b => ~ same_link b a) ls /\
  pdb_write_links modem_pw ls (ex_db, m) = (Ret None, (db', m')) /\ md_links m' <> ls.
Proof.
  exists (ex_modem [ex_l1]), [ex_l2]. eexists _, _. split; [repeat constructor; cbn; lia|]. split; [repeat constructor; cbn; lia|].
  split; [repeat constructor|]. split; [vm_compute; reflexivity|]. vm_compute. discriminate.
Qed.
(** And a failure among the deletions leaves a remembered list of records that are no longer there. *)
Theorem C17_failed_delete_refuted : exists w db' w' log l,
  pdb_write_links (plogged script_pw) [] (set_pd_links ex_db [ex_l1; ex_l2], (w, [])) = (Ret (Some (EWrap EPlmReadTimeout)), (db', (w', log))) /\
  In (OpW (mkPkt 0x6f (0x80 :: link_marshal l) 0) (Ret (None, None))) log /\ In l (pd_links db') /\ accepted log = [].
Proof.
  exists [(None, None)]. eexists _, _, _, ex_l1. split; [vm_compute; reflexivity|]. vm_compute. auto.
Qed.
Example C17_ex : ForallOrdPairs (fun a b => ~ same_link b a) [ex_l2; ex_l3] /\
  fst (pdb_write_links modem_pw [ex_l2; ex_l3] (set_pd_links ex_db [ex_l1; ex_l2], ex_modem [ex_l1; ex_l2])) = Ret None /\
  md_links (snd (snd (pdb_write_links modem_pw [ex_l2; ex_l3] (set_pd_links ex_db [ex_l1; ex_l2], ex_modem [ex_l1; ex_l2])))) = [ex_l2; ex_l3] /\
  (let r := pdb_write_links (plogged script_pw) [ex_l2; ex_l3] (ex_db, ([(None, None); (None, Some (EWrap EPlmReadTimeout))], [])) in
   fst r = Ret (Some (EWrap EPlmReadTimeout)) /\ pd_links (fst (snd r)) = [ex_l2]).
Proof.
  split; [repeat constructor; unfold same_link; cbn; lia|]. vm_compute. auto.
Qed.
Print Assumptions C17_replaces_partial.
Print Assumptions C17_remembered_prefix.
Print Assumptions C17_unread_database_refuted.
Print Assumptions C17_failed_delete_refuted.

(** * C18.  What happens after a garbled echo: a delete request carrying the first eight bytes of the echo's payload, and a second
    attempt exactly when that delete succeeded.  The payload of an echo begins with the operation byte. *)
Theorem C18_repair_partial : forall W (pw : packet_writer W) l w ack w1, bytes_ok (p_payload ack) -> (8 <= length (p_payload ack))%nat ->
  pdb_write_link pw l w = (Ret (Some ack, Some EPlmWrongPayload), w1) ->
  write_one pw l w =
    match pw_write (retry pw 3 true) (mkPkt 0x6f (0x80 :: firstn 8 (p_payload ack)) 0) w1 with
    | (Ret (_, Some e), w2) => (Ret (Some e), w2)
    | (Ret (_, None), w2) =>
        match pdb_write_link pw l w2 with (Ret (_, e), w3) => (Ret e, w3) | (Panic, w3) => (Panic, w3) | (NoFuel, w3) => (NoFuel, w3) end
    | (Panic, w2) => (Panic, w2)
    | (NoFuel, w2) => (NoFuel, w2)
    end.
Proof. exact repair_request. Qed.
(** So the garbled record [rec] is not the one that is deleted: the request is shifted by the operation byte. *)
Theorem C18_deletes_garbled_refuted : exists l rec w w' log, length rec = 8%nat /\ bytes_ok rec /\
  write_one (plogged script_pw) l (w, []) = (Ret None, (w', log)) /\
  In (OpW (mkPkt 0x6f (0x41 :: link_marshal l) 0) (Ret (Some (mkPkt 0x6f (0x41 :: rec) 0x06), Some EPlmWrongPayload))) log /\
  (forall r, ~ In (OpW (mkPkt 0x6f (0x80 :: rec) 0) r) log) /\
  requests log = [(0x6f, 0x41 :: link_marshal l); (0x6f, 0x80 :: 0x41 :: firstn 7 rec); (0x6f, 0x41 :: link_marshal l)].
Proof.
  exists ex_l2, [0x02; 0xa2; 1; 0x0a; 0x0b; 0x0c; 4; 5].
  exists [(Some (mkPkt 0x6f [0x41; 0x02; 0xa2; 1; 0x0a; 0x0b; 0x0c; 4; 5] 0x06), Some EPlmWrongPayload); (None, None); (None, None)].
  eexists _, _. split; [reflexivity|]. split; [repeat constructor; cbn; lia|]. split; [vm_compute; reflexivity|].
  split; [left; reflexivity|]. split; [|vm_compute; reflexivity].
  intros r [H|[H|[H|[]]]]; discriminate.
Qed.
(** In every other case nothing is deleted: without an error, or with another one, the write is not followed by anything; a panic stays one; a
    garbled echo that is missing is dereferenced; and of one that is too short, whose error is not looked at, nothing is used: the request asks to
    delete the record that consists of zeros. *)
Theorem C18_otherwise : forall W (pw : packet_writer W) l w,
  (forall a e w1, pdb_write_link pw l w = (Ret (a, e), w1) -> e <> Some EPlmWrongPayload -> write_one pw l w = (Ret e, w1)) /\
  (forall w1, pdb_write_link pw l w = (Panic, w1) \/ pdb_write_link pw l w = (Ret (None, Some EPlmWrongPayload), w1) -> write_one pw l w = (Panic, w1)) /\
  (forall a w1 r w2, pdb_write_link pw l w = (Ret (Some a, Some EPlmWrongPayload), w1) -> (length (p_payload a) < 8)%nat ->
     pw_write (retry pw 3 true) (mkPkt 0x6f (0x80 :: repeat 0 8) 0) w1 = (Ret r, w2) ->
     match snd r with
     | Some e => write_one pw l w = (Ret (Some e), w2)
     | None => forall a' e' w3, pdb_write_link pw l w2 = (Ret (a', e'), w3) -> write_one pw l w = (Ret e', w3)
     end).
Proof.
  intros W pw l w. unfold write_one, pbind. split; [|split].
  - intros a e w1 H N. rewrite H. destruct e as [e|]; [|reflexivity]. destruct (error_eqb e EPlmWrongPayload) eqn:E; [|reflexivity].
    destruct e; cbn in E; congruence.
  - intros w1 [H|H]; rewrite H; reflexivity.
  - intros a w1 [x [e|]] w2 H L D; rewrite H; cbn [error_eqb snd].
    + replace (fst (link_unmarshal link_zero (p_payload a))) with link_zero
        by (destruct (p_payload a) as [|? [|? [|? [|? [|? [|? [|? [|? ?]]]]]]]]; cbn [length] in L; try lia; reflexivity).
      change (pdb_delete_link pw link_zero) with (pw_write (retry pw 3 true) (mkPkt 0x6f (0x80 :: repeat 0 8) 0)). rewrite D. reflexivity.
    + intros a' e' w3 H'.
      replace (fst (link_unmarshal link_zero (p_payload a))) with link_zero
        by (destruct (p_payload a) as [|? [|? [|? [|? [|? [|? [|? [|? ?]]]]]]]]; cbn [length] in L; try lia; reflexivity).
      change (pdb_delete_link pw link_zero) with (pw_write (retry pw 3 true) (mkPkt 0x6f (0x80 :: repeat 0 8) 0)). rewrite D, H'. reflexivity.
Qed.
(** A refused write; and a short echo, after which the record of zeros is deleted and the write succeeds. *)
Example C18_otherwise_case :
  (exists w', write_one (plogged script_pw) ex_l2 ([(Some (mkPkt 0x6f [0x41] 0x15), Some EBufferTooShort); (None, None); (None, None)], []) = (Ret (Some EBufferTooShort), w') /\
     requests (snd w') = [(0x6f, 0x41 :: link_marshal ex_l2)]) /\
  (exists w', write_one (plogged script_pw) ex_l2 ([(Some (mkPkt 0x6f [0x41; 1; 2] 0x06), Some EPlmWrongPayload); (None, None); (None, None)], []) = (Ret None, w') /\
     requests (snd w') = [(0x6f, 0x41 :: link_marshal ex_l2); (0x6f, 0x80 :: repeat 0 8); (0x6f, 0x41 :: link_marshal ex_l2)]).
Proof.
  split.
  - eexists. split.
    1: eapply (proj1 (C18_otherwise _ (plogged script_pw) ex_l2 _)); [vm_compute; reflexivity|discriminate].
    vm_compute. reflexivity.
  - eexists. split.
    1: eapply (proj2 (proj2 (C18_otherwise _ (plogged script_pw) ex_l2 _)) _ _ (None, None)); [vm_compute; reflexivity|cbn; lia|vm_compute; reflexivity|vm_compute; reflexivity].
    vm_compute. reflexivity.
Qed.
Example C18_ex : exists w1, pdb_write_link script_pw ex_l2 [(Some (mkPkt 0x6f [0x41; 2; 3; 4; 5; 6; 7; 8; 9] 6), Some EPlmWrongPayload); (None, None)]
  = (Ret (Some (mkPkt 0x6f [0x41; 2; 3; 4; 5; 6; 7; 8; 9] 6), Some EPlmWrongPayload), w1).
Proof. eexists. vm_compute. reflexivity. Qed.
Print Assumptions C18_repair_partial.
Print Assumptions C18_otherwise.
Print Assumptions C18_deletes_garbled_refuted.

(** * C19.  The callbacks are the addresses in order of first appearance; none when the database could not be read. *)
Theorem C19_visits : forall W (pw : packet_writer W) fuel now db w addrs err s',
  pdb_iterate fuel pw now (db, w) = (Ret (addrs, err), s') ->
  exists links, pdb_links fuel pw now (db, w) = (Ret (links, err), s') /\
    (err = None -> firsts (map l_addr links) addrs) /\ (err <> None -> addrs = []).
Proof. exact iterate_callbacks. Qed.
(** First appearances are every element once. *)
Theorem C19_each_once : forall l f, firsts l f -> (forall a, In a f <-> In a l) /\ NoDup f.
Proof. exact firsts_complete. Qed.
Example C19_each_once_case : firsts [5; 7; 5; 9] [5; 7; 9].
Proof.
  apply (firsts_new [5; 7; 5] [5; 7]); [|intros [H|[H|[H|[]]]]; discriminate H]. apply (firsts_old [5; 7] [5; 7]); [|left; reflexivity].
  apply (firsts_new [5] [5]); [|intros [H|[]]; discriminate H]. apply (firsts_new [] []); [constructor|intros []].
Qed.
Example C19_ex : fst (pdb_iterate 20 modem_pw 100 (ex_db, ex_modem [ex_l1; ex_l2; ex_l3])) = Ret ([0x010203; 0x0a0b0c], None) /\
  fst (pdb_iterate 20 script_pw 100 (ex_db, [])) = Ret ([], Some (EWrap EPlmReadTimeout)).
Proof. vm_compute. auto. Qed.
Print Assumptions C19_visits.
Print Assumptions C19_each_once.

(** * C53.  The linking requests, for every modem: exactly one packet each, and its verdict is returned. *)
Theorem C53_linking_frames : forall W (pw : packet_writer W) g w,
  let ask (c : Z) (p : list Z) := match pw_write pw (mkPkt c p 0) w with
    | (Ret (_, e), w1) => (Ret e, w1) | (Panic, w1) => (Panic, w1) | (NoFuel, w1) => (NoFuel, w1) end in
  pdb_enter_linking pw g w = ask 0x64 [0x03; g] /\ pdb_enter_unlinking pw g w = ask 0x64 [0xff; g] /\ pdb_exit_linking pw w = ask 0x65 [].
Proof.
  intros W pw g w ask. subst ask. unfold pdb_enter_linking, pdb_enter_unlinking, pdb_exit_linking, pbind, pret, alr_marshal.
  unfold pc_StartAllLink, pc_CancelAllLink.
  destruct (pw_write pw (mkPkt 0x64 [0x03; g] 0) w) as [[[? ?]| |] ?], (pw_write pw (mkPkt 0x64 [0xff; g] 0) w) as [[[? ?]| |] ?],
    (pw_write pw (mkPkt 0x65 [] 0) w) as [[[? ?]| |] ?]; auto.
Qed.
(** Deleting and writing a record ask for just that, naming the record by its eight bytes; bit 6 of its flags says controller. *)
Theorem C53_manage_frames : forall W (pw : packet_writer W) l w, link_wf l ->
  let b := [l_flags l; l_group l; l_addr l / 65536; (l_addr l / 256) mod 256; l_addr l mod 256; l_d0 l; l_d1 l; l_d2 l] in
  pdb_delete_link pw l w = pw_write (retry pw 3 true) (mkPkt 0x6f (0x80 :: b) 0) w /\
  pdb_write_link pw l w = pw_write (retry pw 3 true) (mkPkt 0x6f ((if (l_flags l / 64) mod 2 =? 1 then 0x40 else 0x41) :: b) 0) w.
Proof.
  intros W pw l w Hl b. unfold pdb_delete_link, pdb_write_link, mrr_marshal.
  assert (E : link_marshal l = b) by apply (DevLinkdbProofs.record_bytes_marshal l Hl). rewrite E.
  assert (Ec : rcf_controller (l_flags l) = ((l_flags l / 64) mod 2 =? 1)).
  { destruct Hl as (Hf & _).
    pose proof (sweep1 (fun f => eqb (rcf_controller f) ((f / 64) mod 2 =? 1)) ltac:(vm_compute; reflexivity) _ Hf) as H. apply eqb_prop in H. exact H. }
  rewrite Ec. split; [reflexivity|]. destruct ((l_flags l / 64) mod 2 =? 1); reflexivity.
Qed.
Theorem C53_manage_roundtrip : forall c l, link_wf l -> mrr_unmarshal (mrr_marshal c l) = Ret (c, l, None).
Proof. intros c l H. unfold mrr_unmarshal, mrr_marshal. rewrite (CodecProofs.link_roundtrip link_zero l H). reflexivity. Qed.
Theorem C53_manage_short : forall buf, buf <> [] ->
  (exists c l e, mrr_unmarshal buf = Ret (c, l, e) /\ (e = None <-> (9 <= length buf)%nat)).
Proof.
  intros [|c t] H; [congruence|]. unfold mrr_unmarshal. pose proof (LinkProofs.link_unmarshal_ok_iff link_zero t) as Hk.
  destruct (link_unmarshal link_zero t) as [l e]. exists c, l, e. cbn [snd length] in *. split; [reflexivity|]. rewrite Hk. lia.
Qed.
Theorem C53_empty_crash_refuted : exists buf, mrr_unmarshal buf = Panic.
Proof. exists []. reflexivity. Qed.
Theorem C53_start_roundtrip : forall old m g rest, alr_unmarshal old (alr_marshal m g ++ rest) = ((m, g), None).
Proof. reflexivity. Qed.
Theorem C53_start_short : forall old buf, (length buf < 2)%nat -> exists e, alr_unmarshal old buf = (old, Some (EWrap e)).
Proof. intros old [|a [|b t]] H; cbn in *; eauto; lia. Qed.
Example C53_ex : fst (pdb_enter_linking script_pw 5 [nak_of (mkPkt 0x64 [3; 5] 0)]) = Ret (Some EPlmNak) /\
  mrr_marshal 0x40 ex_l1 = [0x40; 0xe2; 1; 1; 2; 3; 1; 2; 3].
Proof. vm_compute. auto. Qed.
Print Assumptions C53_linking_frames.
Print Assumptions C53_manage_frames.
Print Assumptions C53_manage_roundtrip.
Print Assumptions C53_manage_short.
Print Assumptions C53_empty_crash_refuted.
Print Assumptions C53_start_roundtrip.
Print Assumptions C53_start_short.
