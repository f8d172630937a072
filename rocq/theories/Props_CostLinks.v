(** C87, continued: the library's functions for links, and the walk over the network. *)
From Coq Require Import ZArith List Bool Lia ZifyBool ZifyNat.
From Verif Require Import GoBase GoProg Command Message Link MsgWriter BasicDevice Query PlmPacket Plm PlmLinkdb Database DevLinkdb UtilLink IcCmd IcDev IcLine IcWalk IcLink
  Parties EndsSpec EndsProofs EndsNetProofs Props_Line Props_Ends Props_EndsLinks CostSpec CostProofs CostLinksProofs Props_Cost.
Import ListNotations.
Open Scope Z_scope.
Ltac Zify.zify_post_hook ::= Z.div_mod_to_equations.

(** Reading the links of a device takes two messages' worth; each record written takes one, and ending the list one more.  Adding links
    writes each of them once, updating them each at most once.  Making or undoing one link takes four, whoever the two are. *)
Theorem C87_library : forall P sc now m st, at_most P sc st ->
  let lk fuel n := member_lk fuel n sc now in
  let within A k (p : nat -> nat -> prog (memory * plm) A) := costs (k * tries st) (P + k * (tries st + 1)) p (m, st) in
  (forall j i, within _ 2%nat (fun fuel n => lk_links (lk fuel n (PDev j i)))) /\
  (forall j i same, within _ 2%nat (fun fuel n => find_duplicate_links (lk fuel n (PDev j i)) same)) /\
  (forall j i ls, within _ (length ls + 1)%nat (fun fuel n => lk_write (lk fuel n (PDev j i)) ls)) /\
  (forall j i ls, within _ (length ls + 3)%nat (fun fuel n => lk_update (lk fuel n (PDev j i)) ls)) /\
  (forall j i ls, within _ (length ls + 2)%nat (fun fuel n => add_links (lk fuel n (PDev j i)) ls)) /\
  (forall g x y, within _ 4%nat (fun fuel n => force_link g (lk fuel n x) (lk fuel n y))) /\
  (forall g x y, within _ 4%nat (fun fuel n => unlink g (lk fuel n x) (lk fuel n y))).
Proof.
  intros P sc now m st Hm lk within. pose proof (spent2_adds memory false sc) as HX.
  repeat split; intros; unfold within; (apply (costs_light _ sc P _ _ _ (m, st)); [exact Hm|]); intros fuel n; cbv beta.
  - apply (member_dev false sc fuel n now j i).
  - apply duplicates_cost; [exact HX|apply member_dev].
  - apply (member_dev false sc fuel n now j i).
  - apply (member_dev false sc fuel n now j i).
  - apply add_links_cost; [exact HX|apply member_dev].
  - destruct (member_modes false sc fuel n now x) as (A1 & A2 & A3). destruct (member_modes false sc fuel n now y) as (B1 & B2 & B3).
    apply force_cost; [exact HX|split; assumption|split; assumption].
  - apply unlink_cost; [exact HX|apply member_modes|apply member_modes].
Qed.

(** Walking: each packet may be a record, which costs asking for the next one and five messages' worth for its device. *)
Theorem C87_walk : forall P sc os now filters f db st, at_most P sc st ->
  costs ((6 * P + 2) * tries st) ((6 * P + 2) * (tries st + 1)) (fun fuel n => walk_network fuel n os sc now filters) ((f, db), st).
Proof.
  intros P sc os now filters f db st Hm fuel n r w' H. apply walk_cost with (P := P) in H; [|exact Hm].
  pose proof (spent_costs true sc P _ _ _ Hm H) as (fs & ws & G1 & G2 & G3 & G4 & G5). cbn [snd]. exists fs, ws. split; [exact G1|]. split; [exact G2|]. split; [nia|]. split; [nia|exact G5].
Qed.

(** Removing, linking and undoing every link first list the records; no list is longer than what the device object remembers or than the
    packets that come in, and [M] is a limit on both.  Each record costs one message's worth to remove, five to undo. *)
Theorem C87_listed : forall P M sc now m st, at_most P sc st -> (P <= M)%nat -> (forall j, length (ld_links (me_dev m j)) <= M)%nat ->
  let lk fuel n := member_lk fuel n sc now in
  let within A k (p : nat -> nat -> prog (memory * plm) A) := costs (k * tries st) (P + k * (tries st + 1)) p (m, st) in
  (forall j i ls, within _ (2 + M)%nat (fun fuel n => remove_links (lk fuel n (PDev j i)) ls)) /\
  (forall g j i j' i', within _ (10 + M)%nat (fun fuel n => link_devices g (lk fuel n (PDev j i)) (lk fuel n (PDev j' i')))) /\
  (forall j i y, within _ (2 + 5 * M)%nat (fun fuel n => unlink_all (lk fuel n (PDev j i)) (lk fuel n y))).
Proof.
  intros P M sc now m st Hm HM Hr lk within.
  assert (Hi : inv sc P M (m, st)) by (split; [exact Hm|exact Hr]).
  assert (Q : forall A k (p : nat -> nat -> prog (memory * plm) A), (forall fuel n r w', p fuel n (m, st) = (r, w') -> @spent2 memory false sc k (m, st) w') -> within A k p).
  { intros A k p H fuel n r w' E. apply H in E. pose proof (spent_costs false sc P _ _ _ Hm E) as (fs & ws & G1 & G2 & G3 & G4 & G5). cbn [snd]. exists fs, ws. split; [exact G1|]. split; [exact G2|].
    cbv zeta in G3, G4. split; [nia|]. split; [nia|exact G5]. }
  repeat split; intros; apply Q; intros fuel n r w' E.
  - exact (remove_inv sc P M HM fuel n now _ _ _ _ _ _ Hi E).
  - exact (link_devices_inv sc P M HM fuel n now _ _ _ _ _ _ _ _ Hi E).
  - exact (unlink_all_inv sc P M HM fuel n now _ _ _ _ _ _ Hi E).
Qed.

(** Writing the modem's records needs no limit on packets: four tries for each record remembered and at most three times four for each new
    one, and a wait for each. *)
Theorem C87_modem_write : forall sc ls db st,
  let k := (4 * length (pd_links db) + 12 * length ls)%nat in costs k k (fun _ _ => pdb_write_links (plm_pw sc) ls) (db, st).
Proof. intros sc ls db st k fuel n r w' H. exact (proj2 (write_links_flat _ _ _ _ _ _ H)). Qed.

(** The dimmer refuses everything: writing a link to it sends the frame four times and gives up. *)
Example C87_library_case : costs 12 19 (fun fuel n => lk_update (member_lk fuel n ex_nak87 100000 ex_dimmer85) []) (ex_memory85, ex_plm65) /\
  costs 8 14 (fun fuel n => lk_write (member_lk fuel n ex_nak87 100000 ex_dimmer85) [mkLink 0xe2 1 0x445566 0 0 0]) (ex_memory85, ex_plm65) /\
  length (p_sent (snd (snd (lk_write (member_lk 3 3 ex_nak87 100000 ex_dimmer85) [mkLink 0xe2 1 0x445566 0 0 0] (ex_memory85, ex_plm65))))) = 4%nat.
Proof.
  destruct (C87_library 4 ex_nak87 100000 ex_memory85 ex_plm65 ex_nak_at_most87) as (_ & _ & H1 & H2 & _).
  split; [exact (H2 0%nat (mkDI 0x112233 1 0x0e 0x40 2) [])|]. split; [exact (H1 0%nat (mkDI 0x112233 1 0x0e 0x40 2) [mkLink 0xe2 1 0x445566 0 0 0])|]. vm_compute. reflexivity.
Qed.
(** One record and then silence: the record is asked for and the next one, and nothing more. *)
Example C87_walk_case : costs 80 100 (fun fuel n => walk_network fuel n (mkOS None (0%nat, None)) ex_listed85 100000 []) ((None, ex_db65), ex_plm65) /\
  exists k, length (p_sent (snd (snd (walk_network 5 5 (mkOS None (0%nat, None)) ex_listed85 100000 [] ((None, ex_db65), ex_plm65))))) = S k /\ (k < 80)%nat.
Proof.
  split; [exact (C87_walk 3 ex_listed85 (mkOS None (0%nat, None)) 100000 [] None ex_db65 ex_plm65 ex_listed_at_most85)|]. vm_compute. eexists. split; [reflexivity|lia].
Qed.

(** The dimmer that refuses remembers no record: linking it with another sends at least one frame and stays within the limit. *)
Example C87_listed_case : costs 56 74 (fun fuel n => link_devices 1 (member_lk fuel n ex_nak87 100000 (PDev 0 (mkDI 0x112233 1 0x0e 0x40 2)))
    (member_lk fuel n ex_nak87 100000 (PDev 1 (mkDI 0x445566 1 0x0e 0x40 2)))) (ex_memory85, ex_plm65) /\
  exists k, length (p_sent (snd (snd (link_devices 1 (member_lk 5 5 ex_nak87 100000 (PDev 0 (mkDI 0x112233 1 0x0e 0x40 2)))
    (member_lk 5 5 ex_nak87 100000 (PDev 1 (mkDI 0x445566 1 0x0e 0x40 2))) (ex_memory85, ex_plm65))))) = S k /\ (k < 56)%nat.
Proof.
  split; [|vm_compute; eexists; split; [reflexivity|lia]].
  destruct (C87_listed 4 4 ex_nak87 100000 ex_memory85 ex_plm65 ex_nak_at_most87 (le_n 4)) as (_ & H & _); [intro j; cbn; lia|].
  exact (H 1 0%nat (mkDI 0x112233 1 0x0e 0x40 2) 1%nat (mkDI 0x445566 1 0x0e 0x40 2)).
Qed.

(** The modem refuses to delete its only record: four frames, and nothing is written. *)
Example C87_modem_write_case :
  let sc : schedule := fun t => mkStep [] (if Nat.odd t then [EvPacket (mkPkt 0x6f (0x80 :: link_marshal (mkLink 0xe2 1 0x112233 0 0 0)) 0x15)] else []) false None in
  let w := (mkPdb 0 [mkLink 0xe2 1 0x112233 0 0 0] 3 60, ex_plm65) in
  let end_ := pdb_write_links (plm_pw sc) [mkLink 0xa2 1 0x445566 0 0 0] w in
  costs 16 16 (fun _ _ => pdb_write_links (plm_pw sc) [mkLink 0xa2 1 0x445566 0 0 0]) w /\
  length (p_sent (snd (snd end_))) = 4%nat /\ fst end_ = Ret (Some EPlmNak).
Proof. split; [exact (C87_modem_write _ _ _ _)|]. vm_compute. auto. Qed.

Print Assumptions C87_library.
Print Assumptions C87_walk.
Print Assumptions C87_listed.
Print Assumptions C87_modem_write.
