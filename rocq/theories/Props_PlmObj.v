(** C79: the modem the tool uses is a copy of the object its options made; it works like a modem that was never copied. *)
From Coq Require Import ZArith List Bool Lia.
From Verif Require Import GoBase GoLemmas GoProg Address Message PlmPacket Plm Link PlmLinkdb PlmObj PlmObjSpec PlmObjProofs Props_Plm.
Import ListNotations.
Open Scope Z_scope.

(** The object of [New]: three retries, the time-out chosen, no address and no links known; its link database has the same limits and
    writes through this very object. *)
Theorem C79_new : forall n opts, exists t, chosen opts t /\
  o_timeout (plm_new n opts) = t /\ o_retries (plm_new n opts) = 3 /\ o_addr (plm_new n opts) = 0 /\
  pd_timeout (o_db (plm_new n opts)) = t /\ pd_retries (o_db (plm_new n opts)) = 3 /\ pd_links (o_db (plm_new n opts)) = [] /\ pd_age (o_db (plm_new n opts)) = 0 /\ o_ptr (plm_new n opts) = n.
Proof.
  intros n opts. unfold plm_new. destruct (options_timeout opts (mkObj 3 3 0 0 (mkPdb 0 [] 0 0) n)) as (H1 & H2 & H3 & H4). cbn [o_timeout o_retries o_addr o_ptr] in *.
  exists (fold_left step_time opts 3). split; [|cbn; rewrite H1, H2, H3, H4; repeat split].
  destruct (step_chosen opts 3) as [[K1 K2]|K]; [left; split; assumption|right; exact K].
Qed.
(** Options choose one time-out. *)
Theorem C79_chosen_one : forall opts a b, chosen opts a -> chosen opts b -> a = b.
Proof. exact chosen_one. Qed.

(** A modem [p] with link database [db], held in an object and copied: whatever is then done through the copy, the results, the bytes
    on the port, the waits and the queues are those of a modem that was never copied.  The object copied from stays as it was. *)
Theorem C79_copy : forall sc fuel ops d db p,
  let h := copy_object (mkHp (line_of p) [obj_of d db p]) 0 in
  let (r1, h1) := run_ops sc fuel 1 ops h in
  let (r2, w2) := plain_ops sc fuel ops (db, p) in
  r1 = r2 /\ h_line h1 = line_of (snd w2) /\ nth_error (h_objs h1) 0 = Some (obj_of d db p) /\
  (forall rs, r1 = Ret rs -> nth_error (h_objs h1) 1 = Some (obj_of d (fst w2) (snd w2))).
Proof.
  intros sc fuel ops d db p h. subst h. cbn [copy_object nth_error h_objs h_line app].
  destruct (ops_alike sc (obj_of d db p) d fuel ops (mkHp (line_of p) [obj_of d db p; obj_of d db p]) (db, p)) as (H1 & H2 & H3); [repeat split|].
  destruct (run_ops sc fuel 1 ops (mkHp (line_of p) [obj_of d db p; obj_of d db p])) as [r1 h1]. destruct (plain_ops sc fuel ops (db, p)) as [r2 w2]. cbn [fst snd] in *.
  split; [exact H1|]. destruct H2 as [H2 H4]. split; [exact H2|]. split; [exact H4|]. intros rs ->. destruct (H3 (ex_intro _ rs eq_refl)) as (-> & _). reflexivity.
Qed.
(** So does the object itself when it is not copied. *)
Theorem C79_uncopied : forall sc fuel ops d db p,
  let (r1, h1) := run_ops sc fuel 0 ops (mkHp (line_of p) [obj_of d db p]) in
  let (r2, w2) := plain_ops sc fuel ops (db, p) in
  r1 = r2 /\ h_line h1 = line_of (snd w2) /\ (forall rs, r1 = Ret rs -> h_objs h1 = [obj_of d (fst w2) (snd w2)]).
Proof.
  intros sc fuel ops d db p. destruct (lone_ops_alike sc d fuel ops (mkHp (line_of p) [obj_of d db p]) (db, p)) as (H1 & H2 & H3); [reflexivity|].
  destruct (run_ops sc fuel 0 ops (mkHp (line_of p) [obj_of d db p])) as [r1 h1]. destruct (plain_ops sc fuel ops (db, p)) as [r2 w2]. cbn [fst snd] in *.
  split; [exact H1|]. split; [exact H2|]. intros rs ->. rewrite (H3 (ex_intro _ rs eq_refl)). reflexivity.
Qed.

(** The object of [New] in the form of the theorems above. *)
Lemma new_plain : forall opts t, chosen opts t -> exists d, h_objs (heap_new opts) = [obj_of d (mkPdb 0 [] 3 t) (mkPlm [] [] false [] [] 0 t 3 0)] /\ h_line (heap_new opts) = line_of (mkPlm [] [] false [] [] 0 t 3 0).
Proof.
  intros opts t H. destruct (C79_new 0 opts) as (t' & H0 & H1 & H2 & H3 & H4 & H5 & H6 & H7 & H8). rewrite (chosen_one _ _ _ H0 H) in *. clear H0.
  exists (o_delay (plm_new 0 opts)). split; [|reflexivity]. cbn [heap_new h_objs]. destruct (plm_new 0 opts) as [a b c e [f g i j] k]. cbn in *. subst. reflexivity.
Qed.
(** The modem of the tool: made by [New] with options, then copied.  It is the modem of the other claims, fresh, with the time-out chosen. *)
Theorem C79_tool : forall sc fuel ops opts t, chosen opts t ->
  let (r1, h1) := run_ops sc fuel 1 ops (copy_object (heap_new opts) 0) in
  let (r2, w2) := plain_ops sc fuel ops (mkPdb 0 [] 3 t, mkPlm [] [] false [] [] 0 t 3 0) in
  r1 = r2 /\ l_sent (h_line h1) = p_sent (snd w2) /\ l_waits (h_line h1) = p_waits (snd w2).
Proof.
  intros sc fuel ops opts t H. destruct (new_plain opts t H) as (d & H1 & H2). assert (E : heap_new opts = mkHp (line_of (mkPlm [] [] false [] [] 0 t 3 0)) [obj_of d (mkPdb 0 [] 3 t) (mkPlm [] [] false [] [] 0 t 3 0)]).
  { destruct (heap_new opts) as [l os]. cbn in H1, H2. subst. reflexivity. }
  rewrite E. pose proof (C79_copy sc fuel ops d (mkPdb 0 [] 3 t) (mkPlm [] [] false [] [] 0 t 3 0)) as K. cbv zeta in K.
  destruct (run_ops sc fuel 1 ops (copy_object (mkHp (line_of (mkPlm [] [] false [] [] 0 t 3 0)) [obj_of d (mkPdb 0 [] 3 t) (mkPlm [] [] false [] [] 0 t 3 0)]) 0)) as [r1 h1].
  destruct (plain_ops sc fuel ops (mkPdb 0 [] 3 t, mkPlm [] [] false [] [] 0 t 3 0)) as [r2 w2]. destruct K as (K1 & K2 & _). rewrite K2. auto.
Qed.
(** It waits for the time-out chosen and for nothing else, except twenty seconds during a reset; that also holds up to a crash. *)
Theorem C79_waits : forall sc fuel ops opts t w, chosen opts t ->
  In w (l_waits (h_line (snd (run_ops sc fuel 1 ops (copy_object (heap_new opts) 0))))) -> w = t \/ (w = 20 /\ In MReset ops).
Proof.
  intros sc fuel ops opts t w H Hw. pose proof (C79_tool sc fuel ops opts t H) as K.
  destruct (run_ops sc fuel 1 ops (copy_object (heap_new opts) 0)) as [r1 h1]. cbn [snd] in Hw.
  destruct (waits_ops sc t [] (fun x => x = t \/ (x = 20 /\ In MReset ops)) (or_introl eq_refl) fuel ops (fun R => or_intror (conj eq_refl R))
    (mkPdb 0 [] 3 t, mkPlm [] [] false [] [] 0 t 3 0) (mkPdb 0 [] 3 t, mkPlm [] [] false [] [] 0 t 3 0)) as (_ & [_ [_ (ws & E1 & E2)]] & _).
  { split; [reflexivity|]. split; [reflexivity|]. split; [reflexivity|]. exists []. split; [reflexivity|constructor]. }
  destruct (plain_ops sc fuel ops (mkPdb 0 [] 3 t, mkPlm [] [] false [] [] 0 t 3 0)) as [r2 w2]. cbn [snd] in *. destruct K as (_ & _ & K). rewrite K, E1 in Hw.
  rewrite Forall_forall in E2. exact (E2 w Hw).
Qed.
(** The write delay does nothing: options that differ in it only give the same results, bytes and waits. *)
Theorem C79_delay_ignored : forall sc fuel ops opts opts', timeouts opts = timeouts opts' ->
  let (r1, h1) := run_ops sc fuel 1 ops (copy_object (heap_new opts) 0) in
  let (r2, h2) := run_ops sc fuel 1 ops (copy_object (heap_new opts') 0) in
  r1 = r2 /\ l_sent (h_line h1) = l_sent (h_line h2) /\ l_waits (h_line h1) = l_waits (h_line h2).
Proof.
  intros sc fuel ops opts opts' H. destruct (C79_new 0 opts) as (t & H1 & Ht & _). destruct (C79_new 0 opts') as (t' & H2 & Ht' & _).
  assert (E : t = t').
  { rewrite <- Ht, <- Ht'. unfold plm_new. cbn [o_timeout set_db]. rewrite (proj1 (options_timeout opts _)), (proj1 (options_timeout opts' _)), !step_timeouts, H. reflexivity. }
  rewrite <- E in H2. pose proof (C79_tool sc fuel ops opts t H1) as K1. pose proof (C79_tool sc fuel ops opts' t H2) as K2.
  destruct (run_ops sc fuel 1 ops (copy_object (heap_new opts) 0)) as [r1 h1], (run_ops sc fuel 1 ops (copy_object (heap_new opts') 0)) as [r2 h2].
  destruct (plain_ops sc fuel ops (mkPdb 0 [] 3 t, mkPlm [] [] false [] [] 0 t 3 0)) as [r3 w]. destruct K1 as (A1 & A2 & A3), K2 as (B1 & B2 & B3). repeat split; congruence.
Qed.

(** An example: two time-outs and a delay among the options.  The modem answers the request for its address; a reset waits twenty
    seconds in vain; entering linking mode, which goes through the original, waits seven. *)
Definition ex_opts : list plm_option := [OTimeout 5; OWriteDelay 9; OTimeout 7; OWriteDelay 1].
Definition ex_sc79 : schedule := steps [mkStep [] [] false None; mkStep [] [EvPacket (mkPkt 0x60 [0x11;0x22;0x33;3;0x15;0x9b] 6)] false None].
Example C79_ex : chosen ex_opts 7 /\ timeouts ex_opts = timeouts [OTimeout 5; OTimeout 7] /\
  exists h, run_ops ex_sc79 5 1 [MAddress; MReset; MAddress; MEnter 1] (copy_object (heap_new ex_opts) 0) =
    (Ret [RsAddr 0x112233; RsErr (Some (EWrap EPlmReadTimeout)); RsAddr 0x112233; RsErr (Some (EWrap EPlmReadTimeout))], h) /\
  l_sent (h_line h) = [[2; 0x60]; [2; 0x67]; [2; 0x64; 3; 1]] /\ l_waits (h_line h) = [7; 20; 7] /\ map o_addr (h_objs h) = [0; 0x112233].
Proof.
  split; [right; exists [OTimeout 5; OWriteDelay 9], [OWriteDelay 1]; split; [reflexivity|intros t [H|[]]; discriminate H]|]. split; [reflexivity|].
  eexists. split; [vm_compute; reflexivity|]. repeat split.
Qed.
(** The crash of a read on a closed modem is the same through a copy. *)
Example C79_crash_case : exists h, run_ops (steps [mkStep [EvEnd] [] false None]) 5 1 [MExit; MRead] (copy_object (heap_new []) 0) = (Panic, h) /\ l_sent (h_line h) = [[2; 0x65]].
Proof. eexists. split; [vm_compute; reflexivity|reflexivity]. Qed.
Print Assumptions C79_new. Print Assumptions C79_chosen_one. Print Assumptions C79_copy. Print Assumptions C79_uncopied. Print Assumptions C79_tool. Print Assumptions C79_waits.
Print Assumptions C79_delay_ignored.
