(** Proofs about util/link.go. *)
From Coq Require Import ZArith List Bool Lia ZifyBool ZifyNat.
From Verif Require Import GoBase GoLemmas GoProg Address Link LinkSpec LinkProofs CodecProofs MsgWriter BasicDevice DevLinkdb DevLinkdbSpec DevLinkdbProofs UtilLink UtilLinkSpec.
Import ListNotations.
Open Scope Z_scope.
Ltac Zify.zify_post_hook ::= Z.div_mod_to_equations.

(** ** Traces *)
Lemma closed_app : forall ids a b, closed ids a -> closed ids b -> closed ids (a ++ b).
Proof.
  intros ids a b Ha Hb t1 x o t2 E Ho y Hy. revert b Hb E Ha. revert t1. induction a as [|e a IH]; intros t1 b Hb E Ha.
  - cbn [app] in E. eapply Hb; eassumption.
  - destruct t1 as [|e1 t1]; cbn [app] in E; injection E as -> E.
    + subst t2. apply in_or_app. left. eapply (Ha [] x o a); [reflexivity|exact Ho|exact Hy].
    + eapply (IH t1 b Hb E). intros u1 z p u2 Eu Hp w Hw. eapply (Ha (e1 :: u1)); [rewrite Eu; reflexivity|exact Hp|exact Hw].
Qed.
Lemma self_closed_app : forall a b, self_closed a -> self_closed b -> self_closed (a ++ b).
Proof.
  intros a b Ha Hb t1 x o t2 E Ho. revert b Hb E Ha. revert t1. induction a as [|e a IH]; intros t1 b Hb E Ha.
  - cbn [app] in E. eapply Hb; eassumption.
  - destruct t1 as [|e1 t1]; cbn [app] in E; injection E as -> E.
    + subst t2. apply in_or_app. left. eapply (Ha [] x o a); [reflexivity|exact Ho].
    + eapply (IH t1 b Hb E). intros u1 z p u2 Eu Hp. eapply (Ha (e1 :: u1)); [rewrite Eu; reflexivity|exact Hp].
Qed.
Lemma closed_quiet : forall ids t, Forall (fun e => ~ entering (snd e)) t -> closed ids t.
Proof. intros ids t H t1 x o t2 E Ho. exfalso. subst t. rewrite Forall_forall in H. apply (H (x, o)); [apply in_or_app; right; left; reflexivity|exact Ho]. Qed.

Lemma adds_ret : forall W A (a : A), adds (@pret (W * trace) A a) (fun x t => x = a /\ t = []).
Proof. intros W A a w log r w' log' E. injection E as <- <- <-. exists []. rewrite app_nil_r. split; [reflexivity|]. intros x Hx. injection Hx as <-. auto. Qed.
Lemma adds_logged : forall W A id f (m : prog W A), adds (logged id f m) (fun a t => t = [(id, f a)]).
Proof.
  intros W A id f m w log r w' log' E. unfold logged in E. cbn [fst snd] in E. destruct (m w) as [[a| |] w1]; injection E as <- <- <-; eexists; (split; [reflexivity|]);
    intros x Hx; try discriminate. injection Hx as <-. reflexivity.
Qed.
Lemma adds_bind : forall W A B (m : prog (W * trace) A) (f : A -> prog (W * trace) B) P Q,
  adds m P -> (forall a, adds (f a) (fun b t => Q a b t)) ->
  adds (pbind m f) (fun b t => exists a t1 t2, t = t1 ++ t2 /\ P a t1 /\ Q a b t2).
Proof.
  intros W A B m f P Q Hm Hf w log r w' log' E. unfold pbind in E. destruct (m (w, log)) as [[a| |] [w1 log1]] eqn:Em.
  - destruct (Hm _ _ _ _ _ Em) as (t1 & -> & H1). destruct (Hf a _ _ _ _ _ E) as (t2 & -> & H2). exists (t1 ++ t2). split; [symmetry; apply app_assoc|].
    intros b Hb. exists a, t1, t2. auto.
  - injection E as <- <- <-. destruct (Hm _ _ _ _ _ Em) as (t1 & -> & _). exists t1. split; [reflexivity|discriminate].
  - injection E as <- <- <-. destruct (Hm _ _ _ _ _ Em) as (t1 & -> & _). exists t1. split; [reflexivity|discriminate].
Qed.
Lemma adds_weaken : forall W A (m : prog (W * trace) A) (P Q : A -> trace -> Prop), adds m P -> (forall a t, P a t -> Q a t) -> adds m Q.
Proof. intros W A m P Q H HPQ w log r w' log' E. destruct (H _ _ _ _ _ E) as (t & -> & Ht). exists t. split; [reflexivity|]. intros a Ha. apply HPQ. apply Ht. exact Ha. Qed.

(** ** Linking modes *)
Lemma force_link_trace : forall W (c r : linkable W) g, adds (force_link g (lk_logged c) (lk_logged r))
  (fun e t => (exists x, e = Some x /\ t = [(lk_id c, OEnter g (Some x))]) \/
              t = [(lk_id c, OEnter g None); (lk_id r, OEnter g e); (lk_id c, OExit); (lk_id r, OExit)]).
Proof.
  intros W c r g. unfold force_link. cbn [lk_logged lk_enter lk_exit].
  eapply adds_weaken.
  - eapply adds_bind; [apply adds_logged|]. intros [x|].
    + instantiate (1 := fun a b t => match a with Some x => b = Some x /\ t = [] | None => t = [(lk_id r, OEnter g b); (lk_id c, OExit); (lk_id r, OExit)] end). cbn. apply adds_ret.
    + cbn. eapply adds_weaken.
      * eapply adds_bind; [apply adds_logged|]. intro e1. eapply adds_bind; [apply adds_logged|]. intro e2. eapply adds_bind; [apply adds_logged|]. intro e3. apply adds_ret.
      * cbn. intros b t (e1 & t1 & t2 & -> & -> & e2 & t3 & t4 & -> & -> & e3 & t5 & t6 & -> & -> & -> & ->). reflexivity.
  - cbn. intros e t (a & t1 & t2 & -> & -> & H). destruct a as [x|].
    + destruct H as [-> ->]. left. exists x. auto.
    + subst t2. right. reflexivity.
Qed.
Lemma unlink_trace : forall W (c r : linkable W) g, adds (unlink g (lk_logged c) (lk_logged r))
  (fun e t => (exists x, e = Some x /\ t = [(lk_id c, OUnlink g (Some x))]) \/
              t = [(lk_id c, OUnlink g None); (lk_id r, OEnter g e); (lk_id c, OExit); (lk_id r, OExit)]).
Proof.
  intros W c r g. unfold unlink. cbn [lk_logged lk_enter lk_exit lk_unlink].
  eapply adds_weaken.
  - eapply adds_bind; [apply adds_logged|]. intros [x|].
    + instantiate (1 := fun a b t => match a with Some x => b = Some x /\ t = [] | None => t = [(lk_id r, OEnter g b); (lk_id c, OExit); (lk_id r, OExit)] end). cbn. apply adds_ret.
    + cbn. eapply adds_weaken.
      * eapply adds_bind; [apply adds_logged|]. intro e1. eapply adds_bind; [apply adds_logged|]. intro e2. eapply adds_bind; [apply adds_logged|]. intro e3. apply adds_ret.
      * cbn. intros b t (e1 & t1 & t2 & -> & -> & e2 & t3 & t4 & -> & -> & e3 & t5 & t6 & -> & -> & -> & ->). reflexivity.
  - cbn. intros e t (a & t1 & t2 & -> & -> & H). destruct a as [x|].
    + destruct H as [-> ->]. left. exists x. auto.
    + subst t2. right. reflexivity.
Qed.

(** ** Link never leaves a device in a mode *)
Definition quiet (t : trace) : Prop := Forall (fun e => ~ entering (snd e)) t.
Lemma quiet_nil : quiet [].
Proof. constructor. Qed.
Lemma quiet_app : forall a b, quiet a -> quiet b -> quiet (a ++ b).
Proof. intros a b Ha Hb. apply Forall_app. auto. Qed.
Lemma quiet_one : forall x o, ~ entering o -> quiet [(x, o)].
Proof. intros x o H. constructor; [exact H|constructor]. Qed.

Lemma adds_bind_inv : forall (C : trace -> Prop), (forall a b, C a -> C b -> C (a ++ b)) -> forall W A B (m : prog (W * trace) A) (f : A -> prog (W * trace) B),
  adds m (fun _ t => C t) -> (forall a, adds (f a) (fun _ t => C t)) -> adds (pbind m f) (fun _ t => C t).
Proof.
  intros C HC W A B m f Hm Hf. eapply adds_weaken; [eapply adds_bind; [exact Hm|intro a; exact (Hf a)]|]. cbn. intros b t (a & t1 & t2 & -> & H1 & H2). auto.
Qed.
Lemma adds_ret_inv : forall (C : trace -> Prop), C [] -> forall W A (a : A), adds (@pret (W * trace) A a) (fun _ t => C t).
Proof. intros C HC W A a. eapply adds_weaken; [apply adds_ret|]. cbn. intros x t [_ ->]. exact HC. Qed.
Lemma adds_logged_inv : forall (C : trace -> Prop) W A id f (m : prog W A), (forall a, C [(id, f a)]) -> adds (logged id f m) (fun _ t => C t).
Proof. intros C W A id f m H. eapply adds_weaken; [apply adds_logged|]. cbn. intros a t ->. apply H. Qed.

Definition one_quiet {W} (wr : option (Z -> link -> prog (W * trace) (option error))) : Prop :=
  match wr with Some w => forall i l, adds (w i l) (fun _ t => quiet t) | None => True end.
Lemma remove_loop_quiet : forall W (wr : option (Z -> link -> prog (W * trace) (option error))) remove links i, one_quiet wr ->
  adds (remove_loop wr i links remove) (fun _ t => quiet t).
Proof.
  intros W wr remove links. induction links as [|l links IH]; intros i H; cbn [remove_loop]; [apply adds_ret_inv, quiet_nil|].
  destruct (removes remove l); [|apply IH; exact H]. destruct wr as [w|].
  - apply (adds_bind_inv quiet quiet_app); [apply H|]. intros _. apply IH. exact H.
  - apply (adds_bind_inv quiet quiet_app); [apply IH; exact H|]. intro r. apply adds_ret_inv, quiet_nil.
Qed.
Lemma logged_one_quiet : forall W (c : linkable W), one_quiet (lk_write_one (lk_logged c)).
Proof. intros W c. unfold one_quiet, lk_logged, lk_write_one at 1. destruct (lk_write_one c) as [w|]; [|exact I]. intros i l. apply adds_logged_inv. intro a. apply quiet_one. auto. Qed.
Lemma remove_links_quiet : forall W (c : linkable W) remove, adds (remove_links (lk_logged c) remove) (fun _ t => quiet t).
Proof.
  intros W c remove. unfold remove_links. apply (adds_bind_inv quiet quiet_app); [apply adds_logged_inv; intro; apply quiet_one; auto|].
  intros [ls [e|]]; [apply adds_ret_inv, quiet_nil|]. apply (adds_bind_inv quiet quiet_app); [apply remove_loop_quiet, logged_one_quiet|].
  intros [|r rl]; [apply adds_ret_inv, quiet_nil|]. apply adds_logged_inv. intro. apply quiet_one. auto.
Qed.
Lemma find_link_record_quiet : forall W (c : linkable W) ctl a g, adds (find_link_record (lk_logged c) ctl a g) (fun _ t => quiet t).
Proof.
  intros W c ctl a g. unfold find_link_record. apply (adds_bind_inv quiet quiet_app); [apply adds_logged_inv; intro; apply quiet_one; auto|].
  intros [ls [e|]]; [apply adds_ret_inv, quiet_nil|]. destruct (find _ ls); apply adds_ret_inv, quiet_nil.
Qed.
Lemma quiet_closed : forall ids W A (m : prog (W * trace) A), adds m (fun _ t => quiet t) -> adds m (fun _ t => closed ids t).
Proof. intros ids W A m H. eapply adds_weaken; [exact H|]. cbn. intros _ t. apply closed_quiet. Qed.

Lemma mode_closed : forall (c r g : Z) (o : lkop) e, (o = OEnter g None \/ o = OUnlink g None) ->
  closed [c; r] [(c, o); (r, OEnter g e); (c, OExit); (r, OExit)].
Proof.
  intros c r g o e Ho t1 x p t2 E Hp y Hy. 
  assert (Hin : forall t, (t = [(c, OExit); (r, OExit)] \/ t = [(r, OEnter g e); (c, OExit); (r, OExit)]) -> In (y, OExit) t).
  { intros t [-> | ->]; destruct Hy as [<-|[<-|[]]]; cbn; auto. }
  destruct t1 as [|e1 t1]; cbn [app] in E; [injection E as <- <- <-; apply Hin; auto|]. injection E as <- E.
  destruct t1 as [|e2 t1]; cbn [app] in E; [injection E as <- <- <-; apply Hin; auto|]. injection E as <- E.
  destruct t1 as [|e3 t1]; cbn [app] in E; [injection E as <- <- <-; destruct Hp|]. injection E as <- E.
  destruct t1 as [|e4 t1]; cbn [app] in E; [injection E as <- <- <-; destruct Hp|]. injection E as <- E. destruct t1; discriminate.
Qed.
Lemma force_link_closed : forall W (c r : linkable W) g, adds (force_link g (lk_logged c) (lk_logged r)) (fun _ t => closed [lk_id c; lk_id r] t).
Proof.
  intros W c r g. eapply adds_weaken; [apply force_link_trace|]. cbn. intros e t [(x & -> & ->)| ->]; [apply closed_quiet, quiet_one; auto|apply mode_closed; auto].
Qed.
Lemma unlink_closed : forall W (c r : linkable W) g, adds (unlink g (lk_logged c) (lk_logged r)) (fun _ t => closed [lk_id c; lk_id r] t).
Proof.
  intros W c r g. eapply adds_weaken; [apply unlink_trace|]. cbn. intros e t [(x & -> & ->)| ->]; [apply closed_quiet, quiet_one; auto|apply mode_closed; auto].
Qed.
Lemma closed_nil : forall ids, closed ids [].
Proof. intros ids t1 x o t2 E. destruct t1; discriminate. Qed.
Lemma closed_sym : forall a b t, closed [a; b] t -> closed [b; a] t.
Proof. intros a b t H t1 x o t2 E Ho y Hy. apply (H t1 x o t2 E Ho). destruct Hy as [<-|[<-|[]]]; cbn; auto. Qed.

(** [link_devices] has any property of traces that [force_link] has, if quiet traces have it and it is kept by appending. *)
Lemma link_inv : forall (C : trace -> Prop), (forall a b, C a -> C b -> C (a ++ b)) -> (forall t, quiet t -> C t) -> forall W (c r : linkable W) g,
  adds (force_link g (lk_logged c) (lk_logged r)) (fun _ t => C t) -> adds (link_devices g (lk_logged c) (lk_logged r)) (fun _ t => C t).
Proof.
  intros C Ha Hq W c r g Hforce.
  assert (Hqa : forall A (m : prog (W * trace) A), adds m (fun _ t => quiet t) -> adds m (fun _ t => C t)) by (intros A m H; eapply adds_weaken; [exact H|]; cbn; auto).
  assert (Hret : forall A (a : A), adds (@pret (W * trace) A a) (fun _ t => C t)) by (intros; apply adds_ret_inv, Hq, quiet_nil).
  assert (Haddr : forall d : linkable W, adds (lk_address (lk_logged d)) (fun _ t => C t)) by (intro d; apply Hqa, adds_logged_inv; intro; apply quiet_one; auto).
  unfold link_devices. apply (adds_bind_inv _ Ha); [apply Haddr|]. intro ra.
  apply (adds_bind_inv _ Ha); [apply Hqa, find_link_record_quiet|]. intros [cl [e|]].
  - destruct (error_eqb e EUtilLinkNotFound); [|apply Hret]. apply (adds_bind_inv _ Ha); [apply Haddr|]. intro ca.
    apply (adds_bind_inv _ Ha); [apply Hqa, find_link_record_quiet|]. intros [rl err1].
    apply (adds_bind_inv _ Ha); [destruct err1; [apply Hret|apply Hqa, remove_links_quiet]|]. intros [e2|]; [|exact Hforce].
    destruct (error_eqb e2 EUtilLinkNotFound); [exact Hforce|apply Hret].
  - apply (adds_bind_inv _ Ha); [apply Haddr|]. intro ca.
    apply (adds_bind_inv _ Ha); [apply Hqa, find_link_record_quiet|]. intros [rl [e|]]; [|apply Hret].
    destruct (error_eqb e EUtilLinkNotFound); [|apply Hret]. apply (adds_bind_inv _ Ha); [apply Hqa, remove_links_quiet|]. intros [e2|]; [apply Hret|exact Hforce].
Qed.
Lemma cross_link_inv : forall (C : trace -> Prop), (forall a b, C a -> C b -> C (a ++ b)) -> (forall t, quiet t -> C t) -> forall W (c r : linkable W) g,
  adds (force_link g (lk_logged c) (lk_logged r)) (fun _ t => C t) -> adds (force_link g (lk_logged r) (lk_logged c)) (fun _ t => C t) ->
  adds (cross_link g (lk_logged c) (lk_logged r)) (fun _ t => C t).
Proof.
  intros C Ha Hq W c r g H1 H2.
  assert (Hret : forall A (a : A), adds (@pret (W * trace) A a) (fun _ t => C t)) by (intros; apply adds_ret_inv, Hq, quiet_nil).
  assert (Hsec : adds (do err1 <- link_devices g (lk_logged r) (lk_logged c) ;;
    match err1 with Some e => if errors_is e EUtilAlreadyLinked then pret None else pret (Some e) | None => pret None end) (fun _ t => C t)).
  { apply (adds_bind_inv _ Ha); [apply link_inv; assumption|]. intros [e|]; [|apply Hret]. destruct (errors_is e EUtilAlreadyLinked); apply Hret. }
  unfold cross_link. apply (adds_bind_inv _ Ha); [apply link_inv; assumption|]. intros [e|]; [|exact Hsec]. destruct (errors_is e EUtilAlreadyLinked); [exact Hsec|apply Hret].
Qed.
Lemma link_closed : forall W (c r : linkable W) g, adds (link_devices g (lk_logged c) (lk_logged r)) (fun _ t => closed [lk_id c; lk_id r] t).
Proof. intros W c r g. apply link_inv; [apply closed_app|apply closed_quiet|apply force_link_closed]. Qed.
Lemma cross_link_closed : forall W (c r : linkable W) g, adds (cross_link g (lk_logged c) (lk_logged r)) (fun _ t => closed [lk_id c; lk_id r] t).
Proof.
  intros W c r g. apply cross_link_inv; [apply closed_app|apply closed_quiet|apply force_link_closed|]. eapply adds_weaken; [apply force_link_closed|]. cbn. intros _ t. apply closed_sym.
Qed.
Lemma self_closed_quiet : forall t, quiet t -> self_closed t.
Proof. intros t H t1 x o t2 E Ho. exfalso. subst t. unfold quiet in H. rewrite Forall_forall in H. apply (H (x, o)); [apply in_or_app; right; left; reflexivity|exact Ho]. Qed.
Lemma force_link_self : forall W (c r : linkable W) g, adds (force_link g (lk_logged c) (lk_logged r)) (fun _ t => self_closed t).
Proof.
  intros W c r g. eapply adds_weaken; [apply force_link_trace|]. cbn. intros e t [(x & -> & ->)| ->]; [apply self_closed_quiet, quiet_one; auto|].
  intros t1 x o t2 E Ho. eapply (mode_closed (lk_id c) (lk_id r) g (OEnter g None) e); [auto|exact E|exact Ho|].
  assert (In (x, o) (t1 ++ (x, o) :: t2)) by (apply in_or_app; right; left; reflexivity). rewrite <- E in H. cbn in H. cbn.
  destruct H as [H|[H|[H|[H|[]]]]]; injection H as <- _; auto.
Qed.
Lemma cross_link_all_self : forall W g (ds : list (linkable W)), adds (cross_link_all g (map lk_logged ds)) (fun _ t => self_closed t).
Proof.
  intros W g ds. pose proof self_closed_app as Ha.
  assert (Hret : forall A (a : A), adds (@pret (W * trace) A a) (fun _ t => self_closed t)) by (intros; apply adds_ret_inv, self_closed_quiet, quiet_nil).
  assert (Hone : forall (d1 : linkable W) (ds : list (linkable W)), adds (cross_link_one g (lk_logged d1) (map lk_logged ds)) (fun _ t => self_closed t)).
  { intros d1 l. induction l as [|d2 l IH]; cbn [map cross_link_one]; [apply Hret|].
    destruct (lk_id (lk_logged d1) =? lk_id (lk_logged d2)); [exact IH|]. apply (adds_bind_inv _ Ha).
    - apply cross_link_inv; [exact Ha|apply self_closed_quiet|apply force_link_self|apply force_link_self].
    - intros [e|]; [apply Hret|exact IH]. }
  induction ds as [|d ds IH]; cbn [map cross_link_all]; [apply Hret|]. apply (adds_bind_inv _ Ha); [apply (Hone d (d :: ds))|]. intros [e|]; [apply Hret|exact IH].
Qed.

(** Both records exist: only the two databases are read. *)
Lemma record_matches_wanted : forall ctl a g l, is_byte (l_flags l) -> record_matches ctl a g l = true <-> wanted ctl a g l.
Proof.
  intros ctl a g l Hb. unfold record_matches, wanted. destruct (rcf_accessors _ Hb) as (_ & Hav & Hc & _). rewrite Hav, Hc, negb_involutive, !andb_true_iff, !Z.eqb_eq, Bool.eqb_true_iff.
  unfold bitb. destruct (bit_range 7 (l_flags l)) as [-> | ->]; destruct (bit_range 6 (l_flags l)) as [-> | ->]; destruct ctl; cbn; intuition (try congruence; try lia).
Qed.

(** ** Unlinking all groups *)
Lemma flat_map_app' : forall A B (f : A -> list B) a b, flat_map f (a ++ b) = flat_map f a ++ flat_map f b.
Proof. intros. apply flat_map_app. Qed.
Lemma unlink_facts : forall W (c r : linkable W) g, adds (unlink g (lk_logged c) (lk_logged r)) (fun e t => unlinks t = [(lk_id c, g)] /\ outcomes t = [e]).
Proof. intros W c r g. eapply adds_weaken; [apply unlink_trace|]. cbn. intros e t [(x & -> & ->)| ->]; auto. Qed.
Lemma last_cons_app : forall A (d x : A) l, last (x :: l) d = last l x.
Proof.
  intros A d x l. revert d x. induction l as [|y l IH]; intros d x; [reflexivity|]. change (last (y :: l) d = last (y :: l) x). rewrite (IH d y), (IH x y). reflexivity.
Qed.
Lemma unlink_loop_trace : forall W (c r : linkable W) a, lk_address r = pret a -> forall links err0, Forall (fun l => is_byte (l_flags l)) links ->
  adds (unlink_loop (lk_logged c) (lk_logged r) links err0) (fun e t => unlinks t = attempts a (lk_id c) (lk_id r) links /\ length (outcomes t) = length (unlinks t) /\ e = last (outcomes t) err0).
Proof.
  intros W c r a Ha links. induction links as [|l links IH]; intros err0 Hb; cbn [unlink_loop].
  - eapply adds_weaken; [apply adds_ret|]. cbn. intros e t [-> ->]. auto.
  - inversion Hb as [|? ? Hl Hb']; subst. eapply adds_weaken.
    + eapply adds_bind; [cbn [lk_logged lk_address]; rewrite Ha; instantiate (1 := fun x t => x = a /\ t = [(lk_id r, OAddress a)])|].
      * intros w log x w' log' E. unfold logged, pret in E. cbn [fst snd] in E. injection E as <- <- <-. eexists. split; [reflexivity|]. intros y Hy. injection Hy as <-. auto.
      * intro ra. instantiate (1 := fun ra e t => if l_addr l =? ra then exists t1 t2 e1, t = t1 ++ t2 /\ unlinks t1 = [(if bit 6 (l_flags l) =? 1 then lk_id c else lk_id r, l_group l)] /\ outcomes t1 = [e1] /\
            unlinks t2 = attempts a (lk_id c) (lk_id r) links /\ length (outcomes t2) = length (unlinks t2) /\ e = last (outcomes t2) e1
          else unlinks t = attempts a (lk_id c) (lk_id r) links /\ length (outcomes t) = length (unlinks t) /\ e = last (outcomes t) err0). cbn beta.
        destruct (l_addr l =? ra); [|apply IH; exact Hb'].
        eapply adds_weaken.
        -- eapply adds_bind; [|intro e1; apply (IH e1 Hb')].
           instantiate (1 := fun e1 t1 => unlinks t1 = [(if bit 6 (l_flags l) =? 1 then lk_id c else lk_id r, l_group l)] /\ outcomes t1 = [e1]).
           destruct (rcf_accessors _ Hl) as (_ & _ & Hc & _). rewrite Hc. unfold bitb. destruct (bit 6 (l_flags l) =? 1); apply unlink_facts.
        -- cbn. intros e t (e1 & t1 & t2 & -> & [H1 H2] & H3 & H4 & H5). exists t1, t2, e1. repeat split; auto.
    + cbn. intros e t (ra & t1 & t2 & -> & [-> ->] & H). unfold attempts. cbn [flat_map]. fold (attempts a (lk_id c) (lk_id r) links).
      cbn [app unlinks flat_map fst snd outcomes]. fold (unlinks t2) (outcomes t2). destruct (l_addr l =? a).
      * destruct H as (u1 & u2 & e1 & -> & H1 & H2 & H3 & H4 & ->). unfold unlinks, outcomes in *. rewrite !flat_map_app, H1, H2, H3 in *. cbn [app length].
        rewrite last_cons_app. split; [reflexivity|]. split; [lia|reflexivity].
      * exact H.
Qed.
