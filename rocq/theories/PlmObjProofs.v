(** Proofs about copied modem objects: two runs side by side. *)
From Coq Require Import ZArith List Bool Lia.
From Verif Require Import GoBase GoLemmas GoProg Address Message PlmPacket Plm PlmProofs Link PlmLinkdb PlmObj PlmObjSpec.
Import ListNotations.
Open Scope Z_scope.

(** ** Programs that run alike *)
(** Two programs started in related worlds give the same result; worlds after a return are related again, worlds after a crash at
    least by [E]. *)
Section Alike.
  Context {W1 W2 : Type} (R E : W1 -> W2 -> Prop).
  Hypothesis RE : forall a b, R a b -> E a b.
  Definition alike {A} (m1 : prog W1 A) (m2 : prog W2 A) : Prop := forall w1 w2, R w1 w2 ->
    fst (m1 w1) = fst (m2 w2) /\ E (snd (m1 w1)) (snd (m2 w2)) /\ ((exists a, fst (m1 w1) = Ret a) -> R (snd (m1 w1)) (snd (m2 w2))).
  Lemma alike_ret : forall A (a : A), alike (pret a) (pret a).
  Proof. intros A a w1 w2 H. cbn. auto. Qed.
  Lemma alike_panic : forall A, alike (A:=A) ppanic ppanic.
  Proof. intros A w1 w2 H. cbn. auto. Qed.
  Lemma alike_nofuel : forall A, alike (A:=A) pnofuel pnofuel.
  Proof. intros A w1 w2 H. cbn. auto. Qed.
  Lemma alike_bind : forall A B (m1 : prog W1 A) m2 (f1 : A -> prog W1 B) f2, alike m1 m2 -> (forall a, alike (f1 a) (f2 a)) -> alike (pbind m1 f1) (pbind m2 f2).
  Proof.
    intros A B m1 m2 f1 f2 H K w1 w2 Hr. unfold pbind. destruct (H w1 w2 Hr) as (E1 & E2 & E3).
    destruct (m1 w1) as [r1 x1], (m2 w2) as [r2 x2]. cbn [fst snd] in *. subst r2. destruct r1 as [a| |].
    - apply K, E3. eauto.
    - cbn. split; [reflexivity|]. split; [exact E2|]. intros [a Ha]. discriminate Ha.
    - cbn. split; [reflexivity|]. split; [exact E2|]. intros [a Ha]. discriminate Ha.
  Qed.
  Definition pw_alike (pw1 : packet_writer W1) (pw2 : packet_writer W2) : Prop :=
    (forall pkt, alike (pw_write pw1 pkt) (pw_write pw2 pkt)) /\ alike (pw_read pw1) (pw_read pw2).
  Lemma alike_retry : forall pw1 pw2 r b, pw_alike pw1 pw2 -> pw_alike (retry pw1 r b) (retry pw2 r b).
  Proof.
    intros pw1 pw2 r b [H K]. split; [|exact K]. intro pkt. cbn [retry pw_write]. generalize (Z.to_nat (r + 1)) as n. intro n.
    generalize ((None, None) : pw_result) as last. induction n as [|n IH]; intros last w1 w2 Hr; cbn [retry_loop].
    - cbn. auto.
    - destruct (H pkt w1 w2 Hr) as (E1 & E2 & E3). destruct (pw_write pw1 pkt w1) as [r1 x1], (pw_write pw2 pkt w2) as [r2 x2]. cbn [fst snd] in *. subst r2.
      destruct r1 as [[ack err]| |].
      + destruct ((err_is err EPlmNak && b) || err_is err EPlmReadTimeout); [apply IH, E3; eauto|]. cbn. split; [reflexivity|]. split; [exact E2|]. intros _. apply E3. eauto.
      + cbn. split; [reflexivity|]. split; [exact E2|]. intros [a Ha]. discriminate Ha.
      + cbn. split; [reflexivity|]. split; [exact E2|]. intros [a Ha]. discriminate Ha.
  Qed.
End Alike.
Arguments alike {W1 W2} R E {A}. Arguments pw_alike {W1 W2} R E.

(** The same with a database beside both worlds. *)
Definition with_db {W1 W2} (R : W1 -> W2 -> Prop) (a : plmdb * W1) (b : plmdb * W2) : Prop := fst a = fst b /\ R (snd a) (snd b).
Section AlikeDb.
  Context {W1 W2 : Type} (R E : W1 -> W2 -> Prop).
  Hypothesis RE : forall a b, R a b -> E a b.
  Notation R' := (with_db R). Notation E' := (with_db E).
  Lemma RE' : forall a b, R' a b -> E' a b.
  Proof. intros a b [H K]. split; [exact H|apply RE, K]. Qed.
  Lemma alike_psnd : forall A (m1 : prog W1 A) m2, alike R E m1 m2 -> alike R' E' (psnd m1) (psnd m2).
  Proof.
    intros A m1 m2 H [d1 w1] [d2 w2] [Hd Hr]. cbn in Hd, Hr. subst d2. unfold psnd. cbn [fst snd]. destruct (H w1 w2 Hr) as (E1 & E2 & E3).
    destruct (m1 w1) as [r1 x1], (m2 w2) as [r2 x2]. cbn [fst snd] in *. split; [exact E1|]. split; [split; [reflexivity|exact E2]|]. intro K. split; [reflexivity|apply E3, K].
  Qed.
  Lemma alike_get : alike R' E' (pfst pget) (pfst pget).
  Proof. intros [d1 w1] [d2 w2] [Hd Hr]. cbn in *. subst d2. split; [reflexivity|]. split; [split; [reflexivity|apply RE, Hr]|]. intros _. split; [reflexivity|exact Hr]. Qed.
  Lemma alike_put : forall d, alike R' E' (pfst (pput d)) (pfst (pput d)).
  Proof. intros d [d1 w1] [d2 w2] [Hd Hr]. cbn in *. split; [reflexivity|]. split; [split; [reflexivity|apply RE, Hr]|]. intros _. split; [reflexivity|exact Hr]. Qed.
  Ltac go := match goal with
    | |- alike _ _ (pbind _ _) (pbind _ _) => apply alike_bind; [|intro]
    | |- alike _ _ (pret _) (pret _) => apply alike_ret; first [exact RE|exact RE']
    | |- alike _ _ ppanic ppanic => apply alike_panic; first [exact RE|exact RE']
    | |- alike _ _ pnofuel pnofuel => apply alike_nofuel; first [exact RE|exact RE']
    | |- alike _ _ (psnd _) (psnd _) => apply alike_psnd
    | |- alike _ _ (pfst pget) (pfst pget) => apply alike_get
    | |- alike _ _ (pfst (pput _)) (pfst (pput _)) => apply alike_put
    | a : (_ * _)%type |- _ => destruct a
    | |- context [match ?x with _ => _ end] => destruct x
    end.
  Variables (pw1 : packet_writer W1) (pw2 : packet_writer W2).
  Hypothesis P : pw_alike R E pw1 pw2.
  Lemma P_retry : forall r b pkt, alike R E (pw_write (retry pw1 r b) pkt) (pw_write (retry pw2 r b) pkt).
  Proof. intros r b pkt. apply (proj1 (alike_retry R E RE pw1 pw2 r b P)). Qed.
  Lemma refresh_loop_alike : forall fuel r ls err, alike R E (refresh_loop fuel pw1 r ls err) (refresh_loop fuel pw2 r ls err).
  Proof.
    induction fuel as [|k IH]; intros r ls err; cbn [refresh_loop]; destruct err as [e|]; repeat go; try apply (proj2 P); try apply P_retry; apply IH.
  Qed.
  Lemma refresh_alike : forall fuel now, alike R' E' (pdb_refresh fuel pw1 now) (pdb_refresh fuel pw2 now).
  Proof. intros fuel now. unfold pdb_refresh. repeat go; try apply P_retry; apply refresh_loop_alike. Qed.
  Lemma links_alike : forall fuel now, alike R' E' (pdb_links fuel pw1 now) (pdb_links fuel pw2 now).
  Proof. intros fuel now. unfold pdb_links. repeat go. apply refresh_alike. Qed.
  Lemma iterate_alike : forall fuel now, alike R' E' (pdb_iterate fuel pw1 now) (pdb_iterate fuel pw2 now).
  Proof. intros fuel now. unfold pdb_iterate. repeat go. apply links_alike. Qed.
  Lemma delete_all_alike : forall ls, alike R E (delete_all pw1 ls) (delete_all pw2 ls).
  Proof. induction ls as [|l t IH]; cbn [delete_all]; repeat go; try apply P_retry. apply IH. Qed.
  Lemma write_one_alike : forall l, alike R E (write_one pw1 l) (write_one pw2 l).
  Proof. intro l. unfold write_one. repeat go; apply P_retry. Qed.
  Lemma write_all_alike : forall ls, alike R' E' (write_all pw1 ls) (write_all pw2 ls).
  Proof. induction ls as [|l t IH]; cbn [write_all]; repeat go; try apply write_one_alike. apply IH. Qed.
  Lemma write_links_alike : forall ls, alike R' E' (pdb_write_links pw1 ls) (pdb_write_links pw2 ls).
  Proof. intro ls. unfold pdb_write_links. repeat go; [apply delete_all_alike|apply write_all_alike]. Qed.
  Lemma enter_alike : forall g, alike R E (pdb_enter_linking pw1 g) (pdb_enter_linking pw2 g).
  Proof. intro g. unfold pdb_enter_linking. repeat go. apply (proj1 P). Qed.
  Lemma exit_alike : alike R E (pdb_exit_linking pw1) (pdb_exit_linking pw2).
  Proof. unfold pdb_exit_linking. repeat go. apply (proj1 P). Qed.
  Lemma unlink_alike : forall g, alike R E (pdb_enter_unlinking pw1 g) (pdb_enter_unlinking pw2 g).
  Proof. intro g. unfold pdb_enter_unlinking. repeat go. apply (proj1 P). Qed.
End AlikeDb.

(** ** What the methods of a modem leave alone *)
Definition steady (p p' : plm) : Prop := p_timeout p' = p_timeout p /\ p_retries p' = p_retries p.
Lemma read_packet_steady : forall sc p r p', plm_read_packet sc p = (r, p') -> steady p p' /\ p_addr p' = p_addr p /\ p_waits p' = p_waits p ++ [p_timeout p].
Proof.
  intros sc p r p' H. unfold plm_read_packet in H. destruct (receive sc QPkt p) as [x q] eqn:E. destruct (receive_fields _ _ _ _ _ E) as (_ & F1 & _ & F2 & F3 & F4).
  destruct x; injection H as <- <-; split; [split; assumption|split; assumption|split; assumption|split; assumption|split; assumption|split; assumption].
Qed.
Lemma read_steady : forall sc p r p', plm_read sc p = (r, p') -> steady p p' /\ p_waits p' = p_waits p ++ [p_timeout p].
Proof.
  intros sc p r p' H. unfold plm_read in H. destruct (receive sc QMsg p) as [x q] eqn:E. destruct (receive_fields _ _ _ _ _ E) as (_ & F1 & _ & F2 & F3 & F4).
  destruct x; [destruct (msg_unmarshal msg_zero (p_payload p0))|..]; injection H as <- <-; (split; [split; assumption|assumption]).
Qed.
(** Waits of the usual length only. *)
Definition usual (p p' : plm) : Prop := steady p p' /\ exists k, p_waits p' = p_waits p ++ repeat (p_timeout p) k.
Lemma usual_refl : forall p, usual p p.
Proof. intro p. split; [split; reflexivity|]. exists O. cbn. now rewrite app_nil_r. Qed.
Lemma usual_trans : forall a b c, usual a b -> usual b c -> usual a c.
Proof.
  intros a b c [[H1 H2] (k & Hk)] [[K1 K2] (j & Hj)]. split; [split; congruence|]. exists (k + j)%nat. rewrite Hj, Hk, H1, <- app_assoc, repeat_app. reflexivity.
Qed.
Lemma write_packet_usual : forall sc pkt p r p', plm_write_packet sc pkt p = (r, p') -> usual p p' /\ p_addr p' = p_addr p.
Proof.
  intros sc pkt p r p' H. destruct (wp_fields _ _ _ _ _ H) as (F1 & F2 & F3 & [F4|F4]); (split; [split; [split; assumption|]|assumption]).
  - exists O. cbn. now rewrite app_nil_r.
  - exists 1%nat. exact F4.
Qed.
Lemma retry_usual : forall sc n b pkt p r p', pw_write (retry (plm_pw sc) n b) pkt p = (r, p') -> usual p p'.
Proof.
  intros sc n b pkt p r p' H. destruct (retry_keeps_addr _ _ _ _ _ _ _ H) as (_ & F1 & F2). unfold retry in H. cbn [pw_write] in H.
  destruct (reset_waits _ _ _ _ _ _ _ _ H) as (k & _ & Hw). split; [split; assumption|]. exists k. exact Hw.
Qed.
Lemma await_usual : forall fuel sc a p r p', await_ack fuel sc a p = (r, p') -> usual p p'.
Proof.
  induction fuel as [|k IH]; intros sc a p r p' H; cbn [await_ack] in H; [injection H as <- <-; apply usual_refl|].
  destruct (plm_read sc p) as [x q] eqn:E. destruct (read_steady _ _ _ _ E) as (F1 & F2).
  assert (U : usual p q) by (split; [exact F1|exists 1%nat; exact F2]).
  destruct x as [[[m|] [e|]]| |]; try (injection H as <- <-; exact U).
  destruct ((m_src m =? a) && (fl_ack (m_flags m) || fl_nak (m_flags m))); [injection H as <- <-; exact U|]. exact (usual_trans _ _ _ U (IH _ _ _ _ _ H)).
Qed.
Lemma write_usual : forall fuel sc m p r p', plm_write fuel sc m p = (r, p') -> usual p p'.
Proof.
  intros fuel sc m p r p' H. unfold plm_write in H.
  destruct (pw_write (retry (plm_pw sc) (p_retries p) true) (mkPkt pc_SendInsteonMsg (skipn 3 (msg_marshal m)) 0) p) as [x q] eqn:E. pose proof (retry_usual _ _ _ _ _ _ _ E) as U.
  destruct x as [[a [e|]]| |]; try (injection H as <- <-; exact U). exact (usual_trans _ _ _ U (await_usual _ _ _ _ _ _ H)).
Qed.
Lemma info_usual : forall sc p r p', plm_info sc p = (r, p') -> usual p p'.
Proof.
  intros sc p r p' H. unfold plm_info in H.
  destruct (pw_write (retry (plm_pw sc) (p_retries p) true) (mkPkt pc_GetInfo [] 0) p) as [x q] eqn:E. pose proof (retry_usual _ _ _ _ _ _ _ E) as U.
  destruct x as [[[a|] [e|]]| |]; injection H as <- <-; exact U.
Qed.
Lemma config_usual : forall sc p r p', plm_config sc p = (r, p') -> usual p p'.
Proof.
  intros sc p r p' H. unfold plm_config in H.
  destruct (pw_write (retry (plm_pw sc) (p_retries p) true) (mkPkt pc_GetConfig [] 0) p) as [x q] eqn:E. pose proof (retry_usual _ _ _ _ _ _ _ E) as U.
  destruct x as [[[a|] [e|]]| |]; injection H as <- <-; exact U.
Qed.
Lemma set_config_usual : forall sc c p r p', plm_set_config sc c p = (r, p') -> usual p p'.
Proof.
  intros sc c p r p' H. unfold plm_set_config in H.
  destruct (pw_write (retry (plm_pw sc) (p_retries p) true) (mkPkt pc_SetConfig (cfg_marshal c) 0) p) as [x q] eqn:E. pose proof (retry_usual _ _ _ _ _ _ _ E) as U.
  destruct x as [[a e]| |]; injection H as <- <-; exact U.
Qed.
Lemma address_usual : forall sc p r p', plm_address sc p = (r, p') -> usual p p'.
Proof.
  intros sc p r p' H. unfold plm_address in H. destruct (p_addr p =? 0); [|injection H as <- <-; apply usual_refl].
  destruct (plm_info sc p) as [x q] eqn:E. pose proof (info_usual _ _ _ _ E) as U. destruct x as [[[a|] [e|]]| |]; injection H as <- <-; exact U.
Qed.
Lemma reset_steady : forall sc p e p', plm_reset sc p = (Ret e, p') -> steady p p'.
Proof. intros sc p e p' H. destruct (reset_timeouts _ _ _ _ H) as (F1 & F2 & _). split; assumption. Qed.
Lemma reset_waits_all : forall sc p r p', plm_reset sc p = (r, p') -> exists k, p_waits p' = p_waits p ++ repeat 20 k.
Proof.
  intros sc p r p' H. unfold plm_reset in H.
  destruct (pw_write (retry (plm_pw sc) (p_retries p) true) (mkPkt pc_Reset [] 0) (set_timeout p reset_timeout)) as [x q] eqn:E.
  destruct (retry_usual _ _ _ _ _ _ _ E) as (_ & k & Hk). exists k. destruct x as [[a e]| |]; injection H as <- <-; exact Hk.
Qed.

(** ** The address a modem remembers plays no part in sending and receiving packets *)
Definition re_addr (a : Z) (x : outcome pw_result * plm) : outcome pw_result * plm := (fst x, set_addr (snd x) a).
Lemma turn_addr : forall p e a, reader_turn (set_addr p a) e = set_addr (reader_turn p e) a.
Proof. intros p e a. unfold reader_turn. cbn. destruct (p_closed p); [reflexivity|]. destruct e; [|reflexivity]. destruct (is_msg_packet p0); reflexivity. Qed.
Lemma turns_addr : forall es p a, reader_turns (set_addr p a) es = set_addr (reader_turns p es) a.
Proof. induction es as [|e es IH]; intros p a; [reflexivity|]. cbn. rewrite turn_addr. apply IH. Qed.
Lemma wait_addr : forall es q p a, wait_for q (set_addr p a) es = (fst (wait_for q p es), set_addr (snd (wait_for q p es)) a).
Proof.
  induction es as [|e es IH]; intros q p a; cbn [wait_for].
  - replace (queue_of q (set_addr p a)) with (queue_of q p) by (destruct q; reflexivity). destruct (queue_of q p) as [|x t].
    + cbn [p_closed set_addr]. destruct (p_closed p); reflexivity.
    + replace (set_queue q (set_addr p a) t) with (set_addr (set_queue q p t) a) by (destruct q; reflexivity). rewrite turns_addr. reflexivity.
  - replace (queue_of q (set_addr p a)) with (queue_of q p) by (destruct q; reflexivity). destruct (queue_of q p) as [|x t].
    + cbn [p_closed set_addr]. destruct (p_closed p); [reflexivity|]. rewrite turn_addr. apply IH.
    + replace (set_queue q (set_addr p a) t) with (set_addr (set_queue q p t) a) by (destruct q; reflexivity). rewrite turns_addr. reflexivity.
Qed.
Lemma receive_addr : forall sc q p a, receive sc q (set_addr p a) = (fst (receive sc q p), set_addr (snd (receive sc q p)) a).
Proof.
  intros sc q p a. unfold receive. cbn [p_time set_addr]. rewrite turns_addr.
  change (log_wait (tick (set_addr (reader_turns p (s_before (sc (p_time p)))) a))) with (set_addr (log_wait (tick (reader_turns p (s_before (sc (p_time p)))))) a).
  destruct (s_late (sc (p_time p))); [rewrite turns_addr; reflexivity|apply wait_addr].
Qed.
Lemma read_packet_addr : forall sc p a, plm_read_packet sc (set_addr p a) = re_addr a (plm_read_packet sc p).
Proof. intros sc p a. unfold plm_read_packet. rewrite receive_addr. destruct (receive sc QPkt p) as [x q]. cbn [fst snd]. destruct x; reflexivity. Qed.
Lemma write_packet_addr : forall sc pkt p a, plm_write_packet sc pkt (set_addr p a) = re_addr a (plm_write_packet sc pkt p).
Proof.
  intros sc pkt p a. unfold plm_write_packet, port_write. cbn [p_time set_addr]. rewrite turns_addr. destruct (s_werr (sc (p_time p))) as [e|]; [reflexivity|].
  change (log_sent (tick (set_addr (reader_turns p (s_before (sc (p_time p)))) a)) (pkt_marshal pkt))
    with (set_addr (log_sent (tick (reader_turns p (s_before (sc (p_time p))))) (pkt_marshal pkt)) a).
  rewrite read_packet_addr. destruct (plm_read_packet sc (log_sent (tick (reader_turns p (s_before (sc (p_time p))))) (pkt_marshal pkt))) as [x q]. unfold re_addr. cbn [fst snd].
  destruct x as [[ack [e|]]| |]; reflexivity.
Qed.

(** ** A copy beside its original, and an object on its own, against a modem that was never copied *)
Lemma line_view : forall p d db, view (line_of p) (obj_of d db p) = p.
Proof. intros [] d db. reflexivity. Qed.
Section Copy.
  (** [os] are the other objects, the original among them if there are any. *)
  Variables (sc : schedule) (o : pobj) (d : Z).
  (** The heap while a method of the link database runs: the copy's own database is out of date. *)
  Definition beside (h : heap) (p : plm) : Prop := exists db, h = mkHp (line_of p) [o; obj_of d db p] /\ p_timeout p = o_timeout o /\ p_retries p = o_retries o.
  Definition ended (h : heap) (p : plm) : Prop := h_line h = line_of p /\ nth_error (h_objs h) 0 = Some o.
  Lemma beside_ended : forall h p, beside h p -> ended h p.
  Proof. intros h p (db & -> & _). split; reflexivity. Qed.
  Lemma through_original : forall (f : prog plm pw_result), (forall p a, f (set_addr p a) = re_addr a (f p)) ->
    (forall p r p', f p = (r, p') -> steady p p' /\ p_addr p' = p_addr p) -> alike beside ended (on_obj 0 f) f.
  Proof.
    intros f Hf Hk h p (db & -> & Ht & Hr). unfold on_obj. cbn [nth_error h_objs h_line].
    replace (view (line_of p) o) with (set_addr p (o_addr o)) by (destruct p; cbn in *; subst; reflexivity). rewrite Hf. unfold re_addr.
    destruct (f p) as [r p'] eqn:E. destruct (Hk _ _ _ E) as ([K1 K2] & K3). cbn [fst snd set_at].
    assert (B : beside (mkHp (line_of (set_addr p' (o_addr o))) [put (set_addr p' (o_addr o)) o; obj_of d db p]) p').
    { exists db. split; [|split; congruence]. f_equal. f_equal; [|f_equal].
      - destruct o as [t0 r0 a0 d0 db0 p0]. cbn in *. unfold put. cbn. congruence.
      - unfold obj_of. congruence. }
    split; [reflexivity|]. split; [apply beside_ended, B|]. intros _. exact B.
  Qed.
  Lemma original_alike : pw_alike beside ended (obj_pw sc 0) (plm_pw sc).
  Proof.
    split; [intro pkt|]; cbn [obj_pw plm_pw pw_write pw_read]; apply through_original.
    - intros p a. apply write_packet_addr.
    - intros p r p' H. destruct (write_packet_usual _ _ _ _ _ H) as [[H1 _] H2]. auto.
    - intros p a. apply read_packet_addr.
    - intros p r p' H. destruct (read_packet_steady _ _ _ _ H) as (H1 & H2 & _). auto.
  Qed.
  (** Between operations the copy's database is the plain one's. *)
  Definition same (h : heap) (w : plmdb * plm) : Prop := h = mkHp (line_of (snd w)) [o; obj_of d (fst w) (snd w)] /\ p_timeout (snd w) = o_timeout o /\ p_retries (snd w) = o_retries o.
  Definition over (h : heap) (w : plmdb * plm) : Prop := ended h (snd w).
  Lemma same_over : forall h w, same h w -> over h w.
  Proof. intros h w (-> & _). split; reflexivity. Qed.
  Lemma own_method : forall A (f : prog plm A), (forall p a p', f p = (Ret a, p') -> steady p p') -> alike same over (on_obj 1 f) (psnd f).
  Proof.
    intros A f Hf h [db p] (-> & Ht & Hr). cbn [fst snd] in *. unfold on_obj, psnd. cbn [nth_error h_objs h_line fst snd]. rewrite line_view. destruct (f p) as [r p'] eqn:E.
    cbn [fst snd set_at]. split; [reflexivity|]. split; [split; reflexivity|]. intros [a ->]. destruct (Hf _ _ _ E) as [K1 K2]. split; [reflexivity|]. cbn [snd]. split; congruence.
  Qed.
  Lemma db_method : forall A (f1 : packet_writer heap -> prog (plmdb * heap) A) (f2 : prog (plmdb * plm) A),
    (alike (with_db beside) (with_db ended) (f1 (obj_pw sc 0)) f2) -> alike same over (on_db sc 1 f1) f2.
  Proof.
    intros A f1 f2 H h [db p] (-> & Ht & Hr). cbn [fst snd] in *. unfold on_db. cbn [nth_error h_objs o_ptr o_db obj_of].
    destruct (H (db, mkHp (line_of p) [o; obj_of d db p]) (db, p)) as (E1 & E2 & E3).
    { split; [reflexivity|]. exists db. auto. }
    destruct (f1 (obj_pw sc 0) (db, mkHp (line_of p) [o; obj_of d db p])) as [r [db1 h1]].
    destruct (f2 (db, p)) as [r2 [db2 p2]]. cbn [fst snd] in *. subst r2. split; [reflexivity|]. destruct E2 as [E2 [E4 E5]]. cbn [fst snd] in *. subst db2. split.
    - split; cbn [snd h_line]; [exact E4|]. destruct (h_objs h1) as [|x [|y t]]; [discriminate E5|exact E5|exact E5].
    - intro K. destruct (E3 K) as [_ (dbs & K0 & K1 & K2)]. cbn [fst snd] in K0. subst h1. cbn [fst snd h_objs h_line nth_error set_at] in *. split; [reflexivity|split; assumption].
  Qed.
  Lemma op_alike : forall fuel op, alike same over (run_op sc fuel 1 op) (plain_op sc fuel op).
  Proof.
    intros fuel op. pose proof beside_ended as BE. pose proof original_alike as OA.
    destruct op; cbn [run_op plain_op]; unfold wrap; (apply alike_bind; [|intro; apply alike_ret; exact same_over]).
    - apply own_method. intros q a q' H. apply (write_packet_usual _ _ _ _ _ H).
    - apply own_method. intros q a q' H. apply (read_packet_steady _ _ _ _ H).
    - apply own_method. intros q a q' H. apply (write_usual _ _ _ _ _ _ H).
    - apply own_method. intros q a q' H. apply (read_steady _ _ _ _ H).
    - apply own_method. intros q a q' H. apply (info_usual _ _ _ _ H).
    - apply own_method. intros q a q' H. apply (reset_steady _ _ _ _ H).
    - apply own_method. intros q a q' H. apply (config_usual _ _ _ _ H).
    - apply own_method. intros q a q' H. apply (set_config_usual _ _ _ _ _ H).
    - apply own_method. intros q a q' H. apply (address_usual _ _ _ _ H).
    - apply db_method, links_alike; assumption.
    - apply db_method, write_links_alike; assumption.
    - apply db_method, iterate_alike; assumption.
    - apply db_method. apply alike_ret. intros a b [H1 H2]. split; auto.
    - apply db_method, alike_psnd, enter_alike; assumption.
    - apply db_method, alike_psnd, exit_alike; assumption.
    - apply db_method, alike_psnd, unlink_alike; assumption.
  Qed.
  Lemma ops_alike : forall fuel ops, alike same over (run_ops sc fuel 1 ops) (plain_ops sc fuel ops).
  Proof.
    intros fuel ops. induction ops as [|op t IH]; cbn [run_ops plain_ops]; [apply alike_ret; exact same_over|].
    apply alike_bind; [apply op_alike|]. intro r. apply alike_bind; [exact IH|]. intro rs. apply alike_ret. exact same_over.
  Qed.
End Copy.

(** ** An object that was never copied *)
Section Lone.
  Variables (sc : schedule) (d : Z).
  Definition lone (h : heap) (p : plm) : Prop := exists db, h = mkHp (line_of p) [obj_of d db p].
  Definition lone_end (h : heap) (p : plm) : Prop := h_line h = line_of p.
  Lemma lone_ended : forall h p, lone h p -> lone_end h p.
  Proof. intros h p (db & ->). reflexivity. Qed.
  Lemma lone_method : forall A (f : prog plm A), alike lone lone_end (on_obj 0 f) f.
  Proof.
    intros A f h p (db & ->). unfold on_obj. cbn [nth_error h_objs h_line]. rewrite line_view. destruct (f p) as [r p']. cbn [fst snd set_at].
    split; [reflexivity|]. split; [reflexivity|]. intros _. exists db. reflexivity.
  Qed.
  Lemma lone_alike : pw_alike lone lone_end (obj_pw sc 0) (plm_pw sc).
  Proof. split; [intro pkt|]; cbn [obj_pw plm_pw pw_write pw_read]; apply lone_method. Qed.
  Definition lone_same (h : heap) (w : plmdb * plm) : Prop := h = mkHp (line_of (snd w)) [obj_of d (fst w) (snd w)].
  Definition lone_over (h : heap) (w : plmdb * plm) : Prop := h_line h = line_of (snd w).
  Lemma lone_same_over : forall h w, lone_same h w -> lone_over h w.
  Proof. intros h w ->. reflexivity. Qed.
  Lemma lone_own : forall A (f : prog plm A), alike lone_same lone_over (on_obj 0 f) (psnd f).
  Proof.
    intros A f h [db p] H0. unfold lone_same in H0. cbn [fst snd] in H0. subst h. unfold on_obj, psnd. cbn [nth_error h_objs h_line fst snd]. rewrite line_view. destruct (f p) as [r p'].
    split; [reflexivity|]. split; [reflexivity|]. intros _. reflexivity.
  Qed.
  Lemma lone_db : forall A (f1 : packet_writer heap -> prog (plmdb * heap) A) (f2 : prog (plmdb * plm) A),
    (alike (with_db lone) (with_db lone_end) (f1 (obj_pw sc 0)) f2) -> alike lone_same lone_over (on_db sc 0 f1) f2.
  Proof.
    intros A f1 f2 H h [db p] H0. unfold lone_same in H0. cbn [fst snd] in H0. subst h. unfold on_db. cbn [nth_error h_objs o_ptr o_db obj_of].
    destruct (H (db, mkHp (line_of p) [obj_of d db p]) (db, p)) as (E1 & E2 & E3).
    { split; [reflexivity|]. exists db. reflexivity. }
    destruct (f1 (obj_pw sc 0) (db, mkHp (line_of p) [obj_of d db p])) as [r [db1 h1]].
    destruct (f2 (db, p)) as [r2 [db2 p2]]. cbn [fst snd] in *. subst r2. split; [reflexivity|]. destruct E2 as [E2 E4]. cbn [fst snd] in *. subst db2. split.
    - exact E4.
    - intro K. destruct (E3 K) as [_ (dbs & K0)]. cbn [fst snd] in K0. subst h1. reflexivity.
  Qed.
  Lemma lone_op_alike : forall fuel op, alike lone_same lone_over (run_op sc fuel 0 op) (plain_op sc fuel op).
  Proof.
    intros fuel op. pose proof lone_ended as BE. pose proof lone_alike as OA.
    destruct op; cbn [run_op plain_op]; unfold wrap; (apply alike_bind; [|intro; apply alike_ret; exact lone_same_over]); try apply lone_own.
    - apply lone_db, links_alike; assumption.
    - apply lone_db, write_links_alike; assumption.
    - apply lone_db, iterate_alike; assumption.
    - apply lone_db. apply alike_ret. intros a b [H1 H2]. split; auto.
    - apply lone_db, alike_psnd, enter_alike; assumption.
    - apply lone_db, alike_psnd, exit_alike; assumption.
    - apply lone_db, alike_psnd, unlink_alike; assumption.
  Qed.
  Lemma lone_ops_alike : forall fuel ops, alike lone_same lone_over (run_ops sc fuel 0 ops) (plain_ops sc fuel ops).
  Proof.
    intros fuel ops. induction ops as [|op t IH]; cbn [run_ops plain_ops]; [apply alike_ret; exact lone_same_over|].
    apply alike_bind; [apply lone_op_alike|]. intro r. apply alike_bind; [exact IH|]. intro rs. apply alike_ret. exact lone_same_over.
  Qed.
End Lone.

(** ** How long a modem waits *)
Section Waits.
  Variables (sc : schedule) (t : Z) (w0 : list Z) (P : Z -> Prop).
  Hypothesis Pt : P t.
  Definition waited (p : plm) : Prop := exists ws, p_waits p = w0 ++ ws /\ Forall P ws.
  Definition wr (p q : plm) : Prop := p = q /\ p_timeout p = t /\ waited p.
  Definition we (p q : plm) : Prop := p = q /\ waited p.
  Lemma wr_we : forall p q, wr p q -> we p q.
  Proof. intros p q (H1 & _ & H2). split; assumption. Qed.
  Lemma waited_usual : forall p q, waited p -> p_timeout p = t -> usual p q -> p_timeout q = t /\ waited q.
  Proof.
    intros p q (ws & H1 & H2) Ht ([K1 _] & k & K2). split; [congruence|]. exists (ws ++ repeat t k). split; [rewrite K2, H1, Ht, app_assoc; reflexivity|].
    apply Forall_app. split; [exact H2|]. clear K2. induction k; constructor; assumption.
  Qed.
  Lemma usual_alike : forall A (f : prog plm A), (forall p r p', f p = (r, p') -> usual p p') -> alike wr we f f.
  Proof.
    intros A f H p q (<- & H1 & H2). destruct (f p) as [r p'] eqn:E. destruct (waited_usual _ _ H2 H1 (H _ _ _ E)) as [K1 K2]. cbn.
    split; [reflexivity|]. split; [split; [reflexivity|exact K2]|]. intros _. repeat split; assumption.
  Qed.
  Lemma waits_pw : pw_alike wr we (plm_pw sc) (plm_pw sc).
  Proof.
    split; [intro pkt|]; cbn [plm_pw pw_write pw_read]; apply usual_alike; intros p r p' H.
    - apply (write_packet_usual _ _ _ _ _ H).
    - destruct (read_packet_steady _ _ _ _ H) as (H1 & _ & H2). split; [exact H1|]. exists 1%nat. exact H2.
  Qed.
  Lemma waits_op : forall fuel op, (op = MReset -> P 20) -> alike (with_db wr) (with_db we) (plain_op sc fuel op) (plain_op sc fuel op).
  Proof.
    intros fuel op H20. pose proof wr_we as BE. pose proof waits_pw as OA.
    assert (X : forall a b : plmdb * plm, with_db wr a b -> with_db we a b) by (intros a b [H1 H2]; split; auto).
    destruct op; cbn [plain_op]; unfold wrap; (apply alike_bind; [|intro; apply alike_ret; exact X]).
    - apply alike_psnd, usual_alike. intros q a q' H. apply (write_packet_usual _ _ _ _ _ H).
    - apply alike_psnd, (proj2 OA).
    - apply alike_psnd, usual_alike. intros q a q' H. apply (write_usual _ _ _ _ _ _ H).
    - apply alike_psnd, usual_alike. intros q a q' H. destruct (read_steady _ _ _ _ H) as (H1 & H2). split; [exact H1|]. exists 1%nat. exact H2.
    - apply alike_psnd, usual_alike. intros q a q' H. apply (info_usual _ _ _ _ H).
    - apply alike_psnd. intros p q (<- & H1 & ws & H2 & H3). destruct (plm_reset sc p) as [r p'] eqn:E. cbn. destruct (reset_waits_all _ _ _ _ E) as (k & K).
      assert (Wp : waited p').
      { exists (ws ++ repeat 20 k). split; [rewrite K, H2, app_assoc; reflexivity|]. apply Forall_app. split; [exact H3|]. clear K. induction k; constructor; auto. }
      split; [reflexivity|]. split; [split; [reflexivity|exact Wp]|]. intros [a ->]. destruct (reset_steady _ _ _ _ E) as [Q _]. split; [reflexivity|]. split; [congruence|exact Wp].
    - apply alike_psnd, usual_alike. intros q a q' H. apply (config_usual _ _ _ _ H).
    - apply alike_psnd, usual_alike. intros q a q' H. apply (set_config_usual _ _ _ _ _ H).
    - apply alike_psnd, usual_alike. intros q a q' H. apply (address_usual _ _ _ _ H).
    - apply links_alike; assumption.
    - apply write_links_alike; assumption.
    - apply iterate_alike; assumption.
    - apply alike_ret. exact X.
    - apply alike_psnd, enter_alike; assumption.
    - apply alike_psnd, exit_alike; assumption.
    - apply alike_psnd, unlink_alike; assumption.
  Qed.
  Lemma waits_ops : forall fuel ops, (In MReset ops -> P 20) -> alike (with_db wr) (with_db we) (plain_ops sc fuel ops) (plain_ops sc fuel ops).
  Proof.
    intros fuel ops. assert (X : forall a b : plmdb * plm, with_db wr a b -> with_db we a b) by (intros a b [H1 H2]; split; [exact H1|apply wr_we, H2]).
    induction ops as [|op r IH]; intro H; cbn [plain_ops]; [apply alike_ret; exact X|].
    apply alike_bind; [apply waits_op; intros ->; apply H; left; reflexivity|]. intro. apply alike_bind; [apply IH; intro; apply H; right; assumption|]. intro. apply alike_ret. exact X.
  Qed.
End Waits.

(** ** Options *)
Lemma chosen_one : forall opts a b, chosen opts a -> chosen opts b -> a = b.
Proof.
  intros opts a b [[H1 H2]|(x & y & H1 & H2)] [[K1 K2]|(u & v & K1 & K2)].
  - congruence.
  - exfalso. apply (H1 b). rewrite K1. apply in_or_app. right. left. reflexivity.
  - exfalso. apply (K1 a). rewrite H1. apply in_or_app. right. left. reflexivity.
  - rewrite H1 in K1. clear H1 opts. revert u K1. induction x as [|e x IH]; intros [|f u] K1; cbn in K1.
    + congruence.
    + injection K1 as _ K1. exfalso. apply (H2 b). rewrite K1. apply in_or_app. right. left. reflexivity.
    + injection K1 as _ K1. exfalso. apply (K2 a). rewrite <- K1. apply in_or_app. right. left. reflexivity.
    + injection K1 as _ K1. exact (IH _ K1).
Qed.
Definition step_time (t : Z) (x : plm_option) : Z := match x with OTimeout u => u | OWriteDelay _ => t end.
Lemma options_timeout : forall opts o, o_timeout (fold_left apply_option opts o) = fold_left step_time opts (o_timeout o) /\
  o_retries (fold_left apply_option opts o) = o_retries o /\ o_addr (fold_left apply_option opts o) = o_addr o /\ o_ptr (fold_left apply_option opts o) = o_ptr o.
Proof.
  induction opts as [|x opts IH]; intro o; [auto|]. cbn [fold_left]. destruct (IH (apply_option o x)) as (H1 & H2 & H3 & H4). rewrite H1, H2, H3, H4. destruct x; cbn; auto.
Qed.
Lemma step_chosen : forall opts t, (no_timeout opts /\ fold_left step_time opts t = t) \/
  exists a b, opts = a ++ OTimeout (fold_left step_time opts t) :: b /\ no_timeout b.
Proof.
  induction opts as [|x opts IH]; intro t; cbn [fold_left]; [left; split; [intros u []|reflexivity]|].
  destruct (IH (step_time t x)) as [[H1 H2]|(a & b & H1 & H2)].
  - rewrite H2. destruct x as [u|u]; cbn [step_time].
    + right. exists [], opts. split; [reflexivity|exact H1].
    + left. split; [|reflexivity]. intros v [Hv|Hv]; [discriminate Hv|exact (H1 _ Hv)].
  - right. exists (x :: a), b. split; [cbn; f_equal; exact H1|exact H2].
Qed.
Lemma step_timeouts : forall opts t, fold_left step_time opts t = fold_left (fun _ u => u) (timeouts opts) t.
Proof. induction opts as [|[u|u] opts IH]; intro t; cbn; [reflexivity|apply IH|apply IH]. Qed.
