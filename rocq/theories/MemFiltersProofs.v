(** Filters over objects in memory do what filters over values do. *)
From Coq Require Import ZArith List Bool Lia ZifyBool ZifyNat.
From Verif Require Import GoBase GoLemmas GoProg Message MsgWriter Filters FiltersSpec BasicDevice UtilSnoop MemFilters MemFiltersSpec.
Import ListNotations.
Open Scope Z_scope.
Ltac Zify.zify_post_hook ::= Z.div_mod_to_equations.

(** ** Messages but for their hops *)
Lemma sbh_refl : forall m, same_but_hops m m.
Proof. intros m. repeat split; reflexivity. Qed.
Lemma sbh_trans : forall a b c, same_but_hops a b -> same_but_hops b c -> same_but_hops a c.
Proof.
  intros a b c (A1 & A2 & A3 & A4 & A5) (B1 & B2 & B3 & B4 & B5).
  repeat split; try congruence. intros n Hn. rewrite A5, B5; auto.
Qed.
Lemma sbh_sym : forall a b, same_but_hops a b -> same_but_hops b a.
Proof. intros a b (A1 & A2 & A3 & A4 & A5). repeat split; try congruence. intros n Hn. rewrite A5; auto. Qed.

Lemma testbit_small : forall k n, 0 <= k < 2 ^ 8 -> 8 <= n -> Z.testbit k n = false.
Proof.
  intros k n Hk Hn. destruct (Z.eq_dec k 0) as [->|Hz]; [apply Z.testbit_0_l|].
  apply Z.bits_above_log2; [lia|]. apply Z.log2_lt_pow2; [lia|]. assert (2 ^ 8 <= 2 ^ n) by (apply Z.pow_le_mono_r; lia). lia.
Qed.
Lemma bit_cases : forall n, 0 <= n -> n = 0 \/ n = 1 \/ n = 2 \/ n = 3 \/ 4 <= n < 8 \/ 8 <= n.
Proof. lia. Qed.
Lemma land_f0 : forall f g k, 0 <= k < 2 ^ 8 -> (forall n, 0 <= n < 4 -> Z.testbit k n = false) ->
  (forall n, 4 <= n < 8 -> Z.testbit f n = Z.testbit g n) -> Z.land f k = Z.land g k.
Proof.
  intros f g k Hk Hlow Hfg. apply Z.bits_inj'. intros n Hn. rewrite !Z.land_spec.
  destruct (Z_lt_le_dec n 4); [rewrite Hlow by lia; now rewrite !andb_false_r|].
  destruct (Z_lt_le_dec n 8); [rewrite Hfg by lia; reflexivity|].
  rewrite (testbit_small k n Hk) by lia. now rewrite !andb_false_r.
Qed.
Lemma low_false : forall k, Z.land k 15 = 0 -> forall n, 0 <= n < 4 -> Z.testbit k n = false.
Proof.
  intros k Hk n Hn. assert (E : Z.testbit (Z.land k 15) n = false) by (rewrite Hk; apply Z.testbit_0_l).
  rewrite Z.land_spec in E. replace (Z.testbit 15 n) with true in E; [now rewrite andb_true_r in E|].
  assert (n = 0 \/ n = 1 \/ n = 2 \/ n = 3) as [->|[->|[->| ->]]] by lia; reflexivity.
Qed.
Ltac f0 H := apply land_f0; [lia|apply low_false; reflexivity|exact H].

Lemma sbh_ttl : forall t m o, same_but_hops m o -> ttl_message t m = ttl_message t o.
Proof.
  intros t m o (A1 & A2 & A3 & A4 & A5). unfold ttl_message. rewrite A1, A2, A3, A4. f_equal.
  unfold fl_set_ttl, fl_set_max_ttl. f_equal.
  rewrite !Z.land_lor_distr_l, <- !Z.land_assoc. change (Z.land 252 243) with 240. f_equal. f0 A5.
Qed.
Lemma sbh_ttl_self : forall t m, same_but_hops (ttl_message t m) m.
Proof.
  intros t m. unfold ttl_message. repeat split. cbn [m_flags]. intros n Hn.
  unfold fl_set_ttl, fl_set_max_ttl, byte_of.
  rewrite !Z.lor_spec, !Z.land_spec, !Z.lor_spec, !Z.land_spec.
  assert (E : Z.testbit (Z.land 3 (t mod 256)) (n - 2) = false).
  { rewrite Z.land_spec. replace (Z.testbit 3 (n - 2)) with false; [reflexivity|].
    assert (n = 4 \/ n = 5 \/ n = 6 \/ n = 7) as [->|[->|[->| ->]]] by lia; reflexivity. }
  assert (B : forall x, Z.testbit (x mod 256) n = Z.testbit x n).
  { intros x. change 256 with (2 ^ 8). now rewrite Z.mod_pow2_bits_low by lia. }
  rewrite !B, Z.shiftl_spec by lia. rewrite E.
  assert (n = 4 \/ n = 5 \/ n = 6 \/ n = 7) as [->|[->|[->| ->]]] by lia;
    cbn [Z.testbit Pos.testbit Z.pred Pos.pred_N Pos.pred_double andb]; rewrite ?andb_true_r, ?andb_false_r, ?orb_false_r; reflexivity.
Qed.
Lemma sbh_match_ack : forall a m o, same_but_hops m o -> match_ack a m = match_ack a o.
Proof.
  intros a m o (A1 & A2 & A3 & A4 & A5). unfold match_ack, and_matcher, not_matcher, ack_matcher, dst_matcher. cbn.
  rewrite A2. unfold fl_ack, fl_nak.
  assert (E : Z.land (m_flags m) 32 = Z.land (m_flags o) 32) by f0 A5.
  assert (F : Z.land (m_flags m) 128 = Z.land (m_flags o) 128) by f0 A5.
  now rewrite E, F.
Qed.

(** ** Memory *)
Definition mem_ext (M M1 : list message) : Prop :=
  forall q x, nth_error M q = Some x -> exists y, nth_error M1 q = Some y /\ same_but_hops y x /\ (m_src x <> 0 -> y = x).
Lemma mem_ext_refl : forall M, mem_ext M M.
Proof. intros M q x H. exists x. split; [exact H|]. split; [apply sbh_refl|reflexivity]. Qed.
Lemma mem_ext_trans : forall A B C, mem_ext A B -> mem_ext B C -> mem_ext A C.
Proof.
  intros A B C H1 H2 q x Hx. destruct (H1 q x Hx) as (y & Hy & Sy & Ey). destruct (H2 q y Hy) as (z & Hz & Sz & Ez).
  exists z. split; [exact Hz|]. split; [eapply sbh_trans; eassumption|].
  intros Hn. specialize (Ey Hn). subst y. now apply Ez.
Qed.
Lemma mem_ext_app : forall M l, mem_ext M (M ++ l).
Proof.
  intros M l q x H. exists x. split; [|split; [apply sbh_refl|reflexivity]].
  rewrite nth_error_app1; [exact H|]. apply nth_error_Some. congruence.
Qed.
Lemma mem_ext_length : forall M M1, mem_ext M M1 -> (length M <= length M1)%nat.
Proof.
  intros M M1 H. destruct (Nat.eq_dec (length M) 0); [lia|].
  destruct (nth_error M (length M - 1)) as [x|] eqn:E; [|apply nth_error_None in E; lia].
  destruct (H _ _ E) as (y & Hy & _). assert (length M - 1 < length M1)%nat by (apply nth_error_Some; congruence). lia.
Qed.
Lemma mem_ext_set : forall M p x y, nth_error M p = Some x -> same_but_hops y x -> m_src x = 0 -> mem_ext M (list_set M p y).
Proof.
  intros M p x y Hp Hs Hz q z Hq. destruct (Nat.eq_dec p q) as [->|Hn].
  - assert (z = x) by congruence. subst z. exists y. split; [|split; [exact Hs|intros; contradiction]].
    apply nth_error_list_set_eq. apply nth_error_Some. congruence.
  - exists z. rewrite nth_error_list_set_neq by exact Hn. split; [exact Hq|]. split; [apply sbh_refl|reflexivity].
Qed.

(** A pointer at a message, exactly or but for its hops. *)
Definition at_ (exact : bool) (m : message) (M : list message) (p : nat) : Prop :=
  exists b, nth_error M p = Some b /\ if exact then b = m else same_but_hops b m.
Lemma at_weak : forall b m M p, at_ b m M p -> at_ false m M p.
Proof. intros [|] m M p (x & Hx & E); exists x; (split; [exact Hx|]); [subst; apply sbh_refl|exact E]. Qed.
Lemma at_ext : forall m M M1 p, at_ false m M p -> mem_ext M M1 -> at_ false m M1 p.
Proof.
  intros m M M1 p (x & Hx & E) H. destruct (H p x Hx) as (y & Hy & S & _). exists y. split; [exact Hy|]. eapply sbh_trans; eassumption.
Qed.

(** ** Runs side by side *)
Definition sim {S T A B} (Post : list message -> S -> T -> A -> B -> Prop) (Rc : list message -> S -> T -> Prop)
    (M : list message) (mv : prog S A) (mp : prog (mem * T) B) (s : S) (t : T) : Prop :=
  match mv s, mp (M, t) with
  | (r, s1), (r1, (M1, t1)) =>
      mem_ext M M1 /\
      match r, r1 with
      | Ret a, Ret b => Post M1 s1 t1 a b
      | Panic, Panic => Rc M1 s1 t1
      | NoFuel, NoFuel => Rc M1 s1 t1
      | _, _ => False
      end
  end.
Lemma sim_bind : forall S T A B C D (P1 : list message -> S -> T -> A -> B -> Prop) P2 Rc M
    (mv : prog S A) (mp : prog (mem * T) B) (f : A -> prog S C) (g : B -> prog (mem * T) D) s t,
  sim P1 Rc M mv mp s t ->
  (forall a b M1 s1 t1, mem_ext M M1 -> P1 M1 s1 t1 a b -> sim P2 Rc M1 (f a) (g b) s1 t1) ->
  sim P2 Rc M (pbind mv f) (pbind mp g) s t.
Proof.
  intros S T A B C D P1 P2 Rc M mv mp f g s t H K. unfold sim, pbind in *.
  destruct (mv s) as [r s1]. destruct (mp (M, t)) as [r1 [M1 t1]]. destruct H as [E H].
  destruct r as [a| |], r1 as [b| |]; try contradiction; try (split; assumption).
  specialize (K a b M1 s1 t1 E H).
  destruct (f a s1) as [r2 s2]. destruct (g b (M1, t1)) as [r3 [M2 t2]]. destruct K as [E2 K].
  split; [eapply mem_ext_trans; eassumption|exact K].
Qed.
Lemma sim_ret : forall S T A B (P : list message -> S -> T -> A -> B -> Prop) (Rc : list message -> S -> T -> Prop) M a b s t, P M s t a b -> sim P Rc M (pret a) (pret b) s t.
Proof. intros. unfold sim, pret. split; [apply mem_ext_refl|assumption]. Qed.
Lemma sim_panic : forall S T A B (P : list message -> S -> T -> A -> B -> Prop) (Rc : list message -> S -> T -> Prop) M s t, Rc M s t -> sim P Rc M ppanic ppanic s t.
Proof. intros. unfold sim, ppanic. split; [apply mem_ext_refl|assumption]. Qed.
Lemma sim_nofuel : forall S T A B (P : list message -> S -> T -> A -> B -> Prop) (Rc : list message -> S -> T -> Prop) M s t, Rc M s t -> sim P Rc M pnofuel pnofuel s t.
Proof. intros. unfold sim, pnofuel. split; [apply mem_ext_refl|assumption]. Qed.
Lemma sim_weaken : forall S T A B (P P1 : list message -> S -> T -> A -> B -> Prop) (Rc Rc1 : list message -> S -> T -> Prop) M mv mp s t,
  sim P Rc M mv mp s t ->
  (forall M1 s1 t1 a b, mem_ext M M1 -> P M1 s1 t1 a b -> P1 M1 s1 t1 a b) ->
  (forall M1 s1 t1, mem_ext M M1 -> Rc M1 s1 t1 -> Rc1 M1 s1 t1) ->
  sim P1 Rc1 M mv mp s t.
Proof.
  intros S T A B P P1 Rc Rc1 M mv mp s t H HP HC. unfold sim in *.
  destruct (mv s) as [r s1]. destruct (mp (M, t)) as [r1 [M1 t1]]. destruct H as [E H]. split; [exact E|].
  destruct r as [a| |], r1 as [b| |]; try contradiction; auto.
Qed.
(** One more half of the worlds. *)
Lemma sim_low : forall C D S T A B (K : list message -> C -> D -> Prop) (P : list message -> S -> T -> A -> B -> Prop) Rc M mv mp (c : C) (d : D) s t,
  sim P Rc M mv mp s t ->
  (forall M1, mem_ext M M1 -> K M1 c d) ->
  sim (fun M1 x y a b => (fst x = c /\ fst y = d) /\ P M1 (snd x) (snd y) a b) (fun M1 x y => K M1 (fst x) (fst y) /\ Rc M1 (snd x) (snd y))
    M (psnd mv) (plow mp) (c, s) (d, t).
Proof.
  intros C D S T A B K P Rc M mv mp c d s t H HK. unfold sim, psnd, plow in *. cbn [fst snd].
  destruct (mv s) as [r s1]. destruct (mp (M, t)) as [r1 [M1 t1]]. destruct H as [E H]. cbn [fst snd]. split; [exact E|].
  destruct r as [a| |], r1 as [b| |]; try contradiction; cbn [fst snd]; auto.
Qed.

(** ** Caches *)
Definition slot (M : list message) (x : Z * message) (q : nat) : Prop :=
  exists y, nth_error M q = Some y /\ same_but_hops y (snd x) /\ (m_src (snd x) <> 0 -> y = snd x).
Definition crel (M : list message) (c : cache) (d : pcache) : Prop :=
  Forall2 (slot M) (c_msgs c) (pc_msgs d) /\ pc_cap d = c_cap c /\ pc_i d = c_i c /\ Forall (fun x => fst x < c_next c) (c_msgs c).
Lemma slot_ext : forall M M1 x q, mem_ext M M1 -> slot M x q -> slot M1 x q.
Proof.
  intros M M1 x q H (y & Hy & S & E). destruct (H q y Hy) as (z & Hz & S1 & E1). exists z.
  split; [exact Hz|]. split; [eapply sbh_trans; eassumption|]. intros Hn. specialize (E Hn). subst y. auto.
Qed.
Lemma crel_ext : forall M M1 c d, mem_ext M M1 -> crel M c d -> crel M1 c d.
Proof.
  intros M M1 c d H (F & R). split; [|exact R]. clear R. induction F; constructor; [eapply slot_ext; eassumption|assumption].
Qed.
Lemma f2_length : forall A B (P : A -> B -> Prop) l k, Forall2 P l k -> length l = length k.
Proof. intros A B P l k H. induction H; cbn; congruence. Qed.
Lemma Forall2_len : forall A B (P : A -> B -> Prop) l k, Forall2 P l k -> zlen k = zlen l.
Proof. intros A B P l k H. unfold zlen. f_equal. symmetry. eapply f2_length. exact H. Qed.
Lemma Forall2_set : forall A B (P : A -> B -> Prop) l k i x y, Forall2 P l k -> P x y -> Forall2 P (list_set l i x) (list_set k i y).
Proof.
  intros A B P l k i x y H Hxy. revert i. induction H; intros i; cbn; [constructor|].
  destruct i; constructor; auto.
Qed.
Lemma Forall_set : forall A (P : A -> Prop) l i x, Forall P l -> P x -> Forall P (list_set l i x).
Proof. intros A P l i x H Hx. revert i. induction H; intros i; cbn; [constructor|]. destruct i; constructor; auto. Qed.

Lemma combine_app : forall A B (l1 l2 : list A) (k1 k2 : list B), length l1 = length k1 -> combine (l1 ++ l2) (k1 ++ k2) = combine l1 k1 ++ combine l2 k2.
Proof. intros A B l1. induction l1 as [|a l1 IH]; intros l2 [|b k1] k2 H; cbn in *; try discriminate; [reflexivity|]. f_equal. apply IH. lia. Qed.

(** Two matchers that agree slot by slot find the same slot. *)
Lemma lookup_alike : forall fuel f g (l : list (Z * message)) (k : list nat) i j (P : Z * message -> nat -> Prop),
  Forall2 (fun x q => P x q /\ f x = g q) l k ->
  match lookup_loop fuel f l i j, plookup_loop fuel g k i j with
  | Ret None, Ret None => True
  | Ret (Some x), Ret (Some q) => P x q
  | Panic, Panic => True
  | NoFuel, NoFuel => True
  | _, _ => False
  end.
Proof.
  intros fuel f g l k i j P F.
  assert (G : forall n, match nth_error l n, nth_error k n with
              | Some x, Some q => P x q /\ f x = g q | None, None => True | _, _ => False end).
  { clear - F. induction F; intros [|n]; cbn; auto. apply IHF. }
  revert i. induction fuel as [|fuel IH]; intros i; cbn [lookup_loop plookup_loop]; [exact I|].
  rewrite (Forall2_len _ _ _ _ _ F). set (i1 := if i <? 0 then zlen l - 1 else i).
  unfold go_index. rewrite (Forall2_len _ _ _ _ _ F).
  destruct ((i1 <? 0) || (zlen l <=? i1)) eqn:B; [exact I|].
  pose proof (G (Z.to_nat i1)) as Gi. clear G. rename Gi into G.
  destruct (nth_error l (Z.to_nat i1)) as [x|], (nth_error k (Z.to_nat i1)) as [q|]; try contradiction; cbn; [|exact I].
  destruct G as [GP Gf]. rewrite Gf. destruct (g q); [exact GP|]. destruct (i1 =? j); [exact I|]. apply IH.
Qed.
Lemma cache_lookup_alike : forall f g c d M (P : Z * message -> nat -> Prop), crel M c d ->
  Forall2 (fun x q => P x q /\ f x = g q) (c_msgs c) (pc_msgs d) ->
  match cache_lookup f c, pcache_lookup g d with
  | Ret None, Ret None => True
  | Ret (Some x), Ret (Some q) => P x q
  | Panic, Panic => True
  | NoFuel, NoFuel => True
  | _, _ => False
  end.
Proof.
  intros f g c d M P (_ & _ & Hi & _) F. unfold cache_lookup, pcache_lookup.
  pose proof (Forall2_len _ _ _ _ _ F) as L. pose proof (f2_length _ _ _ _ _ F) as L1.
  destruct (c_msgs c) as [|a l] eqn:E, (pc_msgs d) as [|b k] eqn:E1; try exact I; try (cbn in L1; discriminate).
  rewrite L, Hi, <- L1. apply lookup_alike. exact F.
Qed.
Lemma push_alike : forall M c d m p, crel M c d -> slot M (c_next c, m) p ->
  match cache_push c m, pcache_push d p with
  | Ret c1, Ret d1 => crel M c1 d1 /\ c_next c1 = c_next c + 1
      /\ forall x q, In (x, q) (combine (c_msgs c1) (pc_msgs d1)) -> In (x, q) (combine (c_msgs c) (pc_msgs d)) \/ (x = (c_next c, m) /\ q = p)
  | Panic, Panic => True
  | _, _ => False
  end.
Proof.
  intros M c d m p (F & Hc & Hi & Hn) Hs. unfold cache_push, pcache_push. rewrite (Forall2_len _ _ _ _ _ F), Hc, Hi.
  assert (Hn1 : Forall (fun x : Z * message => fst x < c_next c + 1) (c_msgs c)) by (eapply Forall_impl; [|exact Hn]; cbn; intros; lia).
  destruct (zlen (c_msgs c) <? c_cap c).
  - cbn [c_msgs pc_msgs]. split; [|split; [reflexivity|]].
    + repeat split; cbn; [|apply Forall_app; split; [exact Hn1|repeat constructor; cbn; lia]].
      apply Forall2_app; [exact F|]. constructor; [exact Hs|constructor].
    + intros x q. rewrite combine_app by (apply (f2_length _ _ _ _ _ F)). rewrite in_app_iff. cbn. intros [H|[H|[]]]; [left; exact H|right].
      injection H as <- <-. split; reflexivity.
  - set (i := if 0 <? zlen (c_msgs c) then c_i c + 1 else c_i c). set (i1 := if i =? zlen (c_msgs c) then 0 else i).
    destruct ((0 <=? i1) && (i1 <? zlen (c_msgs c))); [|exact I]. cbn [c_msgs pc_msgs]. split; [|split; [reflexivity|]].
    + repeat split; cbn; [apply Forall2_set; assumption|apply Forall_set; [exact Hn1|cbn; lia]].
    + intros x q. clear - F. generalize (Z.to_nat i1) as n. induction F as [|a b l k Hab F IH]; intros n; cbn; [tauto|].
      destruct n as [|n]; cbn; [intros [H|H]; [right|left; right; exact H]; injection H as <- <-; split; reflexivity|].
      intros [H|H]; [left; left; exact H|]. destruct (IH n H) as [K|K]; [left; right; exact K|right; exact K].
Qed.

Lemma crel_combine : forall M c d x q, crel M c d -> In (x, q) (combine (c_msgs c) (pc_msgs d)) -> slot M x q /\ fst x < c_next c.
Proof.
  intros M c d x q (F & _ & _ & Hn) H. revert H Hn. generalize (c_next c). intros z.
  induction F as [|a b l k Hab F IH]; intros H Hn; cbn in H; [destruct H|]. apply Forall_cons_iff in Hn. destruct Hn as [Hn Hn1].
  destruct H as [H|H]; [injection H as <- <-; split; assumption|auto].
Qed.
Lemma crel_forall : forall M c d (P : Z * message -> nat -> Prop), crel M c d ->
  (forall x q, In (x, q) (combine (c_msgs c) (pc_msgs d)) -> P x q) -> Forall2 P (c_msgs c) (pc_msgs d).
Proof.
  intros M c d P (F & _) H. induction F as [|a b l k Hab F IH]; [constructor|].
  constructor; [apply H; left; reflexivity|]. apply IH. intros x q K. apply H. right. exact K.
Qed.
Lemma mat_at : forall M q y, nth_error M q = Some y -> mat M q = y.
Proof. intros M q y H. unfold mat. apply nth_error_nth. exact H. Qed.

(** ** Layers *)
Definition rpost {S T} (R : list message -> S -> T -> Prop) (M : list message) (M1 : list message) (s : S) (t : T) (a : mresult) (b : presult) : Prop :=
  R M1 s t /\ snd b = snd a /\
  match fst a, fst b with
  | None, None => True
  | Some m, Some p => nth_error M1 p = Some m /\ nth_error M p = None /\ m_src m <> 0
  | _, _ => False
  end.
Definition wpost {S T} (R : list message -> S -> T -> Prop) (b2 : bool) (m : message) (p : nat) (M1 : list message) (s : S) (t : T) (a : mresult) (b : presult) : Prop :=
  R M1 s t /\ at_ b2 m M1 p /\ snd b = snd a /\
  match fst a, fst b with
  | None, None => True
  | Some x, Some q => nth_error M1 q = Some x
  | _, _ => False
  end.
Record layer {S T} (R : list message -> S -> T -> Prop) (b1 b2 : bool) (mv : mwriter S) (mp : pwriter T) : Prop := mkLayer {
  ly_ext : forall M M1 s t, mem_ext M M1 -> R M s t -> R M1 s t;
  ly_read : forall M s t, R M s t -> sim (rpost R M) R M (mw_read mv) (pm_read mp) s t;
  ly_write : forall M s t p m, R M s t -> m_src m = 0 -> at_ b1 m M p -> sim (wpost R b2 m p) R M (mw_write mv m) (pm_write mp p) s t
}.
Lemma rpost_back : forall S T (R : list message -> S -> T -> Prop) M0 M M1 s t a b, mem_ext M0 M -> rpost R M M1 s t a b -> rpost R M0 M1 s t a b.
Proof.
  intros S T R M0 M M1 s t [a e] [b e1] H (HR & He & K). split; [exact HR|]. split; [exact He|]. cbn [fst] in *.
  destruct a, b; auto. destruct K as (K1 & K2 & K3). repeat split; auto.
  apply nth_error_None. apply nth_error_None in K2. apply mem_ext_length in H. lia.
Qed.

Lemma layer_base : forall W (I : W -> Prop) (base : mwriter W), from_others I base -> layer (fun _ s t => s = t /\ I s) true true base (base_pm base).
Proof.
  intros W I base Hb. split.
  - auto.
  - intros M s t [<- Hi]. destruct (Hb s Hi) as [Hr _]. unfold sim, base_pm, pm_read, pbind, psnd. cbn [fst snd].
    destruct (mw_read base s) as [[[m e]| |] w1] eqn:E; specialize (Hr _ _ eq_refl); destruct Hr as [Hi1 Hr];
      [|split; [apply mem_ext_refl|split; [reflexivity|exact Hi1]]..].
    destruct m as [m|]; cbn.
    + split; [apply mem_ext_app|]. split; [split; [reflexivity|exact Hi1]|]. split; [reflexivity|]. cbn. split; [|split].
      * rewrite nth_error_app2, Nat.sub_diag by lia. reflexivity.
      * apply nth_error_None. lia.
      * eapply Hr. reflexivity.
    + split; [apply mem_ext_refl|]. split; [split; [reflexivity|exact Hi1]|]. split; [reflexivity|exact Logic.I].
  - intros M s t p m [<- Hi] Hz (x & Hx & ->). destruct (Hb s Hi) as [_ Hw]. unfold sim, base_pm, pm_write, pbind, psnd, pload. cbn [fst snd]. rewrite Hx. cbn [fst snd].
    destruct (mw_write base m s) as [[[a e]| |] w1] eqn:E; specialize (Hw _ _ _ E);
      [|split; [apply mem_ext_refl|split; [reflexivity|exact Hw]]..].
    destruct a as [a|]; cbn.
    + split; [apply mem_ext_app|]. split; [split; [reflexivity|exact Hw]|]. split; [|split; [reflexivity|]].
      * exists m. split; [|reflexivity]. rewrite nth_error_app1; [exact Hx|]. apply nth_error_Some. congruence.
      * cbn. rewrite nth_error_app2, Nat.sub_diag by lia. reflexivity.
    + split; [apply mem_ext_refl|]. split; [split; [reflexivity|exact Hw]|]. split; [|split; [reflexivity|exact Logic.I]]. exists m. split; [exact Hx|reflexivity].
Qed.

Lemma layer_ttl : forall S T (R : list message -> S -> T -> Prop) b1 b2 mv mp ttl,
  layer R b1 b2 mv mp -> layer R false false (ttl_filter ttl mv) (pttl_filter ttl mp).
Proof.
  intros S T R b1 b2 mv mp ttl H. split; [apply (ly_ext _ _ _ _ _ H)|apply (ly_read _ _ _ _ _ H)|].
  intros M s t p m HR Hz (x & Hx & Hs). unfold ttl_filter, pttl_filter. cbn [mw_write pm_write].
  unfold sim, pbind at 1, pload. cbn [fst]. rewrite Hx. unfold pbind, pstore. cbn [fst snd].
  rewrite (sbh_ttl ttl _ _ Hs). set (m1 := ttl_message ttl m). set (M1 := list_set M p m1).
  assert (E1 : mem_ext M M1).
  { unfold M1. eapply mem_ext_set; [exact Hx| |]; [|destruct Hs; congruence].
    unfold m1. rewrite <- (sbh_ttl ttl _ _ Hs). apply sbh_ttl_self. }
  assert (A1 : at_ b1 m1 M1 p).
  { exists m1. split; [apply nth_error_list_set_eq; apply nth_error_Some; congruence|]. destruct b1; [reflexivity|apply sbh_refl]. }
  pose proof (ly_write _ _ _ _ _ H M1 s t p m1 (ly_ext _ _ _ _ _ H _ _ _ _ E1 HR) Hz A1) as K. unfold sim in K.
  destruct (mw_write mv m1 s) as [r s1]. destruct (pm_write mp p (M1, t)) as [r1 [M2 t1]]. destruct K as [E2 K].
  split; [eapply mem_ext_trans; eassumption|].
  destruct r as [a| |], r1 as [b| |]; try contradiction; auto. destruct K as (K1 & K2 & K3). split; [exact K1|]. split; [|exact K3].
  apply at_weak in K2. destruct K2 as (y & Hy & Sy). exists y. split; [exact Hy|]. eapply sbh_trans; [exact Sy|]. apply sbh_ttl_self.
Qed.

Lemma retry_sim : forall S T (R : list message -> S -> T -> Prop) b mv mp, layer R b b mv mp ->
  forall fuel n M s t p m, R M s t -> m_src m = 0 -> at_ b m M p -> sim (wpost R b m p) R M (retry_writes fuel mv n m) (pretry_writes fuel mp n p) s t.
Proof.
  intros S T R b mv mp H fuel. induction fuel as [|fuel IH]; intros n M s t p m HR Hz A; cbn [retry_writes pretry_writes]; [apply sim_nofuel; exact HR|].
  eapply sim_bind; [apply (ly_write _ _ _ _ _ H); assumption|].
  intros [a e] [q e1] M1 s1 t1 E (HR1 & A1 & He & Hq). cbn [snd] in He. subst e1. cbv beta iota.
  destruct (negb (err_is e EDevReadTimeout)); [apply sim_ret; split; [|split; [|split]]; auto|].
  destruct (1 <? n); [apply IH; assumption|]. apply sim_ret; split; [|split; [|split]]; auto.
Qed.
Lemma layer_retry : forall S T (R : list message -> S -> T -> Prop) b mv mp n,
  layer R b b mv mp -> layer R b b (retry_filter n mv) (pretry_filter n mp).
Proof.
  intros S T R b mv mp n H. split; [apply (ly_ext _ _ _ _ _ H)|apply (ly_read _ _ _ _ _ H)|].
  intros M s t p m HR Hz A. apply (retry_sim _ _ _ _ _ _ H); assumption.
Qed.

(** ** Caches as layers *)
Definition RC {S T} (R : list message -> S -> T -> Prop) (M : list message) (x : cache * S) (y : pcache * T) : Prop :=
  crel M (fst x) (fst y) /\ R M (snd x) (snd y).
Lemma RC_ext : forall S T (R : list message -> S -> T -> Prop) b1 b2 mv mp, layer R b1 b2 mv mp ->
  forall M M1 s t, mem_ext M M1 -> RC R M s t -> RC R M1 s t.
Proof. intros S T R b1 b2 mv mp H M M1 s t E (A & B). split; [eapply crel_ext; eassumption|eapply ly_ext; eassumption]. Qed.

(** After a read the new pointer is in its own slot only. *)
Definition fresh_slot (c : cache) (d : pcache) (p : nat) : Prop :=
  forall x q, In (x, q) (combine (c_msgs c) (pc_msgs d)) -> (fst x =? c_next c - 1) = Nat.eqb p q.
Lemma cache_read_sim : forall S T (R : list message -> S -> T -> Prop) b1 b2 mv mp, layer R b1 b2 mv mp ->
  forall M s t, RC R M s t ->
  sim (fun M1 x y a b => rpost (RC R) M M1 x y a b /\ match fst b with Some p => fresh_slot (fst x) (fst y) p | None => True end) (RC R)
    M (cache_read mv) (pcache_read mp) s t.
Proof.
  intros S T R b1 b2 mv mp H M [c s] [d t] [HC HR]. cbn [fst snd] in HC, HR. unfold cache_read, pcache_read.
  eapply sim_bind.
  { eapply (sim_low _ _ _ _ _ _ crel _ R); [apply (ly_read _ _ _ _ _ H); exact HR|]. intros M1 E. eapply crel_ext; eassumption. }
  intros [a e] [q e1] M1 [c1 s1] [d1 t1] E ([E1 E2] & HR1 & He & Hq). cbn [fst snd] in *. subst c1 d1 e1. cbv beta iota.
  pose proof (crel_ext _ _ _ _ E HC) as HC1.
  unfold sim, pbind, pfst, pget, pstate, plift, pput, pset. cbn [fst snd].
  destruct a as [m|], q as [p|]; try contradiction; cbn [cache_push_opt pcache_push_opt].
  - destruct Hq as (Hq & Hf & Hs).
    assert (SL : slot M1 (c_next c, m) p) by (exists m; split; [exact Hq|split; [apply sbh_refl|reflexivity]]).
    pose proof (push_alike M1 c d m p HC1 SL) as P.
    destruct (cache_push c m) as [c1| |], (pcache_push d p) as [d1| |]; try contradiction; cbn [fst snd].
    + destruct P as (P1 & P2 & P3). split; [apply mem_ext_refl|]. split.
      * split; [split; [exact P1|exact HR1]|]. split; [reflexivity|]. cbn. auto.
      * cbn [fst snd]. intros x q Hin. rewrite P2. destruct (P3 x q Hin) as [K|[-> ->]]; [|cbn [fst]; rewrite Nat.eqb_refl; lia].
        destruct (crel_combine _ _ _ _ _ HC K) as [(y & Hy & _) Hlt].
        replace (Nat.eqb p q) with false; [lia|]. symmetry. apply Nat.eqb_neq. congruence.
    + split; [apply mem_ext_refl|]. split; assumption.
  - cbn. split; [apply mem_ext_refl|]. split; [|exact I]. split; [split; assumption|]. split; [reflexivity|exact I].
Qed.
Lemma cache_write_sim : forall S T (R : list message -> S -> T -> Prop) b1 b2 mv mp, layer R b1 b2 mv mp ->
  forall M s t p m, RC R M s t -> m_src m = 0 -> at_ b1 m M p ->
  sim (wpost (RC R) b2 m p) (RC R) M (cache_write mv m) (pcache_write mp p) s t.
Proof.
  intros S T R b1 b2 mv mp H M [c s] [d t] p m [HC HR] Hz A. cbn [fst snd] in HC, HR. unfold cache_write, pcache_write.
  assert (SL : slot M (c_next c, m) p).
  { destruct (at_weak _ _ _ _ A) as (x & Hx & Sx). exists x. split; [exact Hx|]. split; [exact Sx|]. cbn. intros; contradiction. }
  pose proof (push_alike M c d m p HC SL) as P.
  unfold sim, pbind, pfst, pget, pstate, plift, pput, pset. cbn [fst snd].
  destruct (cache_push c m) as [c1| |], (pcache_push d p) as [d1| |]; try contradiction; cbn [fst snd].
  - destruct P as (P1 & _).
    pose proof (sim_low _ _ _ _ _ _ crel _ R M _ _ c1 d1 s t (ly_write _ _ _ _ _ H M s t p m HR Hz A) (fun M1 E => crel_ext _ _ _ _ E P1)) as K.
    unfold sim in K. destruct (psnd (mw_write mv m) (c1, s)) as [r s1]. destruct (plow (pm_write mp p) (M, (d1, t))) as [r1 [M2 t1]].
    destruct K as [E K]. split; [exact E|]. destruct r as [a| |], r1 as [b| |]; try contradiction; try exact K.
    destruct K as ((K1 & K2) & K3 & K4). split; [|exact K4]. split; [|exact K3]. rewrite K1, K2. eapply crel_ext; eassumption.
  - split; [apply mem_ext_refl|]. split; assumption.
Qed.

Lemma dup_read_sim : forall S T (R : list message -> S -> T -> Prop) b1 b2 mv mp, layer R b1 b2 mv mp ->
  forall fuel M s t, RC R M s t -> sim (rpost (RC R) M) (RC R) M (dup_read fuel mv) (pdup_read fuel mp) s t.
Proof.
  intros S T R b1 b2 mv mp H fuel. induction fuel as [|fuel IH]; intros M s t HR; cbn [dup_read pdup_read]; [apply sim_nofuel; exact HR|].
  eapply sim_bind; [apply (cache_read_sim _ _ _ _ _ _ _ H); exact HR|].
  intros [a e] [q e1] M1 [c s1] [d t1] E [(HR1 & He & Hq) Hf]. cbn [fst snd] in *. subst e1. cbv beta iota.
  destruct e as [e|]; [apply sim_ret; split; [exact HR1|split; [reflexivity|exact Hq]]|].
  assert (G : forall A B (P : list message -> cache * S -> pcache * T -> A -> B -> Prop) f g,
            sim P (RC R) M1 (f c) (g d) (c, s1) (d, t1) -> sim P (RC R) M1 (pbind (pfst pget) f) (pbind pstate g) (c, s1) (d, t1)) by (intros; exact H0).
  apply G. clear G. destruct HR1 as [HC HR1]. cbn [fst snd] in HC, HR1.
  destruct a as [m|], q as [p|]; try contradiction.
  - destruct Hq as (Hq & Hnew & Hs).
    assert (G : forall A B (P : list message -> cache * S -> pcache * T -> A -> B -> Prop) f g,
            sim P (RC R) M1 f (g M1) (c, s1) (d, t1) -> sim P (RC R) M1 f (pbind pmem g) (c, s1) (d, t1)) by (intros; exact H0).
    apply G. clear G.
    pose proof (cache_lookup_alike (duplicate_matcher (c_next c - 1) m) (pduplicate M1 p) c d M1 (fun _ _ => True) HC) as L.
    assert (F : Forall2 (fun x q => True /\ duplicate_matcher (c_next c - 1) m x = pduplicate M1 p q) (c_msgs c) (pc_msgs d)).
    { apply (crel_forall M1); [exact HC|]. intros x q Hin. split; [exact I|]. unfold duplicate_matcher, pduplicate.
      specialize (Hf x q Hin). rewrite Z.eqb_sym in Hf. rewrite Hf. destruct (Nat.eqb p q); [reflexivity|].
      destruct (crel_combine _ _ _ _ _ HC Hin) as [(y & Hy & Sy & Ey) _].
      rewrite (mat_at _ _ _ Hq), (mat_at _ _ _ Hy).
      destruct (Z.eq_dec (m_src (snd x)) 0) as [Z0|Z0]; [|rewrite (Ey Z0); reflexivity].
      unfold msg_duplicate. destruct Sy as (Sy & _). rewrite Sy, Z0. replace (m_src m =? 0) with false by lia. reflexivity. }
    specialize (L F). clear F.
    unfold sim, pbind, plift. cbn [fst snd].
    destruct (cache_lookup (duplicate_matcher (c_next c - 1) m) c) as [[x|]| |], (pcache_lookup (pduplicate M1 p) d) as [[y|]| |]; try contradiction.
    + assert (HR2 : RC R M1 (c, s1) (d, t1)) by (split; assumption). specialize (IH M1 (c, s1) (d, t1) HR2). unfold sim in IH.
      destruct (dup_read fuel mv (c, s1)) as [r s2]. destruct (pdup_read fuel mp (M1, (d, t1))) as [r1 [M2 t2]]. destruct IH as [E2 IH].
      split; [exact E2|]. destruct r as [a| |], r1 as [b| |]; try contradiction; try exact IH. eapply rpost_back; [|exact IH]. exact E.
    + cbn. split; [apply mem_ext_refl|]. split; [split; assumption|]. split; [reflexivity|]. cbn. auto.
    + split; [apply mem_ext_refl|]. split; assumption.
    + split; [apply mem_ext_refl|]. split; assumption.
  - pose proof HC as (F & _). apply f2_length in F. destruct (c_msgs c), (pc_msgs d); try discriminate.
    + apply sim_ret. split; [split; assumption|]. split; [reflexivity|exact I].
    + apply sim_panic. split; assumption.
Qed.
Lemma layer_dup : forall S T (R : list message -> S -> T -> Prop) b1 b2 mv mp fuel,
  layer R b1 b2 mv mp -> layer (RC R) b1 b2 (dup_filter fuel mv) (pdup_filter fuel mp).
Proof.
  intros S T R b1 b2 mv mp fuel H. split.
  - apply (RC_ext _ _ _ _ _ _ _ H).
  - intros M s t HR. apply (dup_read_sim _ _ _ _ _ _ _ H). exact HR.
  - intros M s t p m HR Hz A. apply (cache_write_sim _ _ _ _ _ _ _ H); assumption.
Qed.

(** ** Snoopers *)
Definition RS {S T} (R : list message -> S -> T -> Prop) (M : list message) (x : list sn_line * (cache * S)) (y : list sn_line * (pcache * T)) : Prop :=
  fst x = fst y /\ RC R M (snd x) (snd y).
Lemma print_sim : forall S T (R : list message -> S -> T -> Prop) db M s t p m, RS R M s t -> nth_error M p = Some m ->
  sim (fun M1 s1 t1 (_ _ : unit) => RS R M1 s1 t1 /\ M1 = M) (RS R) M (snoop_print db m) (psnoop_print db p) s t.
Proof.
  intros S T R db M [ls [c s]] [ls1 [d t]] p m (E & HC & HR) Hp. cbn [fst snd] in *. subst ls1.
  unfold snoop_print, psnoop_print, sim, pbind, pload, pmem, pfst, psnd, pget, plow, pstate, plift, pput, pset. cbn [fst snd].
  rewrite Hp. cbn [fst snd].
  destruct (fl_ack (m_flags m)) eqn:Ea; cbn [fst snd option_map].
  - pose proof (cache_lookup_alike (fun x => match_ack m (snd x)) (fun q => match_ack m (mat M q)) c d M
                  (fun x q => m_cmd (snd x) = m_cmd (mat M q)) HC) as L.
    assert (F : Forall2 (fun x q => m_cmd (snd x) = m_cmd (mat M q) /\ match_ack m (snd x) = match_ack m (mat M q)) (c_msgs c) (pc_msgs d)).
    { apply (crel_forall M); [exact HC|]. intros x q Hin. destruct (crel_combine _ _ _ _ _ HC Hin) as [(y & Hy & Sy & _) _].
      rewrite (mat_at _ _ _ Hy). split; [symmetry; apply Sy|]. apply sbh_match_ack. apply sbh_sym. exact Sy. }
    specialize (L F). clear F.
    destruct (cache_lookup _ c) as [[x|]| |], (pcache_lookup _ d) as [[y|]| |]; try contradiction; cbn [fst snd option_map].
    + split; [apply mem_ext_refl|]. split; [|reflexivity]. split; [|split; assumption]. cbn [fst]. do 3 f_equal.
      unfold snoop_what. rewrite Ea. f_equal. exact L.
    + split; [apply mem_ext_refl|]. split; [|reflexivity]. split; [reflexivity|split; assumption].
    + split; [apply mem_ext_refl|]. split; [reflexivity|split; assumption].
    + split; [apply mem_ext_refl|]. split; [reflexivity|split; assumption].
  - split; [apply mem_ext_refl|]. split; [|reflexivity]. split; [reflexivity|split; assumption].
Qed.
Lemma layer_snoop : forall S T (R : list message -> S -> T -> Prop) b1 b2 mv mp db,
  layer R b1 b2 mv mp -> layer (RS R) true b2 (snoop_filter db mv) (psnoop_filter db mp).
Proof.
  intros S T R b1 b2 mv mp db H. split.
  - intros M M1 s t E (A & B). split; [exact A|]. eapply RC_ext; eassumption.
  - intros M [ls s] [ls1 t] [E HR]. cbn [fst snd] in *. subst ls1. unfold snoop_filter, psnoop_filter. cbn [mw_read pm_read]. unfold snoop_read, psnoop_read, cache_filter. cbn [mw_read].
    eapply sim_bind.
    { eapply (sim_low _ _ _ _ _ _ (fun _ a b => a = b) _ (RC R)); [apply (cache_read_sim _ _ _ _ _ _ _ H); exact HR|reflexivity]. }
    intros [a e] [q e1] M1 [l1 s1] [l2 t1] E ([E1 E2] & (HR1 & He & Hq) & _). cbn [fst snd] in *. subst l1 l2 e1. cbv beta iota.
    destruct e as [e|]; [apply sim_ret; split; [split; [reflexivity|exact HR1]|split; [reflexivity|exact Hq]]|].
    destruct a as [m|], q as [p|]; try contradiction; [|apply sim_panic; split; [reflexivity|exact HR1]].
    destruct Hq as (Hq & Hf & Hs).
    eapply sim_bind; [apply print_sim; [split; [reflexivity|exact HR1]|exact Hq]|].
    intros _ _ M2 s2 t2 _ [HR2 ->]. apply sim_ret. split; [exact HR2|]. split; [reflexivity|]. cbn. auto.
  - intros M s t p m HR Hz (x & Hx & ->). unfold snoop_filter, psnoop_filter. cbn [mw_write pm_write]. unfold snoop_write, psnoop_write, cache_filter. cbn [mw_write].
    eapply sim_bind; [apply print_sim; [exact HR|exact Hx]|].
    intros _ _ M0 [ls s0] [ls1 t0] _ [[E0 HR0] ->]. cbn [fst snd] in *. subst ls1.
    assert (A : at_ b1 m M p) by (exists m; split; [exact Hx|destruct b1; [reflexivity|apply sbh_refl]]).
    eapply sim_bind.
    { eapply (sim_low _ _ _ _ _ _ (fun _ a b => a = b) _ (RC R)); [apply (cache_write_sim _ _ _ _ _ _ _ H); eassumption|reflexivity]. }
    intros [a e] [q e1] M1 [l1 s1] [l2 t1] E ([E1 E2] & HR1 & A1 & He & Hq). cbn [fst snd] in *. subst l1 l2 e1. cbv beta iota.
    destruct a as [y|], q as [z|]; try contradiction.
    + eapply sim_bind; [apply print_sim; [split; [reflexivity|exact HR1]|exact Hq]|].
      intros _ _ M2 s2 t2 _ [HR2 ->]. apply sim_ret. split; [exact HR2|]. split; [exact A1|]. split; [reflexivity|exact Hq].
    + apply sim_ret. split; [split; [reflexivity|exact HR1]|]. split; [exact A1|]. split; [reflexivity|exact I].
Qed.

(** ** Chains *)
Fixpoint chain_rel {W} (I : W -> Prop) (ch : list fkind) : list message -> vstate W ch -> pmstate W ch -> Prop :=
  match ch return list message -> vstate W ch -> pmstate W ch -> Prop with
  | [] => fun _ s t => s = t /\ I s
  | FTtl _ :: r => chain_rel I r
  | FDup :: r => RC (chain_rel I r)
  | FRetry _ :: r => chain_rel I r
  | FSnoop _ :: r => RS (chain_rel I r)
  end.
(** Whether the filters need the very message, and whether they leave it as it is. *)
Definition is_ttl (f : fkind) : bool := match f with FTtl _ => true | _ => false end.
Fixpoint exacting (ch : list fkind) : bool :=
  match ch with [] => true | FTtl _ :: _ => false | FSnoop _ :: _ => true | FDup :: r | FRetry _ :: r => exacting r end.
Definition keeping (ch : list fkind) : bool := negb (existsb is_ttl ch).
Fixpoint steadyb (ch : list fkind) : bool :=
  match ch with
  | [] => true
  | FRetry _ :: r => Bool.eqb (exacting r) (keeping r) && steadyb r
  | _ :: r => steadyb r
  end.
Lemma chain_layer : forall W (I : W -> Prop) fuel (base : mwriter W), from_others I base -> forall ch, steadyb ch = true ->
  layer (chain_rel I ch) (exacting ch) (keeping ch) (vchain fuel base ch) (pchain fuel base ch).
Proof.
  intros W I fuel base Hb. induction ch as [|f r IH]; intros H.
  - apply layer_base. exact Hb.
  - destruct f; cbn [steadyb] in H.
    + eapply layer_ttl. apply IH. exact H.
    + apply layer_dup. apply IH. exact H.
    + apply andb_prop in H. destruct H as [H1 H2]. apply Bool.eqb_prop in H1.
      specialize (IH H2). change (exacting (FRetry tries :: r)) with (exacting r). change (keeping (FRetry tries :: r)) with (keeping r).
      rewrite <- H1 in *. apply layer_retry. exact IH.
    + eapply layer_snoop. apply IH. exact H.
Qed.
Lemma exacting_split : forall ch, exacting ch <> keeping ch ->
  exists b db c t d, ch = b ++ FSnoop db :: c ++ FTtl t :: d /\ existsb is_ttl b = false.
Proof.
  induction ch as [|f r IH]; intros H; [contradiction H; reflexivity|]. destruct f.
  - contradiction H. reflexivity.
  - destruct IH as (b & db & c & t & d & -> & E); [intros K; apply H; exact K|]. exists (FDup :: b), db, c, t, d. split; [reflexivity|exact E].
  - destruct IH as (b & db & c & t & d & -> & E); [intros K; apply H; exact K|]. exists (FRetry tries :: b), db, c, t, d. split; [reflexivity|exact E].
  - unfold keeping in H. cbn [existsb is_ttl orb exacting] in H.
    destruct (existsb is_ttl r) eqn:E; [|contradiction H; reflexivity].
    apply existsb_exists in E. destruct E as (g & Hg & Eg). destruct g; try discriminate.
    apply in_split in Hg. destruct Hg as (c & d & ->). exists [], db, c, ttl, d. split; reflexivity.
Qed.
Lemma steady_steadyb : forall ch, steady ch -> steadyb ch = true.
Proof.
  induction ch as [|f r IH]; intros H; [reflexivity|].
  assert (Hr : steadyb r = true).
  { apply IH. intros a n b db c t d E. apply (H (f :: a) n b db c t d). now rewrite E. }
  destruct f; cbn [steadyb]; try exact Hr. rewrite Hr, andb_true_r.
  destruct (Bool.eqb (exacting r) (keeping r)) eqn:E; [reflexivity|]. exfalso.
  apply Bool.eqb_false_iff in E. apply exacting_split in E. destruct E as (b & db & c & t & d & -> & E).
  destruct (H [] tries b db c t d eq_refl) as [t1 Ht].
  assert (existsb is_ttl b = true) by (apply existsb_exists; exists (FTtl t1); split; [exact Ht|reflexivity]). congruence.
Qed.
Lemma chain_rel_init : forall W (I : W -> Prop) (w : W) M ch, I w -> chain_rel I ch M (vinit w ch) (pinit w ch).
Proof.
  intros W I w M ch Hw. induction ch as [|f r IH]; [split; [reflexivity|exact Hw]|]. destruct f; cbn; try exact IH.
  - split; [repeat split; constructor|exact IH].
  - split; [reflexivity|]. split; [repeat split; constructor|exact IH].
Qed.
Lemma chain_rel_shown : forall W (I : W -> Prop) M ch (s : vstate W ch) (t : pmstate W ch), chain_rel I ch M s t -> pshown ch t = vshown ch s.
Proof.
  intros W I M. induction ch as [|f r IH]; intros s t H; [cbn in *; destruct H; congruence|]. destruct f; cbn in *; try (apply IH; exact H).
  - apply IH. apply H.
  - destruct s as [l [c s]], t as [l1 [d t]]. destruct H as (E & _ & H). cbn in E, H. subst l1. cbn. specialize (IH _ _ H).
    destruct (pshown r t), (vshown r s). congruence.
Qed.

Lemma do_mop_sim : forall S T (R : list message -> S -> T -> Prop) b1 b2 mv mp, layer R b1 b2 mv mp ->
  forall o M s t, R M s t -> (forall m, o = DoWrite m -> m_src m = 0) ->
  sim (fun M1 s1 t1 a b => R M1 s1 t1 /\ a = b) R M (do_op mv o) (do_mop mp o) s t.
Proof.
  intros S T R b1 b2 mv mp H o M s t HR Ho.
  assert (LK : forall M1 s1 t1 (a : option message) (q : option nat) (e : option error), R M1 s1 t1 ->
            match a, q with None, None => True | Some m, Some p => nth_error M1 p = Some m | _, _ => False end ->
            sim (fun M2 s2 t2 a b => R M2 s2 t2 /\ a = b) R M1 (pret (a, e)) (pbind (look q) (fun m => pret (m, e))) s1 t1).
  { intros M1 s1 t1 a q e HR1 Hq. destruct a as [m|], q as [p|]; try contradiction; unfold sim, pbind, look, pret, pload; cbn [fst].
    - unfold pbind. cbn [fst]. rewrite Hq. split; [apply mem_ext_refl|]. split; [exact HR1|reflexivity].
    - split; [apply mem_ext_refl|]. split; [exact HR1|reflexivity]. }
  destruct o as [|m]; cbn [do_op do_mop].
  - assert (G : forall P, sim P R M (pbind (mw_read mv) (fun a => pret a)) (pbind (pm_read mp) (fun '(p, e) => do m <- look p ;; pret (m, e))) s t ->
              sim P R M (mw_read mv) (pbind (pm_read mp) (fun '(p, e) => do m <- look p ;; pret (m, e))) s t).
    { intros P K. unfold sim, pbind at 1, pret at 1 in K. unfold sim. destruct (mw_read mv s) as [[a| |] s1]; exact K. }
    apply G. clear G. eapply sim_bind; [apply (ly_read _ _ _ _ _ H); exact HR|].
    intros [a e] [q e1] M1 s1 t1 E (HR1 & He & Hq). cbn [fst snd] in *. subst e1. cbv beta iota. apply LK; [exact HR1|].
    destruct a, q; auto. apply Hq.
  - assert (G : forall P, sim P R (M ++ [m]) (pbind (mw_write mv m) (fun a => pret a)) (pbind (pm_write mp (length M)) (fun '(p, e) => do m <- look p ;; pret (m, e))) s t ->
              sim P R M (mw_write mv m) (pbind (palloc m) (fun q => pbind (pm_write mp q) (fun '(p, e) => do m <- look p ;; pret (m, e)))) s t).
    { intros P K. unfold sim, pbind at 1, pret at 1 in K. unfold sim. unfold pbind at 1, palloc. cbn [fst snd].
      destruct (pbind (pm_write mp (length M)) _ (M ++ [m], t)) as [r1 [M2 t2]].
      assert (E : mem_ext M (M ++ [m])) by apply mem_ext_app.
      destruct (mw_write mv m s) as [[a| |] s1]; (destruct K as [E2 K]; split; [eapply mem_ext_trans; eassumption|exact K]). }
    apply G. clear G. eapply sim_bind.
    { apply (ly_write _ _ _ _ _ H); [eapply ly_ext; [exact H|apply mem_ext_app|exact HR]|apply Ho; reflexivity|].
      exists m. split; [rewrite nth_error_app2, Nat.sub_diag by lia; reflexivity|]. destruct b1; [reflexivity|apply sbh_refl]. }
    intros [a e] [q e1] M1 s1 t1 E (HR1 & _ & He & Hq). cbn [fst snd] in *. subst e1. cbv beta iota. apply LK; [exact HR1|]. exact Hq.
Qed.
Lemma do_mops_sim : forall S T (R : list message -> S -> T -> Prop) b1 b2 mv mp, layer R b1 b2 mv mp ->
  forall ops M s t, R M s t -> own_messages ops -> sim (fun M1 s1 t1 a b => R M1 s1 t1 /\ a = b) R M (do_ops mv ops) (do_mops mp ops) s t.
Proof.
  intros S T R b1 b2 mv mp H. induction ops as [|o ops IH]; intros M s t HR Ho; cbn [do_ops do_mops]; [apply sim_ret; split; [exact HR|reflexivity]|].
  eapply sim_bind; [eapply do_mop_sim; [exact H|exact HR|]; intros m E; apply Ho; left; exact E|].
  intros a b M1 s1 t1 _ [HR1 <-]. eapply sim_bind; [apply IH; [exact HR1|]; intros m Hm; apply Ho; right; exact Hm|].
  intros l k M2 s2 t2 _ [HR2 <-]. apply sim_ret. split; [exact HR2|reflexivity].
Qed.
