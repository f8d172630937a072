From Coq Require Import ZArith List Bool Lia ZifyBool ZifyNat.
From Verif Require Import GoBase GoLemmas GoProg Message MessageSpec MessageProofs MsgWriter Filters FiltersSpec.
Import ListNotations.
Open Scope Z_scope.
Ltac Zify.zify_post_hook ::= Z.div_mod_to_equations.

(** ** Lists *)
Lemma lastn_all : forall A n (l : list A), (length l <= n)%nat -> lastn n l = l.
Proof. intros A n l H. unfold lastn. replace (length l - n)%nat with O by lia. reflexivity. Qed.

Lemma lastn_length : forall A n (l : list A), length (lastn n l) = Nat.min n (length l).
Proof. intros A n l. unfold lastn. rewrite skipn_length. lia. Qed.

Lemma lastn_snoc : forall A n (l : list A) x, lastn (S n) (l ++ [x]) = lastn n l ++ [x].
Proof.
  intros A n l x. unfold lastn. rewrite app_length. cbn [length].
  replace (length l + 1 - S n)%nat with (length l - n)%nat by lia.
  rewrite skipn_app. replace (length l - n - length l)%nat with O by lia. reflexivity.
Qed.

Lemma lastn_tail : forall A n (l : list A), (n < length l)%nat -> exists x, lastn (S n) l = x :: lastn n l.
Proof.
  intros A n l H. unfold lastn.
  assert (Hk : forall k (m : list A), (k < length m)%nat -> exists x, skipn k m = x :: skipn (S k) m).
  { induction k as [|k IH]; intros [|y m] Hm; cbn [length] in Hm; try lia; [exists y; reflexivity|].
    destruct (IH m) as (x & Hx); [lia|]. exists x. cbn [skipn]. rewrite Hx. reflexivity. }
  destruct (Hk (length l - S n)%nat l) as (x & Hx); [lia|]. exists x.
  rewrite Hx. replace (S (length l - S n)) with (length l - n)%nat by lia. reflexivity.
Qed.

Lemma list_set_split : forall A (l : list A) i x, (i < length l)%nat -> list_set l i x = firstn i l ++ x :: skipn (S i) l.
Proof.
  intros A l. induction l as [|y l IH]; intros [|i] x H; cbn in *; try lia; [reflexivity|]. rewrite IH by lia. reflexivity.
Qed.

Lemma nth_error_snoc_firstn : forall A (l : list A) i x, nth_error l i = Some x -> firstn (S i) l = firstn i l ++ [x].
Proof.
  intros A l. induction l as [|y l IH]; intros [|i] x H; cbn in *; try discriminate; [congruence|]. rewrite (IH _ _ H). reflexivity.
Qed.

(** ** The ring *)
(** Oldest first. *)
Definition ring (c : cache) : list cached := skipn (S (Z.to_nat (c_i c))) (c_msgs c) ++ firstn (S (Z.to_nat (c_i c))) (c_msgs c).
(** The representation invariant: [h] is everything pushed, oldest first. *)
Definition cache_inv (n : nat) (h : list cached) (c : cache) : Prop :=
  c_cap c = Z.of_nat n /\ ring c = lastn n h /\ c_next c = zlen h /\ 0 <= c_i c /\
  match c_msgs c with [] => c_i c = 0 | _ => c_i c < zlen (c_msgs c) end /\
  (((length h <= n)%nat /\ (c_msgs c = [] \/ c_i c + 1 = zlen (c_msgs c))) \/ ((length h >= n)%nat /\ length (c_msgs c) = n)).

Lemma ring_length : forall c, length (ring c) = length (c_msgs c).
Proof. intro c. unfold ring. rewrite app_length, skipn_length, firstn_length. lia. Qed.

Lemma push_inv : forall n h c m, (1 <= n)%nat -> cache_inv n h c ->
  exists c', cache_push c m = Ret c' /\ cache_inv n (h ++ [(zlen h, m)]) c'.
Proof.
  intros n h c m Hn (Hcap & Hring & Hnext & Hi0 & Hi & Hs). unfold cache_push.
  pose proof (ring_length c) as Hrl. rewrite Hring, lastn_length in Hrl. rewrite Hnext.
  assert (Hz : zlen (h ++ [(zlen h, m)]) = zlen h + 1) by (unfold zlen; rewrite app_length; cbn; lia).
  destruct (zlen (c_msgs c) <? c_cap c) eqn:Eroom.
  - (* room: appending *)
    eexists. split; [reflexivity|]. unfold zlen in Eroom.
    assert (Hall : c_msgs c = h).
    { destruct Hs as [[Hl Hs]|[Hl Hs]]; [|lia]. rewrite (lastn_all _ n h Hl) in Hring. rewrite <- Hring. unfold ring.
      destruct Hs as [Hs|Hs].
      - rewrite Hs. reflexivity.
      - unfold zlen in Hs. replace (S (Z.to_nat (c_i c))) with (length (c_msgs c)) by lia.
        rewrite skipn_all, firstn_all. reflexivity. }
    assert (Hidx : Z.to_nat (if 0 <? zlen (c_msgs c) then c_i c + 1 else c_i c) = length h).
    { rewrite <- Hall. unfold zlen in *. destruct Hs as [[_ [Hs|Hs]]|[_ Hs]]; [| |lia].
      - rewrite Hs in *. cbn. lia.
      - destruct (0 <? Z.of_nat (length (c_msgs c))) eqn:E0; lia. }
    assert (Hln : (length h + 1 <= n)%nat) by (rewrite <- Hall; lia).
    assert (Hpos : 0 <= (if 0 <? zlen (c_msgs c) then c_i c + 1 else c_i c)) by (destruct (0 <? zlen (c_msgs c)); lia).
    set (idx := if 0 <? zlen (c_msgs c) then c_i c + 1 else c_i c) in *. clearbody idx.
    split; [exact Hcap|]. unfold ring. cbn [c_i c_msgs c_next c_cap]. rewrite Hidx, Hall.
    assert (El : length (h ++ [(zlen h, m)]) = S (length h)) by (rewrite app_length; cbn; lia).
    split; [|split; [symmetry; exact Hz|split; [lia|split]]].
    + rewrite lastn_all by lia. rewrite <- El, skipn_all, firstn_all. reflexivity.
    + destruct (h ++ [(zlen h, m)]) eqn:E; [destruct h; discriminate|]. unfold zlen. rewrite El. lia.
    + left. split; [lia|]. right. unfold zlen at 1. rewrite El. lia.
  - (* full: overwriting the oldest *)
    unfold zlen in Eroom.
    assert (Hfull : length (c_msgs c) = n) by lia.
    assert (Hhn : (n <= length h)%nat) by lia.
    destruct (c_msgs c) as [|y0 t0] eqn:Em; [cbn in Hfull; lia|]. rewrite <- Em in *.
    assert (Hnz : 0 <? zlen (c_msgs c) = true) by (unfold zlen; rewrite Em; cbn [length]; lia).
    rewrite Hnz. unfold zlen in Hi.
    set (i1 := if c_i c + 1 =? zlen (c_msgs c) then 0 else c_i c + 1).
    assert (Hi1 : 0 <= i1 < Z.of_nat (length (c_msgs c))) by (subst i1; unfold zlen; destruct (c_i c + 1 =? Z.of_nat (length (c_msgs c))) eqn:E; lia).
    replace ((0 <=? i1) && (i1 <? zlen (c_msgs c))) with true by (unfold zlen; lia).
    eexists. split; [reflexivity|].
    assert (Hset : list_set (c_msgs c) (Z.to_nat i1) (zlen h, m) = firstn (Z.to_nat i1) (c_msgs c) ++ (zlen h, m) :: skipn (S (Z.to_nat i1)) (c_msgs c)).
    { apply list_set_split. lia. }
    split; [exact Hcap|]. cbn [c_i c_msgs c_next c_cap].
    split; [|split; [symmetry; exact Hz|split; [lia|]]].
    + unfold ring. cbn [c_i c_msgs]. rewrite Hset.
      assert (Hfl : length (firstn (Z.to_nat i1) (c_msgs c)) = Z.to_nat i1) by (rewrite firstn_length; lia).
      rewrite skipn_app, firstn_app, Hfl.
      rewrite (skipn_all2 (firstn (Z.to_nat i1) (c_msgs c))) by lia.
      rewrite (firstn_all2 (firstn (Z.to_nat i1) (c_msgs c))) by lia.
      replace (S (Z.to_nat i1) - Z.to_nat i1)%nat with 1%nat by lia. cbn [app skipn firstn].
      destruct n as [|n]; [lia|]. rewrite lastn_snoc.
      destruct (lastn_tail _ n h) as (x & Hx); [lia|].
      unfold ring in Hring. rewrite Hx in Hring.
      rewrite app_assoc. f_equal.
      subst i1. destruct (c_i c + 1 =? zlen (c_msgs c)) eqn:E; unfold zlen in E.
      * replace (S (Z.to_nat (c_i c))) with (length (c_msgs c)) in Hring by lia.
        rewrite skipn_all, firstn_all in Hring. cbn [app] in Hring. rewrite Hring. cbn [skipn firstn]. rewrite app_nil_r. reflexivity.
      * replace (Z.to_nat (c_i c + 1)) with (S (Z.to_nat (c_i c))) by lia.
        destruct (skipn (S (Z.to_nat (c_i c))) (c_msgs c)) as [|z t] eqn:Es.
        -- pose proof (skipn_length (S (Z.to_nat (c_i c))) (c_msgs c)) as Hk. rewrite Es in Hk. cbn in Hk. lia.
        -- cbn [app] in Hring. pose proof (f_equal (@tl cached) Hring) as Ht. cbn [tl] in Ht. refine (eq_trans _ Ht). f_equal.
           change (skipn (S (S (Z.to_nat (c_i c)))) (c_msgs c) = t).
           assert (Hss : forall k (l : list cached) z t, skipn k l = z :: t -> skipn (S k) l = t).
           { clear. induction k as [|k IH]; intros [|y l] z t H; try discriminate; [injection H as _ <-; reflexivity|].
             cbn [skipn] in H. change (skipn (S k) l = t). apply (IH _ z). exact H. }
           apply (Hss _ _ z). exact Es.
    + assert (Hl : length (list_set (c_msgs c) (Z.to_nat i1) (zlen h, m)) = length (c_msgs c)).
      { rewrite Hset, app_length. cbn [length]. rewrite firstn_length, skipn_length. lia. }
      split.
      * destruct (list_set (c_msgs c) (Z.to_nat i1) (zlen h, m)) eqn:E; [cbn in Hl; lia|]. unfold zlen. rewrite Hl. lia.
      * right. rewrite Hl, app_length. cbn. lia.
Qed.

(** ** Lookup *)
Lemma go_index_ok : forall A (l : list A) i x, nth_error l (Z.to_nat i) = Some x -> 0 <= i -> go_index l i = Ret x.
Proof.
  intros A l i x H Hi. unfold go_index. assert (Hl : (Z.to_nat i < length l)%nat) by (apply nth_error_Some; congruence).
  replace ((i <? 0) || (zlen l <=? i)) with false by (unfold zlen; lia). rewrite H. reflexivity.
Qed.

Lemma find_app : forall A (p : A -> bool) a b, find p (a ++ b) = match find p a with Some x => Some x | None => find p b end.
Proof. intros A p a b. induction a as [|x a IH]; cbn; [reflexivity|]. destruct (p x); [reflexivity|exact IH]. Qed.

(** Going down from [i] to [j] without wrapping. *)
Lemma lookup_down : forall p msgs d fuel i j, (d < fuel)%nat -> 0 <= j -> i = j + Z.of_nat d -> i < zlen msgs ->
  lookup_loop fuel p msgs i j = Ret (find p (rev (firstn (S d) (skipn (Z.to_nat j) msgs)))).
Proof.
  intros p msgs d. induction d as [|d IH]; intros fuel i j Hf Hj Hi Hl; (destruct fuel as [|fuel]; [lia|]); cbn [lookup_loop];
    replace (i <? 0) with false by lia; unfold zlen in Hl;
    (destruct (nth_error msgs (Z.to_nat i)) as [x|] eqn:Ex; [|apply nth_error_None in Ex; lia]);
    rewrite (go_index_ok _ _ _ _ Ex ltac:(lia)); cbn [bindo].
  - replace (Z.to_nat i) with (Z.to_nat j) in Ex by lia.
    assert (Hs : firstn 1 (skipn (Z.to_nat j) msgs) = [x]).
    { clear - Ex. revert msgs Ex. induction (Z.to_nat j) as [|k IHk]; intros [|y l] H; cbn in *; try discriminate; [congruence|]. apply IHk. exact H. }
    rewrite Hs. cbn. destruct (p x); [reflexivity|]. replace (i =? j) with true by lia. reflexivity.
  - assert (Hs : firstn (S (S d)) (skipn (Z.to_nat j) msgs) = firstn (S d) (skipn (Z.to_nat j) msgs) ++ [x]).
    { apply nth_error_snoc_firstn. rewrite <- Ex. replace (Z.to_nat i) with (Z.to_nat j + S d)%nat by lia.
      clear. revert msgs. induction (Z.to_nat j) as [|k IHk]; intros [|y l]; cbn [skipn plus nth_error]; try reflexivity; apply IHk. }
    rewrite Hs, rev_app_distr. cbn [rev app find]. destruct (p x); [reflexivity|].
    replace (i =? j) with false by lia. apply IH; unfold zlen; lia.
Qed.

Lemma lookup_ring : forall n h c p, cache_inv n h c -> cache_lookup p c = Ret (find p (rev (lastn n h))).
Proof.
  intros n h c p (Hcap & Hring & Hnext & Hi0 & Hi & Hs). rewrite <- Hring. unfold cache_lookup, ring.
  destruct (c_msgs c) as [|y0 t0] eqn:Em; [reflexivity|]. rewrite <- Em in *. unfold zlen in *.
  destruct (c_i c + 1 =? Z.of_nat (length (c_msgs c))) eqn:E.
  - rewrite (lookup_down p (c_msgs c) (Z.to_nat (c_i c))); [|lia|lia|lia|unfold zlen; lia].
    replace (S (Z.to_nat (c_i c))) with (length (c_msgs c)) by lia. change (Z.to_nat 0) with O.
    rewrite skipn_all, firstn_all. cbn [app skipn]. rewrite firstn_all. reflexivity.
  - assert (Hgo : forall fuel, (length (c_msgs c) < fuel)%nat -> lookup_loop fuel p (c_msgs c) (c_i c) (c_i c + 1) =
      Ret (find p (rev (firstn (S (Z.to_nat (c_i c))) (c_msgs c)) ++ rev (skipn (S (Z.to_nat (c_i c))) (c_msgs c))))).
    { assert (Hd : forall d fuel i, (d <= Z.to_nat (c_i c) + 1)%nat -> (d + (length (c_msgs c) - 1 - Z.to_nat (c_i c)) <= fuel)%nat ->
        i = Z.of_nat d - 1 -> lookup_loop fuel p (c_msgs c) i (c_i c + 1) =
        Ret (find p (rev (firstn d (c_msgs c)) ++ rev (skipn (S (Z.to_nat (c_i c))) (c_msgs c))))).
      { induction d as [|d IH]; intros fuel i Hdi Hf Hii.
        - cbn [firstn rev app]. subst i. destruct fuel as [|fuel]; [lia|].
          assert (E1 : lookup_loop (S fuel) p (c_msgs c) (Z.of_nat 0 - 1) (c_i c + 1) = lookup_loop (S fuel) p (c_msgs c) (zlen (c_msgs c) - 1) (c_i c + 1)).
          { cbn [lookup_loop]. change (Z.of_nat 0 - 1 <? 0) with true. cbv iota.
            replace (zlen (c_msgs c) - 1 <? 0) with false by (unfold zlen; lia). reflexivity. }
          rewrite E1. rewrite (lookup_down p (c_msgs c) (length (c_msgs c) - 1 - Z.to_nat (c_i c + 1))%nat); [|lia|lia|unfold zlen; lia|unfold zlen; lia].
          replace (Z.to_nat (c_i c + 1)) with (S (Z.to_nat (c_i c))) by lia.
          replace (S (length (c_msgs c) - 1 - S (Z.to_nat (c_i c)))) with (length (skipn (S (Z.to_nat (c_i c))) (c_msgs c))) by (rewrite skipn_length; lia).
          rewrite firstn_all. reflexivity.
        - destruct fuel as [|fuel]; [lia|]. cbn [lookup_loop]. replace (i <? 0) with false by lia.
          destruct (nth_error (c_msgs c) (Z.to_nat i)) as [x|] eqn:Ex; [|apply nth_error_None in Ex; lia].
          rewrite (go_index_ok _ _ _ _ Ex ltac:(lia)). cbn [bindo].
          replace (Z.to_nat i) with d in Ex by lia. rewrite (nth_error_snoc_firstn _ _ _ _ Ex), rev_app_distr. cbn [rev app find].
          destruct (p x); [reflexivity|]. replace (i =? c_i c + 1) with false by lia. apply IH; lia. }
      intros fuel Hf. apply Hd; lia. }
    rewrite Hgo by lia. rewrite rev_app_distr. reflexivity.
Qed.

(** ** Histories of messages *)
Definition tagged (h : list message) : list cached := combine (zrange_from 0 (length h)) h.
Definition cinv (n : nat) (h : list message) (c : cache) : Prop := cache_inv n (tagged h) c.

Lemma zrange_snoc : forall n a, zrange_from a (S n) = zrange_from a n ++ [a + Z.of_nat n].
Proof.
  induction n as [|n IH]; intro a.
  - cbn. rewrite Z.add_0_r. reflexivity.
  - cbn [zrange_from app]. f_equal. change (zrange_from (a + 1) (S n) = zrange_from (a + 1) n ++ [a + Z.of_nat (S n)]).
    rewrite IH. f_equal. f_equal. lia.
Qed.

Lemma zrange_length : forall n a, length (zrange_from a n) = n.
Proof. induction n as [|n IH]; intro a; cbn; [reflexivity|]. rewrite IH. reflexivity. Qed.

Lemma combine_snoc : forall A B (a : list A) (b : list B) x y, length a = length b -> combine (a ++ [x]) (b ++ [y]) = combine a b ++ [(x, y)].
Proof.
  intros A B a. induction a as [|u a IH]; intros [|v b] x y H; cbn in *; try discriminate; [reflexivity|]. rewrite IH by congruence. reflexivity.
Qed.

Lemma tagged_snoc : forall h m, tagged (h ++ [m]) = tagged h ++ [(zlen h, m)].
Proof.
  intros h m. unfold tagged. rewrite app_length. cbn [length]. replace (length h + 1)%nat with (S (length h)) by lia.
  rewrite zrange_snoc, combine_snoc by apply zrange_length. reflexivity.
Qed.

Lemma tagged_snd : forall h, map snd (tagged h) = h.
Proof.
  intro h. induction h as [|m h IH] using rev_ind; [reflexivity|]. rewrite tagged_snoc, map_app, IH. reflexivity.
Qed.

Lemma tagged_length : forall h, length (tagged h) = length h.
Proof. intro h. rewrite <- (map_length snd (tagged h)), tagged_snd. reflexivity. Qed.

Lemma tagged_below : forall h x, In x (tagged h) -> fst x < zlen h.
Proof.
  intro h. induction h as [|m h IH] using rev_ind; intros x H; [destruct H|].
  rewrite tagged_snoc in H. unfold zlen in *. rewrite app_length. cbn [length]. apply in_app_or in H. destruct H as [H|[<-|[]]].
  - specialize (IH x H). lia.
  - cbn [fst]. lia.
Qed.

Lemma lastn_map : forall A B (f : A -> B) n l, map f (lastn n l) = lastn n (map f l).
Proof.
  intros A B f n l. unfold lastn. rewrite map_length.
  generalize (length l - n)%nat as k. revert l. intros l k. revert l. induction k as [|k IH]; intros [|x l]; cbn; auto.
Qed.

Lemma lastn_In : forall A n (l : list A) x, In x (lastn n l) -> In x l.
Proof.
  intros A n l x H. unfold lastn in H. rewrite <- (firstn_skipn (length l - n) l). apply in_or_app. right. exact H.
Qed.

Lemma cinv_push : forall n h c m, (1 <= n)%nat -> cinv n h c -> exists c', cache_push c m = Ret c' /\ cinv n (h ++ [m]) c'.
Proof.
  intros n h c m Hn H. destruct (push_inv n (tagged h) c m Hn H) as (c' & H1 & H2). exists c'. split; [exact H1|].
  unfold cinv. rewrite tagged_snoc. unfold zlen in *. rewrite tagged_length in H2. exact H2.
Qed.

Lemma cinv_push_opt : forall n h c m, (1 <= n)%nat -> cinv n h c ->
  exists c', cache_push_opt c m = Ret c' /\ cinv n (h ++ match m with Some x => [x] | None => [] end) c'.
Proof.
  intros n h c [m|] Hn H; cbn [cache_push_opt]; [apply cinv_push; assumption|]. exists c. rewrite app_nil_r. auto.
Qed.

Lemma new_cache_cinv : forall size msgs, let n := Z.to_nat (Z.max size (zlen msgs)) in (1 <= n)%nat ->
  exists c, new_cache size msgs = Ret c /\ cinv n msgs c.
Proof.
  intros size msgs n Hn. unfold new_cache. subst n. unfold zlen in *.
  set (size1 := if size <? Z.of_nat (length msgs) then Z.of_nat (length msgs) else size).
  assert (Hs : size1 = Z.max size (Z.of_nat (length msgs))) by (subst size1; destruct (size <? Z.of_nat (length msgs)) eqn:E; lia).
  rewrite Hs. replace (Z.max size (Z.of_nat (length msgs)) <? 0) with false by lia.
  eexists. split; [reflexivity|]. unfold cinv, cache_inv. fold (tagged msgs). cbn [c_cap c_i c_msgs c_next].
  unfold zlen. rewrite tagged_length.
  split; [lia|]. split; [|split; [reflexivity|]].
  - unfold ring. cbn [c_i c_msgs]. rewrite lastn_all by (rewrite tagged_length; lia).
    destruct (Z.of_nat (length msgs) =? 0) eqn:E0.
    + destruct msgs; [reflexivity|cbn [length] in E0; lia].
    + replace (S (Z.to_nat (Z.of_nat (length msgs) - 1))) with (length (tagged msgs)) by (rewrite tagged_length; lia).
      rewrite skipn_all, firstn_all. reflexivity.
  - destruct (Z.of_nat (length msgs) =? 0) eqn:E0.
    + destruct msgs; [|cbn [length] in E0; lia]. cbn. split; [lia|]. split; [reflexivity|]. left. split; [lia|auto].
    + split; [lia|]. split; [destruct (tagged msgs) eqn:E; [pose proof (tagged_length msgs) as Hl; rewrite E in Hl; cbn in Hl; lia|lia]|].
      left. split; [lia|]. right. lia.
Qed.

(** A lookup by message: the most recent match among the last [n]. *)
Lemma find_map : forall A B (f : A -> B) (p : B -> bool) l, option_map f (find (fun x => p (f x)) l) = find p (map f l).
Proof. intros A B f p l. induction l as [|x l IH]; cbn; [reflexivity|]. destruct (p (f x)); [reflexivity|exact IH]. Qed.

Lemma cinv_lookup : forall n h c (p : message -> bool), cinv n h c ->
  exists r, cache_lookup (fun x => p (snd x)) c = Ret r /\ option_map snd r = find p (rev (lastn n h)).
Proof.
  intros n h c p H. eexists. split; [apply (lookup_ring n (tagged h)); exact H|].
  rewrite find_map, map_rev, lastn_map, tagged_snd. reflexivity.
Qed.

Lemma cinv_contents : forall n h c, cinv n h c -> exists a b, map snd (c_msgs c) = b ++ a /\ lastn n h = a ++ b.
Proof.
  intros n h c (_ & Hring & _). exists (map snd (skipn (S (Z.to_nat (c_i c))) (c_msgs c))), (map snd (firstn (S (Z.to_nat (c_i c))) (c_msgs c))).
  split; [rewrite <- map_app, firstn_skipn; reflexivity|].
  rewrite <- map_app. fold (ring c). rewrite Hring, lastn_map, tagged_snd. reflexivity.
Qed.

(** ** The cache filter over an arbitrary message writer *)
Lemma mlogged_read : forall W (mw : mwriter W) w l,
  mw_read (mlogged mw) (w, l) = match mw_read mw w with (r, w1) => (r, (w1, l ++ [MR r])) end.
Proof. reflexivity. Qed.
Lemma mlogged_write : forall W (mw : mwriter W) m w l,
  mw_write (mlogged mw) m (w, l) = match mw_write mw m w with (r, w1) => (r, (w1, l ++ [MW m r])) end.
Proof. reflexivity. Qed.
Lemma passed_app : forall a b, passed (a ++ b) = passed a ++ passed b.
Proof. intros a b. apply flat_map_app. Qed.

Lemma cache_op : forall W (mw : mwriter W) n o c w log h, (1 <= n)%nat -> cinv n (h ++ passed log) c ->
  exists e r w' , do_op (mlogged mw) o (w, log) = (r, (w', log ++ [e])) /\ ev_result e = r /\
    match r with
    | Ret x => exists c', do_op (cache_filter (mlogged mw)) o (c, (w, log)) = (Ret x, (c', (w', log ++ [e]))) /\ cinv n (h ++ passed (log ++ [e])) c'
    | Panic => exists c', do_op (cache_filter (mlogged mw)) o (c, (w, log)) = (Panic, (c', (w', log ++ [e])))
    | NoFuel => exists c', do_op (cache_filter (mlogged mw)) o (c, (w, log)) = (NoFuel, (c', (w', log ++ [e])))
    end.
Proof.
  intros W mw n o c w log h Hn Hc. destruct o as [|m]; cbn [do_op].
  - rewrite mlogged_read. destruct (mw_read mw w) as [r w'] eqn:Er. exists (MR r), r, w'. split; [reflexivity|]. split; [reflexivity|].
    cbn [cache_filter mw_read]. unfold cache_read, pbind, psnd, pfst, pget, plift, pput. cbn [fst snd]. rewrite mlogged_read, Er.
    destruct r as [[msg err]| |]; try (eexists; reflexivity). cbn [fst snd].
    destruct (cinv_push_opt n _ c msg Hn Hc) as (c' & H1 & H2). rewrite H1. exists c'. split; [reflexivity|].
    rewrite passed_app, app_assoc. destruct msg; cbn [passed flat_map went_by]; rewrite ?app_nil_r in *; exact H2.
  - rewrite mlogged_write. destruct (mw_write mw m w) as [r w'] eqn:Er. exists (MW m r), r, w'. split; [reflexivity|]. split; [reflexivity|].
    cbn [cache_filter mw_write]. unfold cache_write, pbind, psnd, pfst, pget, plift, pput. cbn [fst snd].
    destruct (cinv_push n _ c m Hn Hc) as (c' & H1 & H2). rewrite H1. cbn [fst snd]. rewrite mlogged_write, Er.
    destruct r as [x| |]; try (eexists; reflexivity). exists c'. split; [reflexivity|].
    rewrite passed_app, app_assoc. exact H2.
Qed.

Lemma cache_ops : forall W (mw : mwriter W) n ops c w log h, (1 <= n)%nat -> cinv n (h ++ passed log) c ->
  exists r s t, do_ops (cache_filter (mlogged mw)) ops (c, (w, log)) = (r, s) /\ snd (snd s) = log ++ t /\
    match r with
    | Ret rs => cinv n (h ++ passed (log ++ t)) (fst s) /\ map Ret rs = map ev_result t
    | Panic => In Panic (map ev_result t)
    | NoFuel => In NoFuel (map ev_result t)
    end.
Proof.
  intros W mw n ops. induction ops as [|o ops IH]; intros c w log h Hn Hc; cbn [do_ops].
  - exists (Ret []), (c, (w, log)), []. rewrite app_nil_r. auto.
  - destruct (cache_op W mw n o c w log h Hn Hc) as (e & r & w' & _ & He & H). unfold pbind.
    destruct r as [x| |].
    + destruct H as (c' & H1 & H2). rewrite H1.
      destruct (IH c' w' (log ++ [e]) h Hn H2) as (r & s & t & H3 & H4 & H5). rewrite H3.
      destruct r as [rs| |].
      * exists (Ret (x :: rs)), s, (e :: t). split; [reflexivity|]. split; [rewrite H4, <- app_assoc; reflexivity|].
        rewrite <- app_assoc in H5. cbn [map app] in *. destruct H5 as [H5 H6]. split; [exact H5|]. rewrite H6, He. reflexivity.
      * exists Panic, s, (e :: t). split; [reflexivity|]. split; [rewrite H4, <- app_assoc; reflexivity|]. right. exact H5.
      * exists NoFuel, s, (e :: t). split; [reflexivity|]. split; [rewrite H4, <- app_assoc; reflexivity|]. right. exact H5.
    + destruct H as (c' & H1). rewrite H1. exists Panic, (c', (w', log ++ [e])), [e]. split; [reflexivity|]. split; [reflexivity|]. left. exact He.
    + destruct H as (c' & H1). rewrite H1. exists NoFuel, (c', (w', log ++ [e])), [e]. split; [reflexivity|]. split; [reflexivity|]. left. exact He.
Qed.

(** ** The duplicate filter *)
Lemma duplicate_repetition : forall a b, msg_duplicate a b = repetition a b.
Proof.
  intros a b. unfold msg_duplicate, repetition, fl_max_ttl.
  change 3 with (Z.ones 2). rewrite !Z.land_ones by lia. change (2 ^ 2) with 4.
  assert (E : bytes_eqb (m_payload a) (m_payload b) = if payload_dec (m_payload a) (m_payload b) then true else false).
  { destruct (payload_dec (m_payload a) (m_payload b)) as [->|Hn]; [apply bytes_eqb_refl|].
    destruct (bytes_eqb (m_payload a) (m_payload b)) eqn:E; [|reflexivity]. apply bytes_eqb_eq in E. contradiction. }
  rewrite E. reflexivity.
Qed.

Lemma find_ext_in : forall A (p q : A -> bool) l, (forall x, In x l -> p x = q x) -> find p l = find q l.
Proof.
  intros A p q l H. induction l as [|x l IH]; [reflexivity|]. cbn. rewrite (H x (or_introl eq_refl)).
  destruct (q x); [reflexivity|]. apply IH. intros y Hy. apply H. right. exact Hy.
Qed.

Lemma find_existsb : forall A (p : A -> bool) l, existsb p l = match find p l with Some _ => true | None => false end.
Proof. intros A p l. induction l as [|x l IH]; [reflexivity|]. cbn. destruct (p x); [reflexivity|exact IH]. Qed.

Lemma existsb_rev : forall A (p : A -> bool) l, existsb p (rev l) = existsb p l.
Proof.
  intros A p l. apply eq_true_iff_eq. rewrite !existsb_exists. split; intros (x & Hx & Ex); exists x; split; auto; [apply in_rev|apply in_rev in Hx]; auto.
Qed.

Lemma dup_lookup : forall h c m, cinv 10 (h ++ [m]) c ->
  exists r, cache_lookup (duplicate_matcher (c_next c - 1) m) c = Ret r /\
    existsb (repetition m) (lastn 9 h) = match r with Some _ => true | None => false end.
Proof.
  intros h c m Hc. eexists. split; [apply (lookup_ring 10 (tagged (h ++ [m]))); exact Hc|].
  destruct Hc as (_ & _ & Hnext & _). rewrite Hnext, tagged_snoc.
  assert (Hz : zlen (tagged h ++ [(zlen h, m)]) - 1 = zlen h) by (unfold zlen; rewrite app_length, tagged_length; cbn; lia).
  rewrite Hz, lastn_snoc, rev_app_distr. cbn [rev app find]. unfold duplicate_matcher at 1. cbn [fst]. rewrite Z.eqb_refl.
  rewrite (find_ext_in _ _ (fun x => repetition m (snd x))).
  - rewrite <- (tagged_snd h) at 1. rewrite <- lastn_map, <- existsb_rev, <- map_rev, find_existsb, <- find_map.
    destruct (find (fun x : Z * message => repetition m (snd x)) (rev (lastn 9 (tagged h)))); reflexivity.
  - intros x Hx. apply in_rev, lastn_In, tagged_below in Hx. unfold duplicate_matcher.
    replace (zlen h =? fst x) with false by lia. apply duplicate_repetition.
Qed.

Lemma deliveries_app : forall a h b, deliveries h (a ++ b) = deliveries h a ++ deliveries (h ++ passed a) b.
Proof.
  induction a as [|e a IH]; intros h b; cbn [app deliveries passed flat_map].
  - rewrite app_nil_r. reflexivity.
  - rewrite IH, <- app_assoc. fold (passed a). rewrite <- app_assoc. reflexivity.
Qed.

Lemma dup_read_deliveries : forall W (mw : mwriter W) fuel c w log r c' w' log', cinv 10 (passed log) c ->
  dup_read fuel (mlogged mw) (c, (w, log)) = (Ret r, (c', (w', log'))) ->
  exists t, log' = log ++ t /\ cinv 10 (passed log') c' /\ deliveries (passed log) t = [r].
Proof.
  intros W mw fuel. induction fuel as [|fuel IH]; intros c w log r c' w' log' Hc H; [discriminate|]. cbn [dup_read] in H. unfold pbind at 1 in H.
  destruct (cache_op W mw 10 DoRead c w log [] ltac:(lia) Hc) as (e & o & w1 & H1 & He & H2).
  change (do_op (cache_filter (mlogged mw)) DoRead (c, (w, log))) with (cache_read (mlogged mw) (c, (w, log))) in H2.
  cbn [do_op] in H1. rewrite mlogged_read in H1. destruct (mw_read mw w) as [o1 w1']. apply pair_equal_spec in H1. destruct H1 as [-> H1].
  apply pair_equal_spec in H1. destruct H1 as [_ H1]. apply app_inv_head in H1. injection H1 as <-.
  destruct o as [[msg err]| |].
  2:{ destruct H2 as (c1 & H2). rewrite H2 in H. discriminate. }
  2:{ destruct H2 as (c1 & H2). rewrite H2 in H. discriminate. }
  destruct H2 as (c1 & H2 & Hc1). rewrite H2 in H. cbn [app] in Hc1.
  destruct err as [er|].
  - unfold pret in H. apply pair_equal_spec in H. destruct H as [H H']. injection H as <-. injection H' as <- <- <-.
    exists [MR (Ret (msg, Some er))]. split; [reflexivity|]. split; [exact Hc1|]. cbn [deliveries]. destruct msg; reflexivity.
  - unfold pbind, pfst, pget in H. cbn [fst snd] in H. destruct msg as [m|].
    + unfold plift in H. rewrite passed_app in Hc1. cbn [passed flat_map went_by app] in Hc1.
      destruct (dup_lookup _ c1 m Hc1) as (rr & Hl & Hx). rewrite Hl in H.
      destruct rr as [x|].
      * destruct (IH c1 w1 (log ++ [MR (Ret (Some m, None))]) r c' w' log') as (t & -> & H4 & H5).
        { rewrite passed_app. exact Hc1. } { exact H. }
        exists (MR (Ret (Some m, None)) :: t). split; [rewrite <- app_assoc; reflexivity|]. split; [exact H4|].
        cbn [deliveries went_by]. rewrite Hx. cbn [app]. rewrite passed_app in H5. exact H5.
      * unfold pret in H. apply pair_equal_spec in H. destruct H as [H H']. injection H as <-. injection H' as <- <- <-.
        exists [MR (Ret (Some m, None))]. split; [reflexivity|]. rewrite passed_app. split; [exact Hc1|].
        cbn [deliveries]. rewrite Hx. reflexivity.
    + destruct (c_msgs c1) eqn:Em; [|discriminate]. unfold pret in H. apply pair_equal_spec in H. destruct H as [H H']. injection H as <-. injection H' as <- <- <-.
      exists [MR (Ret (None, None))]. split; [reflexivity|]. split; [exact Hc1|]. reflexivity.
Qed.

Lemma dup_ops_deliveries : forall W (mw : mwriter W) fuel ops c w log rs c' w' log', cinv 10 (passed log) c ->
  do_ops (dup_filter fuel (mlogged mw)) ops (c, (w, log)) = (Ret rs, (c', (w', log'))) ->
  exists t, log' = log ++ t /\ cinv 10 (passed log') c' /\ deliveries (passed log) t = rs.
Proof.
  intros W mw fuel ops. induction ops as [|o ops IH]; intros c w log rs c' w' log' Hc H; cbn [do_ops] in H.
  - unfold pret in H. injection H as <- <- <- <-. exists []. rewrite app_nil_r. auto.
  - unfold pbind in H.
    destruct (do_op (dup_filter fuel (mlogged mw)) o (c, (w, log))) as [[x| |] [c1 [w1 log1]]] eqn:E; try discriminate.
    destruct (do_ops (dup_filter fuel (mlogged mw)) ops (c1, (w1, log1))) as [[xs| |] [c2 [w2 log2]]] eqn:E2; try discriminate.
    unfold pret in H. injection H as <- <- <- <-.
    assert (H1 : exists t, log1 = log ++ t /\ cinv 10 (passed log1) c1 /\ deliveries (passed log) t = [x]).
    { destruct o as [|m]; cbn [do_op dup_filter mw_read mw_write] in E.
      - apply (dup_read_deliveries W mw fuel c w log x c1 w1 log1 Hc E).
      - destruct (cache_op W mw 10 (DoWrite m) c w log [] ltac:(lia) Hc) as (e & r & w' & H1 & He & H2).
        cbn [do_op cache_filter mw_write] in H1, H2. rewrite mlogged_write in H1. destruct (mw_write mw m w) as [r1 w1'].
        apply pair_equal_spec in H1. destruct H1 as [-> H1].
        apply pair_equal_spec in H1. destruct H1 as [_ H1]. apply app_inv_head in H1. injection H1 as <-.
        destruct r as [y| |]; [|destruct H2 as (cc & H2); rewrite H2 in E; discriminate|destruct H2 as (cc & H2); rewrite H2 in E; discriminate].
        destruct H2 as (cc & H2 & H3). rewrite H2 in E. injection E as <- <- <- <-.
        exists [MW m (Ret y)]. split; [reflexivity|]. split; [exact H3|]. reflexivity. }
    destruct H1 as (t1 & -> & Hc1 & Hd1).
    destruct (IH c1 w1 (log ++ t1) xs c2 w2 log2 Hc1 E2) as (t2 & -> & Hc2 & Hd2).
    exists (t1 ++ t2). split; [rewrite app_assoc; reflexivity|]. split; [exact Hc2|].
    rewrite deliveries_app, Hd1. rewrite passed_app in Hd2. rewrite Hd2. reflexivity.
Qed.

Lemma dup_cache_inv : cinv 10 [] dup_cache.
Proof. unfold cinv, cache_inv, dup_cache. cbn. repeat split; try lia. left. split; [lia|auto]. Qed.

(** It never crashes over a writer that always returns and never returns neither message nor error. *)

Lemma dup_read_no_panic : forall W (mw : mwriter W) fuel c w log, returns mw -> informative mw -> cinv 10 (passed log) c ->
  exists r c' w' log', dup_read fuel (mlogged mw) (c, (w, log)) = (r, (c', (w', log'))) /\ r <> Panic /\ (r <> NoFuel -> cinv 10 (passed log') c').
Proof.
  intros W mw fuel. induction fuel as [|fuel IH]; intros c w log Hr Hi Hc.
  - exists NoFuel, c, w, log. split; [reflexivity|]. split; [discriminate|congruence].
  - cbn [dup_read]. unfold pbind at 1.
    destruct (cache_op W mw 10 DoRead c w log [] ltac:(lia) Hc) as (e & o & w1 & H1 & He & H2).
    change (do_op (cache_filter (mlogged mw)) DoRead (c, (w, log))) with (cache_read (mlogged mw) (c, (w, log))) in H2.
    cbn [do_op] in H1. rewrite mlogged_read in H1. destruct Hr as [Hr1 Hr2]. destruct (Hr1 w) as ([msg err] & w2 & Hw). rewrite Hw in H1.
    apply pair_equal_spec in H1. destruct H1 as [<- H1]. apply pair_equal_spec in H1. destruct H1 as [-> H1]. apply app_inv_head in H1. injection H1 as <-.
    destruct H2 as (c1 & H2 & Hc1). rewrite H2. cbn [app] in Hc1. destruct err as [er|].
    + unfold pret. eexists _, _, _, _. split; [reflexivity|]. split; [discriminate|]. intros _. exact Hc1.
    + unfold pbind, pfst, pget. cbn [fst snd]. destruct msg as [m|]; [|exfalso; apply (Hi _ _ Hw)].
      unfold plift. pose proof Hc1 as Hc2. rewrite passed_app in Hc1. cbn [passed flat_map went_by app] in Hc1.
      destruct (dup_lookup _ c1 m Hc1) as (rr & Hl & Hx). rewrite Hl. destruct rr as [x|].
      * apply IH; [split; assumption|exact Hi|exact Hc2].
      * unfold pret. eexists _, _, _, _. split; [reflexivity|]. split; [discriminate|]. intros _. exact Hc2.
Qed.

Lemma dup_ops_no_panic : forall W (mw : mwriter W) fuel ops c w log, returns mw -> informative mw -> cinv 10 (passed log) c ->
  fst (do_ops (dup_filter fuel (mlogged mw)) ops (c, (w, log))) <> Panic.
Proof.
  intros W mw fuel ops. induction ops as [|o ops IH]; intros c w log Hr Hi Hc; cbn [do_ops]; [discriminate|]. unfold pbind.
  destruct o as [|m]; cbn [do_op dup_filter mw_read mw_write].
  - destruct (dup_read_no_panic W mw fuel c w log Hr Hi Hc) as (r & c' & w' & log' & H1 & H2 & H3). rewrite H1.
    destruct r as [x| |]; [|congruence|discriminate]. specialize (IH c' w' log' Hr Hi (H3 ltac:(discriminate))).
    destruct (do_ops (dup_filter fuel (mlogged mw)) ops (c', (w', log'))) as [[xs| |] s]; cbn in *; congruence.
  - destruct (cache_op W mw 10 (DoWrite m) c w log [] ltac:(lia) Hc) as (e & r & w' & H1 & He & H2).
    cbn [do_op cache_filter mw_write] in H1, H2. rewrite mlogged_write in H1. destruct (proj2 Hr m w) as (x & w2 & Hw). rewrite Hw in H1.
    apply pair_equal_spec in H1. destruct H1 as [<- H1]. destruct H2 as (c1 & H2 & Hc1). rewrite H2.
    specialize (IH c1 w' (log ++ [e]) Hr Hi Hc1).
    destruct (do_ops (dup_filter fuel (mlogged mw)) ops (c1, (w', log ++ [e]))) as [[xs| |] s]; cbn in *; congruence.
Qed.

(** ** Retries *)
Lemma retry_writes_log : forall W (mw : mwriter W) fuel t m w log r w' log', (Z.to_nat t < fuel)%nat ->
  retry_writes fuel (mlogged mw) t m (w, log) = (r, (w', log')) ->
  exists pre, log' = log ++ pre ++ [MW m r] /\ Forall (fun e => exists ack, e = MW m (Ret (ack, Some EDevReadTimeout))) pre /\
    zlen pre + 1 <= Z.max 1 t /\ (forall ack, r = Ret (ack, Some EDevReadTimeout) -> zlen pre + 1 = Z.max 1 t).
Proof.
  intros W mw fuel. induction fuel as [|fuel IH]; intros t m w log r w' log' Hf H; [lia|]. cbn [retry_writes] in H. unfold pbind in H.
  rewrite mlogged_write in H. destruct (mw_write mw m w) as [[[ack err]| |] w1].
  - destruct (err_is err EDevReadTimeout) eqn:Et; cbn [negb] in H.
    + destruct err as [e|]; [|discriminate]. apply error_eqb_eq in Et. subst e.
      destruct (1 <? t) eqn:E1.
      * destruct (IH (t - 1) m w1 (log ++ [MW m (Ret (ack, Some EDevReadTimeout))]) r w' log') as (pre & -> & H2 & H3 & H4); [lia|exact H|].
        exists (MW m (Ret (ack, Some EDevReadTimeout)) :: pre). split; [rewrite <- !app_assoc; reflexivity|].
        split; [constructor; eauto|]. unfold zlen in *. cbn [length]. split; [lia|]. intros a Ha. specialize (H4 a Ha). lia.
      * unfold pret in H. injection H as <- <- <-. exists []. split; [reflexivity|]. split; [constructor|]. unfold zlen. cbn [length]. split; lia.
    + unfold pret in H. injection H as <- <- <-. exists []. split; [reflexivity|]. split; [constructor|]. unfold zlen. cbn [length]. split; [lia|].
      intros a Ha. injection Ha as -> ->. discriminate.
  - injection H as <- <- <-. exists []. split; [reflexivity|]. split; [constructor|]. unfold zlen. cbn [length]. split; [lia|discriminate].
  - injection H as <- <- <-. exists []. split; [reflexivity|]. split; [constructor|]. unfold zlen. cbn [length]. split; [lia|discriminate].
Qed.

(** ** TTL *)
Lemma ttl_flags : forall f k e l h ttl, flags_layout f k e l h -> 0 <= ttl <= 3 ->
  flags_layout (fl_set_ttl (fl_set_max_ttl f (byte_of ttl)) (byte_of ttl)) k e ttl ttl.
Proof.
  intros f k e l h ttl (Hl & Hh & Hf) Ht. split; [exact Ht|]. split; [exact Ht|].
  assert (Hc : (ttl = 0 \/ ttl = 1 \/ ttl = 2 \/ ttl = 3) /\ (l = 0 \/ l = 1 \/ l = 2 \/ l = 3) /\ (h = 0 \/ h = 1 \/ h = 2 \/ h = 3)) by lia.
  destruct Hc as (Hc1 & Hc2 & Hc3).
  destruct Hc1 as [->|[->|[->| ->]]], Hc2 as [->|[->|[->| ->]]], Hc3 as [->|[->|[->| ->]]], k, e; rewrite Hf; reflexivity.
Qed.

(** ** Read *)
Lemma read_match_log : forall W (mw : mwriter W) p fuel w log m e w' log',
  read_match fuel (mlogged mw) p (w, log) = (Ret (m, e), (w', log')) ->
  exists pre, log' = log ++ map (fun x => MR (Ret (Some x, None))) pre ++ [MR (Ret (m, e))] /\ Forall (fun x => p x = false) pre /\
    (e = None -> exists x, m = Some x /\ p x = true).
Proof.
  intros W mw p fuel. induction fuel as [|fuel IH]; intros w log m e w' log' H; [discriminate|]. cbn [read_match] in H. unfold pbind in H.
  rewrite mlogged_read in H. destruct (mw_read mw w) as [[[m1 e1]| |] w1]; try discriminate.
  destruct e1 as [e1|].
  - unfold pret in H. injection H as <- <- <- <-. exists []. split; [reflexivity|]. split; [constructor|discriminate].
  - destruct m1 as [x|]; [|discriminate]. destruct (p x) eqn:Ep.
    + unfold pret in H. injection H as <- <- <- <-. exists []. split; [reflexivity|]. split; [constructor|eauto].
    + destruct (IH _ _ _ _ _ _ H) as (pre & -> & H2 & H3). exists (x :: pre). split; [rewrite <- app_assoc; reflexivity|]. auto.
Qed.


Lemma read_match_list : forall err p pre x rest fuel, Forall (fun y => p y = false) pre -> p x = true -> (length pre < fuel)%nat ->
  read_match fuel (list_mw err) p (pre ++ x :: rest) = (Ret (Some x, None), rest).
Proof.
  intros err p pre x rest fuel H Hx. revert fuel. induction H as [|y pre Hy H IH]; intros [|fuel] Hf; cbn [length] in Hf; try lia;
    cbn [read_match app]; unfold pbind; cbn [list_mw mw_read].
  - rewrite Hx. reflexivity.
  - rewrite Hy. apply IH. lia.
Qed.

Lemma read_match_none : forall err p pre fuel, Forall (fun y => p y = false) pre -> (length pre < fuel)%nat ->
  read_match fuel (list_mw err) p pre = (Ret (None, Some err), []).
Proof.
  intros err p pre fuel H. revert fuel. induction H as [|y pre Hy H IH]; intros [|fuel] Hf; cbn [length] in Hf; try lia;
    cbn [read_match]; unfold pbind; cbn [list_mw mw_read].
  - reflexivity.
  - rewrite Hy. apply IH. lia.
Qed.

(** ** Combinators *)
Lemma and_matcher_spec : forall l m, and_matcher l m = true <-> forall p, In p l -> p m = true.
Proof.
  intros l m. induction l as [|p l IH]; cbn [and_matcher In]; [split; [intros _ p []|reflexivity]|].
  destruct (p m) eqn:Ep; cbn [negb].
  - rewrite IH. split; [intros H q [<-|Hq]; auto|intros H q Hq; apply H; right; exact Hq].
  - split; [discriminate|]. intro H. rewrite (H p (or_introl eq_refl)) in Ep. discriminate.
Qed.
Lemma or_matcher_spec : forall l m, or_matcher l m = true <-> exists p, In p l /\ p m = true.
Proof.
  intros l m. induction l as [|p l IH]; cbn [or_matcher In]; [split; [discriminate|intros (p & [] & _)]|].
  destruct (p m) eqn:Ep.
  - split; [eauto|reflexivity].
  - rewrite IH. split; [intros (q & Hq & Hm); eauto|]. intros (q & [<-|Hq] & Hm); [congruence|eauto].
Qed.
