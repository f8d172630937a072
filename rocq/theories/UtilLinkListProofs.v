(** Proofs about the functions of util/link.go that work on lists of links. *)
From Coq Require Import ZArith List Bool Lia ZifyBool ZifyNat.
From Verif Require Import GoBase GoText GoLemmas GoProg Address AddressSpec AddressProofs Link LinkSpec LinkProofs MsgWriter BasicDevice DevLinkdb DevLinkdbSpec DevLinkdbProofs UtilLink UtilLinkSpec UtilLinkProofs.
Import ListNotations.
Open Scope Z_scope.
Ltac Zify.zify_post_hook ::= Z.div_mod_to_equations.

(** ** Duplicates *)
Lemma duplicates_In : forall equal links l, In l (duplicates equal links) <->
  exists i j l1, (i < j)%nat /\ nth_error links i = Some l1 /\ nth_error links j = Some l /\ equal l1 l = true.
Proof.
  intros equal links l. induction links as [|x links IH]; cbn [duplicates].
  - split; [intros []|]. intros (i & j & l1 & _ & H & _). destruct i; discriminate.
  - rewrite in_app_iff, filter_In, IH. split.
    + intros [[Hin He]|(i & j & l1 & H1 & H2 & H3 & H4)].
      * apply In_nth_error in Hin. destruct Hin as [j Hj]. exists O, (S j), x. repeat split; auto. lia.
      * exists (S i), (S j), l1. repeat split; auto. lia.
    + intros (i & j & l1 & H1 & H2 & H3 & H4). destruct j as [|j]; [lia|]. destruct i as [|i].
      * left. injection H2 as ->. split; [eapply nth_error_In; exact H3|exact H4].
      * right. exists i, j, l1. repeat split; auto. lia.
Qed.
(** ** First match *)
Lemma find_first : forall (p : link -> bool) links l, find p links = Some l <-> exists pre post, links = pre ++ l :: post /\ p l = true /\ Forall (fun x => p x = false) pre.
Proof.
  intros p links l. induction links as [|x links IH]; cbn [find].
  - split; [discriminate|]. intros (pre & post & H & _). destruct pre; discriminate.
  - destruct (p x) eqn:E.
    + split; [intro H; injection H as ->; exists [], links; auto|]. intros (pre & post & H & Hp & Hf). destruct pre as [|y pre]; [injection H as -> _; reflexivity|].
      injection H as <- _. inversion Hf. congruence.
    + rewrite IH. split.
      * intros (pre & post & -> & Hp & Hf). exists (x :: pre), post. repeat split; auto.
      * intros (pre & post & H & Hp & Hf). destruct pre as [|y pre]; [injection H as -> _; congruence|]. injection H as <- ->. inversion Hf; subst. exists pre, post. auto.
Qed.

(** ** Anonymising *)
Lemma filter_filter_in : forall a b (l : list Z), filter (fun x => negb (x =? a)) (filter (fun x => negb (x =? b)) l) = filter (fun x => negb (x =? b)) (filter (fun x => negb (x =? a)) l).
Proof.
  intros a b l. induction l as [|x l IH]; [reflexivity|]. cbn [filter]. destruct (negb (x =? b)) eqn:Eb; destruct (negb (x =? a)) eqn:Ea; cbn [filter]; rewrite ?Ea, ?Eb, IH; reflexivity.
Qed.
Lemma addr_find_some : forall ix a v, addr_find a ix = Some v -> In (a, v) ix.
Proof. induction ix as [|[k v'] ix IH]; intros a v H; [discriminate|]. cbn [addr_find] in H. destruct (k =? a) eqn:E; [injection H as ->; left; f_equal; lia|right; apply IH; exact H]. Qed.
(** The addresses not yet in the index, in order of first appearance. *)
Definition unseen (ix : list (Z * Z)) (l : list Z) : list Z := filter (fun a => match addr_find a ix with Some _ => false | None => true end) (appearances l).
Definition masked (rnd : nat -> Z) (k : nat) : Z := Z.land 0x00ffffff (rnd k).
Definition supply (rnd : nat -> Z) (used : nat) (repl : list Z) (n : nat) : list Z := firstn n (repl ++ map (masked rnd) (seq used n)).

Lemma supply_nil : forall rnd used n, supply rnd used [] n = map (masked rnd) (seq used n).
Proof. intros rnd used n. unfold supply. cbn [app]. apply firstn_all2. rewrite map_length, seq_length. lia. Qed.
Lemma supply_repl : forall rnd used a repl n, supply rnd used (a :: repl) (S n) = a :: supply rnd used repl n.
Proof.
  intros rnd used a repl n. unfold supply. cbn [app firstn]. f_equal. rewrite (seq_S n used), map_app, app_assoc, firstn_app. rewrite app_length, map_length, seq_length.
  replace (n - (length repl + n))%nat with O by lia. cbn [firstn]. apply app_nil_r.
Qed.
Lemma filter_ext_in' : forall (f g : Z -> bool) l, (forall a, In a l -> f a = g a) -> filter f l = filter g l.
Proof. intros f g l H. apply filter_ext_in. exact H. Qed.
Lemma filter_and : forall (f g : Z -> bool) l, filter f (filter g l) = filter (fun x => f x && g x) l.
Proof.
  intros f g l. induction l as [|x l IH]; [reflexivity|]. cbn [filter]. destruct (g x); cbn [filter]; [|rewrite andb_false_r; exact IH]. rewrite andb_true_r. destruct (f x); rewrite IH; reflexivity.
Qed.

(** The result is given by one function of the address, which extends the index and takes new addresses from the supply. *)
Lemma anonymize_loop_spec : forall rnd links used ix repl,
  exists f, anonymize_loop rnd used ix repl links = map (fun l => with_addr (f (l_addr l)) l) links /\
    (forall a v, addr_find a ix = Some v -> f a = v) /\
    map f (unseen ix (map l_addr links)) = supply rnd used repl (length (unseen ix (map l_addr links))).
Proof.
  intros rnd links. induction links as [|l links IH]; intros used ix repl; cbn [anonymize_loop].
  - exists (fun a => match addr_find a ix with Some v => v | None => 0 end). split; [reflexivity|]. split; [intros a v ->; reflexivity|]. reflexivity.
  - destruct (addr_find (l_addr l) ix) as [v|] eqn:Ef.
    + destruct (IH used ix repl) as (f & H1 & H2 & H3). exists f. cbn [map]. split; [rewrite (H2 _ _ Ef); f_equal; exact H1|]. split; [exact H2|].
      assert (Hu : unseen ix (l_addr l :: map l_addr links) = unseen ix (map l_addr links)).
      { unfold unseen. cbn [appearances filter]. rewrite Ef, filter_and. apply filter_ext. intro a. destruct (addr_find a ix) eqn:Ea; [reflexivity|].
        destruct (Z.eqb_spec a (l_addr l)) as [->|]; [congruence|reflexivity]. }
      rewrite Hu. exact H3.
    + assert (Hstep : forall v used' repl', (forall n, supply rnd used repl (S n) = v :: supply rnd used' repl' n) ->
        exists f, with_addr v l :: anonymize_loop rnd used' ((l_addr l, v) :: ix) repl' links = map (fun l => with_addr (f (l_addr l)) l) (l :: links) /\
          (forall a x, addr_find a ix = Some x -> f a = x) /\
          map f (unseen ix (map l_addr (l :: links))) = supply rnd used repl (length (unseen ix (map l_addr (l :: links))))).
      { intros v used' repl' Hsup. destruct (IH used' ((l_addr l, v) :: ix) repl') as (f & H1 & H2 & H3). exists f.
        assert (Hv : f (l_addr l) = v) by (apply H2; cbn [addr_find]; rewrite Z.eqb_refl; reflexivity).
        split; [cbn [map]; rewrite Hv; f_equal; exact H1|]. split.
        - intros a x Ha. apply H2. cbn [addr_find]. destruct (Z.eqb_spec (l_addr l) a) as [Hx|]; [congruence|exact Ha].
        - assert (Hu : unseen ix (map l_addr (l :: links)) = l_addr l :: unseen ((l_addr l, v) :: ix) (map l_addr links)).
          { unfold unseen. cbn [map appearances filter]. rewrite Ef. f_equal. rewrite filter_and. apply filter_ext. intro a. cbn [addr_find].
            rewrite (Z.eqb_sym a). destruct (l_addr l =? a); cbn [negb]; [destruct (addr_find a ix); reflexivity|]. rewrite andb_true_r. reflexivity. }
          rewrite Hu. cbn [map length]. rewrite Hsup, Hv, H3. reflexivity. }
      destruct repl as [|a repl].
      * apply (Hstep (Z.land 0x00ffffff (rnd used))). intro n. rewrite !supply_nil. reflexivity.
      * apply (Hstep a). intro n. apply supply_repl.
Qed.

(** ** Cross links *)
Lemma flip_counterpart : forall l, is_byte (l_flags l) -> flip_role l = counterpart l.
Proof.
  intros l H. unfold flip_role, with_flags, counterpart. f_equal.
  pose proof (sweep1 (fun f => (if rcf_controller f then rcf_set_responder f else rcf_set_controller f) =? f + 64 - 128 * bit 6 f) ltac:(vm_compute; reflexivity) _ H) as E. cbv beta in E. lia.
Qed.
Lemma crosslink_spec : forall addr l1 l2, is_byte (l_flags l1) -> is_byte (l_flags l2) -> crosslink_of addr l1 l2 = true <-> l_addr l2 = addr /\ l_group l2 = l_group l1 /\ bit 6 (l_flags l2) <> bit 6 (l_flags l1).
Proof.
  intros addr l1 l2 H1 H2. unfold crosslink_of. destruct (rcf_accessors _ H1) as (_ & _ & Hc & _ & _). destruct (rcf_accessors _ H2) as (_ & _ & _ & Hr & _). rewrite Hc, Hr, !andb_true_iff, !Z.eqb_eq, Bool.eqb_true_iff.
  unfold bitb. destruct (bit_range 6 (l_flags l1)) as [-> | ->]; destruct (bit_range 6 (l_flags l2)) as [-> | ->]; cbn; intuition (try congruence; try lia).
Qed.
Lemma missing_first_sound : forall addr links m, Forall (fun l => is_byte (l_flags l)) links -> In m (missing_first addr links) ->
  exists pre l post, links = pre ++ l :: post /\ m = counterpart l /\ is_free l = false /\ l_addr l = addr /\
    (forall x, In x post -> l_addr x = addr -> l_group x = l_group l -> bit 6 (l_flags x) = bit 6 (l_flags l)) /\
    Forall (fun x => is_free x = true \/ l_addr x <> addr) pre.
Proof.
  intros addr links m Hb. induction links as [|l links IH]; [intros []|]. inversion Hb as [|? ? Hl Hb']; subst. cbn [missing_first].
  assert (Hav : rcf_available (l_flags l) = is_free l).
  { destruct (rcf_accessors _ Hl) as (_ & -> & _). unfold bitb, is_free. destruct (bit_range 7 (l_flags l)) as [-> | ->]; reflexivity. }
  rewrite Hav. destruct (is_free l || negb (l_addr l =? addr)) eqn:E.
  - intro H. destruct (IH Hb' H) as (pre & x & post & -> & H2 & H3 & H4 & H5 & H6). exists (l :: pre), x, post. repeat split; auto. constructor; [|exact H6].
    apply orb_prop in E. destruct E as [E|E]; [left; exact E|right; lia].
  - apply orb_false_iff in E. destruct E as [E1 E2]. destruct (existsb (crosslink_of addr l) links) eqn:Ex; [intros []|]. intros [<-|[]].
    exists [], l, links. split; [reflexivity|]. split; [apply flip_counterpart; exact Hl|]. split; [exact E1|]. split; [lia|]. split; [|constructor].
    intros x Hx Ha Hg. rewrite Forall_forall in Hb'. destruct (Z.eq_dec (bit 6 (l_flags x)) (bit 6 (l_flags l))) as [|Hne]; [assumption|]. exfalso.
    assert (existsb (crosslink_of addr l) links = true); [|congruence]. apply existsb_exists. exists x. split; [exact Hx|]. apply crosslink_spec; auto.
Qed.
Lemma missing_first_complete : forall addr links pre l post, Forall (fun l => is_byte (l_flags l)) links -> links = pre ++ l :: post ->
  Forall (fun x => is_free x = true \/ l_addr x <> addr) pre -> is_free l = false -> l_addr l = addr ->
  (forall x, In x post -> l_addr x = addr -> l_group x = l_group l -> bit 6 (l_flags x) = bit 6 (l_flags l)) -> missing_first addr links = [counterpart l].
Proof.
  intros addr links pre l post Hb -> Hpre Hf Ha Hno. apply Forall_app in Hb. destruct Hb as [Hb1 Hb2]. inversion Hb2 as [|? ? Hl Hb']; subst.
  assert (Hav : forall x, is_byte (l_flags x) -> rcf_available (l_flags x) = is_free x).
  { intros x Hx. destruct (rcf_accessors _ Hx) as (_ & -> & _). unfold bitb, is_free. destruct (bit_range 7 (l_flags x)) as [-> | ->]; reflexivity. }
  induction Hpre as [|x pre Hx Hpre IH]; cbn [app missing_first].
  - rewrite Hav, Hf by exact Hl. rewrite Z.eqb_refl. cbn [negb orb]. destruct (existsb (crosslink_of (l_addr l) l) post) eqn:Ex; [|rewrite flip_counterpart by exact Hl; reflexivity].
    exfalso. apply existsb_exists in Ex. destruct Ex as (x & Hx & Hc). rewrite Forall_forall in Hb'. apply crosslink_spec in Hc; [|exact Hl|auto]. destruct Hc as (H1 & H2 & H3). apply H3. auto.
  - inversion Hb1; subst. rewrite Hav by assumption. replace (is_free x || negb (l_addr x =? l_addr l)) with true; [apply IH; assumption|]. symmetry. apply orb_true_iff. destruct Hx as [Hx|Hx]; [auto|right; lia].
Qed.

(** ** Order *)
Lemma bytes_ltb_app : forall a b1 b2, bytes_ltb (a ++ b1) (a ++ b2) = bytes_ltb b1 b2.
Proof. induction a as [|x a IH]; intros b1 b2; [reflexivity|]. cbn [app bytes_ltb]. rewrite Z.eqb_refl. apply IH. Qed.
Lemma bytes_ltb_irrefl : forall a, bytes_ltb a a = false.
Proof. induction a as [|x a IH]; [reflexivity|]. cbn [bytes_ltb]. rewrite Z.eqb_refl. exact IH. Qed.
Lemma bytes_ltb_trans : forall a b c, bytes_ltb a b = true -> bytes_ltb b c = true -> bytes_ltb a c = true.
Proof.
  induction a as [|x a IH]; intros [|y b] [|z c]; cbn [bytes_ltb]; try discriminate; try reflexivity. intros H1 H2.
  destruct (Z.eqb_spec x y) as [->|Hxy]; destruct (Z.eqb_spec y z) as [->|Hyz].
  - eapply IH; eassumption.
  - exact H2.
  - replace (x =? z) with false by (symmetry; apply Z.eqb_neq; exact Hxy). exact H1.
  - replace (x =? z) with false by lia. lia.
Qed.
Lemma bytes_ltb_total : forall a b, bytes_ltb a b = false -> bytes_ltb b a = false -> a = b.
Proof.
  induction a as [|x a IH]; intros [|y b]; cbn [bytes_ltb]; try discriminate; try reflexivity. rewrite (Z.eqb_sym y). destruct (Z.eqb_spec x y) as [->|]; intros H1 H2; [f_equal; auto|lia].
Qed.
Lemma hex_char_lt : forall n m, 0 <= n < 16 -> 0 <= m < 16 -> (hex_char n <? hex_char m) = (n <? m) /\ (hex_char n =? hex_char m) = (n =? m).
Proof.
  intros n m Hn Hm. assert (H : forallb (fun n => forallb (fun m => Bool.eqb (hex_char n <? hex_char m) (n <? m) && Bool.eqb (hex_char n =? hex_char m) (n =? m)) (zrange_from 0 16)) (zrange_from 0 16) = true) by (vm_compute; reflexivity).
  rewrite forallb_forall in H. specialize (H n ltac:(apply zrange_from_In; lia)). rewrite forallb_forall in H. specialize (H m ltac:(apply zrange_from_In; lia)).
  apply andb_prop in H. destruct H as [H1 H2]. apply Bool.eqb_prop in H1, H2. auto.
Qed.
Lemma bytes_ltb_fmt : forall x y ra rb, is_byte x -> is_byte y -> bytes_ltb (fmt_02x x ++ ra) (fmt_02x y ++ rb) = if x =? y then bytes_ltb ra rb else x <? y.
Proof.
  intros x y ra rb Hx Hy. unfold fmt_02x. cbn [app bytes_ltb]. unfold is_byte in *.
  destruct (hex_char_lt (x / 16) (y / 16) ltac:(lia) ltac:(lia)) as [-> ->]. destruct (hex_char_lt (x mod 16) (y mod 16) ltac:(lia) ltac:(lia)) as [-> ->].
  destruct (Z.eqb_spec (x / 16) (y / 16)); destruct (Z.eqb_spec (x mod 16) (y mod 16)); destruct (Z.eqb_spec x y); try lia; reflexivity.
Qed.
