(** The functions on lists in memory do to the device what the functions on lists as values do. *)
From Coq Require Import ZArith List Bool Lia ZifyBool ZifyNat.
From Verif Require Import GoBase GoLemmas GoProg GoSlice Link MsgWriter DevLinkdb UtilLink MemLinks.
Import ListNotations.
Open Scope Z_scope.

(** ** Lists and slices *)
Lemma set_twice : forall A (h : list A) a x y, list_set (list_set h a x) a y = list_set h a y.
Proof. induction h as [|b h IH]; intros [|a] x y; cbn [list_set]; try reflexivity. rewrite IH. reflexivity. Qed.
Lemma set_same : forall A (h : list A) a x, nth_error h a = Some x -> list_set h a x = h.
Proof. induction h as [|b h IH]; intros [|a] x H; cbn in *; try discriminate; [injection H as ->; reflexivity|]. rewrite IH by exact H. reflexivity. Qed.
Lemma set_at : forall A (p q : list A) x y, list_set (p ++ x :: q) (length p) y = p ++ y :: q.
Proof. intros. rewrite list_set_app_r. reflexivity. Qed.
Lemma write_at_app : forall A (xs w p q : list A), length w = length xs -> write_at (p ++ w ++ q) (length p) xs = p ++ xs ++ q.
Proof.
  induction xs as [|x xs IH]; intros [|y w] p q H; try discriminate H; cbn [write_at app]; [reflexivity|].
  rewrite set_at. replace (p ++ x :: w ++ q) with ((p ++ [x]) ++ w ++ q) by (rewrite <- app_assoc; reflexivity).
  replace (S (length p)) with (length (p ++ [x])) by (rewrite app_length; cbn; lia). rewrite IH by (cbn in H; lia). rewrite <- app_assoc. reflexivity.
Qed.

Section Mem.
  Variable h : heap link.
  Variable a : nat.
  Hypothesis Ha : (a < length h)%nat.
  Definition mem (x : list link) : heap link := list_set h a x.
  Lemma arr_mem : forall x, arr (mem x) a = x.
  Proof. intro x. unfold arr, mem. apply nth_error_nth, nth_error_list_set_eq, Ha. Qed.
  Lemma mem_set : forall x y, list_set (mem x) a y = mem y.
  Proof. intros. apply set_twice. Qed.
  Lemma mget_at : forall p q x off len cap i, length p = (off + i)%nat -> (i < len)%nat -> sl_get (mem (p ++ x :: q)) (mkSl a off len cap) i = Ret x.
  Proof.
    intros p q x off len cap i Hp Hi. unfold sl_get. cbn [sl_len sl_arr sl_off]. rewrite (proj2 (Nat.ltb_lt i len) Hi), arr_mem, nth_error_app2 by lia.
    replace (off + i - length p)%nat with 0%nat by lia. reflexivity.
  Qed.
  Lemma mset_at : forall p q x y off len cap i, length p = (off + i)%nat -> (i < len)%nat -> sl_set (mem (p ++ x :: q)) (mkSl a off len cap) i y = Ret (mem (p ++ y :: q)).
  Proof.
    intros p q x y off len cap i Hp Hi. unfold sl_set. cbn [sl_len sl_arr sl_off]. rewrite (proj2 (Nat.ltb_lt i len) Hi), arr_mem, <- Hp, set_at, mem_set. reflexivity.
  Qed.
  Lemma view_at : forall p v q off cap, length p = off -> sl_view (mem (p ++ v ++ q)) (mkSl a off (length v) cap) = v.
  Proof.
    intros p v q off cap <-. unfold sl_view. cbn [sl_len sl_arr sl_off]. rewrite arr_mem, skipn_app, Nat.sub_diag, skipn_all, app_nil_l. cbn [skipn].
    rewrite firstn_app, Nat.sub_diag, firstn_all. cbn [firstn]. apply app_nil_r.
  Qed.
  Lemma append_at : forall grow p v w xs q off cap, length p = off -> length w = length xs -> (length v + length xs <= cap)%nat ->
    sl_append link_zero grow (mem (p ++ v ++ w ++ q)) (mkSl a off (length v) cap) xs = (mem (p ++ v ++ xs ++ q), mkSl a off (length v + length xs) cap).
  Proof.
    intros grow p v w xs q off cap <- Hw Hc. unfold sl_append. cbn [sl_len sl_arr sl_off sl_cap]. rewrite (proj2 (Nat.leb_le _ _) Hc), arr_mem.
    rewrite app_assoc, <- app_length, write_at_app by exact Hw. rewrite mem_set, <- app_assoc. reflexivity.
  Qed.

  (** ** Two programs that do the same to a device *)
  Section Sim.
  Context {W : Type}.
  Let ST : Type := (linkdb * W)%type.
  Definition agrees {A B} (R : A -> B -> heap link -> Prop) (p : outcome A * ST) (q : outcome B * (heap link * ST)) : Prop :=
    snd p = snd (snd q) /\ match fst p, fst q with Ret x, Ret y => R x y (fst (snd q)) | Panic, Panic => True | NoFuel, NoFuel => True | _, _ => False end.
  Lemma ag_bind : forall A B C D (R : A -> B -> heap link -> Prop) (S : C -> D -> heap link -> Prop) (m : prog ST A) (n : prog (heap link * ST) B) f g st hs,
    agrees R (m st) (n hs) -> (forall x y k st', m st = (Ret x, st') -> R x y k -> agrees S (f x st') (g y (k, st'))) ->
    agrees S (pbind m f st) (pbind n g hs).
  Proof.
    intros A B C D R S m n f g st hs [H1 H2] H. unfold pbind. destruct (m st) as [o st'] eqn:E. destruct (n hs) as [o' [k st'']] eqn:E'. cbn [fst snd] in *. subst st''.
    destruct o, o'; try contradiction; [|split; [reflexivity|exact I]..]. apply H; [reflexivity|exact H2].
  Qed.
  Lemma ag_ret : forall A B (R : A -> B -> heap link -> Prop) x y st k, R x y k -> agrees R (pret x st) (pret y (k, st)).
  Proof. intros. split; [reflexivity|assumption]. Qed.
  Lemma ag_panic : forall A B (R : A -> B -> heap link -> Prop) st k, agrees R (ppanic st) (ppanic (k, st)).
  Proof. intros. split; [reflexivity|exact I]. Qed.
  Lemma ag_snd : forall A (m : prog ST A) st k, agrees (fun x y k' => x = y /\ k' = k) (m st) (psnd m (k, st)).
  Proof. intros. unfold psnd. cbn [fst snd]. destruct (m st) as [[x| |] st']; split; cbn; auto. Qed.
  Lemma ag_impl : forall A B (R S : A -> B -> heap link -> Prop) p q, agrees R p q -> (forall x y k, R x y k -> S x y k) -> agrees S p q.
  Proof. intros A B R S p q [H1 H2] H. split; [exact H1|]. destruct (fst p), (fst q); try contradiction; try exact I. apply H, H2. Qed.
  (** A step on the memory alone. *)
  Lemma ag_mem : forall C B D (S : C -> D -> heap link -> Prop) (n : prog (heap link * ST) B) (g : B -> prog (heap link * ST) D) p y k k' st,
    n (k, st) = (Ret y, (k', st)) -> agrees S p (g y (k', st)) -> agrees S p (pbind n g (k, st)).
  Proof. intros C B D S n g p y k k' st E H. unfold pbind. rewrite E. exact H. Qed.
  Lemma mget_run : forall (s : slice) i x k (st : ST), sl_get k s i = Ret x -> mget s i (k, st) = (Ret x, (k, st)).
  Proof. intros s i x k st H. unfold mget, pbind, pfst, pget, plift. cbn [fst snd]. rewrite H. reflexivity. Qed.
  Lemma mset_run : forall (s : slice) i x k k' (st : ST), sl_set k s i x = Ret k' -> mset s i x (k, st) = (Ret tt, (k', st)).
  Proof. intros s i x k k' st H. unfold mset, pbind, pfst, pget, plift, pput. cbn [fst snd]. rewrite H. reflexivity. Qed.
  Lemma mview_run : forall (s : slice) x k (st : ST), sl_view k s = x -> mview s (k, st) = (Ret x, (k, st)).
  Proof. intros s x k st <-. reflexivity. Qed.
  Lemma mappend_run : forall grow (s : slice) xs k k' s' (st : ST), sl_append link_zero grow k s xs = (k', s') -> mappend grow s xs (k, st) = (Ret s', (k', st)).
  Proof. intros grow s xs k k' s' st H. unfold mappend, pbind, pfst, pget, pput. cbn [fst snd]. rewrite H. reflexivity. Qed.
  Lemma cut_run : forall (s : slice) i j (k : heap link) (st : ST), (i <= j)%nat -> (j <= sl_cap s)%nat ->
    plift (sl_cut s i j) (k, st) = (Ret (mkSl (sl_arr s) (sl_off s + i) (j - i) (sl_cap s - i)), (k, st)).
  Proof. intros s i j k st H1 H2. unfold plift, sl_cut. rewrite (proj2 (Nat.leb_le _ _) H1), (proj2 (Nat.leb_le _ _) H2). reflexivity. Qed.

  (** *** WriteLink: index kept, length kept *)
  Lemma write_link_cases : forall (mw : mwriter W) i l db w r db' w', ld_write_link mw i l (db, w) = (r, (db', w')) ->
    db' = db \/ exists ls, db' = set_ld_links db ls /\ (rcf_last_record (l_flags l) = false -> i < zlen (ld_links db) -> length ls = length (ld_links db)).
  Proof.
    intros mw i l db w r db' w' H. unfold ld_write_link, pbind, pfst, psnd, pget, pput, plift, pret, ppanic in H. cbn [fst snd] in H.
    destruct (zlen (ld_links db) <? i); [left; congruence|].
    destruct (lr_marshal _) as [buf| |]; [|left; congruence..].
    cbn [fst snd] in H. destruct (mw_write mw _ w) as [[[ack err]| |] w1]; [|left; cbn in H; congruence..].
    destruct err as [e|]; [left; congruence|]. cbn [fst snd] in H.
    destruct (rcf_last_record (l_flags l)).
    - destruct (i <? zlen (ld_links db)); [|left; congruence]. destruct (i <? 0); [left; congruence|]. right. eexists. split; [inversion H; reflexivity|discriminate].
    - destruct (i =? zlen (ld_links db)) eqn:E; [right; eexists; split; [inversion H; reflexivity|intros; lia]|]. destruct (i <? 0); [left; congruence|].
      right. eexists. split; [inversion H; reflexivity|]. intros _ _. apply list_set_length.
  Qed.
  Lemma write_link_index : forall (mw : mwriter W) i l db w r db' w', ld_write_link mw i l (db, w) = (r, (db', w')) -> ld_index db' = ld_index db.
  Proof. intros mw i l db w r db' w' H. apply write_link_cases in H. destruct H as [->|(ls & -> & _)]; reflexivity. Qed.
  Lemma write_link_len : forall (mw : mwriter W) i l db w r db' w', rcf_last_record (l_flags l) = false -> i < zlen (ld_links db) ->
    ld_write_link mw i l (db, w) = (r, (db', w')) -> length (ld_links db') = length (ld_links db).
  Proof. intros mw i l db w r db' w' HL Hi H. apply write_link_cases in H. destruct H as [->|(ls & -> & H)]; [reflexivity|]. apply H; assumption. Qed.
  Variable mw : mwriter W.

  (** ** WriteLinks *)
  Lemma write_loop_agrees : forall todo pre post dn off len cap st, length pre = off -> len = (length dn + length todo)%nat ->
    agrees (fun e e' k => e = e' /\ exists n, k = mem (pre ++ dn ++ map (with_flags rcf_clear_last_record) (firstn n todo) ++ skipn n todo ++ post) /\ (e = None -> n = length todo))
      (ld_write_loop mw (Z.of_nat (length dn)) todo st) (mem_write_loop mw (length todo) (length dn) (mkSl a off len cap) (mem (pre ++ dn ++ todo ++ post), st)).
  Proof.
    induction todo as [|l todo IH]; intros pre post dn off len cap st Ho Hl; cbn [ld_write_loop mem_write_loop length].
    - apply ag_ret. split; [reflexivity|]. exists 0%nat. auto.
    - cbn [length] in Hl. assert (E : forall x, pre ++ dn ++ (x :: todo) ++ post = (pre ++ dn) ++ x :: todo ++ post) by (intro; rewrite <- app_assoc; reflexivity).
      assert (Lp : length (pre ++ dn) = (off + length dn)%nat) by (rewrite app_length; lia).
      rewrite E. eapply ag_mem; [apply mget_run, mget_at; [exact Lp|lia]|]. eapply ag_mem; [apply mset_run, mset_at; [exact Lp|lia]|].
      eapply ag_mem; [apply mget_run, mget_at; [exact Lp|lia]|].
      eapply ag_bind; [apply ag_snd|]. intros x y k st' _ [<- ->]. destruct x as [e|].
      + apply ag_ret. split; [reflexivity|]. exists 1%nat. split; [|discriminate]. cbn [firstn map skipn app]. rewrite <- app_assoc. reflexivity.
      + replace (Z.of_nat (length dn) + 1) with (Z.of_nat (length (dn ++ [with_flags rcf_clear_last_record l]))) by (rewrite app_length; cbn; lia).
        replace (S (length dn)) with (length (dn ++ [with_flags rcf_clear_last_record l])) by (rewrite app_length; cbn; lia).
        replace ((pre ++ dn) ++ with_flags rcf_clear_last_record l :: todo ++ post) with (pre ++ (dn ++ [with_flags rcf_clear_last_record l]) ++ todo ++ post) by (rewrite <- !app_assoc; reflexivity).
        eapply ag_impl; [apply IH; [exact Ho|rewrite app_length; cbn; lia]|]. intros x y k [<- (n & -> & Hn)]. split; [reflexivity|]. exists (S n). split.
        * cbn [firstn map skipn app]. rewrite <- !app_assoc. reflexivity.
        * intros; cbn [length]; rewrite Hn by assumption; reflexivity.
  Qed.
  Lemma write_links_agrees : forall now ls pre post cap st,
    agrees (fun e e' k => e = e' /\ exists n, k = mem (pre ++ map (with_flags rcf_clear_last_record) (firstn n ls) ++ skipn n ls ++ post) /\ (e = None -> n = length ls))
      (ld_write_links mw now ls st) (mem_write_links mw now (mkSl a (length pre) (length ls) cap) (mem (pre ++ ls ++ post), st)).
  Proof.
    intros now ls pre post cap st. unfold ld_write_links, mem_write_links. cbn [sl_len].
    eapply ag_bind; [apply (write_loop_agrees ls pre post [] (length pre) (length ls) cap st); reflexivity|].
    intros x y k st' _ [<- (n & -> & Hn)]. cbn [app]. destruct x as [e|]; [apply ag_ret; split; [reflexivity|]; exists n; split; [reflexivity|discriminate]|].
    specialize (Hn eq_refl).
    eapply ag_bind; [apply (ag_snd linkdb (pfst pget))|]. intros x y k2 st2 _ [<- ->].
    eapply ag_bind; [apply ag_snd|]. intros x2 y2 k3 st3 _ [<- ->]. destruct x2 as [e|]; [apply ag_ret; split; [reflexivity|]; exists n; split; [reflexivity|discriminate]|].
    eapply ag_bind; [apply (ag_snd linkdb (pfst pget))|]. intros x3 y3 k4 st4 _ [<- ->].
    eapply ag_bind; [apply (ag_snd unit (pfst _))|]. intros x5 y5 k5 st5 _ [<- ->]. apply ag_ret. split; [reflexivity|]. exists n. auto.
  Qed.

  (** ** UpdateLinks *)
  Lemma last_change : forall (l : link) t d e, t <> [] -> last (l :: t) d = last t e.
  Proof. intros l t d e Ht. destruct t as [|x t]; [contradiction|]. clear Ht. revert l x. induction t as [|y t IH]; intros l x; [reflexivity|]. cbn [last] in *. apply (IH x y). Qed.
  Lemma match_agrees : forall todo kept junk pre post grow cap st, (length kept + length todo <= cap)%nat ->
    agrees (fun '(rest, e) '(s, e') k => e = e' /\ s = mkSl a (length pre) (length rest) cap /\
        exists n, k = mem (pre ++ rest ++ repeat (last todo link_zero) n ++ junk ++ post) /\ (length rest + n = length kept + length todo)%nat)
      (ld_update_match mw kept todo st)
      (mem_update_match grow mw (length todo) (length kept) (mkSl a (length pre) (length kept + length todo) cap) (mem (pre ++ rev kept ++ todo ++ junk ++ post), st)).
  Proof.
    induction todo as [|l todo IH]; intros kept junk pre post grow cap st Hc; cbn [ld_update_match mem_update_match length].
    - apply ag_ret. split; [reflexivity|]. rewrite rev_length. split; [f_equal; lia|]. exists 0%nat. split; [reflexivity|lia].
    - cbn [length] in Hc. assert (E : pre ++ rev kept ++ (l :: todo) ++ junk ++ post = (pre ++ rev kept) ++ l :: todo ++ junk ++ post) by (rewrite <- app_assoc; reflexivity).
      rewrite E. eapply ag_mem; [apply mget_run, mget_at; [rewrite app_length, rev_length; reflexivity|lia]|].
      eapply ag_bind; [apply (ag_snd linkdb (pfst pget))|]. intros db y k st' _ [<- ->].
      destruct (index_find (link_id l) (ld_index db)) as [j|].
      + destruct (nth_error (ld_links db) j) as [old|]; [|apply ag_panic].
        eapply ag_bind with (R := fun x y k => x = y /\ k = mem ((pre ++ rev kept) ++ l :: todo ++ junk ++ post)).
        { destruct (negb (l_flags old =? l_flags l)); [|apply ag_ret; auto]. unfold zlen. apply ag_snd. }
        intros err y k st2 _ [<- ->].
        eapply ag_mem; [apply cut_run; cbn [sl_cap]; lia|]. eapply ag_mem; [apply cut_run; cbn [sl_cap sl_len]; lia|]. cbn [sl_arr sl_off sl_cap sl_len].
        eapply ag_mem; [apply mview_run|].
        { replace ((pre ++ rev kept) ++ l :: todo ++ junk ++ post) with ((pre ++ rev kept ++ [l]) ++ todo ++ junk ++ post) by (rewrite <- !app_assoc; reflexivity).
          replace (length kept + S (length todo) - (length kept + 1))%nat with (length todo) by lia. apply view_at. rewrite !app_length, rev_length. cbn. lia. }
        destruct (exists_last (l := l :: todo)) as (w & z & Ew); [discriminate|].
        assert (Hz : z = last (l :: todo) link_zero) by (rewrite Ew, last_last; reflexivity).
        assert (Lw : length w = length todo) by (apply (f_equal (@length link)) in Ew; rewrite app_length in Ew; cbn in Ew; lia).
        eapply ag_mem; [apply mappend_run|].
        { replace ((pre ++ rev kept) ++ l :: todo ++ junk ++ post) with (pre ++ rev kept ++ w ++ ([z] ++ junk ++ post)).
          2:{ rewrite <- app_assoc. do 2 f_equal. change (l :: todo ++ junk ++ post) with ((l :: todo) ++ junk ++ post). rewrite Ew, <- app_assoc. reflexivity. }
          replace (length kept - 0)%nat with (length (rev kept)) by (rewrite rev_length; lia).
          apply append_at; [lia|exact Lw|rewrite rev_length; lia]. }
        rewrite rev_length. replace (cap - 0)%nat with cap by lia. replace (length pre + 0)%nat with (length pre) by lia.
        destruct err as [e|].
        * apply ag_ret. split; [reflexivity|]. rewrite app_length, rev_length. split; [reflexivity|]. exists 1%nat. split; [|cbn; lia].
          rewrite Hz. cbn [repeat]. rewrite <- !app_assoc. reflexivity.
        * destruct todo as [|t0 todo].
          { cbn [length ld_update_match mem_update_match]. apply ag_ret. rewrite rev_length. split; [reflexivity|]. split; [f_equal; lia|].
            exists 1%nat. split; [|cbn; lia]. rewrite Hz. cbn [repeat app]. reflexivity. }
          eapply ag_impl; [apply (IH kept ([z] ++ junk) pre post grow cap st2); cbn [length] in *; lia|].
          intros [rest e] [s e'] k [<- (-> & n & -> & Hn)]. split; [reflexivity|]. split; [reflexivity|].
          exists (S n). split; [|cbn [length] in *; lia]. rewrite Hz, (last_change l (t0 :: todo) link_zero link_zero) by discriminate.
          replace (S n) with (n + 1)%nat by lia. rewrite repeat_app. cbn [repeat]. rewrite <- !app_assoc. reflexivity.
      + destruct todo as [|t0 todo].
        { cbn [length ld_update_match mem_update_match]. apply ag_ret. rewrite rev_length. split; [reflexivity|]. split; [f_equal; cbn; lia|].
          exists 0%nat. split; [|cbn; lia]. cbn [repeat app rev]. rewrite <- !app_assoc. reflexivity. }
        eapply ag_impl.
        { set (todo' := t0 :: todo) in *. replace (S (length kept)) with (length (l :: kept)) by reflexivity. replace (length kept + S (length todo'))%nat with (length (l :: kept) + length todo')%nat by (cbn; lia).
          replace ((pre ++ rev kept) ++ l :: todo' ++ junk ++ post) with (pre ++ rev (l :: kept) ++ todo' ++ junk ++ post) by (cbn [rev]; rewrite <- !app_assoc; reflexivity).
          apply (IH (l :: kept) junk pre post grow cap st'). cbn [length]. lia. }
        intros [rest e] [s e'] k [<- (-> & n & -> & Hn)]. split; [reflexivity|]. split; [reflexivity|]. exists n. split; [|cbn [length] in *; lia].
        rewrite (last_change l (t0 :: todo) link_zero link_zero) by discriminate. reflexivity.
  Qed.
  Lemma clear_not_last : forall l, rcf_last_record (l_flags (with_flags rcf_clear_last_record l)) = false.
  Proof.
    intro l. cbn [with_flags l_flags]. unfold rcf_last_record, rcf_clear_last_record, rcf_set_bit. change (Z.shiftl 1 1) with 2. apply Z.eqb_neq. intro H.
    apply (f_equal (fun x => Z.testbit x 1)) in H. rewrite Z.land_spec, Z.lor_spec in H. change (Z.testbit 2 1) with true in H. rewrite orb_true_r, Z.bits_0 in H. discriminate H.
  Qed.
  Lemma go_index_some : forall A (l : list A) i, 0 <= i < zlen l -> exists x, go_index l i = Ret x.
  Proof.
    intros A l i Hi. unfold zlen in Hi. destruct (nth_error l (Z.to_nat i)) as [x|] eqn:En; [exists x; apply go_index_in; [lia|exact En]|].
    exfalso. apply nth_error_None in En. lia.
  Qed.
  Lemma fill_nothing : forall n i s k db (w : W), sl_len s = 0%nat -> 0 <= i -> i + Z.of_nat n <= zlen (ld_links db) ->
    mem_update_fill mw n i s (k, (db, w)) = (Ret (s, None), (k, (db, w))).
  Proof.
    induction n as [|n IH]; intros i s k db w Hs H0 Hi; cbn [mem_update_fill]; [reflexivity|].
    destruct (go_index_some _ (ld_links db) i) as [x Ex]; [lia|]. unfold pbind, psnd, pfst, pget, plift. cbn [fst snd]. rewrite Ex, Hs, andb_false_r. apply IH; [exact Hs|lia|lia].
  Qed.
  Lemma fill_agrees : forall n i cur pre post cap db w, 0 <= i -> i + Z.of_nat n <= zlen (ld_links db) -> (length cur <= cap)%nat ->
    agrees (fun '(rest, e) '(s, e') k => e = e' /\ exists dn c, s = mkSl a (length pre + length dn) (length rest) c /\
        k = mem (pre ++ map (with_flags rcf_clear_last_record) dn ++ rest ++ post) /\ (length dn + length rest = length cur)%nat /\ (e = None -> cur = dn ++ rest))
      (ld_update_fill mw n i cur (db, w)) (mem_update_fill mw n i (mkSl a (length pre) (length cur) cap) (mem (pre ++ cur ++ post), (db, w))).
  Proof.
    induction n as [|n IH]; intros i cur pre post cap db w H0 Hi Hc; cbn [ld_update_fill].
    - apply ag_ret. split; [reflexivity|]. exists [], cap. rewrite Nat.add_0_r. auto.
    - destruct (go_index_some _ (ld_links db) i) as [x Ex]; [lia|].
      destruct cur as [|l t].
      + rewrite fill_nothing by (try reflexivity; assumption). unfold pbind, pfst, pget, plift. cbn [fst snd]. rewrite Ex. unfold pret.
        split; [reflexivity|]. cbn [fst snd]. split; [reflexivity|]. exists [], cap. rewrite Nat.add_0_r. auto.
      + cbn [mem_update_fill].
        eapply ag_bind; [apply (ag_snd linkdb (pfst pget))|]. intros db' y k st' E [<- ->]. cbn in E. injection E as <- <-.
        eapply ag_bind with (R := fun u v k' => u = v /\ u = x /\ k' = mem (pre ++ (l :: t) ++ post)); [unfold plift; rewrite Ex; split; [reflexivity|cbn; auto]|].
        intros u v k st' E [<- [-> ->]]. unfold plift in E. injection E as _ <-. cbn [sl_len length].
        destruct (rcf_available (l_flags x)); cbn [andb].
        * change (pre ++ (l :: t) ++ post) with (pre ++ l :: (t ++ post)).
          eapply ag_mem; [apply mget_run, mget_at; lia|]. eapply ag_mem; [apply mset_run, mset_at; lia|]. eapply ag_mem; [apply mget_run, mget_at; lia|].
          eapply ag_bind; [apply ag_snd|]. intros err y k [db2 w2] Ew [<- ->]. destruct err as [e|].
          { apply ag_ret. split; [reflexivity|]. exists [], cap. rewrite Nat.add_0_r. split; [reflexivity|]. split; [reflexivity|]. split; [reflexivity|discriminate]. }
          eapply ag_mem; [apply cut_run; cbn [sl_cap length] in *; lia|]. cbn [sl_arr sl_off sl_cap].
          assert (L2 : length (ld_links db2) = length (ld_links db)) by (eapply write_link_len; [apply clear_not_last| |exact Ew]; lia).
          set (c := with_flags rcf_clear_last_record l) in *.
          replace (pre ++ c :: t ++ post) with ((pre ++ [c]) ++ t ++ post) by (rewrite <- app_assoc; reflexivity).
          replace (length pre + 1)%nat with (length (pre ++ [c])) by (rewrite app_length; cbn; lia). replace (S (length t) - 1)%nat with (length t) by lia.
          eapply ag_impl; [apply IH; unfold zlen in *; cbn [length] in Hc; lia|].
          intros [rest e] [s e'] k [<- (dn & c' & -> & -> & Hl & He)]. split; [reflexivity|]. exists (l :: dn), c'. rewrite app_length. cbn [length map app].
          split; [f_equal; lia|]. split; [rewrite <- app_assoc; reflexivity|]. split; [lia|]. intros ->. rewrite (He eq_refl). reflexivity.
        * apply (IH (i + 1) (l :: t)); [lia|lia|exact Hc].
  Qed.
  Lemma match_keeps : forall todo kept db w rest st', ld_update_match mw kept todo (db, w) = (Ret (rest, None), st') ->
    ld_index (fst st') = ld_index db /\ rest = rev kept ++ filter (fun l => match index_find (link_id l) (ld_index db) with None => true | Some _ => false end) todo.
  Proof.
    induction todo as [|l todo IH]; intros kept db w rest st' H; cbn [ld_update_match filter] in *.
    - injection H as <- <-. rewrite app_nil_r. auto.
    - unfold pbind at 1, pfst at 1, pget in H. cbn [fst snd] in H. destruct (index_find (link_id l) (ld_index db)) as [j|].
      + destruct (nth_error (ld_links db) j) as [old|]; [|discriminate H]. unfold pbind in H.
        destruct (negb (l_flags old =? l_flags l)).
        * destruct (ld_write_link mw (zlen kept) l (db, w)) as [[[e|]| |] [db2 w2]] eqn:Ew; try discriminate H. apply write_link_index in Ew. rewrite <- Ew. eapply IH. exact H.
        * eapply IH. exact H.
      + apply IH in H. cbn [rev] in H. rewrite <- app_assoc in H. exact H.
  Qed.
  Lemma update_links_agrees : forall grow fuel now ls pre post cap st, (length ls <= cap)%nat ->
    agrees (fun e e' k => e = e' /\ exists ls', k = mem (pre ++ ls' ++ post) /\ length ls' = length ls /\
        (e = None -> exists db w dn rest, ld_refresh fuel mw now st = (Ret None, (db, w)) /\
           dn ++ rest = filter (fun l => match index_find (link_id l) (ld_index db) with None => true | Some _ => false end) ls /\
           ls' = map (with_flags rcf_clear_last_record) dn ++ rest ++ repeat (last ls link_zero) (length ls - (length dn + length rest))))
      (ld_update_links fuel mw now ls st) (mem_update_links grow fuel mw now (mkSl a (length pre) (length ls) cap) (mem (pre ++ ls ++ post), st)).
  Proof.
    intros grow fuel now ls pre post cap st Hc. unfold ld_update_links, mem_update_links. cbn [sl_len].
    eapply ag_bind; [apply ag_snd|]. intros err y k [db w] ER [<- ->]. destruct err as [e|]; [apply ag_ret; split; [reflexivity|]; exists ls; split; [reflexivity|split; [reflexivity|discriminate]]|].
    eapply ag_bind; [apply (match_agrees ls [] [] pre post grow cap (db, w)); cbn [length]; lia|].
    intros [rest e] [s e'] k [db1 w1] EM [<- (-> & n & -> & Hn)]. cbn [app length] in *.
    destruct e as [e|].
    { apply ag_ret. split; [reflexivity|]. exists (rest ++ repeat (last ls link_zero) n). split; [rewrite <- app_assoc; reflexivity|]. rewrite app_length, repeat_length. split; [lia|discriminate]. }
    apply match_keeps in EM. destruct EM as [_ EM]. cbn [rev app] in EM.
    eapply ag_bind; [apply (ag_snd linkdb (pfst pget))|]. intros db1' y k st' E [<- ->]. cbn in E. injection E as <- <-.
    eapply ag_bind; [apply (fill_agrees (length (ld_links db1)) 0 rest pre (repeat (last ls link_zero) n ++ post) cap db1 w1); unfold zlen; lia|].
    intros [rest2 e] [s2 e'] k [db2 w2] EF [<- (dn & c & -> & -> & Hl & He)].
    destruct e as [e|].
    { apply ag_ret. split; [reflexivity|]. exists (map (with_flags rcf_clear_last_record) dn ++ rest2 ++ repeat (last ls link_zero) n).
      split; [rewrite <- !app_assoc; reflexivity|]. rewrite !app_length, map_length, repeat_length. split; [lia|discriminate]. }
    specialize (He eq_refl).
    assert (D : forall x, agrees (fun e e' k => e = e' :> option error /\ k = mem (pre ++ map (with_flags rcf_clear_last_record) dn ++ rest2 ++ repeat (last ls link_zero) n ++ post)) (fst x) (snd x) ->
      agrees (fun e e' k => e = e' /\ exists ls', k = mem (pre ++ ls' ++ post) /\ length ls' = length ls /\
        (e = @None error -> exists db0 w0 dn rest, ld_refresh fuel mw now st = (Ret None, (db0, w0)) /\
           dn ++ rest = filter (fun l => match index_find (link_id l) (ld_index db0) with None => true | Some _ => false end) ls /\
           ls' = map (with_flags rcf_clear_last_record) dn ++ rest ++ repeat (last ls link_zero) (length ls - (length dn + length rest)))) (fst x) (snd x)).
    { intros x Hx. eapply ag_impl; [exact Hx|]. intros e e' k [<- ->]. split; [reflexivity|].
      exists (map (with_flags rcf_clear_last_record) dn ++ rest2 ++ repeat (last ls link_zero) n). split; [rewrite <- !app_assoc; reflexivity|].
      rewrite !app_length, map_length, repeat_length. split; [lia|]. intros _. exists db, w, dn, rest2. split; [exact ER|]. split; [rewrite <- EM; symmetry; exact He|].
      replace (length ls - (length dn + length rest2))%nat with n by lia. reflexivity. }
    destruct rest2 as [|r0 rest2]; cbn [sl_len length].
    { match goal with |- agrees _ ?p ?q => apply (D (p, q)) end. cbn [fst snd]. apply ag_ret. auto. }
    match goal with |- agrees _ ?p ?q => apply (D (p, q)) end. cbn [fst snd].
    cbn [Nat.eqb].
    eapply ag_bind; [apply (ag_snd linkdb (pfst pget))|]. intros db2' y k st' E [<- ->]. cbn in E. injection E as <- <-.
    eapply ag_mem; [apply mview_run|].
    { rewrite app_assoc. replace (S (length rest2)) with (length (r0 :: rest2)) by reflexivity. apply view_at. rewrite app_length, map_length. reflexivity. }
    eapply ag_bind; [apply ag_snd|]. intros [i e3] y k st3 _ [<- ->]. destruct e3 as [e3|]; [apply ag_ret; auto|]. apply ag_snd.
  Qed.

  (** ** AddLinks *)
  Definition used (l : link) : link := with_flags (fun f => rcf_clear_last_record (rcf_set_in_use f)) l.
  Lemma add_fill_agrees : forall ls i add pre post cap st, add <> [] -> (length add <= cap)%nat ->
    agrees (fun '(rest, e) '(s, e') k => e = e' /\ exists dn c, s = mkSl a (length pre + length dn) (length rest) c /\
        k = mem (pre ++ dn ++ rest ++ post) /\ Forall2 (fun x y => y = x \/ y = used x) add (dn ++ rest))
      (ld_add_fill mw i ls add st) (mem_add_fill mw i ls (mkSl a (length pre) (length add) cap) (mem (pre ++ add ++ post), st)).
  Proof.
    assert (Same : forall l, Forall2 (fun x y => y = x \/ y = used x) l l) by (induction l; constructor; auto).
    induction ls as [|l t IH]; intros i add pre post cap st Hn Hc; (destruct add as [|x add]; [contradiction|]); cbn [ld_add_fill mem_add_fill].
    - apply ag_ret. split; [reflexivity|]. exists [], cap. rewrite Nat.add_0_r. auto.
    - eapply ag_bind with (R := fun e e' k => e = e' /\ exists x', k = mem (pre ++ x' :: add ++ post) /\ (e <> None -> x' = x) /\ (x' = x \/ x' = used x)).
      + assert (None0 : forall e, e = e /\ exists x', mem (pre ++ (x :: add) ++ post) = mem (pre ++ x' :: add ++ post) /\ (e <> @None error -> x' = x) /\ (x' = x \/ x' = used x)) by (intro e; split; [reflexivity|]; exists x; auto).
        destruct (rcf_available (l_flags l)); [|apply ag_ret; apply None0].
        eapply ag_bind; [apply ag_snd|]. intros err y k st1 _ [<- ->]. destruct err as [e|]; [apply ag_ret; apply None0|].
        change (pre ++ (x :: add) ++ post) with (pre ++ x :: add ++ post).
        eapply ag_mem; [apply mget_run, mget_at; cbn [length]; lia|]. eapply ag_mem; [apply mset_run, mset_at; cbn [length]; lia|].
        eapply ag_mem; [apply mget_run, mget_at; cbn [length]; lia|]. eapply ag_mem; [apply mset_run, mset_at; cbn [length]; lia|].
        eapply ag_mem; [apply mget_run, mget_at; cbn [length]; lia|].
        eapply ag_bind; [apply (ag_snd linkdb (pfst pget))|]. intros db y k st2 _ [<- ->]. destruct (zlen (ld_links db) <=? i); [apply ag_panic|].
        eapply ag_bind; [apply (ag_snd unit (pfst _))|]. intros u v k st3 _ [_ ->]. apply ag_ret. split; [reflexivity|]. exists (used x). split; [reflexivity|]. split; [congruence|auto].
      + intros err y k st1 _ [<- (x' & -> & He & Hx)]. destruct err as [e|].
        { apply ag_ret. split; [reflexivity|]. rewrite (He ltac:(discriminate)). exists [], cap. rewrite Nat.add_0_r. auto. }
        eapply ag_mem; [apply cut_run; cbn [sl_cap sl_len length] in *; lia|]. cbn [sl_arr sl_off sl_cap sl_len length]. replace (S (length add) - 1)%nat with (length add) by lia.
        destruct add as [|x2 add].
        { cbn [length Nat.eqb]. apply ag_ret. split; [reflexivity|]. exists [x'], (cap - 1)%nat. cbn [length app]. split; [reflexivity|]. split; [reflexivity|]. constructor; auto. }
        cbn [length Nat.eqb]. replace (pre ++ x' :: (x2 :: add) ++ post) with ((pre ++ [x']) ++ (x2 :: add) ++ post) by (rewrite <- app_assoc; reflexivity).
        replace (length pre + 1)%nat with (length (pre ++ [x'])) by (rewrite app_length; reflexivity). change (S (length add)) with (length (x2 :: add)).
        eapply ag_impl; [apply IH; [discriminate|cbn [length] in *; lia]|]. intros [rest e] [s e'] k [<- (dn & c & -> & -> & HF)]. split; [reflexivity|].
        exists (x' :: dn), c. rewrite app_length. cbn [length app]. split; [f_equal; lia|]. split; [rewrite <- app_assoc; reflexivity|]. constructor; assumption.
  Qed.
  Lemma add_links_agrees : forall fuel now ls pre post cap st, (length ls <= cap)%nat ->
    agrees (fun e e' k => e = e' /\ exists ls', k = mem (pre ++ ls' ++ post) /\ Forall2 (fun x y => y = x \/ y = used x) ls ls')
      (ld_add_links fuel mw now ls st) (mem_add_links fuel mw now (mkSl a (length pre) (length ls) cap) (mem (pre ++ ls ++ post), st)).
  Proof.
    assert (Same : forall l, Forall2 (fun x y => y = x \/ y = used x) l l) by (induction l; constructor; auto).
    intros fuel now ls pre post cap st Hc. unfold ld_add_links, mem_add_links. cbn [sl_len]. destruct ls as [|l0 ls].
    { cbn [length Nat.eqb]. apply ag_ret. split; [reflexivity|]. exists []. auto. }
    cbn [length Nat.eqb]. change (S (length ls)) with (length (l0 :: ls)).
    eapply ag_bind; [apply ag_snd|]. intros err y k st1 _ [<- ->]. destruct err as [e|]; [apply ag_ret; split; [reflexivity|]; eexists; split; [reflexivity|apply Same]|].
    eapply ag_bind; [apply (ag_snd linkdb (pfst pget))|]. intros db y k st2 _ [<- ->].
    eapply ag_bind; [apply add_fill_agrees; [discriminate|exact Hc]|]. intros [rest e] [s e'] k st3 _ [<- (dn & c & -> & -> & HF)].
    destruct e as [e|]; [apply ag_ret; split; [reflexivity|]; exists (dn ++ rest); split; [rewrite <- app_assoc; reflexivity|exact HF]|].
    eapply ag_mem; [apply mview_run|]. { rewrite app_assoc. apply view_at. rewrite app_length. reflexivity. }
    eapply ag_impl; [apply ag_snd|]. intros x y k [<- ->]. split; [reflexivity|]. exists (dn ++ rest). split; [rewrite <- !app_assoc; reflexivity|exact HF].
  Qed.
  End Sim.
End Mem.

(** ** fixCrosslinks *)
Lemma first_fill : forall m ls k, match first_available ls k with
  | Some i => (k <= i < k + length ls)%nat /\ fill_first m ls = Some (list_set ls (i - k) m)
  | None => fill_first m ls = None
  end.
Proof.
  intros m. induction ls as [|l t IH]; intro k; cbn [first_available fill_first length]; [reflexivity|].
  destruct (rcf_available (l_flags l)); [rewrite Nat.sub_diag; cbn; split; [lia|reflexivity]|].
  specialize (IH (S k)). destruct (first_available t (S k)) as [i|]; [|rewrite IH; reflexivity].
  destruct IH as [Hi ->]. split; [lia|]. replace (i - k)%nat with (S (i - S k)) by lia. reflexivity.
Qed.
Lemma none_available : forall ls k, Forall (fun l => rcf_available (l_flags l) = false) ls -> first_available ls k = None.
Proof. intros ls k H. revert k. induction H as [|l t Hl _ IH]; intro k; cbn [first_available]; [reflexivity|]. rewrite Hl. apply IH. Qed.
Lemma arr_other : forall (h : heap link) b c x, b <> c -> arr (list_set h b x) c = arr h c.
Proof.
  intros h b c x Hb. unfold arr. destruct (nth_error h c) as [y|] eqn:E.
  - rewrite (nth_error_nth _ _ _ E). apply nth_error_nth. rewrite nth_error_list_set_neq by exact Hb. exact E.
  - apply nth_error_None in E. rewrite !nth_overflow; [reflexivity|exact E|rewrite list_set_length; exact E].
Qed.
Lemma arr_same : forall (h : heap link) b x, (b < length h)%nat -> arr (list_set h b x) b = x.
Proof. intros h b x Hb. unfold arr. apply nth_error_nth, nth_error_list_set_eq, Hb. Qed.
Lemma arr_old : forall (h ex : heap link) c, (c < length h)%nat -> arr (h ++ ex) c = arr h c.
Proof. intros h ex c Hc. unfold arr. apply app_nth1, Hc. Qed.
Lemma set_old : forall A (h ex : list A) c x, (length h <= c)%nat -> list_set (h ++ ex) c x = h ++ list_set ex (c - length h) x.
Proof. intros A. induction h as [|y h IH]; intros ex c x Hc; cbn [app length] in *; [rewrite Nat.sub_0_r; reflexivity|]. destruct c as [|c]; [lia|]. cbn [list_set Nat.sub]. rewrite IH by lia. reflexivity. Qed.
Lemma firstn_set : forall A (l : list A) n i x, (i < n)%nat -> firstn n (list_set l i x) = list_set (firstn n l) i x.
Proof. intros A. induction l as [|y l IH]; intros [|n] [|i] x H; cbn [list_set firstn]; try reflexivity; try lia. rewrite IH by lia. reflexivity. Qed.
Lemma firstn_set_past : forall A (l : list A) n i x, (n <= i)%nat -> firstn n (list_set l i x) = firstn n l.
Proof. intros A. induction l as [|y l IH]; intros [|n] [|i] x H; cbn [list_set firstn]; try reflexivity; try lia. rewrite IH by lia. reflexivity. Qed.
Lemma skipn_set : forall A (l : list A) o i x, skipn o (list_set l (o + i) x) = list_set (skipn o l) i x.
Proof. intros A. induction l as [|y l IH]; intros [|o] i x; cbn [list_set skipn Nat.add]; try reflexivity; try (destruct i; reflexivity). apply IH. Qed.
Lemma firstn_one_more : forall A (l : list A) n x, (n < length l)%nat -> firstn (S n) (list_set l n x) = firstn n l ++ [x].
Proof. intros A. induction l as [|y l IH]; intros [|n] x H; cbn [list_set firstn length app] in *; try lia; [reflexivity|]. rewrite IH by lia. reflexivity. Qed.
Lemma view_set : forall (h : heap link) s i x, sl_ok h s -> (i < sl_len s)%nat -> exists h', sl_set h s i x = Ret h' /\ sl_view h' s = list_set (sl_view h s) i x /\
  h' = list_set h (sl_arr s) (arr h' (sl_arr s)) /\ length h' = length h /\ length (arr h' (sl_arr s)) = length (arr h (sl_arr s)).
Proof.
  intros h s i x (H1 & H2 & H3) Hi. unfold sl_set. rewrite (proj2 (Nat.ltb_lt _ _) Hi). eexists. split; [reflexivity|].
  unfold sl_view. rewrite arr_same by exact H1. rewrite skipn_set, firstn_set by exact Hi. rewrite !list_set_length. auto.
Qed.
Lemma view_length : forall (h : heap link) s, sl_ok h s -> length (sl_view h s) = sl_len s.
Proof. intros h s (H1 & H2 & H3). unfold sl_view. rewrite firstn_length, skipn_length. lia. Qed.
Lemma append_one : forall grow (h : heap link) s x, sl_ok h s -> exists h' s', sl_append link_zero grow h s [x] = (h', s') /\ sl_ok h' s' /\ sl_ok h' s /\
  sl_view h' s' = sl_view h s ++ [x] /\ sl_view h' s = sl_view h s.
Proof.
  intros grow h s x Hok. pose proof (view_length h s Hok) as HL. destruct Hok as (H1 & H2 & H3). unfold sl_append. cbn [length].
  destruct (sl_len s + 1 <=? sl_cap s)%nat eqn:E.
  - apply Nat.leb_le in E. do 2 eexists. split; [reflexivity|]. unfold sl_ok, sl_view. cbn [sl_arr sl_off sl_len sl_cap write_at].
    rewrite list_set_length, arr_same by exact H1. rewrite list_set_length. split; [auto|]. split; [auto|].
    replace (sl_len s + 1)%nat with (S (sl_len s)) by lia. rewrite skipn_set, firstn_one_more by (rewrite skipn_length; lia). split; [reflexivity|].
    apply firstn_set_past. lia.
  - do 2 eexists. split; [reflexivity|]. set (k := grow (sl_len s + 1)%nat). set (new := mkSl (length h) 0 (sl_len s + 1) (sl_len s + 1 + k)).
    assert (EA : arr (h ++ [sl_view h s ++ [x] ++ repeat link_zero k]) (length h) = sl_view h s ++ [x] ++ repeat link_zero k).
    { unfold arr at 1. rewrite app_nth2, Nat.sub_diag by lia. reflexivity. }
    split; [unfold sl_ok, new; cbn [sl_arr sl_off sl_len sl_cap]; rewrite EA, !app_length, repeat_length, HL; cbn [length]; lia|].
    split; [unfold sl_ok; rewrite arr_old, app_length by exact H1; cbn [length]; lia|].
    split; [|unfold sl_view at 1 3; rewrite arr_old by exact H1; reflexivity].
    change (sl_view (h ++ [sl_view h s ++ [x] ++ repeat link_zero k]) new) with (firstn (sl_len s + 1) (arr (h ++ [sl_view h s ++ [x] ++ repeat link_zero k]) (length h))).
    rewrite EA, app_assoc, firstn_app, app_length, HL. cbn [length]. rewrite Nat.sub_diag. cbn [firstn]. rewrite app_nil_r. apply firstn_all2. rewrite app_length, HL. cbn. lia.
Qed.
Lemma fix_loop_tight : forall grow links ls ms (h ex : heap link) new, sl_ok h links -> sl_cap links = sl_len links -> sl_view h links = ls ->
  sl_ok (h ++ ex) new -> (length h <= sl_arr new)%nat ->
  exists ex' new', mem_fix_loop grow links new ms (h ++ ex) = Ret (h ++ ex', new') /\
    sl_view (h ++ ex') new' = fold_left (fun new m => match fill_first m new with Some new' => new' | None => ls ++ [m] end) ms (sl_view (h ++ ex) new).
Proof.
  intros grow links ls ms h ex new Hl Hc Hv. revert ex new. induction ms as [|m ms IH]; intros ex new Hn Ha; cbn [mem_fix_loop fold_left]; [do 2 eexists; split; reflexivity|].
  pose proof (first_fill m (sl_view (h ++ ex) new) 0) as F. destruct (first_available (sl_view (h ++ ex) new) 0) as [i|].
  - destruct F as [Hi ->]. rewrite (view_length _ _ Hn) in Hi. rewrite Nat.sub_0_r.
    destruct (view_set (h ++ ex) new i m Hn) as (h' & -> & Ev & Eh & L1 & L2); [lia|]. rewrite <- Ev.
    rewrite Eh. rewrite set_old by exact Ha. apply IH; [|exact Ha].
    rewrite <- set_old, <- Eh by exact Ha. destruct Hn as (N1 & N2 & N3). unfold sl_ok. rewrite L1, L2. auto.
  - rewrite F. unfold sl_append. cbn [length]. rewrite Hc. replace (sl_len links + 1 <=? sl_len links)%nat with false by (symmetry; apply Nat.leb_gt; lia).
    assert (Ev : sl_view (h ++ ex) links = ls) by (unfold sl_view; rewrite arr_old by apply Hl; exact Hv). rewrite Ev.
    assert (LL : length ls = sl_len links) by (rewrite <- Hv; apply view_length, Hl).
    set (k := grow (sl_len links + 1)%nat). set (new1 := mkSl (length (h ++ ex)) 0 (sl_len links + 1) (sl_len links + 1 + k)). rewrite <- app_assoc.
    assert (EA : arr (h ++ ex ++ [ls ++ [m] ++ repeat link_zero k]) (length (h ++ ex)) = ls ++ [m] ++ repeat link_zero k).
    { unfold arr. rewrite app_assoc, app_nth2, Nat.sub_diag by lia. reflexivity. }
    assert (V : sl_view (h ++ ex ++ [ls ++ [m] ++ repeat link_zero k]) new1 = ls ++ [m]).
    { unfold sl_view, new1. cbn [sl_arr sl_off sl_len]. rewrite EA. cbn [skipn]. rewrite app_assoc, firstn_app, app_length, LL. cbn [length]. rewrite Nat.sub_diag. cbn [firstn].
      rewrite app_nil_r. apply firstn_all2. rewrite app_length, LL. cbn. lia. }
    rewrite <- V. apply IH; [|unfold new1; cbn [sl_arr]; rewrite app_length; lia].
    unfold sl_ok, new1. cbn [sl_arr sl_off sl_len sl_cap]. rewrite EA, !app_length, repeat_length, LL. cbn [length]. lia.
Qed.
Lemma fix_loop_full : forall grow links ls ms (h : heap link) new, sl_ok h links -> sl_view h links = ls -> Forall (fun l => rcf_available (l_flags l) = false) ls ->
  Forall (fun l => rcf_available (l_flags l) = false) ms -> Forall (fun l => rcf_available (l_flags l) = false) (sl_view h new) ->
  exists h' new', mem_fix_loop grow links new ms h = Ret (h', new') /\ sl_view h' links = ls /\
    sl_view h' new' = fold_left (fun new m => match fill_first m new with Some new' => new' | None => ls ++ [m] end) ms (sl_view h new).
Proof.
  intros grow links ls ms. induction ms as [|m ms IH]; intros h new Hl Hv Hf Hm Hn; cbn [mem_fix_loop fold_left]; [do 2 eexists; split; [reflexivity|auto]|].
  apply Forall_cons_iff in Hm. destruct Hm as [Hm Hms].
  pose proof (first_fill m (sl_view h new) 0) as F. rewrite (none_available _ 0%nat Hn) in *. rewrite F.
  destruct (append_one grow h links m Hl) as (h1 & s1 & -> & O1 & O2 & V1 & V2). rewrite Hv in V1, V2.
  rewrite <- V1. apply IH; try assumption. rewrite V1. apply Forall_app. auto.
Qed.
Lemma flip_in_use : forall l, rcf_available (l_flags (flip_role l)) = rcf_available (l_flags l).
Proof.
  intro l. unfold flip_role. cbn [with_flags l_flags]. unfold rcf_available, rcf_set_responder, rcf_set_controller, rcf_set_bit, rcf_clear_bit.
  destruct (rcf_controller (l_flags l)).
  - rewrite <- Z.land_assoc. reflexivity.
  - rewrite Z.land_lor_distr_l. change (Z.land (Z.shiftl 1 6) 128) with 0. rewrite Z.lor_0_r. reflexivity.
Qed.
Lemma missing_in_use : forall links addrs, Forall (fun l => rcf_available (l_flags l) = false) (missing_crosslinks links addrs).
Proof.
  intros links addrs. unfold missing_crosslinks. induction addrs as [|x addrs IH]; cbn [flat_map]; [constructor|]. apply Forall_app. split; [clear IH|exact IH].
  induction links as [|l t IHl]; cbn [missing_first]; [constructor|]. destruct (rcf_available (l_flags l) || negb (l_addr l =? x)) eqn:E; [exact IHl|].
  destruct (existsb (crosslink_of x l) t); constructor; [|constructor]. rewrite flip_in_use. destruct (rcf_available (l_flags l)); [discriminate|reflexivity].
Qed.
Lemma fix_agrees : forall grow s addrs (h : heap link), sl_ok h s -> sl_cap s = sl_len s \/ Forall (fun l => rcf_available (l_flags l) = false) (sl_view h s) ->
  exists h' new, mem_fix_crosslinks grow s addrs h = Ret (h', new) /\ sl_view h' new = fix_crosslinks (sl_view h s) addrs /\ sl_view h' s = sl_view h s.
Proof.
  intros grow s addrs h Hok Hc. pose proof (view_length h s Hok) as HL. unfold mem_fix_crosslinks, fix_crosslinks.
  set (new := mkSl (length h) 0 (sl_len s) (sl_len s)).
  assert (EA : arr (h ++ [sl_view h s]) (length h) = sl_view h s) by (unfold arr; rewrite app_nth2, Nat.sub_diag by lia; reflexivity).
  assert (VN : sl_view (h ++ [sl_view h s]) new = sl_view h s).
  { unfold sl_view at 1, new. cbn [sl_arr sl_off sl_len]. rewrite EA. cbn [skipn]. rewrite <- HL. apply firstn_all. }
  assert (VS : sl_view (h ++ [sl_view h s]) s = sl_view h s) by (unfold sl_view at 1 3; rewrite arr_old by apply Hok; reflexivity).
  destruct Hc as [Hc|Hf].
  - destruct (fix_loop_tight grow s (sl_view h s) (missing_crosslinks (sl_view h s) addrs) h [sl_view h s] new Hok Hc eq_refl) as (ex' & new' & E & V).
    { unfold sl_ok, new. cbn [sl_arr sl_off sl_len sl_cap]. rewrite EA, app_length, HL. cbn. lia. }
    { unfold new. cbn. lia. }
    rewrite VN in V. do 2 eexists. split; [exact E|]. split; [exact V|]. unfold sl_view. rewrite arr_old by apply Hok. reflexivity.
  - destruct (fix_loop_full grow s (sl_view h s) (missing_crosslinks (sl_view h s) addrs) (h ++ [sl_view h s]) new) as (h' & new' & E & V1 & V2); try assumption.
    { destruct Hok as (H1 & H2 & H3). unfold sl_ok. rewrite arr_old by exact H1. rewrite app_length. lia. }
    { apply missing_in_use. }
    { rewrite VN. exact Hf. }
    rewrite VN in V2. eauto.
Qed.
