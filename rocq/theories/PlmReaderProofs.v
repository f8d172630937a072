From Coq Require Import ZArith List Bool Lia ZifyBool ZifyNat.
From Verif Require Import GoBase GoLemmas Message MessageProofs PlmPacket PlmReader PlmReaderSpec.
Import ListNotations.
Open Scope Z_scope.
Ltac Zify.zify_post_hook ::= Z.div_mod_to_equations.

(** ** The buffered reader only depends on the stream *)
Lemma next_chunk_none : forall cs, next_chunk cs = None <-> concat cs = [].
Proof.
  induction cs as [|c cs IH]; cbn [next_chunk concat]; [tauto|].
  destruct c as [|x c]; cbn [app]; [exact IH|]. split; discriminate.
Qed.

Lemma next_chunk_some : forall cs c cs', next_chunk cs = Some (c, cs') ->
  c <> [] /\ concat cs = c ++ concat cs'.
Proof.
  induction cs as [|c0 cs IH]; intros c cs' H; cbn [next_chunk] in H; [discriminate|].
  destruct c0 as [|x c0].
  - cbn [concat app]. apply IH. exact H.
  - injection H as H1 H2. subst c cs'. split; [discriminate|reflexivity].
Qed.

Lemma read_byte_nil : forall b, stream b = [] ->
  read_byte b = (0, Some (b_end b), mkBuf [] (b_last b) [] (b_end b)).
Proof.
  intros b H. unfold stream in H. apply app_eq_nil in H. destruct H as [H1 H2].
  unfold read_byte. rewrite H1. apply next_chunk_none in H2. rewrite H2. reflexivity.
Qed.

Lemma read_byte_cons : forall b c t, stream b = c :: t ->
  exists b', read_byte b = (c, None, b') /\ stream b' = t /\ b_last b' = Some c /\ b_end b' = b_end b.
Proof.
  intros b c t H. unfold read_byte. unfold stream in H.
  destruct (b_buf b) as [|x buf] eqn:E.
  - cbn [app] in H. destruct (next_chunk (b_chunks b)) as [[ch cs]|] eqn:En.
    + destruct (next_chunk_some _ _ _ En) as [Hne Hc]. rewrite Hc in H.
      destruct ch as [|y ch]; [contradiction|]. cbn [app] in H. injection H as H1 H2. subst y t.
      eexists. split; [reflexivity|]. auto.
    + apply next_chunk_none in En. rewrite En in H. discriminate.
  - cbn [app] in H. injection H as H1 H2. subst x t. eexists. split; [reflexivity|]. auto.
Qed.

Lemma unread_byte_some : forall b c, b_last b = Some c ->
  exists b', unread_byte b = (None, b') /\ stream b' = c :: stream b /\ b_end b' = b_end b.
Proof.
  intros b c H. unfold unread_byte. rewrite H. eexists. split; [reflexivity|]. auto.
Qed.

Lemma read_full_go_ok : forall n g b, (n <= length (stream b))%nat ->
  exists b', read_full_go g n b = (firstn n (stream b), None, b') /\
    stream b' = skipn n (stream b) /\ b_end b' = b_end b.
Proof.
  induction n as [|n IH]; intros g b H.
  - exists b. cbn [read_full_go]. rewrite firstn_O. auto.
  - destruct (stream b) as [|c t] eqn:E; [cbn [length] in H; lia|].
    destruct (read_byte_cons b c t E) as (b1 & H1 & H2 & _ & H4).
    cbn [length] in H.
    destruct (IH true b1) as (b2 & H5 & H6 & H7); [rewrite H2; lia|].
    exists b2. cbn [read_full_go]. rewrite H1, H5, H2 in *. cbn [firstn skipn].
    split; [reflexivity|]. split; [rewrite H6; reflexivity|congruence].
Qed.

Lemma read_full_go_short : forall n g b, (length (stream b) < n)%nat ->
  exists bs b', read_full_go g n b =
     (bs, Some (if (g || negb (Nat.eqb (length (stream b)) 0)) && error_eqb (b_end b) EEOF then EUnexpectedEOF else b_end b), b') /\
    stream b' = [] /\ b_end b' = b_end b.
Proof.
  induction n as [|n IH]; intros g b H; [lia|].
  cbn [read_full_go]. destruct (stream b) as [|c t] eqn:E.
  - rewrite read_byte_nil by exact E. exists [], (mkBuf [] (b_last b) [] (b_end b)). cbn [length Nat.eqb negb].
    rewrite orb_false_r. auto.
  - destruct (read_byte_cons b c t E) as (b1 & H1 & H2 & _ & H4). rewrite H1.
    cbn [length] in H.
    destruct (IH true b1) as (bs & b2 & H5 & H6 & H7); [rewrite H2; lia|].
    rewrite H5. exists (c :: bs), b2. cbn [length Nat.eqb negb]. rewrite orb_true_r. rewrite H4 in *. auto.
Qed.

(** ** The length table is the documented one *)
Lemma frame_size_big : forall c, 256 <= c -> frame_size c = None.
Proof.
  intros c H. destruct c as [|p|p]; try lia.
  do 7 (destruct p as [p|p|]; try reflexivity; try lia).
Qed.

Lemma frame_size_neg : forall c, c < 0 -> frame_size c = None.
Proof. intros c H. destruct c; try lia; reflexivity. Qed.

Lemma command_len_range : forall c n, command_len c = Some n -> is_byte c.
Proof.
  intros c n. unfold command_len, command_lens_table. cbn [assoc].
  repeat match goal with
  | |- context [?k =? c] => destruct (Z.eqb_spec k c) as [<-|_]; [intros _; unfold is_byte; cbv; split; congruence|]
  end.
  discriminate.
Qed.

Lemma command_len_frame_size : forall c,
  match command_len c, frame_size c with
  | Some n, Some m => Z.of_nat m = n + 2 /\ 0 <= n <= 23 /\ (0x60 <= c -> 1 <= n)
  | None, None => True
  | _, _ => False
  end.
Proof.
  intros c.
  assert (Hc : is_byte c \/ ~ is_byte c) by (unfold is_byte; lia).
  destruct Hc as [Hc|Hc].
  - pose proof (sweep1 (fun c => match command_len c, frame_size c with
      | Some n, Some m => (Z.of_nat m =? n + 2) && (0 <=? n) && (n <=? 23) && ((c <? 0x60) || (1 <=? n))
      | None, None => true | _, _ => false end) ltac:(vm_compute; reflexivity) c Hc) as H.
    cbv beta in H. destruct (command_len c), (frame_size c); try discriminate; [lia|exact I].
  - assert (Hf : frame_size c = None).
    { unfold is_byte in Hc. destruct (Z.ltb_spec c 0); [apply frame_size_neg; lia|apply frame_size_big; lia]. }
    rewrite Hf. destruct (command_len c) as [n|] eqn:E; [|exact I].
    apply Hc. apply (command_len_range _ _ E).
Qed.

Lemma command_len_known : forall c, frame_size c <> None <-> command_len c <> None.
Proof.
  intros c. pose proof (command_len_frame_size c) as H.
  destruct (command_len c), (frame_size c); split; intro; try congruence; contradiction.
Qed.

(** ** Synchronisation on lists *)
Fixpoint find_start (l : list Z) : option (Z * list Z) :=
  match l with
  | [] => None
  | a :: t =>
      if a =? 0x02 then
        match t with
        | [] => None
        | c :: r => match command_len c with Some _ => Some (c, r) | None => find_start t end
        end
      else find_start t
  end.

Lemma find_start_gap : forall l, find_start l = None <-> gap l.
Proof.
  assert (Hshift : forall a t, gap (a :: t) -> gap t).
  { intros a t H k. exact (H (S k)). }
  induction l as [|a t IH].
  - split; [|reflexivity]. intros _ k [c [t [H _]]]. rewrite skipn_nil in H. discriminate.
  - cbn [find_start]. destruct (a =? 2) eqn:Ea.
    + apply Z.eqb_eq in Ea. subst a. destruct t as [|c r].
      * split; [|reflexivity]. intros _ k [c [t [H _]]]. destruct k as [|k]; cbn [skipn] in H; [discriminate|].
        rewrite skipn_nil in H. discriminate.
      * destruct (command_len c) as [n|] eqn:E.
        { split; [discriminate|]. intro H. exfalso. apply (H 0%nat). exists c, r. split; [reflexivity|].
          apply command_len_known. congruence. }
        rewrite IH. split.
        { intros H k. destruct k as [|k]; [|exact (H k)].
          intros [c' [t' [H1 H2]]]. cbn [skipn] in H1. injection H1 as H1 H3. subst c'.
          apply command_len_known in H2. congruence. }
        { apply Hshift. }
    + rewrite IH. split; [|apply Hshift]. intros H k. destruct k as [|k]; [|exact (H k)].
      intros [c' [t' [H1 _]]]. cbn [skipn] in H1. injection H1 as H1 _. lia.
Qed.

Lemma find_start_frame : forall l c r, find_start l = Some (c, r) ->
  exists pre, l = pre ++ 0x02 :: c :: r /\ gap pre /\ command_len c <> None.
Proof.
  intros l. induction l as [|a t IH]; intros c r H; cbn [find_start] in H; [discriminate|].
  assert (Hgap0 : gap []).
  { intros k [c' [t' [H1 _]]]. rewrite skipn_nil in H1. discriminate. }
  destruct (a =? 2) eqn:Ea.
  - apply Z.eqb_eq in Ea. subst a. destruct t as [|c' r']; [discriminate|].
    destruct (command_len c') as [n|] eqn:E.
    + injection H as H1 H2. subst c' r'. exists []. split; [reflexivity|]. split; [exact Hgap0|congruence].
    + destruct (IH c r H) as (pre & H1 & H2 & H3). exists (2 :: pre). rewrite H1. split; [reflexivity|].
      split; [|exact H3]. apply find_start_gap. cbn [find_start]. replace (2 =? 2) with true by reflexivity.
      destruct pre as [|p pre]; [reflexivity|]. cbn [app] in H1. injection H1 as H4 H5. subst c'.
      rewrite E. apply find_start_gap in H2. exact H2.
  - destruct (IH c r H) as (pre & H1 & H2 & H3). exists (a :: pre). rewrite H1. split; [reflexivity|].
    split; [|exact H3]. apply find_start_gap. cbn [find_start]. rewrite Ea. apply find_start_gap. exact H2.
Qed.

Lemma find_start_app : forall pre c r, gap pre -> command_len c <> None ->
  find_start (pre ++ 0x02 :: c :: r) = Some (c, r).
Proof.
  induction pre as [|a t IH]; intros c r Hg Hc.
  - cbn [app find_start]. replace (2 =? 2) with true by reflexivity.
    destruct (command_len c); [reflexivity|congruence].
  - assert (Hg' : gap t) by (intros k; exact (Hg (S k))).
    cbn [app find_start]. destruct (a =? 2) eqn:Ea; [|apply IH; assumption].
    apply Z.eqb_eq in Ea. subst a.
    destruct t as [|b t].
    + cbn [app]. replace (command_len 2) with (@None Z) by reflexivity. apply (IH c r Hg' Hc).
    + cbn [app]. destruct (command_len b) as [n|] eqn:E.
      * exfalso. apply (Hg 0%nat). exists b, t. split; [reflexivity|]. apply command_len_known. congruence.
      * apply (IH c r Hg' Hc).
Qed.

Definition mode_len (ign : bool) (c n : Z) : Z :=
  if ign && (0x60 <=? c) && (c <=? 0x64) then n - 1 else n.

Lemma sync_found : forall fuel ign b c r n,
  (length (stream b) < fuel)%nat -> find_start (stream b) = Some (c, r) -> command_len c = Some n ->
  exists b', pr_sync fuel ign b = (Ret (inl (c, mode_len ign c n)), b') /\ stream b' = r /\ b_end b' = b_end b.
Proof.
  induction fuel as [|fuel IH]; intros ign b c r n Hf Hs Hn; [lia|].
  destruct (stream b) as [|a t] eqn:E; [discriminate|].
  destruct (read_byte_cons b a t E) as (b1 & H1 & H2 & _ & H4).
  cbn [pr_sync]. rewrite H1. cbn [length] in Hf. cbn [find_start] in Hs.
  destruct (a =? 2) eqn:Ea; cbn [negb].
  - destruct t as [|c' r']; [discriminate|].
    destruct (read_byte_cons b1 c' r' H2) as (b2 & H5 & H6 & H7 & H8). rewrite H5.
    destruct (command_len c') as [n'|] eqn:E'.
    + injection Hs as Hs1 Hs2. subst c' r'. rewrite E' in Hn. injection Hn as Hn. subst n'.
      exists b2. split; [reflexivity|]. split; [exact H6|congruence].
    + destruct (unread_byte_some b2 c' H7) as (b3 & H9 & H10 & H11). rewrite H9.
      destruct (IH ign b3 c r n) as (b4 & H12 & H13 & H14).
      { rewrite H10, H6. cbn [length] in *. lia. }
      { rewrite H10, H6. exact Hs. }
      { exact Hn. }
      exists b4. split; [exact H12|]. split; [exact H13|congruence].
  - destruct (IH ign b1 c r n) as (b4 & H12 & H13 & H14).
    { rewrite H2. lia. }
    { rewrite H2. exact Hs. }
    { exact Hn. }
    exists b4. split; [exact H12|]. split; [exact H13|congruence].
Qed.

Lemma sync_end : forall fuel ign b,
  (length (stream b) < fuel)%nat -> find_start (stream b) = None -> last (stream b) 0 <> 0x02 ->
  exists b', pr_sync fuel ign b = (Ret (inr (b_end b)), b') /\ stream b' = [] /\ b_end b' = b_end b.
Proof.
  induction fuel as [|fuel IH]; intros ign b Hf Hs Hl; [lia|].
  destruct (stream b) as [|a t] eqn:E.
  - cbn [pr_sync]. rewrite read_byte_nil by exact E. eexists. split; [reflexivity|]. auto.
  - destruct (read_byte_cons b a t E) as (b1 & H1 & H2 & _ & H4).
    cbn [pr_sync]. rewrite H1. cbn [length] in Hf. cbn [find_start] in Hs.
    destruct (a =? 2) eqn:Ea; cbn [negb].
    + destruct t as [|c' r']; [exfalso; apply Hl; cbn [last]; lia|].
      destruct (read_byte_cons b1 c' r' H2) as (b2 & H5 & H6 & H7 & H8). rewrite H5.
      destruct (command_len c') as [n'|] eqn:E'; [discriminate|].
      destruct (unread_byte_some b2 c' H7) as (b3 & H9 & H10 & H11). rewrite H9.
      destruct (IH ign b3) as (b4 & H12 & H13 & H14).
      { rewrite H10, H6. cbn [length] in *. lia. }
      { rewrite H10, H6. exact Hs. }
      { rewrite H10, H6. exact Hl. }
      exists b4. rewrite H12. split; [do 2 f_equal; congruence|]. split; [exact H13|congruence].
    + destruct (IH ign b1) as (b4 & H12 & H13 & H14).
      { rewrite H2. lia. }
      { rewrite H2. exact Hs. }
      { rewrite H2. destruct t as [|x t]; [cbn [last]; lia|exact Hl]. }
      exists b4. rewrite H12. split; [do 2 f_equal; congruence|]. split; [exact H13|congruence].
Qed.

Lemma sync_stuck : forall fuel ign b,
  find_start (stream b) = None -> last (stream b) 0 = 0x02 ->
  exists b', pr_sync fuel ign b = (NoFuel, b').
Proof.
  induction fuel as [|fuel IH]; intros ign b Hs Hl; [exists b; reflexivity|].
  destruct (stream b) as [|a t] eqn:E; [cbn [last] in Hl; lia|].
  destruct (read_byte_cons b a t E) as (b1 & H1 & H2 & H3 & H4).
  cbn [pr_sync]. rewrite H1. cbn [find_start] in Hs.
  destruct (a =? 2) eqn:Ea; cbn [negb].
  - destruct t as [|c' r'].
    + rewrite read_byte_nil by exact H2. replace (command_len 0) with (@None Z) by reflexivity.
      destruct (unread_byte_some (mkBuf [] (b_last b1) [] (b_end b1)) a) as (b3 & H9 & H10 & H11); [exact H3|].
      rewrite H9. apply IH.
      * rewrite H10. cbn [stream b_buf b_chunks concat app]. cbn [find_start]. rewrite Ea. reflexivity.
      * rewrite H10. cbn [stream b_buf b_chunks concat app last]. lia.
    + destruct (read_byte_cons b1 c' r' H2) as (b2 & H5 & H6 & H7 & H8). rewrite H5.
      destruct (command_len c') as [n'|] eqn:E'; [discriminate|].
      destruct (unread_byte_some b2 c' H7) as (b3 & H9 & H10 & H11). rewrite H9. apply IH.
      * rewrite H10, H6. exact Hs.
      * rewrite H10, H6. exact Hl.
  - apply IH.
    + rewrite H2. exact Hs.
    + rewrite H2. destruct t as [|x t]; [cbn [last] in Hl; lia|exact Hl].
Qed.

(** ** Decoding one frame *)
Lemma split_last_app : forall front a, split_last (front ++ [a]) = Ret (front, a).
Proof.
  intros front a. unfold split_last. destruct (front ++ [a]) eqn:E.
  - destruct front; discriminate.
  - rewrite <- E, removelast_last, last_last. reflexivity.
Qed.

Lemma nonempty_last : forall (l : list Z), (0 < length l)%nat -> exists front a, l = front ++ [a].
Proof.
  intros l H. destruct l as [|x l] using rev_ind; [cbn [length] in H; lia|]. eauto.
Qed.

Lemma frame_decodes : forall host cmd body, rx_frame host cmd body ->
  exists p, pkt_unmarshal pkt_zero (frame_bytes cmd body) = Ret (p, None) /\ decodes host cmd body p.
Proof.
  intros host cmd body H. unfold frame_bytes, pkt_unmarshal.
  replace (negb (2 =? 2)) with false by reflexivity.
  destruct H as [cmd body n Hn Hne Hlen|a b c f c1 c2 data ack Hd Hf Ha].
  - pose proof (command_len_frame_size cmd) as HT. rewrite Hn in HT.
    destruct (command_len cmd) as [m|] eqn:Em; [|contradiction]. destruct HT as (HT1 & HT2 & HT3).
    pose proof (command_len_range _ _ Em) as Hb. unfold is_byte in Hb.
    replace (cmd =? pc_SendInsteonMsg) with false by (unfold pc_SendInsteonMsg; lia).
    cbn [p_payload pkt_zero p_ack app].
    destruct (Z.ltb_spec cmd 0x60) as [Hlt|Hge].
    + replace ((96 <=? cmd) && (cmd <=? 127)) with false by lia. cbn [andb].
      eexists. split; [reflexivity|]. apply dec_unsolicited. exact Hlt.
    + destruct (host && (96 <=? cmd) && (cmd <=? 100)) eqn:Eh.
      * replace (zlen body =? m) with false by (unfold zlen; lia).
        rewrite andb_false_r. eexists. split; [reflexivity|].
        apply dec_host; [destruct host; [reflexivity|discriminate]|lia|exact Hne].
      * assert (Hcmd7f : cmd <= 127).
        { destruct (Z.leb_spec cmd 127) as [Hle|Hgt]; [exact Hle|].
          exfalso. pose proof (sweep1 (fun c => (c <=? 127) || match command_len c with None => true | _ => false end)
            ltac:(vm_compute; reflexivity) cmd Hb) as HS. cbv beta in HS. rewrite Em in HS. lia. }
        replace ((96 <=? cmd) && (cmd <=? 127)) with true by lia.
        replace (zlen body =? m) with true by (unfold zlen; lia). cbn [andb].
        destruct (nonempty_last body) as (front & a & Hbody); [lia|]. subst body.
        rewrite split_last_app. cbn [bindo]. eexists. split; [reflexivity|].
        apply dec_reply; [lia|exact Hne|]. destruct host; [right; lia|left; reflexivity].
  - replace (98 =? pc_SendInsteonMsg) with true by reflexivity.
    replace ((96 <=? 98) && (98 <=? 127)) with true by reflexivity. cbn [andb].
    assert (Hz : zlen ([a; b; c; f; c1; c2] ++ data ++ ack) = 6 + zlen data + zlen ack).
    { unfold zlen. rewrite !app_length. cbn [length]. lia. }
    rewrite Hz. destruct host.
    + destruct ack as [|x ack]; [|discriminate]. rewrite app_nil_r, zlen_nil.
      replace ((6 + zlen data + 0 =? 21) || (6 + zlen data + 0 =? 7)) with false
        by (unfold zlen; rewrite Hd; destruct ((f / 16) mod 2 =? 1); reflexivity).
      eexists. split; [reflexivity|]. apply dec_host_message. reflexivity.
    + destruct ack as [|x [|y ack]]; try discriminate.
      replace ((6 + zlen data + zlen [x] =? 21) || (6 + zlen data + zlen [x] =? 7)) with true
        by (unfold zlen; rewrite Hd; destruct ((f / 16) mod 2 =? 1); reflexivity).
      replace ([a; b; c; f; c1; c2] ++ data ++ [x]) with (([a; b; c; f; c1; c2] ++ data) ++ [x])
        by (rewrite app_assoc; reflexivity).
      rewrite split_last_app. cbn [bindo]. eexists. split; [reflexivity|].
      apply (dec_echo false). reflexivity.
Qed.

Lemma firstn_split : forall (l : list Z) k m, firstn (k + m) l = firstn k l ++ firstn m (skipn k l).
Proof.
  intros l k m. rewrite <- (firstn_skipn k (firstn (k + m) l)).
  rewrite firstn_firstn, Nat.min_l by lia. f_equal.
  rewrite skipn_firstn_comm. f_equal. lia.
Qed.

Lemma skipn_add : forall (l : list Z) k m, skipn (k + m) l = skipn m (skipn k l).
Proof.
  intros l k m. revert l. induction k as [|k IH]; intros [|x l]; cbn [Nat.add skipn]; try reflexivity.
  - symmetry. apply skipn_nil.
  - apply IH.
Qed.

(** ** Reading one frame *)
(** Once the start of a frame was found: either the whole frame is there, or the stream ends inside it. *)
Lemma read_after_sync : forall fuel ign b c r n, bytes_ok (stream b) ->
  (length (stream b) < fuel)%nat -> find_start (stream b) = Some (c, r) -> command_len c = Some n ->
  (exists body rest b', r = body ++ rest /\ rx_frame ign c body /\
      pr_read fuel ign b = (Ret (inl (frame_bytes c body)), b') /\ stream b' = rest /\ b_end b' = b_end b) \/
  (exists e b', (forall body rest, r = body ++ rest -> ~ rx_frame ign c body) /\
      (e = b_end b \/ (b_end b = EEOF /\ e = EUnexpectedEOF)) /\
      pr_read fuel ign b = (Ret (inr e), b') /\ stream b' = [] /\ b_end b' = b_end b).
Proof.
  intros fuel ign b c r n Hok Hf Hs Hn.
  destruct (sync_found fuel ign b c r n Hf Hs Hn) as (b1 & H1 & H2 & H3).
  unfold pr_read. rewrite H1.
  pose proof (command_len_frame_size c) as HT. rewrite Hn in HT.
  destruct (frame_size c) as [m|] eqn:Em; [|contradiction]. destruct HT as (HT1 & HT2 & HT3).
  assert (Hml : 0 <= mode_len ign c n <= 23).
  { unfold mode_len. destruct (ign && (96 <=? c) && (c <=? 100)) eqn:Ei; lia. }
  replace ((mode_len ign c n <? 0) || (max_paclen <? 2 + mode_len ign c n)) with false
    by (unfold max_paclen; lia).
  set (k := Z.to_nat (mode_len ign c n)).
  assert (Hokr : bytes_ok r).
  { destruct (find_start_frame _ _ _ Hs) as (pre & Hp & _ & _). rewrite Hp in Hok.
    apply bytes_ok_app in Hok. destruct Hok as [_ Hok]. inversion Hok as [|? ? _ Hok1]; subst.
    inversion Hok1; subst. assumption. }
  assert (Hlen62 : c = 98 -> k = if ign then 6%nat else 7%nat).
  { intros ->. assert (n = 7) by (vm_compute in Hn; congruence). subst n. destruct ign; reflexivity. }
  destruct (Nat.le_gt_cases k (length r)) as [Hk|Hk].
  - destruct (read_full_go_ok k false b1) as (b2 & H4 & H5 & H6); [rewrite H2; exact Hk|].
    unfold read_full. rewrite H4, H2 in *. clear H2.
    destruct ((c =? pc_SendInsteonMsg) && fl_extended (nth 5 ([2; c] ++ firstn k r) 0)) eqn:Eext.
    + apply andb_true_iff in Eext. destruct Eext as [Ec Ext]. apply Z.eqb_eq in Ec.
      unfold pc_SendInsteonMsg in Ec. specialize (Hlen62 Ec). subst c.
      replace (max_paclen <? zlen ([2; 98] ++ firstn k r) + 14) with false.
      2:{ unfold zlen, max_paclen. rewrite app_length, firstn_length. cbn [length].
          destruct ign; rewrite Hlen62 in *; lia. }
      assert (Hr6 : exists a0 b0 c0 f c1 c2 t, r = [a0; b0; c0; f; c1; c2] ++ t).
      { destruct ign; rewrite Hlen62 in Hk;
          destruct r as [|a0 [|b0 [|c0 [|f [|c1 [|c2 t]]]]]]; cbn [length] in Hk; try lia;
          exists a0, b0, c0, f, c1, c2, t; reflexivity. }
      destruct Hr6 as (a0 & b0 & c0 & f & c1 & c2 & t & Hr). subst r.
      assert (Hfb : is_byte f).
      { apply bytes_ok_app in Hokr. destruct Hokr as [Ho _]. unfold bytes_ok in Ho.
        rewrite Forall_forall in Ho. apply Ho. do 3 right. left. reflexivity. }
      assert (Hnth : nth 5 ([2; 98] ++ firstn k ([a0; b0; c0; f; c1; c2] ++ t)) 0 = f).
      { rewrite Hlen62. destruct ign; reflexivity. }
      rewrite Hnth in Ext. rewrite (extended_bit _ Hfb) in Ext.
      destruct (Nat.le_gt_cases 14 (length (skipn k ([a0; b0; c0; f; c1; c2] ++ t)))) as [H14|H14].
      * destruct (read_full_go_ok 14 false b2) as (b3 & H7 & H8 & H9); [rewrite H5; exact H14|].
        rewrite H7, H5 in *. left.
        exists (firstn (k + 14) ([a0; b0; c0; f; c1; c2] ++ t)),
               (skipn (k + 14) ([a0; b0; c0; f; c1; c2] ++ t)), b3.
        rewrite skipn_length in H14.
        split; [symmetry; apply firstn_skipn|]. split.
        { assert (Hb : firstn (k + 14) ([a0; b0; c0; f; c1; c2] ++ t) =
              [a0; b0; c0; f; c1; c2] ++ firstn 14 t ++ firstn (k - 6) (skipn 14 t)).
          { replace (k + 14)%nat with (length [a0; b0; c0; f; c1; c2] + (14 + (k - 6)))%nat
              by (cbn [length]; destruct ign; rewrite Hlen62; reflexivity).
            rewrite firstn_app_2. f_equal.
            rewrite <- (firstn_skipn 14 t) at 1. rewrite firstn_app.
            assert (Ht14 : (14 <= length t)%nat).
            { rewrite app_length in H14. cbn [length] in H14. destruct ign; rewrite Hlen62 in H14; lia. }
            rewrite firstn_length, Nat.min_l by lia.
            replace (14 + (k - 6) - 14)%nat with (k - 6)%nat by lia. f_equal.
            rewrite firstn_all2; [reflexivity|]. rewrite firstn_length. lia. }
          rewrite Hb. apply rx_message; [|exact Hfb|].
          - rewrite Ext, firstn_length. rewrite app_length in H14. cbn [length] in H14.
            destruct ign; rewrite Hlen62 in H14; lia.
          - rewrite firstn_length, skipn_length. rewrite app_length in H14. cbn [length] in H14.
            destruct ign; rewrite Hlen62 in *; lia. }
        split.
        { unfold frame_bytes. rewrite (firstn_split _ k 14). reflexivity. }
        split; [|congruence]. rewrite H8. symmetry. apply skipn_add.
      * destruct (read_full_go_short 14 false b2) as (bs & b3 & H7 & H8 & H9); [rewrite H5; exact H14|].
        rewrite H7. right. eexists. exists b3. split; [|split; [|split; [reflexivity|split; [exact H8|congruence]]]].
        { intros body rest Hbr Hrx.
          inversion Hrx as [cmd0 body0 n0 Hn0 Hne0 Hl0|a1 b1' c1' f1 d1 d2 data ack Hd Hf1 Ha Hb1]; [congruence|].
          subst body. cbn [app] in Hbr. injection Hbr as -> -> -> -> -> -> Ht.
          rewrite Ext in Hd. rewrite skipn_length, app_length in H14. subst t.
          rewrite !app_length in H14. cbn [length] in H14.
          destruct ign; rewrite Hlen62 in H14; lia. }
        { destruct ((false || negb (Nat.eqb (length (stream b2)) 0)) && error_eqb (b_end b2) EEOF) eqn:Ee.
          - right. apply andb_true_iff in Ee. destruct Ee as [_ Ee]. apply error_eqb_eq in Ee.
            split; [congruence|reflexivity].
          - left. congruence. }
    + left. exists (firstn k r), (skipn k r), b2. split; [symmetry; apply firstn_skipn|]. split.
      { destruct (Z.eq_dec c 98) as [Hc|Hc].
        - subst c. specialize (Hlen62 eq_refl).
          replace (98 =? pc_SendInsteonMsg) with true in Eext by reflexivity. cbn [andb] in Eext.
          assert (Hr6 : exists a0 b0 c0 f c1 c2 t, r = [a0; b0; c0; f; c1; c2] ++ t).
          { destruct ign; rewrite Hlen62 in Hk;
              destruct r as [|a0 [|b0 [|c0 [|f [|c1 [|c2 t]]]]]]; cbn [length] in Hk; try lia;
              exists a0, b0, c0, f, c1, c2, t; reflexivity. }
          destruct Hr6 as (a0 & b0 & c0 & f & c1 & c2 & t & Hr). subst r.
          assert (Hfb : is_byte f).
          { apply bytes_ok_app in Hokr. destruct Hokr as [Ho _]. unfold bytes_ok in Ho.
            rewrite Forall_forall in Ho. apply Ho. do 3 right. left. reflexivity. }
          assert (Hnth : nth 5 ([2; 98] ++ firstn k ([a0; b0; c0; f; c1; c2] ++ t)) 0 = f).
          { rewrite Hlen62. destruct ign; reflexivity. }
          rewrite Hnth in Eext. rewrite (extended_bit _ Hfb) in Eext.
          replace (firstn k ([a0; b0; c0; f; c1; c2] ++ t)) with ([a0; b0; c0; f; c1; c2] ++ [] ++ firstn (k - 6) t)
            by (rewrite Hlen62; destruct ign; reflexivity).
          apply rx_message; [rewrite Eext; reflexivity|exact Hfb|].
          rewrite firstn_length. rewrite app_length in Hk. cbn [length] in Hk. destruct ign; rewrite Hlen62 in *; lia.
        - apply (rx_plain _ _ _ m Em Hc). rewrite firstn_length, Nat.min_l by exact Hk.
          subst k. unfold mode_len. destruct (ign && (96 <=? c) && (c <=? 100)); lia. }
      split; [reflexivity|]. split; [exact H5|congruence].
  - destruct (read_full_go_short k false b1) as (bs & b2 & H4 & H5 & H6); [rewrite H2; exact Hk|].
    unfold read_full. rewrite H4. right. eexists. exists b2.
    split; [|split; [|split; [reflexivity|split; [exact H5|congruence]]]].
    + intros body rest Hbr Hrx. rewrite Hbr, app_length in Hk. clear H2 Hbr.
      inversion Hrx as [cmd0 body0 n0 Hn0 Hne0 Hl0|a1 b1' c1' f1 d1 d2 data ack Hd Hf1 Ha Hb1]; subst.
      * rewrite Em in Hn0. injection Hn0 as Hn0. subst n0. subst k. unfold mode_len in Hk.
        destruct (ign && (96 <=? c) && (c <=? 100)); lia.
      * specialize (Hlen62 eq_refl). rewrite Hlen62 in Hk. rewrite !app_length in Hk. cbn [length] in Hk.
        destruct ign; lia.
    + destruct ((false || negb (Nat.eqb (length (stream b1)) 0)) && error_eqb (b_end b1) EEOF) eqn:Ee.
      * right. apply andb_true_iff in Ee. destruct Ee as [_ Ee]. apply error_eqb_eq in Ee.
        split; [congruence|reflexivity].
      * left. congruence.
Qed.

(** Reading one packet: complete case analysis for a stream of bytes. *)
Lemma read_packet_cases : forall fuel ign b, bytes_ok (stream b) -> (length (stream b) < fuel)%nat ->
  (exists pre c body rest p b', stream b = pre ++ frame_bytes c body ++ rest /\ gap pre /\
      rx_frame ign c body /\ decodes ign c body p /\
      pr_read_packet fuel ign b = (Ret (inl p), b') /\ stream b' = rest /\ b_end b' = b_end b) \/
  (exists e b', (forall pre c body rest, stream b = pre ++ frame_bytes c body ++ rest -> gap pre -> ~ rx_frame ign c body) /\
      (e = b_end b \/ (b_end b = EEOF /\ e = EUnexpectedEOF)) /\
      pr_read_packet fuel ign b = (Ret (inr e), b') /\ stream b' = [] /\ b_end b' = b_end b) \/
  (gap (stream b) /\ last (stream b) 0 = 0x02 /\ exists b', pr_read_packet fuel ign b = (NoFuel, b')).
Proof.
  intros fuel ign b Hok Hf.
  destruct (find_start (stream b)) as [[c r]|] eqn:Es.
  - destruct (find_start_frame _ _ _ Es) as (pre & Hp & Hg & Hc).
    destruct (command_len c) as [n|] eqn:En; [|congruence].
    destruct (read_after_sync fuel ign b c r n Hok Hf Es En)
      as [(body & rest & b' & Hr & Hrx & Hrd & Hst & He)|(e & b' & Hno & Hee & Hrd & Hst & He)].
    + left. destruct (frame_decodes _ _ _ Hrx) as (p & Hu & Hd).
      exists pre, c, body, rest, p, b'. unfold pr_read_packet. rewrite Hrd, Hu.
      split; [rewrite Hp, Hr; reflexivity|]. auto 8.
    + right. left. exists e, b'. unfold pr_read_packet. rewrite Hrd.
      split; [|auto]. intros pre' c' body rest Hs Hg' Hrx.
      assert (Hc' : command_len c' <> None).
      { apply command_len_known. inversion Hrx; subst; [congruence|]. vm_compute. discriminate. }
      rewrite Hs in Es. unfold frame_bytes in Es. cbn [app] in Es.
      rewrite (find_start_app pre' c' (body ++ rest) Hg' Hc') in Es. injection Es as E1 E2. subst c'.
      apply (Hno body rest); [congruence|exact Hrx].
  - destruct (Z.eq_dec (last (stream b) 0) 2) as [Hl|Hl].
    + right. right. split; [apply find_start_gap; exact Es|]. split; [exact Hl|].
      destruct (sync_stuck fuel ign b Es Hl) as (b' & Hb). exists b'.
      unfold pr_read_packet, pr_read. rewrite Hb. reflexivity.
    + right. left. destruct (sync_end fuel ign b Hf Es Hl) as (b' & H1 & H2 & H3).
      exists (b_end b), b'. unfold pr_read_packet, pr_read. rewrite H1. split; [|auto].
      intros pre c body rest Hs Hg Hrx.
      assert (Hc : command_len c <> None).
      { apply command_len_known. inversion Hrx; subst; [congruence|]. vm_compute. discriminate. }
      rewrite Hs in Es. unfold frame_bytes in Es. cbn [app] in Es.
      rewrite (find_start_app pre c (body ++ rest) Hg Hc) in Es. discriminate.
Qed.

(** Reading a given frame after noise. *)
Lemma read_packet_frame : forall fuel ign b pre c body rest, bytes_ok (stream b) ->
  (length (stream b) < fuel)%nat -> stream b = pre ++ frame_bytes c body ++ rest -> gap pre ->
  rx_frame ign c body ->
  exists p b', pr_read_packet fuel ign b = (Ret (inl p), b') /\ decodes ign c body p /\
    stream b' = rest /\ b_end b' = b_end b.
Proof.
  intros fuel ign b pre c body rest Hok Hf Hs Hg Hrx.
  assert (Hc : command_len c <> None).
  { apply command_len_known. inversion Hrx; subst; [congruence|]. vm_compute. discriminate. }
  assert (Hfs : find_start (stream b) = Some (c, body ++ rest)).
  { rewrite Hs. unfold frame_bytes. cbn [app]. apply find_start_app; assumption. }
  destruct (read_packet_cases fuel ign b Hok Hf)
    as [(pre' & c' & body' & rest' & p & b' & H1 & H2 & H3 & H4 & H5 & H6 & H7)|[(e & b' & H1 & _)|(H1 & _)]].
  - assert (Hc' : command_len c' <> None).
    { apply command_len_known. inversion H3; subst; [congruence|]. vm_compute. discriminate. }
    assert (Hfs' : find_start (stream b) = Some (c', body' ++ rest')).
    { rewrite H1. unfold frame_bytes. cbn [app]. apply find_start_app; assumption. }
    rewrite Hfs in Hfs'. injection Hfs' as E1 E2. subst c'.
    assert (Hlen : length body = length body').
    { inversion Hrx as [cmd0 body0 n0 Hn0 Hne0 Hl0|a1 b1 c1 f1 d1 d2 data ack Hd Hf1 Ha Hb1]; subst.
      - inversion H3 as [cmd1 body1 n1 Hn1 Hne1 Hl1|a1 b1 c1 f1 d1 d2 data ack Hd Hf1 Ha Hb1]; subst; congruence.
      - inversion H3 as [cmd1 body1 n1 Hn1 Hne1 Hl1|a1' b1' c1' f1' d1' d2' data' ack' Hd' Hf1' Ha' Hb1']; subst; [congruence|].
        cbn [app] in E2. injection E2 as _ _ _ E4 _ _ _. subst f1'.
        rewrite !app_length. cbn [length]. congruence. }
    assert (Heq : body = body' /\ rest = rest').
    { clear -E2 Hlen. revert body' E2 Hlen. induction body as [|x body IH]; intros [|y body'] E2 Hlen; cbn [length app] in *; try lia.
      - auto.
      - injection E2 as E3 E4. destruct (IH body' E4) as [H1 H2]; [lia|]. split; congruence. }
    destruct Heq as [<- <-]. exists p, b'. auto.
  - exfalso. exact (H1 pre c body rest Hs Hg Hrx).
  - exfalso. apply find_start_gap in H1. congruence.
Qed.

(** ** Reading a whole session *)
Definition item_bytes (it : list Z * Z * list Z) : list Z :=
  match it with (pre, c, body) => pre ++ frame_bytes c body end.

Lemma read_packets_session : forall items tail ign fuel b n,
  bytes_ok (stream b) -> (length (stream b) < fuel)%nat ->
  stream b = flat_map item_bytes items ++ tail ->
  Forall (fun it => match it with (pre, c, body) => gap pre /\ rx_frame ign c body end) items ->
  gap tail -> last tail 0 <> 0x02 -> (length items < n)%nat ->
  exists ps b', pr_read_packets n fuel ign b = (Ret (ps, Some (b_end b)), b') /\
    Forall2 (fun it p => match it with (_, c, body) => decodes ign c body p end) items ps /\ stream b' = [].
Proof.
  induction items as [|[[pre c] body] items IH]; intros tail ign fuel b n Hok Hf Hs Hall Hgt Hlt Hn.
  - destruct n as [|n]; [lia|]. cbn [flat_map app] in Hs. cbn [pr_read_packets].
    assert (Es : find_start (stream b) = None) by (rewrite Hs; apply find_start_gap; exact Hgt).
    destruct (sync_end fuel ign b Hf Es) as (b' & H1 & H2 & H3); [rewrite Hs; exact Hlt|].
    unfold pr_read_packet, pr_read. rewrite H1. exists [], b'. auto.
  - destruct n as [|n]; [lia|]. inversion Hall as [|? ? Hd Hall']; subst. cbv beta iota in Hd. destruct Hd as [Hg Hrx].
    cbn [flat_map item_bytes] in Hs. rewrite <- !app_assoc in Hs.
    destruct (read_packet_frame fuel ign b pre c body (flat_map item_bytes items ++ tail) Hok Hf Hs Hg Hrx)
      as (p & b1 & H1 & H2 & H3 & H4).
    cbn [pr_read_packets]. rewrite H1.
    destruct (IH tail ign fuel b1 n) as (ps & b2 & H5 & H6 & H7); auto.
    + rewrite H3. rewrite Hs in Hok. apply bytes_ok_app in Hok. destruct Hok as [_ Hok].
      apply bytes_ok_app in Hok. apply Hok.
    + rewrite H3. rewrite Hs in Hf. rewrite !app_length in Hf. rewrite app_length. lia.
    + cbn [length] in Hn. lia.
    + rewrite H5, H4. exists (p :: ps), b2. split; [reflexivity|]. split; [|exact H7].
      constructor; assumption.
Qed.

(** More fuel does not change a finished result. *)
Lemma sync_mono : forall f g i x r y, pr_sync f i x = (r, y) -> r <> NoFuel -> (f <= g)%nat -> pr_sync g i x = (r, y).
Proof.
  induction f as [|f IH]; intros g i x r y Hx Hne Hle; cbn [pr_sync] in Hx; [congruence|].
  destruct g as [|g]; [lia|]. cbn [pr_sync].
  destruct (read_byte x) as [[c e] x1]. destruct e as [e|]; [exact Hx|].
  destruct (negb (c =? 2)); [apply (IH g); auto; lia|].
  destruct (read_byte x1) as [[c2 e2] x2]. destruct (command_len c2); [exact Hx|].
  destruct (unread_byte x2) as [[e3|] x3]; [exact Hx|]. apply (IH g); auto; lia.
Qed.

Lemma read_packet_mono : forall f g i x r y, pr_read_packet f i x = (r, y) -> r <> NoFuel -> (f <= g)%nat ->
  pr_read_packet g i x = (r, y).
Proof.
  intros f g i x r y H Hne Hle. unfold pr_read_packet, pr_read in *.
  destruct (pr_sync f i x) as [o b1] eqn:E.
  destruct o as [[[c n]|e]| |]; try (rewrite (sync_mono f g i x _ _ E); [exact H|discriminate|exact Hle]).
  congruence.
Qed.

Lemma sync_fuel_irrelevant : forall fuel host b p b1, pr_read_packet fuel host b = (Ret (inl p), b1) ->
  exists big, (length (stream b) < big)%nat /\ pr_read_packet big host b = (Ret (inl p), b1).
Proof.
  intros fuel host b p b1 H. exists (S (max fuel (length (stream b)))). split; [lia|].
  apply (read_packet_mono fuel); [exact H|discriminate|lia].
Qed.

(** Reading a packet never panics, whatever the fuel. *)
Lemma read_packet_no_panic : forall fuel host b b', bytes_ok (stream b) ->
  pr_read_packet fuel host b <> (Panic, b').
Proof.
  intros fuel host b b' Hok H.
  set (big := S (max fuel (length (stream b)))).
  assert (Hbig : pr_read_packet big host b = (Panic, b')).
  { apply (read_packet_mono fuel); [exact H|discriminate|unfold big; lia]. }
  assert (Hlen : (length (stream b) < big)%nat) by (unfold big; lia).
  destruct (read_packet_cases big host b Hok Hlen)
    as [(pre' & c' & body' & rest' & p & b2 & _ & _ & _ & _ & H5 & _)|[(e & b2 & _ & _ & H5 & _)|(_ & _ & b2 & H5)]]; congruence.
Qed.

Lemma session_read_back : forall items tail fuel b n,
  bytes_ok (stream b) -> (length (stream b) < fuel)%nat ->
  stream b = flat_map (fun it => match it with (noise, cmd, body) => noise ++ frame_bytes cmd body end) items ++ tail ->
  Forall (fun it => match it with (noise, cmd, body) => gap noise /\ modem_frame cmd body end) items ->
  gap tail -> last tail 0 <> 0x02 -> (length items < n)%nat ->
  exists ps b', pr_read_packets n fuel false b = (Ret (ps, Some (b_end b)), b') /\
    Forall2 (fun it p => match it with (_, cmd, body) => decodes false cmd body p end) items ps.
Proof.
  intros items tail fuel b n H1 H2 H3 H4 H5 H6 H7.
  destruct (read_packets_session items tail false fuel b n H1 H2 H3 H4 H5 H6 H7) as (ps & b' & H8 & H9 & _).
  exists ps, b'. auto.
Qed.

Lemma plain_noise_gap : forall l, ~ In 0x02 l -> gap l.
Proof.
  intros l H k (c & t & Hs & _). apply H.
  rewrite <- (firstn_skipn k l), Hs. apply in_or_app. right. left. reflexivity.
Qed.

(** ** Chunking does not matter *)
Definition same_reader (b1 b2 : bufrd) : Prop :=
  stream b1 = stream b2 /\ b_last b1 = b_last b2 /\ b_end b1 = b_end b2.

Lemma read_byte_same : forall b1 b2, stream b1 = stream b2 -> b_end b1 = b_end b2 ->
  exists c e b1' b2', read_byte b1 = (c, e, b1') /\ read_byte b2 = (c, e, b2') /\
    stream b1' = stream b2' /\ b_end b1' = b_end b2' /\ (b_last b1 = b_last b2 \/ e = None -> b_last b1' = b_last b2').
Proof.
  intros b1 b2 H1 H2. destruct (stream b1) as [|c t] eqn:E.
  - rewrite (read_byte_nil b1 E), (read_byte_nil b2 (eq_sym H1)). rewrite H2.
    do 4 eexists. split; [reflexivity|]. split; [reflexivity|]. cbn. split; [reflexivity|]. split; [reflexivity|].
    intros [H|H]; [exact H|discriminate].
  - destruct (read_byte_cons b1 c t E) as (x1 & A1 & A2 & A3 & A4).
    destruct (read_byte_cons b2 c t (eq_sym H1)) as (x2 & B1 & B2 & B3 & B4).
    exists c, None, x1, x2. repeat split; try assumption; congruence.
Qed.

Lemma read_full_same : forall n g b1 b2, stream b1 = stream b2 -> b_end b1 = b_end b2 ->
  exists bs e b1' b2', read_full_go g n b1 = (bs, e, b1') /\ read_full_go g n b2 = (bs, e, b2') /\
    stream b1' = stream b2' /\ b_end b1' = b_end b2'.
Proof.
  induction n as [|n IH]; intros g b1 b2 H1 H2; cbn [read_full_go].
  - exists [], None, b1, b2. auto.
  - destruct (read_byte_same b1 b2 H1 H2) as (c & e & x1 & x2 & A1 & A2 & A3 & A4 & _). rewrite A1, A2.
    destruct e as [e|].
    + do 4 eexists. split; [reflexivity|]. split; [reflexivity|]. auto.
    + destruct (IH true x1 x2 A3 A4) as (bs & e & y1 & y2 & B1 & B2 & B3 & B4). rewrite B1, B2.
      exists (c :: bs), e, y1, y2. auto.
Qed.

Lemma sync_same : forall fuel host b1 b2, stream b1 = stream b2 -> b_end b1 = b_end b2 ->
  exists r b1' b2', pr_sync fuel host b1 = (r, b1') /\ pr_sync fuel host b2 = (r, b2') /\
    stream b1' = stream b2' /\ b_end b1' = b_end b2'.
Proof.
  induction fuel as [|fuel IH]; intros host b1 b2 H1 H2; cbn [pr_sync].
  - exists NoFuel, b1, b2. auto.
  - destruct (read_byte_same b1 b2 H1 H2) as (c & e & x1 & x2 & A1 & A2 & A3 & A4 & A5). rewrite A1, A2.
    destruct e as [e|]; [do 3 eexists; split; [reflexivity|]; split; [reflexivity|]; auto|].
    destruct (negb (c =? 2)); [apply IH; assumption|].
    destruct (read_byte_same x1 x2 A3 A4) as (c2 & e2 & y1 & y2 & B1 & B2 & B3 & B4 & B5). rewrite B1, B2.
    destruct (command_len c2); [do 3 eexists; split; [reflexivity|]; split; [reflexivity|]; auto|].
    assert (Hl : b_last y1 = b_last y2) by (apply B5; left; apply A5; right; reflexivity).
    unfold unread_byte. rewrite <- Hl. destruct (b_last y1) as [lc|].
    + apply IH; cbn; [|exact B4]. unfold stream in *. cbn [b_buf b_chunks]. cbn [app]. congruence.
    + do 3 eexists. split; [reflexivity|]. split; [reflexivity|]. auto.
Qed.

Lemma read_packet_same : forall fuel host b1 b2, stream b1 = stream b2 -> b_end b1 = b_end b2 ->
  exists r b1' b2', pr_read_packet fuel host b1 = (r, b1') /\ pr_read_packet fuel host b2 = (r, b2') /\
    stream b1' = stream b2' /\ b_end b1' = b_end b2'.
Proof.
  intros fuel host b1 b2 H1 H2. unfold pr_read_packet, pr_read.
  destruct (sync_same fuel host b1 b2 H1 H2) as (r & x1 & x2 & A1 & A2 & A3 & A4). rewrite A1, A2.
  destruct r as [[[c n]|e]| |]; try (do 3 eexists; split; [reflexivity|]; split; [reflexivity|]; auto; fail).
  destruct ((n <? 0) || (max_paclen <? 2 + n)); [do 3 eexists; split; [reflexivity|]; split; [reflexivity|]; auto|].
  unfold read_full.
  destruct (read_full_same (Z.to_nat n) false x1 x2 A3 A4) as (bs & e & y1 & y2 & B1 & B2 & B3 & B4). rewrite B1, B2.
  destruct e as [e|]; [do 3 eexists; split; [reflexivity|]; split; [reflexivity|]; auto|].
  destruct ((c =? pc_SendInsteonMsg) && fl_extended (nth 5 ([2; c] ++ bs) 0)).
  - destruct (max_paclen <? zlen ([2; c] ++ bs) + 14); [do 3 eexists; split; [reflexivity|]; split; [reflexivity|]; auto|].
    destruct (read_full_same 14 false y1 y2 B3 B4) as (bs' & e & z1 & z2 & C1 & C2 & C3 & C4). rewrite C1, C2.
    destruct e as [e|]; [do 3 eexists; split; [reflexivity|]; split; [reflexivity|]; auto|].
    destruct (pkt_unmarshal pkt_zero (([2; c] ++ bs) ++ bs')) as [[p [e|]]| |];
      (do 3 eexists; split; [reflexivity|]; split; [reflexivity|]; auto).
  - destruct (pkt_unmarshal pkt_zero ([2; c] ++ bs)) as [[p [e|]]| |];
      (do 3 eexists; split; [reflexivity|]; split; [reflexivity|]; auto).
Qed.

Lemma chunking_irrelevant : forall n fuel host b1 b2,
  stream b1 = stream b2 -> b_end b1 = b_end b2 ->
  fst (pr_read_packets n fuel host b1) = fst (pr_read_packets n fuel host b2).
Proof.
  induction n as [|n IH]; intros fuel host b1 b2 H1 H2; cbn [pr_read_packets]; [reflexivity|].
  destruct (read_packet_same fuel host b1 b2 H1 H2) as (r & x1 & x2 & A1 & A2 & A3 & A4). rewrite A1, A2.
  destruct r as [[p|e]| |]; try reflexivity.
  specialize (IH fuel host x1 x2 A3 A4).
  destruct (pr_read_packets n fuel host x1) as [r1 y1], (pr_read_packets n fuel host x2) as [r2 y2].
  cbn [fst] in IH. subst r2. destruct r1 as [[ps e]| |]; reflexivity.
Qed.

(** ** Pieces *)
Notation pieces := (flat_map (fun it : list Z * Z * list Z => match it with (noise, cmd, body) => noise ++ frame_bytes cmd body end)).

Lemma packets_are_pieces_gen : forall n fuel host b ps e b',
  bytes_ok (stream b) -> (length (stream b) < fuel)%nat ->
  pr_read_packets n fuel host b = (Ret (ps, e), b') ->
  exists items tail, stream b = pieces items ++ tail /\ (e = None -> tail = stream b') /\
    Forall2 (fun it p => match it with (noise, cmd, body) => gap noise /\ rx_frame host cmd body /\ decodes host cmd body p end) items ps.
Proof.
  induction n as [|n IH]; intros fuel host b ps e b' Hok Hf H; cbn [pr_read_packets] in H.
  - injection H as <- <- <-. exists [], (stream b). repeat split; auto.
  - destruct (read_packet_cases fuel host b Hok Hf)
      as [(pre & c & body & rest & p & b1 & H1 & H2 & H3 & H4 & H5 & H6 & H7)|[(e1 & b1 & _ & _ & H5 & _)|(_ & _ & b1 & H5)]];
      rewrite H5 in H.
    + destruct (pr_read_packets n fuel host b1) as [r b2] eqn:E.
      destruct r as [[ps1 e1]| |]; try discriminate. injection H as <- <- <-.
      assert (Hok1 : bytes_ok (stream b1)).
      { rewrite H6. rewrite H1 in Hok. apply bytes_ok_app in Hok. destruct Hok as [_ Hok]. apply bytes_ok_app in Hok. apply Hok. }
      destruct (IH fuel host b1 ps1 e1 b2 Hok1) as (items & tail & I1 & I2 & I3); [|exact E|].
      { rewrite H6. rewrite H1 in Hf. rewrite !app_length in Hf. lia. }
      exists ((pre, c, body) :: items), tail. cbn [flat_map]. split; [|split; [exact I2|]].
      * rewrite H1. rewrite <- !app_assoc. do 2 f_equal. rewrite <- H6. exact I1.
      * constructor; [|exact I3]. auto.
    + injection H as <- <- <-. exists [], (stream b). split; [reflexivity|]. split; [discriminate|constructor].
    + discriminate.
Qed.

Lemma error_only_at_end : forall fuel host b e b', bytes_ok (stream b) -> (length (stream b) < fuel)%nat ->
  pr_read_packet fuel host b = (Ret (inr e), b') ->
  (e = b_end b \/ (b_end b = EEOF /\ e = EUnexpectedEOF)) /\ stream b' = [] /\
  (forall pre cmd body rest, stream b = pre ++ frame_bytes cmd body ++ rest -> gap pre -> ~ rx_frame host cmd body).
Proof.
  intros fuel host b e b' Hok Hf H.
  destruct (read_packet_cases fuel host b Hok Hf)
      as [(pre & c & body & rest & p & b1 & _ & _ & _ & _ & H5 & _)|[(e1 & b1 & H1 & H2 & H5 & H6 & _)|(_ & _ & b1 & H5)]];
    rewrite H5 in H; try discriminate.
  injection H as <- <-. auto.
Qed.

Lemma read_packets_no_panic : forall n fuel host b b', bytes_ok (stream b) -> pr_read_packets n fuel host b <> (Panic, b').
Proof.
  induction n as [|n IH]; intros fuel host b b' Hok H; cbn [pr_read_packets] in H; [discriminate|].
  destruct (pr_read_packet fuel host b) as [r b1] eqn:E.
  destruct r as [[p|e]| |]; try discriminate.
  - assert (Hok1 : bytes_ok (stream b1)).
    { destruct (sync_fuel_irrelevant fuel host b p b1 E) as (big & Hbig & E').
      destruct (read_packet_cases big host b Hok Hbig)
        as [(pre & c & body & rest & q & b2 & H1 & _ & _ & _ & H5 & H6 & _)|[(e1 & b2 & _ & _ & H5 & _)|(_ & _ & b2 & H5)]];
        rewrite H5 in E'; try discriminate.
      injection E' as <- <-. rewrite H6. rewrite H1 in Hok.
      apply bytes_ok_app in Hok. destruct Hok as [_ Hok]. apply bytes_ok_app in Hok. apply Hok. }
    destruct (pr_read_packets n fuel host b1) as [r2 b2] eqn:E2.
    destruct r2 as [[ps e]| |]; try discriminate. exact (IH _ _ _ _ Hok1 E2).
  - exact (read_packet_no_panic _ _ _ _ Hok E).
Qed.

(** ** Hanging *)
Lemma stuck_no_fuel : forall fuel host b, gap (stream b) -> last (stream b) 0 = 0x02 ->
  fst (pr_read_packet fuel host b) = NoFuel.
Proof.
  intros fuel host b Hg Hl. apply find_start_gap in Hg.
  destruct (sync_stuck fuel host b Hg Hl) as (b' & H). unfold pr_read_packet, pr_read. rewrite H. reflexivity.
Qed.

Lemma lone_start_byte_hangs : exists b, forall fuel, fst (pr_read_packet fuel false b) = NoFuel.
Proof.
  exists (mkBuf [] None [[2]] EEOF). intro fuel. apply stuck_no_fuel; [|reflexivity].
  apply find_start_gap. reflexivity.
Qed.

Lemma read_packet_returns : forall fuel host b, bytes_ok (stream b) -> (length (stream b) < fuel)%nat ->
  ~ (gap (stream b) /\ last (stream b) 0 = 0x02) ->
  exists r b', pr_read_packet fuel host b = (Ret r, b').
Proof.
  intros fuel host b Hok Hf Hn.
  destruct (read_packet_cases fuel host b Hok Hf)
      as [(pre & c & body & rest & p & b1 & _ & _ & _ & _ & H5 & _)|[(e1 & b1 & _ & _ & H5 & _)|(H1 & H2 & _)]]; eauto.
  exfalso. apply Hn. auto.
Qed.

Lemma hangs_exactly : forall host b, bytes_ok (stream b) ->
  ((forall fuel, fst (pr_read_packet fuel host b) = NoFuel) <-> gap (stream b) /\ last (stream b) 0 = 0x02).
Proof.
  intros host b Hok. split.
  - intro H. specialize (H (S (length (stream b)))).
    destruct (read_packet_cases (S (length (stream b))) host b Hok ltac:(lia))
      as [(pre & c & body & rest & p & b1 & _ & _ & _ & _ & H5 & _)|[(e1 & b1 & _ & _ & H5 & _)|(H1 & H2 & _)]]; auto;
      rewrite H5 in H; discriminate.
  - intros [H1 H2] fuel. apply stuck_no_fuel; assumption.
Qed.
