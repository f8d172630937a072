(** Proofs about the subcommands of the command-line tool. *)
From Coq Require Import ZArith List Bool Lia ZifyBool ZifyNat.
From Verif Require Import GoBase GoLemmas GoProg GoText Link LinkSpec LinkText LinkProofs CodecProofs PlmPacket PlmReader Plm PlmSpec PlmProofs UtilLink UtilLinkSpec UtilLinkProofs IcCmd IcCmdSpec.
Import ListNotations.
Open Scope Z_scope.
Ltac Zify.zify_post_hook ::= Z.div_mod_to_equations.

Lemma adds_open : forall W (open : opener W) a, adds (open_logged open a) (fun r t => t = [(a, OOpen (snd r))] /\ exists d, fst r = option_map lk_logged d).
Proof.
  intros W open a w log r w' log' E. unfold open_logged in E.
  destruct (logged a (fun r => OOpen (snd r)) (open a) (w, log)) as [o [w1 l1]] eqn:EL.
  destruct (adds_logged _ _ _ _ _ _ _ _ _ _ EL) as (t & -> & Ht).
  destruct o as [[d e]| |]; injection E as <- <- <-; exists t; (split; [reflexivity|]); intros x Hx; try discriminate.
  injection Hx as <-. cbn [fst snd]. split; [exact (Ht _ eq_refl)|exists d; reflexivity].
Qed.

Lemma adds_panic : forall W A (P : A -> trace -> Prop), adds (@ppanic (W * trace) A) P.
Proof. intros W A P w log r w' log' E. injection E as <- <- <-. exists []. rewrite app_nil_r. split; [reflexivity|]. discriminate. Qed.

Lemma force_one_way : forall W (c r : linkable W) g, adds (force_link g (lk_logged c) (lk_logged r)) (one_way g (lk_id c) (lk_id r)).
Proof.
  intros W c r g. eapply adds_weaken; [apply force_link_trace|]. cbn. intros e t [(x & -> & ->)| ->]; constructor.
Qed.
Lemma force_nil_responder : forall W (c : linkable W) g d, adds (force_link g (lk_logged c) lk_nil) (one_way g (lk_id c) d).
Proof.
  intros W c g d. unfold force_link. cbn [lk_nil lk_enter lk_exit lk_logged]. eapply adds_weaken.
  - eapply adds_bind; [apply adds_logged|]. intros [x|].
    + instantiate (1 := fun a b t => match a with Some x => b = Some x /\ t = [] | None => False end). cbn. apply adds_ret.
    + cbn. intros w log r w' log' E. injection E as <- <- <-. exists []. rewrite app_nil_r. split; [reflexivity|]. discriminate.
  - cbn. intros e t (a & t1 & t2 & -> & -> & H). destruct a as [x|]; [|contradiction]. destruct H as [-> ->]. constructor.
Qed.
Lemma force_nil_controller : forall W (r : linkable W) g P, adds (force_link g lk_nil (lk_logged r)) P.
Proof. intros W r g P w log x w' log' E. injection E as <- <- <-. exists []. rewrite app_nil_r. split; [reflexivity|]. discriminate. Qed.

Lemma link_one_trace : forall W (modem : linkable W) c r g (d : option (linkable W)),
  adds (ic_link_one (lk_logged modem) c r g (lk_or_nil (option_map lk_logged d)))
       (linking g (lk_id modem) (lk_id (lk_or_nil d)) c r).
Proof.
  intros W modem c r g d.
  assert (HC : adds (force_link g (lk_logged modem) (lk_or_nil (option_map lk_logged d))) (one_way g (lk_id modem) (lk_id (lk_or_nil d)))).
  { destruct d as [d|]; cbn [option_map lk_or_nil]; [apply force_one_way|apply force_nil_responder]. }
  assert (HR : adds (force_link g (lk_or_nil (option_map lk_logged d)) (lk_logged modem)) (one_way g (lk_id (lk_or_nil d)) (lk_id modem))).
  { destruct d as [d|]; cbn [option_map lk_or_nil]; [apply force_one_way|apply force_nil_controller]. }
  unfold ic_link_one. destruct c.
  - eapply adds_weaken.
    + eapply adds_bind; [exact HC|]. intros [x|].
      * instantiate (1 := fun a b t => match a with Some x => b = Some x /\ t = [] | None => if r then one_way g (lk_id (lk_or_nil d)) (lk_id modem) b t else b = None /\ t = [] end). cbn. apply adds_ret.
      * cbn. destruct r; [exact HR|apply adds_ret].
    + cbn. intros e t (a & t1 & t2 & -> & H1 & H2). destruct a as [x|].
      * destruct H2 as [-> ->]. rewrite app_nil_r. destruct r; constructor; assumption.
      * destruct r; [apply lg_both; assumption|]. destruct H2 as [-> ->]. rewrite app_nil_r. constructor. exact H1.
  - destruct r; cbn [pbind pret].
    + eapply adds_weaken with (P := one_way g (lk_id (lk_or_nil d)) (lk_id modem)); [|intros; constructor; assumption].
      intros w log x w' log' E. exact (HR w log x w' log' E).
    + intros w log x w' log' E. injection E as <- <- <-. exists []. rewrite app_nil_r. split; [reflexivity|]. intros a Ha. injection Ha as <-. constructor.
Qed.

Lemma ic_link_trace : forall W (open : opener W) (modem : linkable W) c r g addrs,
  adds (ic_link (open_logged open) (lk_logged modem) c r g addrs) (fun e t =>
    exists failed rest, addrs = map fst failed ++ rest /\ Forall (fun x => ~ usable (Some (snd x))) failed /\
      match rest with
      | [] => e = None /\ t = not_opened failed
      | a :: _ => exists oe dev t1, usable oe /\ t = not_opened failed ++ (a, OOpen oe) :: t1 /\ linking g (lk_id modem) dev c r e t1
      end).
Proof.
  intros W open modem c r g. induction addrs as [|a rest IH].
  { eapply adds_weaken; [apply adds_ret|]. intros e t [-> ->]. exists [], []. repeat split; constructor. }
  cbn [ic_link].
  assert (Hone : forall oe (d : option (linkable W)), usable oe ->
    adds (ic_link_one (lk_logged modem) c r g (lk_or_nil (option_map lk_logged d)))
      (fun e t => usable oe /\ linking g (lk_id modem) (lk_id (lk_or_nil d)) c r e t)).
  { intros oe d Hu. eapply adds_weaken; [apply link_one_trace|]. auto. }
  intros w log x w' log' E. unfold pbind in E.
  destruct (open_logged open a (w, log)) as [o [w1 l1]] eqn:EO.
  destruct (adds_open _ _ _ _ _ _ _ _ EO) as (t0 & -> & Ho).
  destruct o as [[dev oe]| |].
  2,3: injection E as <- <- <-; exists t0; split; [reflexivity|discriminate].
  destruct (Ho _ eq_refl) as [-> [d Hd]]. cbn [fst snd] in *. subst dev.
  assert (Hgo : forall e0, usable oe -> oe = e0 -> ic_link_one (lk_logged modem) c r g (lk_or_nil (option_map lk_logged d)) (w1, log ++ [(a, OOpen oe)]) = (x, (w', log')) ->
    exists t, log' = log ++ t /\ (forall e, x = Ret e -> exists failed rest0, a :: rest = map fst failed ++ rest0 /\ Forall (fun x => ~ usable (Some (snd x))) failed /\
      match rest0 with [] => e = None /\ t = not_opened failed
      | a :: _ => exists oe dev t1, usable oe /\ t = not_opened failed ++ (a, OOpen oe) :: t1 /\ linking g (lk_id modem) dev c r e t1 end)).
  { intros e0 Hu _ EE. destruct (link_one_trace _ _ _ _ _ _ _ _ _ _ _ EE) as (t1 & -> & H1). exists ((a, OOpen oe) :: t1).
    split; [rewrite <- app_assoc; reflexivity|]. intros e He. exists [], (a :: rest). split; [reflexivity|]. split; [constructor|].
    exists oe, (lk_id (lk_or_nil d)), t1. repeat split; auto. }
  destruct oe as [oe|]; [|apply (Hgo None); auto; left; reflexivity].
  assert (Hcase : oe = EDevNotLinked \/ (~ usable (Some oe) /\ ic_link (open_logged open) (lk_logged modem) c r g rest (w1, log ++ [(a, OOpen (Some oe))]) = (x, (w', log')))).
  { destruct oe; try (right; split; [intros [H|H]; discriminate|exact E]). left; reflexivity. }
  destruct Hcase as [->|[Hn E1]]; [apply (Hgo (Some EDevNotLinked)); auto; right; reflexivity|].
  destruct (IH _ _ _ _ _ E1) as (t & -> & Ht). exists ((a, OOpen (Some oe)) :: t). split; [rewrite <- app_assoc; reflexivity|].
  intros e He. destruct (Ht e He) as (failed & rest0 & -> & Hf & Hm). exists ((a, oe) :: failed), rest0. split; [reflexivity|].
  split; [constructor; assumption|]. destruct rest0 as [|b r0].
  - destruct Hm as [-> ->]. split; reflexivity.
  - destruct Hm as (oe1 & dev & t1 & Hu & -> & Hl). exists oe1, dev, t1. repeat split; auto.
Qed.

(** ** The configuration flags *)
Lemma flag_config_bits : forall set flag k c, is_byte c -> flag_bit flag k ->
  exists c', ic_flag_config set flag c = Some c' /\ is_byte c' /\ bit_changed set k c (c' / 16 * 16).
Proof.
  intros set flag k c Hc Hf.
  assert (HB : forall p : Z -> Z, forall s kk, forallb (fun c => (0 <=? p c) && (p c <? 256) &&
      forallb (fun j => (p c / 16 * 16 / 2 ^ j) mod 2 =? (if j =? kk then (if (s : bool) then 1 else 0) else (c / 2 ^ j) mod 2)) [4;5;6;7]) all_bytes = true ->
      exists c', Some (p c) = Some c' /\ is_byte c' /\ bit_changed s kk c (c' / 16 * 16)).
  { intros p s kk HS. exists (p c). split; [reflexivity|]. pose proof (sweep1 _ HS c Hc) as H. cbv beta in H.
    apply andb_prop in H. destruct H as [H H2]. split; [unfold is_byte; lia|]. intros j Hj.
    rewrite forallb_forall in H2. specialize (H2 j). apply Z.eqb_eq. apply H2. cbn. lia. }
  destruct Hf; destruct set; cbn [ic_flag_config]; apply HB; vm_compute; reflexivity.
Qed.

Lemma config_sent : forall sc st r st', 0 <= p_retries st -> plm_config sc st = (Ret r, st') ->
  exists k, 1 <= Z.of_nat k <= p_retries st + 1 /\ p_sent st' = p_sent st ++ repeat [0x02; 0x73] k.
Proof.
  intros sc st r st' Hr H. unfold plm_config in H.
  destruct (pw_write (retry (plm_pw sc) (p_retries st) true) (mkPkt pc_GetConfig [] 0) st) as [[[a e1]| |] st1] eqn:E; try discriminate.
  assert (st1 = st') as -> by (destruct a; destruct e1; inversion H; reflexivity).
  unfold retry in E. cbn [pw_write] in E. destruct (retry_sent _ _ _ _ _ _ _ _ E) as (k & H1 & H2 & H3). cbn [p_cmd p_payload] in H3.
  exists k. split; [lia|exact H3].
Qed.

Lemma config_keeps_retries : forall sc st r st', plm_config sc st = (r, st') -> p_retries st' = p_retries st.
Proof.
  intros sc st r st' H. unfold plm_config in H.
  destruct (pw_write (retry (plm_pw sc) (p_retries st) true) (mkPkt pc_GetConfig [] 0) st) as [o st1] eqn:E.
  destruct (retry_keeps_addr _ _ _ _ _ _ _ E) as (_ & _ & Hk). rewrite <- Hk. f_equal.
  destruct o as [[[a|] [e|]]| |]; inversion H; reflexivity.
Qed.


Lemma flag_config_unknown : forall set flag c, (forall k, ~ flag_bit flag k) -> ic_flag_config set flag c = None.
Proof.
  intros set flag c H. unfold ic_flag_config.
  assert (flag <> [76] /\ flag <> [77] /\ flag <> [65] /\ flag <> [68]) as (H1 & H2 & H3 & H4)
    by (repeat split; intros ->; eapply H; constructor).
  destruct flag as [|x [|y t]]; [reflexivity| |].
  - assert (x <> 76 /\ x <> 77 /\ x <> 65 /\ x <> 68) by (repeat split; intros ->; contradiction).
    destruct x as [|q|q]; try reflexivity. do 7 (destruct q as [q|q|]; try reflexivity); lia.
  - destruct x as [|q|q]; try reflexivity. do 7 (destruct q as [q|q|]; try reflexivity).
Qed.

Lemma flag_cmd_correct : forall sc st set flag e st', sched_all byte_packet sc -> queues_all byte_packet st -> 0 <= p_retries st ->
  ic_flag sc set flag st = (Ret e, st') ->
  exists j written, 1 <= Z.of_nat j <= p_retries st + 1 /\ p_sent st' = p_sent st ++ repeat [0x02; 0x73] j ++ written /\
    ((written = [] /\ e <> None) \/
     exists k p c rest c' n, flag_bit flag k /\ p_cmd p = 0x73 /\ p_ack p = 0x06 /\ p_payload p = c :: rest /\
       bit_changed set k c c' /\ c' mod 16 = 0 /\ 1 <= Z.of_nat n <= p_retries st + 1 /\ written = repeat [0x02; 0x6b; c'] n).
Proof.
  intros sc st set flag e st' Hs Hq Hr H. unfold ic_flag, pbind in H.
  destruct (plm_config sc st) as [[[c [x|]]| |] st1] eqn:E; try discriminate.
  - injection H as <- <-. destruct (config_sent _ _ _ _ Hr E) as (j & Hj & Hsent). exists j, [].
    split; [exact Hj|]. split; [rewrite app_nil_r; exact Hsent|]. left. split; [reflexivity|discriminate].
  - destruct (config_sent _ _ _ _ Hr E) as (j & Hj & Hsent). destruct (config_correct byte_packet _ _ _ _ Hs Hq Hr E) as (p & rest & Hp & Hp1 & Hp2 & Hp3).
    assert (Hc : is_byte c) by (unfold byte_packet in Hp; rewrite Hp3 in Hp; inversion Hp; assumption).
    assert (HF : (exists k, flag_bit flag k) \/ (forall k, ~ flag_bit flag k)).
    { destruct (list_eq_dec Z.eq_dec flag [76]) as [->|]; [left; eexists; constructor|].
      destruct (list_eq_dec Z.eq_dec flag [77]) as [->|]; [left; eexists; constructor|].
      destruct (list_eq_dec Z.eq_dec flag [65]) as [->|]; [left; eexists; constructor|].
      destruct (list_eq_dec Z.eq_dec flag [68]) as [->|]; [left; eexists; constructor|].
      right. intros k Hk. destruct Hk; contradiction. }
    destruct HF as [[k Hk]|Hn].
    + destruct (flag_config_bits set flag k c Hc Hk) as (c1 & HE & Hb & Hch). rewrite HE in H.
      assert (Hr1 : 0 <= p_retries st1) by (rewrite (config_keeps_retries _ _ _ _ E); exact Hr).
      destruct (set_config_bytes _ _ _ _ _ Hb Hr1 H) as (n & Hn & Hn2). exists j, (repeat [0x02; 0x6b; c1 / 16 * 16] n).
      split; [exact Hj|]. split; [rewrite Hn2, Hsent, <- app_assoc; reflexivity|]. right.
      exists k, p, c, rest, (c1 / 16 * 16), n. rewrite (config_keeps_retries _ _ _ _ E) in Hn. repeat apply conj; auto; try lia.
    + rewrite (flag_config_unknown set flag c Hn) in H. injection H as <- <-. exists j, [].
      split; [exact Hj|]. split; [rewrite app_nil_r; exact Hsent|]. left. split; [reflexivity|discriminate].
Qed.

(** ** Editing *)
Lemma text_lines_bad : forall lines ms acc bad rest c t r e, Forall2 line_means lines ms ->
  drop_space bad = c :: t -> c <> ch_hash -> link_unmarshal_text link_zero bad = (r, Some e) ->
  text_lines acc (lines ++ bad :: rest) = (acc ++ flat_map keep ms, Some e).
Proof.
  intros lines ms acc bad rest c t r e H. revert acc. induction H as [|l m ls ms Hl H IH]; intros acc Hd Hc Hu; cbn [text_lines flat_map app].
  - destruct (trim_space_cons _ _ _ Hd) as [t' Ht]. rewrite Ht. replace (c =? ch_hash) with false by lia.
    rewrite <- Ht, link_unmarshal_text_trim, Hu. rewrite app_nil_r. reflexivity.
  - destruct Hl as [l Hb|l t0 Hc0|l c0 t0 r0 Hd0 Hne0 Hr0].
    + rewrite trim_space_nil by exact Hb. rewrite IH by assumption. reflexivity.
    + destruct (trim_space_cons _ _ _ Hc0) as [t' Ht]. rewrite Ht.
      replace (ch_hash =? ch_hash) with true by reflexivity. rewrite IH by assumption. reflexivity.
    + destruct (trim_space_cons _ _ _ Hd0) as [t' Ht]. rewrite Ht.
      replace (c0 =? ch_hash) with false by lia. rewrite <- Ht, link_unmarshal_text_trim, Hr0.
      rewrite IH by assumption. cbn [keep]. rewrite <- app_assoc. reflexivity.
Qed.
Lemma text_to_links_bad : forall lines ms bad rest c t r e, Forall no_nl (lines ++ bad :: rest) -> Forall2 line_means lines ms ->
  drop_space bad = c :: t -> c <> ch_hash -> link_unmarshal_text link_zero bad = (r, Some e) ->
  text_to_links (unlines (lines ++ bad :: rest)) = (flat_map keep ms, Some e).
Proof.
  intros lines ms bad rest c t r e Hn H Hd Hc Hu. unfold text_to_links. rewrite split_on_unlines by exact Hn.
  rewrite <- app_assoc. cbn [app]. rewrite (text_lines_bad _ _ _ _ _ _ _ _ _ H Hd Hc Hu). reflexivity.
Qed.

(** ** Opening *)
Lemma open_quiet : forall W (raw : opener W) (modem : linkable W) ask yes a, ask = false \/ yes = pret false ->
  adds (ic_open (open_logged raw) (lk_logged modem) ask yes a) (fun r t => t = [(a, OOpen (snd r))]).
Proof.
  intros W raw modem ask yes a Hq w log x w' log' E. unfold ic_open, pbind in E.
  destruct (open_logged raw a (w, log)) as [o [w1 l1]] eqn:EO. destruct (adds_open _ _ _ _ _ _ _ _ EO) as (t0 & -> & Ho).
  destruct o as [[dev oe]| |].
  2,3: injection E as <- <- <-; exists t0; split; [reflexivity|discriminate].
  destruct (Ho _ eq_refl) as [-> _]. cbn [snd] in *. exists [(a, OOpen oe)].
  assert (HE : (x, (w', log')) = (Ret (dev, oe), (w1, log ++ [(a, OOpen oe)]))).
  { rewrite <- E. destruct oe as [oe|]; [|reflexivity]. destruct oe; try reflexivity. destruct ask; [|reflexivity].
    destruct Hq as [Hq| ->]; [discriminate|]. reflexivity. }
  injection HE as -> -> ->. split; [reflexivity|]. intros r Hr. injection Hr as <-. reflexivity.
Qed.

Lemma open_links : forall W (raw : opener W) (modem : linkable W) a,
  adds (ic_open (open_logged raw) (lk_logged modem) true (pret true) a) (fun r t =>
    (snd r <> Some EDevNotLinked /\ t = [(a, OOpen (snd r))]) \/
    (exists x, ~ usable (Some x) /\ snd r = None /\ t = [(a, OOpen (Some EDevNotLinked)); (a, OOpen (Some x))]) \/
    (exists oe dev t1, usable oe /\ t = (a, OOpen (Some EDevNotLinked)) :: (a, OOpen oe) :: t1 /\ linking 1 (lk_id modem) dev true false (snd r) t1)).
Proof.
  intros W raw modem a w log x w' log' E. unfold ic_open in E. unfold pbind at 1 in E.
  destruct (open_logged raw a (w, log)) as [o [w1 l1]] eqn:EO. destruct (adds_open _ _ _ _ _ _ _ _ EO) as (t0 & -> & Ho).
  destruct o as [[dev oe]| |].
  2,3: injection E as <- <- <-; exists t0; split; [reflexivity|discriminate].
  destruct (Ho _ eq_refl) as [-> _]. cbn [snd] in *. clear EO.
  assert (Hcase : oe = Some EDevNotLinked \/ (oe <> Some EDevNotLinked /\ (x, (w', log')) = (Ret (dev, oe), (w1, log ++ [(a, OOpen oe)])))).
  { destruct oe as [oe|]; [|right; split; [discriminate|rewrite <- E; reflexivity]].
    destruct oe; try (right; split; [discriminate|rewrite <- E; reflexivity]). left; reflexivity. }
  destruct Hcase as [->|[Hne HE]].
  - cbn beta iota in E. unfold pbind, pret in E.
    match type of E with context [ic_link ?o ?m true false 1 [a] ?s] => destruct (ic_link o m true false 1 [a] s) as [o' [w2 l2]] eqn:EL end.
    destruct (ic_link_trace _ _ _ _ _ _ _ _ _ _ _ _ EL) as (t & -> & Ht). exists ((a, OOpen (Some EDevNotLinked)) :: t).
    destruct o' as [e| |]; injection E as <- <- <-; (split; [rewrite <- app_assoc; reflexivity|]); [|discriminate|discriminate].
    intros r Hr. injection Hr as <-. cbn [snd]. right. destruct (Ht _ eq_refl) as (failed & rest & Ha & Hf & Hm). destruct rest as [|b rest].
    + left. destruct Hm as [-> ->]. destruct failed as [|[b x] [|y l]]; try discriminate Ha. cbn in Ha. injection Ha as <-.
      inversion Hf; subst. exists x. repeat split; assumption.
    + right. destruct failed as [|[c x] l].
      * cbn in Ha. injection Ha as <- <-. destruct Hm as (oe & d & t1 & Hu & -> & Hl). exists oe, d, t1. repeat split; assumption.
      * cbn in Ha. injection Ha as _ Ha. destruct (map fst l); discriminate Ha.
  - injection HE as -> -> ->. exists [(a, OOpen oe)]. split; [reflexivity|]. intros r Hr. injection Hr as <-. left. auto.
Qed.

(** ** Editing one record *)
Lemma map_list_set : forall A B (f : A -> B) l n x, map f (list_set l n x) = list_set (map f l) n (f x).
Proof. intros A B f l. induction l as [|y l IH]; intros [|n] x; cbn; try reflexivity. rewrite IH. reflexivity. Qed.
Lemma Forall_list_set : forall A (P : A -> Prop) l n x, Forall P l -> P x -> Forall P (list_set l n x).
Proof. intros A P l. induction l as [|y l IH]; intros [|n] x H Hx; cbn; inversion H; subst; auto. Qed.
Lemma Forall2_list_set : forall A B (R : A -> B -> Prop) l m n x y, Forall2 R l m -> R x y -> Forall2 R (list_set l n x) (list_set m n y).
Proof. intros A B R l m n x y H. revert n. induction H; intros [|n] Hxy; cbn; constructor; auto. Qed.
Lemma keep_some : forall ls, flat_map keep (map Some ls) = ls.
Proof. induction ls as [|l ls IH]; cbn; [reflexivity|]. f_equal. exact IH. Qed.

Lemma edited_record : forall links n line new, Forall link_wf links -> Forall (fun l => l_flags l mod 64 = 2) links ->
  no_nl line -> line_means line (Some new) ->
  text_to_links (unlines (text_heading ++ list_set (map link_marshal_text links) n line)) = (list_set links n new, None).
Proof.
  intros links n line new Hwf Hp Hl Hm.
  rewrite (text_to_links_lines _ (map (fun _ => None) text_heading ++ map Some (list_set links n new))).
  - rewrite flat_map_app, keep_some. replace (flat_map keep (map (fun _ => None) text_heading)) with (@nil link); [reflexivity|].
    generalize text_heading. intro l. induction l as [|x l IH]; cbn; [reflexivity|exact IH].
  - apply Forall_app. split; [apply heading_no_nl|]. apply Forall_list_set; [|exact Hl]. apply Forall_forall. intros t Ht.
    apply in_map_iff in Ht. destruct Ht as (l & <- & Hin). rewrite Forall_forall in Hwf. apply marshal_text_no_nl. auto.
  - apply Forall2_app; [apply heading_means|]. rewrite map_list_set. apply Forall2_list_set; [|exact Hm].
    clear Hl Hm. induction Hwf as [|l ls Hw Hwf IH]; cbn [map]; constructor; inversion Hp; subst; auto.
    replace (Some l) with (Some (expressible l)); [apply marshal_text_means; exact Hw|]. f_equal. apply plain_expressible; assumption.
Qed.

(** Unlinking one device; resetting. *)
Lemma unlinks_app : forall a b, unlinks (a ++ b) = unlinks a ++ unlinks b.
Proof. intros a b. unfold unlinks. apply flat_map_app. Qed.
Lemma unlink_asks : forall W (c r : linkable W) g, adds (unlink g (lk_logged c) (lk_logged r)) (fun e t => unlinks t = [(lk_id c, g)]).
Proof. intros W c r g. eapply adds_weaken; [apply unlink_trace|]. cbn. intros e t [(x & -> & ->)| ->]; reflexivity. Qed.
Lemma unlink_both_sides : forall W (open : opener W) (modem : linkable W) g a args,
  adds (ic_unlink (open_logged open) (lk_logged modem) (mkPlmCmd g [a]) args) (fun e t => e = None ->
    t = [(a, OOpen (Some EDevNotLinked))] \/ exists d, unlinks t = [(d, g); (lk_id modem, g)]).
Proof.
  intros W open modem g a args w log r w' log' E. unfold ic_unlink in E. cbn [pc_group pc_addresses ic_unlink_loop] in E. unfold pbind at 1 in E.
  destruct (open_logged open a (w, log)) as [o [w1 l1]] eqn:E1.
  destruct (adds_open _ _ _ _ _ _ _ _ E1) as (t & -> & Ht).
  destruct o as [[dev err]| |]; [|injection E as <- <- <-; exists t; split; [reflexivity|discriminate]..].
  destruct (Ht _ eq_refl) as (-> & d & Hd). cbn [fst snd] in *. subst dev. destruct err as [x|].
  - assert (X : forall y, (Ret (Some y), (w1, log ++ [(a, OOpen (Some x))])) = (r, (w', log')) -> exists t, log' = log ++ t /\
      (forall b, r = Ret b -> b = None -> t = [(a, OOpen (Some EDevNotLinked))] \/ exists d, unlinks t = [(d, g); (lk_id modem, g)])).
    { intros y Ey. injection Ey as <- <- <-. eexists. split; [reflexivity|]. intros b Hb Hn. congruence. }
    destruct x; try exact (X _ E). injection E as <- <- <-. eexists. split; [reflexivity|]. intros b _ _. left. reflexivity.
  - unfold pbind in E. destruct d as [d|].
    + cbn [option_map lk_or_nil] in E. match type of E with context [unlink g (lk_logged d) (lk_logged modem) ?x] => destruct (unlink g (lk_logged d) (lk_logged modem) x) as [o [w2 l2]] eqn:E2 end.
      destruct (unlink_asks _ _ _ _ _ _ _ _ _ E2) as (t2 & -> & H2).
      destruct o as [e1| |]; [|injection E as <- <- <-; eexists; split; [rewrite <- app_assoc; reflexivity|discriminate]..].
      specialize (H2 _ eq_refl).
      assert (X : unlink g (lk_logged modem) (lk_logged d) (w2, (log ++ [(a, OOpen None)]) ++ t2) = (r, (w', log')) -> exists t, log' = log ++ t /\
        (forall b, r = Ret b -> b = None -> t = [(a, OOpen (Some EDevNotLinked))] \/ exists d, unlinks t = [(d, g); (lk_id modem, g)])).
      { intro E3. destruct (unlink_asks _ _ _ _ _ _ _ _ _ E3) as (t3 & -> & H3). eexists. split; [rewrite <- !app_assoc; reflexivity|].
        intros b Hb _. right. exists (lk_id d). rewrite !unlinks_app, H2, (H3 _ Hb). reflexivity. }
      destruct e1 as [x|]; [|exact (X E)]. destruct x; try exact (X E);
        (injection E as <- <- <-; eexists; split; [rewrite <- app_assoc; reflexivity|intros b Hb Hn; congruence]).
    + cbn [option_map lk_or_nil] in E. unfold unlink at 1, pbind in E. cbn [lk_nil lk_unlink] in E. injection E as <- <- <-.
      eexists. split; [reflexivity|discriminate].
Qed.
Lemma reset_only_if_asked : forall sc yes st e st', 0 <= p_retries st -> ic_reset sc yes st = (Ret e, st') ->
  (yes = false -> e = None /\ st' = st) /\
  (yes = true -> exists k, 1 <= Z.of_nat k <= p_retries st + 1 /\ p_sent st' = p_sent st ++ repeat [0x02; 0x67] k).
Proof.
  intros sc yes st e st' Hr H. unfold ic_reset in H. destruct yes; (split; [intro X|intro X]); try discriminate X.
  - unfold plm_reset in H.
    destruct (pw_write (retry (plm_pw sc) (p_retries st) true) (mkPkt pc_Reset [] 0) (set_timeout st reset_timeout)) as [[[a e1]| |] st1] eqn:E; try discriminate.
    injection H as _ <-. unfold retry in E. cbn [pw_write] in E. destruct (retry_sent _ _ _ _ _ _ _ _ E) as (k & H1 & H2 & H3).
    exists k. split; [lia|]. exact H3.
  - unfold pret in H. injection H as <- <-. split; reflexivity.
Qed.
