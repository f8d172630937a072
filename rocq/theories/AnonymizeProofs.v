(** Proofs about the anonymising program. *)
From Coq Require Import ZArith List Bool Lia ZifyBool ZifyNat.
From Verif Require Import GoBase GoText GoLemmas Address AddressSpec AddressProofs Link LinkSpec LinkProofs LinkText CodecProofs UtilLink UtilLinkSpec UtilLinkListProofs Database.
From Verif Require Import Anonymize AnonymizeSpec.
Import ListNotations.
Open Scope Z_scope.
Ltac Zify.zify_post_hook ::= Z.div_mod_to_equations.

(** ** Lines *)
Lemma consists_split : forall ls t, consists_of ls t <-> split_on ch_nl t = ls.
Proof.
  intros ls t. split.
  - induction 1 as [l Hl|l ls t Hl H IH].
    + induction l as [|c l IH]; [reflexivity|]. cbn [split_on]. replace (c =? ch_nl) with false.
      * rewrite IH; [reflexivity|]. intro Hin. apply Hl. right. exact Hin.
      * symmetry. apply Z.eqb_neq. intro Hc. apply Hl. left. exact Hc.
    + change 10 with ch_nl. rewrite split_on_line, IH; [reflexivity|].
      unfold no_nl. rewrite Forall_forall. intros c Hc Hn. subst c. exact (Hl Hc).
  - intros <-. induction t as [|c t IH]; [constructor; intros []|]. cbn [split_on]. destruct (c =? ch_nl) eqn:E.
    + apply Z.eqb_eq in E. subst c. change (ch_nl :: t) with ([] ++ 10 :: t). constructor; [intros []|exact IH].
    + apply Z.eqb_neq in E. remember (split_on ch_nl t) as ls eqn:Els. clear Els.
      destruct IH as [l Hl|l ls t Hl H].
      * constructor. intros [Hc|Hin]; [exact (E Hc)|exact (Hl Hin)].
      * change (c :: l ++ 10 :: t) with ((c :: l) ++ 10 :: t). constructor; [|exact H]. intros [Hc|Hin]; [exact (E Hc)|exact (Hl Hin)].
Qed.

Lemma has_hash_spec : forall l, has_hash l = true <-> comment_line l.
Proof.
  intros [|c l]; cbn [has_hash]; unfold comment_line; split.
  - discriminate.
  - intros [t H]. discriminate H.
  - intro H. apply Z.eqb_eq in H. subst c. exists l. reflexivity.
  - intros [t H]. injection H as -> _. reflexivity.
Qed.

Lemma selected_filter : forall ls cs, selected comment_line ls cs <-> filter has_hash ls = cs.
Proof.
  intros ls cs. split.
  - induction 1 as [|x l s Hx H IH|x l s Hx H IH]; cbn [filter]; [reflexivity| |].
    + apply has_hash_spec in Hx. rewrite Hx, IH. reflexivity.
    + destruct (has_hash x) eqn:E; [apply has_hash_spec in E; contradiction|exact IH].
  - intros <-. induction ls as [|x ls IH]; cbn [filter]; [constructor|]. destruct (has_hash x) eqn:E.
    + apply sel_take; [apply has_hash_spec; exact E|exact IH].
    + apply sel_skip; [|exact IH]. intro H. apply has_hash_spec in H. congruence.
Qed.

Lemma join_closed : forall ls, ls <> [] -> join [ch_nl] (ls ++ [[]]) = unlines ls.
Proof.
  induction ls as [|l ls IH]; intros H; [contradiction|]. destruct ls as [|l2 ls].
  - cbn. rewrite ?app_nil_r. reflexivity.
  - change ((l :: l2 :: ls) ++ [[]]) with (l :: ((l2 :: ls) ++ [[]])).
    change (join [ch_nl] (l :: (l2 :: ls) ++ [[]])) with (l ++ [ch_nl] ++ join [ch_nl] ((l2 :: ls) ++ [[]])).
    rewrite IH by discriminate. unfold unlines. cbn [flat_map]. rewrite <- !app_assoc. reflexivity.
Qed.

Lemma anon_comments_text : forall input, join [ch_nl] (anon_comments input) = unlines (filter has_hash (split_on ch_nl input)).
Proof.
  intros input. unfold anon_comments. cbv zeta. destruct (filter has_hash (split_on ch_nl input)) as [|c cs] eqn:E; [reflexivity|].
  apply join_closed. discriminate.
Qed.

Lemma split_no_nl : forall t, Forall no_nl (split_on ch_nl t).
Proof.
  intro t. pose proof (proj2 (consists_split (split_on ch_nl t) t) eq_refl) as H. remember (split_on ch_nl t) as ls eqn:E. clear E.
  assert (G : forall l, ~ In 10 l -> no_nl l). { intros l Hl. unfold no_nl. rewrite Forall_forall. intros c Hc Hn. subst c. exact (Hl Hc). }
  induction H; constructor; auto.
Qed.

(** ** Records read from a text *)
Lemma scan_hex8_byte : forall w s v r, scan_hex8 w s = Some (v, r) -> is_byte v.
Proof.
  intros w s v r. unfold scan_hex8. destruct (skip_space s) as [s1|]; [|discriminate].
  assert (G : forall s w acc n v m r, 0 <= acc -> take_digits hex_val 16 w acc n s = (v, m, r) -> 0 <= v).
  { clear. induction s as [|c s IH]; intros w acc n v m r Ha H; cbn [take_digits] in H; [inversion H; subst; exact Ha|].
    destruct w as [[|k]|].
    - inversion H; subst; exact Ha.
    - destruct (hex_val c) as [d|] eqn:Ed; [|inversion H; subst; exact Ha].
      eapply IH; [|exact H]. unfold hex_val in Ed.
      destruct ((48 <=? c) && (c <=? 57)) eqn:E1; [injection Ed as <-; lia|].
      destruct ((97 <=? c) && (c <=? 102)) eqn:E2; [injection Ed as <-; lia|].
      destruct ((65 <=? c) && (c <=? 70)) eqn:E3; [injection Ed as <-; lia|discriminate].
    - destruct (hex_val c) as [d|] eqn:Ed; [|inversion H; subst; exact Ha].
      eapply IH; [|exact H]. unfold hex_val in Ed.
      destruct ((48 <=? c) && (c <=? 57)) eqn:E1; [injection Ed as <-; lia|].
      destruct ((97 <=? c) && (c <=? 102)) eqn:E2; [injection Ed as <-; lia|].
      destruct ((65 <=? c) && (c <=? 70)) eqn:E3; [injection Ed as <-; lia|discriminate]. }
  destruct (take_digits hex_val 16 w 0 0 s1) as [[v' m] rest] eqn:E. apply G in E; [|lia].
  destruct (Nat.eqb m 0); [discriminate|]. destruct (v' <? 256) eqn:E2; [|discriminate].
  intro H. injection H as <- <-. unfold is_byte. lia.
Qed.

Definition plain (l : link) : Prop := link_wf l /\ l_flags l mod 64 = 2.

Lemma unmarshal_text_plain : forall t r, link_unmarshal_text link_zero t = (r, None) -> plain r.
Proof.
  intros t r. unfold link_unmarshal_text.
  destruct (fields t) as [|w0 [|w1 [|w2 [|w3 [|w4 [|w5 [|w6 ws]]]]]]]; try (intro H; discriminate H).
  change (l_flags link_zero) with 0. change (l_group link_zero) with 0. change (l_addr link_zero) with 0.
  destruct (rcf_unmarshal_text 0 w0) as [f [e|]] eqn:E0; [discriminate|].
  destruct (group_unmarshal_text 0 w1) as [g [e|]] eqn:E1; [discriminate|].
  destruct (addr_unmarshal_text 0 w2) as [a [e|]] eqn:E2; [discriminate|].
  assert (S : forall o w v, scan_data o w = (v, None) -> is_byte v).
  { intros o w v. unfold scan_data. destruct (scan_hex8 None w) as [[x y]|] eqn:Ex; [|discriminate].
    intro H. injection H as <-. exact (scan_hex8_byte _ _ _ _ Ex). }
  destruct (scan_data (l_d0 link_zero) w3) as [x0 [e|]] eqn:E3; [discriminate|]. apply S in E3.
  destruct (scan_data (l_d1 link_zero) w4) as [x1 [e|]] eqn:E4; [discriminate|]. apply S in E4.
  destruct (scan_data (l_d2 link_zero) w5) as [x2 [e|]] eqn:E5; [discriminate|]. apply S in E5.
  intro H. assert (Hr : r = mkLink (rcf_clear_last_record f) g a x0 x1 x2) by congruence. subst r. clear H.
  apply addr_accept_iff in E2. apply addr_accepts_range in E2.
  assert (Hg : is_byte g).
  { unfold group_unmarshal_text in E1. destruct (atoi w1) as [v|]; [|discriminate].
    destruct ((0 <=? v) && (v <=? 255)) eqn:Ev; [|discriminate]. injection E1 as <-. unfold byte_of, is_byte. lia. }
  assert (Hf : In f [0; 64; 128; 192]).
  { unfold rcf_unmarshal_text in E0. destruct w0 as [|c0 [|c1 [|c2 w0]]]; try discriminate.
    destruct (c0 =? ch_A); [|destruct (c0 =? ch_U)]; (destruct (c1 =? ch_C); [|destruct (c1 =? ch_R)]); inversion E0; vm_compute; tauto. }
  assert (Hf' : is_byte (rcf_clear_last_record f) /\ rcf_clear_last_record f mod 64 = 2).
  { cbn [In] in Hf. destruct Hf as [<-|[<-|[<-|[<-|[]]]]]; vm_compute; repeat split; discriminate. }
  destruct Hf' as [Hf1 Hf2]. unfold plain, link_wf. cbn [l_flags l_group l_addr l_d0 l_d1 l_d2].
  split; [|exact Hf2]. split; [exact Hf1|]. split; [exact Hg|]. split; [exact E2|]. split; [exact E3|]. split; [exact E4|exact E5].
Qed.

Lemma text_lines_plain : forall lines acc links, text_lines acc lines = (links, None) -> Forall plain acc -> Forall plain links.
Proof.
  induction lines as [|l lines IH]; intros acc links H Ha; cbn [text_lines] in H; [inversion H; subst; exact Ha|].
  cbv zeta in H. destruct (trim_space l) as [|c t] eqn:Et; [eapply IH; eauto|].
  destruct (c =? ch_hash); [eapply IH; eauto|].
  destruct (link_unmarshal_text link_zero (c :: t)) as [r [e|]] eqn:Er; [discriminate|].
  eapply IH; [exact H|]. apply Forall_app. split; [exact Ha|]. constructor; [|constructor]. eapply unmarshal_text_plain. exact Er.
Qed.
Lemma text_to_links_plain : forall input links, text_to_links input = (links, None) -> Forall plain links.
Proof. intros input links H. eapply text_lines_plain; [exact H|constructor]. Qed.

(** ** The records after anonymising *)
Lemma masked_range : forall rnd k, masked rnd k = rnd k mod 16777216.
Proof. intros rnd k. unfold masked. rewrite Z.land_comm. change 0x00ffffff with (Z.ones 24). rewrite Z.land_ones by lia. reflexivity. Qed.

Lemma in_appearances : forall l a, In a l -> In a (appearances l).
Proof.
  induction l as [|b l IH]; intros a Ha; [destruct Ha|]. cbn [appearances]. destruct (Z.eq_dec b a) as [->|Hne]; [left; reflexivity|].
  destruct Ha as [Ha|Ha]; [congruence|]. right. apply filter_In. split; [auto|]. apply negb_true_iff, Z.eqb_neq. congruence.
Qed.

Lemma appearances_length : forall l, (length (appearances l) <= length l)%nat.
Proof.
  assert (F : forall (f : Z -> bool) l, (length (filter f l) <= length l)%nat).
  { intros f l. induction l as [|x l IH]; [cbn; lia|]. cbn [filter]. destruct (f x); cbn [length]; lia. }
  induction l as [|a l IH]; cbn [appearances length]; [lia|]. pose proof (F (fun b => negb (b =? a)) (appearances l)). lia.
Qed.

Lemma anonymize_fresh : forall rnd links, exists f,
  anonymize rnd links [] = map (fun l => with_addr (f (l_addr l)) l) links /\
  map f (appearances (map l_addr links)) = map (fun k => rnd k mod 16777216) (seq 0 (length (appearances (map l_addr links)))).
Proof.
  intros rnd links. destruct (anonymize_loop_spec rnd links 0 [] []) as (f & H1 & _ & H3). exists f. split; [exact H1|].
  unfold unseen in H3. cbn [addr_find] in H3.
  assert (Hid : forall l : list Z, filter (fun _ => true) l = l) by (induction l as [|x l IH]; [reflexivity|cbn [filter]; rewrite IH; reflexivity]).
  rewrite Hid in H3. rewrite H3, supply_nil. apply map_ext. intro k. apply masked_range.
Qed.

Lemma fresh_drawn : forall (f : Z -> Z) (g : nat -> Z) l n a, map f l = map g (seq 0 n) -> In a l -> exists k, (k < n)%nat /\ f a = g k.
Proof.
  intros f g l n a H Ha. apply (in_map f) in Ha. rewrite H in Ha. apply in_map_iff in Ha. destruct Ha as (k & Hk & Hin).
  apply in_seq in Hin. exists k. split; [lia|congruence].
Qed.

Lemma anonymize_plain : forall rnd links, Forall plain links -> Forall plain (anonymize rnd links []).
Proof.
  intros rnd links H. destruct (anonymize_fresh rnd links) as (f & E & Hf). rewrite E.
  rewrite Forall_forall in H |- *. intros x Hx. apply in_map_iff in Hx. destruct Hx as (l & <- & Hl).
  destruct (fresh_drawn _ _ _ _ (l_addr l) Hf) as (k & _ & Hk). { apply in_appearances, in_map, Hl. }
  specialize (H l Hl). destruct H as ((A & B & C & D) & E2). unfold plain, link_wf, with_addr. cbn [l_flags l_group l_addr l_d0 l_d1 l_d2].
  split; [|exact E2]. split; [exact A|]. split; [exact B|]. split; [|exact D]. rewrite Hk. change (2 ^ 24) with 16777216. lia.
Qed.

(** ** The text written reads back *)
Lemma comment_means : forall l, comment_line l -> line_means l None.
Proof. intros l [t ->]. eapply lm_comment. reflexivity. Qed.

Lemma commented_reads : forall cs links, Forall comment_line cs -> Forall no_nl cs -> Forall plain links ->
  text_to_links (unlines cs ++ links_to_text links false) = (links, None).
Proof.
  intros cs links Hc Hn Hp. unfold links_to_text. cbn [app]. unfold unlines. rewrite <- flat_map_app. fold (unlines (cs ++ map link_marshal_text links)).
  assert (Hwf : Forall link_wf links) by (eapply Forall_impl; [|exact Hp]; intros l [H _]; exact H).
  rewrite (text_to_links_lines _ (map (fun _ => None) cs ++ map (fun l => Some (expressible l)) links)).
  - rewrite flat_map_app, keep_map.
    replace (flat_map keep (map (fun _ => None) cs)) with (@nil link); [|clear; induction cs as [|x cs IH]; [reflexivity|exact IH]].
    cbn [app]. f_equal. clear Hwf. induction Hp as [|l ls [Hl Hm] Hp IH]; [reflexivity|]. cbn [map]. rewrite plain_expressible, IH by assumption. reflexivity.
  - rewrite Forall_app. split; [exact Hn|]. rewrite Forall_forall. intros x Hx. apply in_map_iff in Hx. destruct Hx as [l [<- Hl]].
    apply marshal_text_no_nl. rewrite Forall_forall in Hwf. apply Hwf. exact Hl.
  - apply Forall2_app; [|apply Forall2_map_means; exact Hwf].
    clear Hn. induction Hc as [|c cs H Hc IH]; cbn [map]; constructor; [apply comment_means; exact H|exact IH].
Qed.

Lemma filter_comments : forall ls, Forall comment_line (filter has_hash ls).
Proof. intro ls. rewrite Forall_forall. intros x Hx. apply filter_In in Hx. apply has_hash_spec. tauto. Qed.
Lemma filter_no_nl : forall ls, Forall no_nl ls -> Forall no_nl (filter has_hash ls).
Proof. intros ls H. rewrite Forall_forall in *. intros x Hx. apply filter_In in Hx. apply H. tauto. Qed.

(** ** The file *)
Lemma fold_append : forall out s, fold_left fstep_run (map FAppend out) (Some s) = Some (s ++ out).
Proof.
  induction out as [|b out IH]; intro s; cbn [map fold_left fstep_run]; [rewrite app_nil_r; reflexivity|].
  rewrite IH, <- app_assoc. reflexivity.
Qed.

Lemma anon_file_bad : forall rnd input links e, text_to_links input = (links, Some e) ->
  anon_file rnd (Some input) = Some input /\ snd (anon_steps rnd (Some input)) = 1.
Proof. intros rnd input links e H. unfold anon_file, anon_steps, anon_output. rewrite H. split; reflexivity. Qed.

Lemma anon_file_good : forall rnd input links, text_to_links input = (links, None) ->
  anon_file rnd (Some input) = Some (unlines (filter has_hash (split_on ch_nl input)) ++ links_to_text (anonymize rnd links []) false) /\
  snd (anon_steps rnd (Some input)) = 0.
Proof.
  intros rnd input links H. unfold anon_file, anon_steps, anon_output. rewrite H, anon_comments_text.
  cbn [fst snd fold_left fstep_run]. rewrite fold_append. split; reflexivity.
Qed.

Lemma anon_crash_good : forall n rnd input links, text_to_links input = (links, None) ->
  anon_crash (S n) rnd (Some input) = Some (firstn n (unlines (filter has_hash (split_on ch_nl input)) ++ links_to_text (anonymize rnd links []) false)).
Proof.
  intros n rnd input links H. unfold anon_crash, anon_steps, anon_output. rewrite H, anon_comments_text.
  cbn [fst snd firstn fold_left fstep_run]. rewrite firstn_map, fold_append. reflexivity.
Qed.

Lemma split_unlines_links : forall cs links, Forall no_nl cs -> Forall plain links ->
  split_on ch_nl (unlines cs ++ links_to_text links false) = cs ++ map link_marshal_text links ++ [[]].
Proof.
  intros cs links Hc Hl. unfold links_to_text. cbn [app]. unfold unlines. rewrite <- flat_map_app. fold (unlines (cs ++ map link_marshal_text links)).
  rewrite split_on_unlines, <- app_assoc; [reflexivity|]. rewrite Forall_app. split; [exact Hc|].
  rewrite Forall_forall. intros x Hx. apply in_map_iff in Hx. destruct Hx as [l [<- Hin]].
  apply marshal_text_no_nl. rewrite Forall_forall in Hl. apply (Hl l Hin).
Qed.
Lemma marshalled_no_hash : forall links, filter has_hash (map link_marshal_text links) = [].
Proof.
  induction links as [|l ls IH]; [reflexivity|]. cbn [map filter]. destruct (marshal_text_head l) as (c & t & Ht & Hc). rewrite Ht.
  cbn [has_hash]. replace (c =? ch_hash) with false by (destruct Hc as [->| ->]; reflexivity). exact IH.
Qed.
Lemma filter_idem : forall ls, filter has_hash (filter has_hash ls) = filter has_hash ls.
Proof. induction ls as [|l ls IH]; [reflexivity|]. cbn [filter]. destruct (has_hash l) eqn:E; [cbn [filter]; rewrite E, IH; reflexivity|exact IH]. Qed.
