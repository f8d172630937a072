(** C59: the anonymising program. *)
From Coq Require Import ZArith List Bool String Lia ZifyBool ZifyNat.
From Verif Require Import GoBase GoText GoLemmas Address Link LinkSpec LinkProofs LinkText UtilLink UtilLinkSpec UtilLinkListProofs Database.
From Verif Require Import Anonymize AnonymizeSpec AnonymizeProofs.
Import ListNotations.
Open Scope Z_scope.
Ltac Zify.zify_post_hook ::= Z.div_mod_to_equations.

(** * C59 *)
(** A file that is missing, or that TextToLinks refuses, is left as it was, also when the program is interrupted. *)
Theorem C59_invalid_untouched : forall rnd f,
  (f = None \/ exists input links e, f = Some input /\ text_to_links input = (links, Some e)) ->
  anon_file rnd f = f /\ (forall n, anon_crash n rnd f = f) /\ snd (anon_steps rnd f) <> 0.
Proof.
  intros rnd f [->|(input & links & e & -> & H)].
  - split; [reflexivity|]. split; [|vm_compute; discriminate]. intro n. destruct n; reflexivity.
  - destruct (anon_file_bad rnd _ _ _ H) as [H1 H2]. split; [exact H1|]. split; [|rewrite H2; discriminate].
    intro n. unfold anon_crash, anon_steps, anon_output. rewrite H. destruct n; reflexivity.
Qed.

(** A file that TextToLinks accepts becomes one that it accepts, with the same records in the same order; only addresses differ,
    by one function, which gives the addresses in order of first appearance the successive random draws. *)
Theorem C59_records : forall rnd input links, text_to_links input = (links, None) ->
  exists out new f, anon_file rnd (Some input) = Some out /\ snd (anon_steps rnd (Some input)) = 0 /\
    text_to_links out = (new, None) /\ Forall2 (readdressed f) links new /\
    map f (appearances (map l_addr links)) = map (fun k => rnd k mod 16777216) (seq 0 (List.length (appearances (map l_addr links)))).
Proof.
  intros rnd input links H. destruct (anon_file_good rnd _ _ H) as [H1 H2]. destruct (anonymize_fresh rnd links) as (f & E & Hf).
  eexists. exists (anonymize rnd links []), f. split; [exact H1|]. split; [exact H2|]. split.
  - apply commented_reads; [apply filter_comments|apply filter_no_nl, split_no_nl|]. apply anonymize_plain. eapply text_to_links_plain. exact H.
  - split; [|exact Hf]. rewrite E. clear. induction links as [|l ls IH]; cbn [map]; constructor; [|exact IH].
    unfold readdressed, with_addr. cbn [l_flags l_group l_addr l_d0 l_d1 l_d2]. tauto.
Qed.

(** When no draw is an original address, no record of the result has one; when the draws also differ, the records that shared an
    address are exactly those that share one afterwards. *)
Theorem C59_no_address_left : forall rnd input links out new, text_to_links input = (links, None) ->
  anon_file rnd (Some input) = Some out -> text_to_links out = (new, None) ->
  (forall k, (k < List.length links)%nat -> ~ In (rnd k mod 16777216) (map l_addr links)) ->
  forall l, In l new -> ~ In (l_addr l) (map l_addr links).
Proof.
  intros rnd input links out new H Ho Hn Hr l Hl. destruct (C59_records rnd input links H) as (out' & new' & f & E1 & _ & E3 & E4 & E5).
  assert (out' = out) by congruence. subst out'. assert (new' = new) by congruence. subst new'.
  assert (G : exists a, In a links /\ l_addr l = f (l_addr a)).
  { clear - E4 Hl. induction E4 as [|a b la lb Hab _ IH]; [destruct Hl|]. destruct Hl as [<-|Hl].
    - exists a. split; [left; reflexivity|exact (proj1 Hab)].
    - destruct (IH Hl) as (x & Hx & Ex). exists x. split; [right; exact Hx|exact Ex]. }
  destruct G as (a & Ha & ->). destruct (fresh_drawn _ _ _ _ (l_addr a) E5) as (k & Hk & ->); [apply in_appearances, in_map, Ha|].
  apply Hr. pose proof (appearances_length (map l_addr links)) as L. rewrite map_length in L. lia.
Qed.
Theorem C59_structure_kept : forall rnd input links out new, text_to_links input = (links, None) ->
  anon_file rnd (Some input) = Some out -> text_to_links out = (new, None) ->
  (forall j k, (j < List.length links)%nat -> (k < List.length links)%nat -> rnd j mod 16777216 = rnd k mod 16777216 -> j = k) ->
  forall i j a b a' b', nth_error links i = Some a -> nth_error links j = Some b -> nth_error new i = Some a' -> nth_error new j = Some b' ->
    (l_addr a' = l_addr b' <-> l_addr a = l_addr b).
Proof.
  intros rnd input links out new H Ho Hn Hr i j a b a' b' Ha Hb Ha' Hb'. destruct (C59_records rnd input links H) as (out' & new' & f & E1 & _ & E3 & E4 & E5).
  assert (out' = out) by congruence. subst out'. assert (new' = new) by congruence. subst new'.
  assert (G : forall i x y, nth_error links i = Some x -> nth_error new i = Some y -> l_addr y = f (l_addr x)).
  { clear - E4. induction E4 as [|x y lx ly Hxy _ IH]; intros [|i] u v Hu Hv; cbn in Hu, Hv; try discriminate.
    - injection Hu as <-. injection Hv as <-. exact (proj1 Hxy).
    - eapply IH; eauto. }
  rewrite (G _ _ _ Ha Ha'), (G _ _ _ Hb Hb'). split; [|congruence].
  assert (I : forall l n s (g : nat -> Z), (forall j k, (j < s + n)%nat -> (k < s + n)%nat -> g j = g k -> j = k) -> map f l = map g (seq s n) -> forall x y, In x l -> In y l -> f x = f y -> x = y).
  { clear. induction l as [|c l IH]; intros n s g Hg E x y Hx Hy Exy; [destruct Hx|]. destruct n as [|n]; [discriminate|].
    cbn [map seq] in E. injection E as Ec E.
    assert (No : forall z, In z l -> f z <> f c).
    { intros z Hz Ez. apply (in_map f) in Hz. rewrite E in Hz. apply in_map_iff in Hz. destruct Hz as (k & Hk & Hin). apply in_seq in Hin.
      assert (k = s) by (apply Hg; [lia|lia|congruence]). lia. }
    destruct Hx as [<-|Hx], Hy as [<-|Hy]; [reflexivity| | |].
    - exfalso. exact (No _ Hy (eq_sym Exy)).
    - exfalso. exact (No _ Hx Exy).
    - apply (IH n (S s) g); auto. intros j k Hj Hk. apply Hg; lia. }
  pose proof (appearances_length (map l_addr links)) as L. rewrite map_length in L.
  intro Exy. refine (I _ _ _ (fun k => rnd k mod 16777216) _ E5 _ _ _ _ Exy).
  - intros p q Hp Hq. apply Hr; lia.
  - apply in_appearances, in_map. eapply nth_error_In. exact Ha.
  - apply in_appearances, in_map. eapply nth_error_In. exact Hb.
Qed.

(** The comments: exactly the lines that begin with a hash sign, in order, then one line for each record. *)
Theorem C59_comments : forall rnd input links lines cs, text_to_links input = (links, None) -> consists_of lines input -> selected comment_line lines cs ->
  exists out new, anon_file rnd (Some input) = Some out /\ text_to_links out = (new, None) /\ consists_of (cs ++ map link_marshal_text new ++ [[]]) out.
Proof.
  intros rnd input links lines cs H Hl Hc. apply consists_split in Hl. apply selected_filter in Hc. subst lines cs.
  destruct (anon_file_good rnd _ _ H) as [H1 _]. eexists. exists (anonymize rnd links []).
  assert (Hp : Forall plain (anonymize rnd links [])) by (apply anonymize_plain; eapply text_to_links_plain; exact H).
  split; [exact H1|]. split.
  - apply commented_reads; [apply filter_comments|apply filter_no_nl, split_no_nl|exact Hp].
  - apply consists_split. apply split_unlines_links; [apply filter_no_nl, split_no_nl|exact Hp].
Qed.

(** Anonymising again keeps the comments and changes nothing but addresses. *)
Theorem C59_again : forall rnd rnd2 input links out, text_to_links input = (links, None) -> anon_file rnd (Some input) = Some out ->
  exists out2 lines lines2 cs, anon_file rnd2 (Some out) = Some out2 /\ consists_of lines out /\ consists_of lines2 out2 /\
    selected comment_line lines cs /\ selected comment_line lines2 cs /\ List.length lines2 = List.length lines.
Proof.
  intros rnd rnd2 input links out H Ho. destruct (anon_file_good rnd _ _ H) as [H1 _].
  assert (Hp : Forall plain (anonymize rnd links [])) by (apply anonymize_plain; eapply text_to_links_plain; exact H).
  assert (Ht : text_to_links out = (anonymize rnd links [], None)).
  { rewrite H1 in Ho. injection Ho as <-. apply commented_reads; [apply filter_comments|apply filter_no_nl, split_no_nl|exact Hp]. }
  assert (Hs : split_on ch_nl out = filter has_hash (split_on ch_nl input) ++ map link_marshal_text (anonymize rnd links []) ++ [[]]).
  { rewrite H1 in Ho. injection Ho as <-. apply split_unlines_links; [apply filter_no_nl, split_no_nl|exact Hp]. }
  destruct (anon_file_good rnd2 _ _ Ht) as [H2 _]. eexists. eexists. eexists. exists (filter has_hash (split_on ch_nl input)).
  assert (Hc : filter has_hash (split_on ch_nl out) = filter has_hash (split_on ch_nl input)).
  { rewrite Hs, !filter_app, filter_idem, marshalled_no_hash. cbn [filter has_hash app]. rewrite ?app_nil_r. reflexivity. }
  assert (Hp2 : Forall plain (anonymize rnd2 (anonymize rnd links []) [])) by (apply anonymize_plain; exact Hp).
  rewrite Hc in H2.
  assert (Hs2 := split_unlines_links (filter has_hash (split_on ch_nl input)) _ (filter_no_nl _ (split_no_nl input)) Hp2).
  split; [exact H2|]. split; [apply consists_split; reflexivity|]. split; [apply consists_split; reflexivity|].
  split; [apply selected_filter; exact Hc|]. split.
  - apply selected_filter. rewrite Hs2, !filter_app, filter_idem, marshalled_no_hash. cbn [filter has_hash app]. rewrite ?app_nil_r. reflexivity.
  - rewrite Hs2, Hs, !app_length, !map_length. f_equal. f_equal. destruct (anonymize_fresh rnd2 (anonymize rnd links [])) as (f & E & _). rewrite E, map_length. reflexivity.
Qed.

(** What an interruption leaves: the old file or a beginning of the new one. *)
Theorem C59_crash_states : forall n rnd input links, text_to_links input = (links, None) ->
  anon_crash n rnd (Some input) = Some input \/ exists out k, anon_file rnd (Some input) = Some out /\ anon_crash n rnd (Some input) = Some (firstn k out).
Proof.
  intros [|n] rnd input links H; [left; reflexivity|]. right. destruct (anon_file_good rnd _ _ H) as [H1 _].
  eexists. exists n. split; [exact H1|]. apply anon_crash_good. exact H.
Qed.
(** It is not harmless: for every valid file there is a moment at which it leaves an empty file, which reads as a valid database without records. *)
Theorem C59_crash_loses_all : forall rnd input links, text_to_links input = (links, None) ->
  exists n left, anon_crash n rnd (Some input) = Some left /\ text_to_links left = ([], None).
Proof. intros rnd input links H. exists 1%nat, []. split; [rewrite (anon_crash_good 0 _ _ _ H); reflexivity|reflexivity]. Qed.

Definition ex_text : list Z := unlines (map zs
  ["# kitchen switch 0a.0b.0c"; "  # indented"; ""; "UC        1 0a.0b.0c   01 02 03"; "AR 2 0D0E0F ff 0 1"; "UR 3 0a.0b.0c 00 00 00"]%string).

(** Anonymous is more than the records: an original address in a comment stays. *)
Definition occurs (w t : list Z) : Prop := exists p q, t = p ++ w ++ q.
Theorem C59_comment_leak_refuted : exists rnd input links out, text_to_links input = (links, None) /\ anon_file rnd (Some input) = Some out /\
  (forall k, ~ In (rnd k mod 16777216) (map l_addr links)) /\ exists l, In l links /\ occurs (addr_string (l_addr l)) out.
Proof.
  exists (fun _ => 5), ex_text. eexists. eexists. split; [vm_compute; reflexivity|]. split; [vm_compute; reflexivity|]. split.
  - intros k. vm_compute. intuition discriminate.
  - eexists. split; [left; reflexivity|]. exists (zs "# kitchen switch "%string). eexists. vm_compute. reflexivity.
Qed.
(** Not every comment stays: one that is indented is ignored when reading, and lost when writing. *)
Theorem C59_indented_comment_lost_refuted : exists rnd input links out c, text_to_links input = (links, None) /\ anon_file rnd (Some input) = Some out /\
  drop_space c = 35 :: zs " indented"%string /\ (exists lines, consists_of lines input /\ In c lines) /\ ~ exists lines, consists_of lines out /\ In c lines.
Proof.
  exists (fun _ => 5), ex_text. eexists. eexists. exists (zs "  # indented"%string). split; [vm_compute; reflexivity|]. split; [vm_compute; reflexivity|].
  split; [reflexivity|]. split.
  - eexists. split; [apply consists_split; reflexivity|]. vm_compute. tauto.
  - intros (lines & Hl & Hin). apply consists_split in Hl. vm_compute in Hl. subst lines. cbn in Hin. intuition discriminate.
Qed.
Example C59_ex : anon_file (fun k => 0x7f000000 + Z.of_nat k) (Some ex_text) =
  Some (unlines (map zs ["# kitchen switch 0a.0b.0c"; "UC        1 00.00.00   01 02 03"; "AR        2 00.00.01   ff 00 01"; "UR        3 00.00.00   00 00 00"]%string)) /\
  anon_file (fun _ => 5) (Some (zs "UC 1 0a.0b.0c 00 00"%string)) = Some (zs "UC 1 0a.0b.0c 00 00"%string) /\
  anon_crash 20 (fun _ => 5) (Some ex_text) = Some (zs "# kitchen switch 0a"%string).
Proof. vm_compute. auto. Qed.

Definition ex_rnd (k : nat) : Z := 0x7f000000 + Z.of_nat k.
Example C59_no_address_left_case : exists links out new, text_to_links ex_text = (links, None) /\ anon_file ex_rnd (Some ex_text) = Some out /\
  text_to_links out = (new, None) /\ List.length links = 3%nat /\ forall l, In l new -> ~ In (l_addr l) (map l_addr links).
Proof.
  destruct (text_to_links ex_text) as [links e] eqn:E. pose proof E as E'. vm_compute in E'. injection E' as El Ee. subst e.
  destruct (C59_records ex_rnd ex_text links E) as (out & new & f & H1 & _ & H2 & _).
  exists links, out, new. split; [reflexivity|]. split; [exact H1|]. split; [exact H2|]. split; [rewrite <- El; reflexivity|].
  apply (C59_no_address_left ex_rnd ex_text links out new E H1 H2).
  rewrite <- El. intros [|[|[|k]]] Hk; [vm_compute; intuition discriminate ..|cbn in Hk; lia].
Qed.
Example C59_structure_kept_case : exists links out new, text_to_links ex_text = (links, None) /\ anon_file ex_rnd (Some ex_text) = Some out /\
  text_to_links out = (new, None) /\ forall a b a' b', nth_error links 0 = Some a -> nth_error links 2 = Some b ->
    nth_error new 0 = Some a' -> nth_error new 2 = Some b' -> (l_addr a' = l_addr b' <-> l_addr a = l_addr b).
Proof.
  destruct (text_to_links ex_text) as [links e] eqn:E. pose proof E as E'. vm_compute in E'. injection E' as El Ee. subst e.
  destruct (C59_records ex_rnd ex_text links E) as (out & new & f & H1 & _ & H2 & _).
  exists links, out, new. split; [reflexivity|]. split; [exact H1|]. split; [exact H2|]. intros a b a' b'.
  apply (C59_structure_kept ex_rnd ex_text links out new E H1 H2).
  rewrite <- El. unfold ex_rnd. cbn [List.length]. intros j k Hj Hk. lia.
Qed.
Example C59_comments_case : exists lines cs out new, consists_of lines ex_text /\ selected comment_line lines cs /\
  cs = [zs "# kitchen switch 0a.0b.0c"%string] /\ anon_file ex_rnd (Some ex_text) = Some out /\ text_to_links out = (new, None) /\
  consists_of (cs ++ map link_marshal_text new ++ [[]]) out.
Proof.
  destruct (text_to_links ex_text) as [links e] eqn:E. pose proof E as E'. vm_compute in E'. injection E' as El Ee. subst e.
  assert (Hl : consists_of (map zs ["# kitchen switch 0a.0b.0c"; "  # indented"; ""; "UC        1 0a.0b.0c   01 02 03"; "AR 2 0D0E0F ff 0 1"; "UR 3 0a.0b.0c 00 00 00"; ""]%string) ex_text).
  { apply consists_split. vm_compute. reflexivity. }
  eexists. exists [zs "# kitchen switch 0a.0b.0c"%string].
  assert (Hs : selected comment_line (map zs ["# kitchen switch 0a.0b.0c"; "  # indented"; ""; "UC        1 0a.0b.0c   01 02 03"; "AR 2 0D0E0F ff 0 1"; "UR 3 0a.0b.0c 00 00 00"; ""]%string)
    [zs "# kitchen switch 0a.0b.0c"%string]).
  { apply sel_take; [eexists; cbn; reflexivity|]. do 6 (apply sel_skip; [intros [t H]; discriminate H|]). apply sel_nil. }
  destruct (C59_comments ex_rnd ex_text links _ _ E Hl Hs) as (out & new & H1 & H2 & H3).
  exists out, new. split; [exact Hl|]. split; [exact Hs|]. split; [reflexivity|]. split; [exact H1|]. split; [exact H2|exact H3].
Qed.

Print Assumptions C59_invalid_untouched.
Print Assumptions C59_records.
Print Assumptions C59_no_address_left.
Print Assumptions C59_structure_kept.
Print Assumptions C59_comments.
Print Assumptions C59_again.
Print Assumptions C59_crash_states.
Print Assumptions C59_crash_loses_all.
Print Assumptions C59_comment_leak_refuted.
Print Assumptions C59_indented_comment_lost_refuted.
