(** The text of a snooped line can be read back. *)
From Coq Require Import ZArith List Bool Lia ZifyBool ZifyNat String.
From Verif Require Import GoBase GoLemmas GoProg GoText GoJson Command Message MessageSpec MessageProofs Address Link LinkText BasicDevice DevLinkdb DevLinkdbSpec
  Lights MsgWriter FiltersSpec UtilSnoop UtilSnoopSpec UtilSnoopProofs Display DisplaySpec DisplayProofs DisplayProofs2 IcDev IcDevProofs Report ReportSpec Props_ModemText SnoopText SnoopTextSpec.
Import ListNotations.
Open Scope Z_scope.
Ltac Zify.zify_post_hook ::= Z.div_mod_to_equations.

(** ** Command names and what may follow them *)
Definition startb (t : list Z) : bool :=
  let c i := nth i t 0 in
  (c 0%nat =? 10) || (c 0%nat =? 58) || (c 0%nat =? 40) ||
  ((c 0%nat =? 32) && (existsb (Z.eqb (c 1%nat)) [117; 112; 38; 76; 85; 71] || ((c 1%nat =? 65) && (c 2%nat =? 67)))).
Lemma startb_app : forall k y, (3 <= List.length k)%nat -> startb (k ++ y) = startb k.
Proof. intros k y H. unfold startb. rewrite !app_nth1 by lia. reflexivity. Qed.
Fixpoint strip (n m : list Z) : option (list Z) :=
  match n, m with
  | [], _ => Some m
  | a :: n', b :: m' => if a =? b then strip n' m' else None
  | _ :: _, [] => None
  end.
Lemma strip_app : forall n k, strip n (n ++ k) = Some k.
Proof. induction n as [|a n IH]; intro k; cbn [strip app]; [reflexivity|]. rewrite Z.eqb_refl. apply IH. Qed.
Definition follow_ok : bool :=
  forallb (fun kn => forallb (fun km =>
      match strip (snd kn) (snd km) with None | Some [] => true | Some k => (3 <=? List.length k)%nat && negb (startb k) end) cmd_strings &&
    match strip (snd kn) raw_head with None => true | Some _ => false end && (65 <=? hd 0 (snd kn)) &&
    forallb (fun c => negb (c =? 10)) (snd kn)) cmd_strings.
Lemma follow_fact : follow_ok = true.
Proof. vm_compute. reflexivity. Qed.
Lemma follow_facts : forall c n, lookup_name c cmd_strings = Some n ->
  (forall d m, lookup_name d cmd_strings = Some m -> forall k, m = n ++ k -> k = [] \/ ((3 <= List.length k)%nat /\ startb k = false)) /\
  (forall k, raw_head <> n ++ k) /\ 65 <= hd 0 n /\ Forall nonl n.
Proof.
  intros c n H. apply lookup_name_in in H. pose proof follow_fact as T. unfold follow_ok in T. rewrite forallb_forall in T. specialize (T _ H).
  cbn [snd] in T. do 3 (apply andb_true_iff in T; destruct T as [T ?]). split; [|split; [|split; [lia|apply forallb_nonl; assumption]]].
  - intros d m Hm k E. apply lookup_name_in in Hm. rewrite forallb_forall in T. specialize (T _ Hm). cbn [snd] in T. rewrite E, strip_app in T.
    destruct k as [|a k]; [left; reflexivity|right]. apply andb_true_iff in T. destruct T as [T1 T2]. split; [lia|]. destruct (startb (a :: k)); [discriminate|reflexivity].
  - intros k E. rewrite E, strip_app in *. discriminate.
Qed.
Lemma name_cut : forall c d n m x y, lookup_name c cmd_strings = Some n -> lookup_name d cmd_strings = Some m -> startb x = true -> startb y = true ->
  n ++ x = m ++ y -> n = m /\ x = y.
Proof.
  intros c d n m x y Hn Hm Sx Sy H. apply app_eq_app in H. destruct H as [k [[E F]|[E F]]].
  - destruct (follow_facts _ _ Hm) as [G _]. destruct (G _ _ Hn _ E) as [-> | [L S]]; [rewrite app_nil_r in E; split; auto|].
    rewrite F, startb_app, S in Sy by exact L. discriminate.
  - destruct (follow_facts _ _ Hn) as [G _]. destruct (G _ _ Hm _ E) as [-> | [L S]]; [rewrite app_nil_r in E; split; auto|].
    rewrite F, startb_app, S in Sx by exact L. discriminate.
Qed.
Lemma raw_cut : forall c n t x, lookup_name c cmd_strings = Some n -> raw_head ++ t <> n ++ x.
Proof.
  intros c n t x Hn H. apply app_eq_app in H. destruct H as [k [[E F]|[E F]]].
  - destruct (follow_facts _ _ Hn) as (_ & G & _). exact (G _ E).
  - destruct (name_facts _ _ Hn) as (_ & _ & G & _). exact (raw_not_name _ _ G E).
Qed.
Definition tailb (t : list Z) : bool := startb t && negb (nth 0 t 0 =? 40).
Lemma cmd_cut : forall c d x y, word24 c -> word24 d -> tailb x = true -> tailb y = true -> cmd_string c ++ x = cmd_string d ++ y -> named_alike c d /\ x = y.
Proof.
  intros c d x y Hc Hd Tx Ty H. unfold tailb in *. apply andb_true_iff in Tx, Ty. destruct Tx as [Sx Nx], Ty as [Sy Ny].
  assert (G : cmd_string c = cmd_string d /\ x = y); [|destruct G as [G ->]; split; [apply cmd_string_inj; assumption|reflexivity]].
  pose proof (cmd_string_shape c Hc) as Sc. pose proof (cmd_string_shape d Hd) as Sd.
  remember (cmd_string c) as s eqn:Es. remember (cmd_string d) as t eqn:Et. clear Es Et.
  assert (Bc : is_byte (c mod 256)) by (unfold is_byte; lia). assert (Bd : is_byte (d mod 256)) by (unfold is_byte; lia).
  destruct Sc as [n Hn|n Hn|]; destruct Sd as [m Hm|m Hm|].
  - eapply name_cut; eassumption.
  - rewrite <- !app_assoc in H. apply (name_cut _ _ _ _ _ _ Hn Hm Sx) in H; [|reflexivity]. destruct H as [_ ->]. discriminate Nx.
  - rewrite <- !app_assoc in H. symmetry in H. apply (raw_cut _ _ _ _ Hn) in H. contradiction.
  - rewrite <- !app_assoc in H. apply (name_cut _ _ _ _ _ _ Hn Hm) in H; [|reflexivity|exact Sy]. destruct H as [_ <-]. discriminate Ny.
  - rewrite <- !app_assoc in H. apply (name_cut _ _ _ _ _ _ Hn Hm) in H; [|reflexivity..]. destruct H as [<- H]. apply app_inv_head in H.
    change (zs ")") with [41] in *. cbn [app] in H. apply (until_cut is_dec) in H; try (apply fmt_d_byte_dec; assumption); try (unfold is_dec; lia).
    destruct H as [-> H]. split; [reflexivity|]. apply (f_equal (@tl Z)) in H. exact H.
  - rewrite <- !app_assoc in H. symmetry in H. apply (raw_cut _ _ _ _ Hn) in H. contradiction.
  - rewrite <- !app_assoc in H. apply (raw_cut _ _ _ _ Hm) in H. contradiction.
  - rewrite <- !app_assoc in H. apply (raw_cut _ _ _ _ Hm) in H. contradiction.
  - apply app_cut in H; [exact H|]. rewrite !app_length. reflexivity.
Qed.
Lemma cmd_head : forall c x, word24 c -> exists h t, cmd_string c ++ x = h :: t /\ 65 <= h.
Proof.
  intros c x Hc. assert (P : forall n y, 65 <= hd 0 n -> exists h t, n ++ y = h :: t /\ 65 <= h).
  { intros [|h n] y Hh; cbn [hd] in Hh; [lia|]. cbn [app]. eauto. }
  destruct (cmd_string_shape c Hc) as [n Hn|n Hn|].
  - apply P. apply (follow_facts _ _ Hn).
  - rewrite <- app_assoc. apply P. apply (follow_facts _ _ Hn).
  - exists 67. eexists. split; [reflexivity|lia].
Qed.
Lemma nonl_d : forall b, is_byte b -> Forall nonl (fmt_d_byte b).
Proof. intros b Hb. eapply Forall_impl; [|apply fmt_d_byte_dec; exact Hb]. unfold is_dec, nonl. intros; lia. Qed.
Lemma nonl_cmd : forall c, word24 c -> Forall nonl (cmd_string c).
Proof.
  intros c Hc. destruct (cmd_string_shape c Hc) as [n Hn|n Hn|]; [apply (follow_facts _ _ Hn)| |].
  - apply Forall_app. split; [apply (follow_facts _ _ Hn)|]. apply Forall_app. split; [apply nonl_zs; reflexivity|].
    apply Forall_app. split; [apply nonl_d; unfold is_byte; lia|apply nonl_zs; reflexivity].
  - unfold word24 in Hc. repeat (apply Forall_app; split); try (apply nonl_zs; reflexivity); apply nonl_02x; lia.
Qed.

(** ** The parts of a line *)
Lemma dcut : forall a b c d x y, is_byte a -> is_byte b -> ~ is_dec c -> ~ is_dec d -> fmt_d_byte a ++ c :: x = fmt_d_byte b ++ d :: y -> a = b /\ c :: x = d :: y.
Proof.
  intros a b c d x y Ha Hb Hc Hd H. apply (until_cut is_dec) in H; try (apply fmt_d_byte_dec; assumption); try assumption.
  destruct H as [H G]. split; [apply fmt_d_byte_inj; assumption|exact G].
Qed.
Ltac nodec := unfold is_dec; lia.

Lemma rt_cut : forall r s x y, route_ok r -> route_ok s -> rt_text r ++ 32 :: x = rt_text s ++ 32 :: y -> r = s /\ x = y.
Proof.
  intros r s x y Hr Hs H.
  destruct r as [a|a c0 c1 f|a d|e a d]; destruct s as [a'|a' c0' c1' f'|a' d'|e' a' d'];
    try (apply (f_equal (fun l => (nth 0 l 0, nth 1 l 0))) in H; try destruct e; try destruct e'; discriminate H);
    cbn [rt_text route_ok] in *; rewrite <- ?app_assoc in H.
  - apply app_inv_head in H. apply addr_string_cut in H; [|assumption..]. destruct H as [-> H]. apply app_inv_head in H. injection H as ->. auto.
  - destruct Hr as (W & B0 & B1 & B2), Hs as (W' & B0' & B1' & B2').
    apply app_inv_head in H. apply addr_string_cut in H; [|assumption..]. destruct H as [-> H]. apply app_inv_head in H.
    unfold devcat_string in H. rewrite <- !app_assoc in H. apply fmt_02x_cut in H; [|assumption..]. destruct H as [-> H].
    apply app_inv_head in H. apply fmt_02x_cut in H; [|assumption..]. destruct H as [-> H]. apply app_inv_head in H.
    unfold fw_string in H. rewrite !fmt_int_byte in H by assumption. apply dcut in H; try assumption; try nodec. destruct H as [-> H]. injection H as ->. auto.
  - destruct Hr as (W & B0), Hs as (W' & B0').
    apply app_inv_head in H. apply addr_string_cut in H; [|assumption..]. destruct H as [-> H]. apply app_inv_head in H.
    apply addr_string_cut in H; [|assumption..]. destruct H as [-> H]. injection H as ->. auto.
  - destruct Hr as (W & B0), Hs as (W' & B0').
    assert (e = e') by (destruct e, e'; try reflexivity; discriminate H). subst e'. apply app_inv_head in H.
    apply app_inv_head in H. apply addr_string_cut in H; [|assumption..]. destruct H as [-> H]. apply app_inv_head in H.
    apply addr_string_cut in H; [|assumption..]. destruct H as [-> H]. injection H as ->. auto.
Qed.

(** What may follow the description of the command. *)
Definition paystart (t : list Z) : bool :=
  let c i := nth i t 0 in
  (c 0%nat =? 10) || ((c 0%nat =? 32) && existsb (Z.eqb (c 1%nat)) [117; 112; 38; 76; 85]).
Lemma paystart_tail : forall t, paystart t = true -> tailb t = true.
Proof. intros t H. unfold paystart, tailb, startb in *. cbn [existsb] in *. lia. Qed.
Lemma paystart_head : forall t, paystart t = true -> exists h r, t = h :: r /\ ~ is_dec h.
Proof. intros [|h r] H; [discriminate H|]. exists h, r. split; [reflexivity|]. unfold paystart in H. cbn [nth] in H. unfold is_dec. cbn [existsb] in H. lia. Qed.
(** The rest of the description, behind the first command. *)
Definition unk (a : sn_what) : bool := match a with WhUnknownAck _ _ => true | _ => false end.
Definition first_cmd (a : sn_what) : Z := match a with WhAck c | WhReport c _ _ _ _ | WhGroup c _ | WhCommand c => c | _ => 0 end.
Definition after (a : sn_what) : list Z :=
  match a with
  | WhAck c => zs " ACK"
  | WhReport c o g cl f => zs ": " ++ cmd_string o ++ zs " Group " ++ fmt_d_byte g ++ zs " (cleanup " ++ fmt_d_byte cl ++ zs ", failed " ++ fmt_d_byte f ++ zs ")"
  | WhGroup c g => zs " Group " ++ fmt_d_byte g
  | _ => []
  end.
Lemma after_text : forall a, what_ok a -> unk a = false ->
  wh_text a = 32 :: cmd_string (first_cmd a) ++ after a /\ word24 (first_cmd a) /\ forall x, paystart x = true -> tailb (after a ++ x) = true.
Proof.
  intros a Ha H. destruct a; cbn [unk] in H; try discriminate; cbn [wh_text what_ok after first_cmd] in *.
  - split; [reflexivity|]. split; [exact Ha|]. reflexivity.
  - split; [reflexivity|]. split; [tauto|]. reflexivity.
  - split; [reflexivity|]. split; [tauto|]. reflexivity.
  - split; [rewrite app_nil_r; reflexivity|]. split; [exact Ha|]. exact paystart_tail.
Qed.
Ltac heads H :=
  exfalso; let E0 := fresh "E" in let E1 := fresh "E" in
  pose proof (f_equal (fun l => nth 0 l 0) H) as E0; pose proof (f_equal (fun l => nth 1 l 0) H) as E1; cbn in E0, E1; lia.
Lemma wh_cut : forall a b x y, what_ok a -> what_ok b -> paystart x = true -> paystart y = true ->
  wh_text a ++ x = wh_text b ++ y -> what_alike a b /\ x = y.
Proof.
  intros a b x y Ha Hb Px Py H.
  destruct (unk a) eqn:Ea; destruct (unk b) eqn:Eb; [| | |].
  4:{ destruct (after_text _ Ha Ea) as (Ta & Wa & Sa). destruct (after_text _ Hb Eb) as (Tb & Wb & Sb). rewrite Ta, Tb in H.
    cbn [app] in H. rewrite <- !app_assoc in H. apply (f_equal (@tl Z)) in H. cbn [tl] in H. apply cmd_cut in H; [|auto..]. destruct H as [HN H].
    pose proof Px as Px'. pose proof Py as Py'. unfold paystart in Px', Py'. cbn [existsb] in Px', Py'.
    destruct (paystart_head _ Px) as (hx & rx & Ex & Nx). destruct (paystart_head _ Py) as (hy & ry & Ey & Ny).
    destruct a as [ca|? ?|ca o g cl f|ca g|ca]; cbn [unk] in Ea; try discriminate;
      destruct b as [cb|? ?|cb o' g' cl' f'|cb g'|cb]; cbn [unk] in Eb; try discriminate; cbn [what_alike what_ok after first_cmd] in *; try (heads H).
    + apply app_inv_head in H. auto.
    + destruct Ha as (_ & Wo & B1 & B2 & B3), Hb as (_ & Wo' & B1' & B2' & B3'). rewrite <- !app_assoc in H. apply app_inv_head in H.
      apply cmd_cut in H; [|try assumption; reflexivity..]. destruct H as [HO H]. apply app_inv_head in H.
      change (zs " (cleanup ") with (32 :: zs "(cleanup ") in H. change (zs ", failed ") with (44 :: zs " failed ") in H. change (zs ")") with [41] in H. cbn [app] in H.
      apply dcut in H; try assumption; try nodec. destruct H as [-> H]. apply (app_inv_head (32 :: zs "(cleanup ")) in H.
      apply dcut in H; try assumption; try nodec. destruct H as [-> H]. apply (app_inv_head (44 :: zs " failed ")) in H.
      apply dcut in H; try assumption; try nodec. destruct H as [-> H]. injection H as ->. auto 10.
    + destruct Ha as (_ & B), Hb as (_ & B'). rewrite <- !app_assoc in H. apply app_inv_head in H. rewrite Ex, Ey in H.
      apply dcut in H; try assumption. destruct H as [-> H]. rewrite Ex, Ey. auto.
    + auto. }
  - destruct a; try discriminate Ea. destruct b; try discriminate Eb. cbn [wh_text what_ok what_alike] in *. destruct Ha as [A1 A2], Hb as [B1 B2].
    rewrite <- !app_assoc in H. apply app_inv_head in H. change (zs " (unknown ACK)") with (32 :: zs "(unknown ACK)") in H. change (zs ".") with [46] in H. cbn [app] in H.
    apply dcut in H; try assumption; try nodec. destruct H as [-> H]. apply (f_equal (@tl Z)) in H. cbn [tl] in H.
    apply dcut in H; try assumption; try nodec. destruct H as [-> H]. apply (app_inv_head (32 :: zs "(unknown ACK)")) in H. auto.
  - exfalso. destruct (after_text _ Hb Eb) as (Ta & Wa & Sa). rewrite Ta in H. destruct a; try discriminate Ea. cbn [wh_text what_ok] in *.
    rewrite <- ?app_assoc in H. change (zs " ") with [32] in H. cbn [app] in H. apply (f_equal (@tl Z)) in H. cbn [tl] in H.
    rewrite <- app_assoc in H. match type of H with context [cmd_string ?c ++ ?x] => destruct (cmd_head c x Wa) as (h & r & E & Hh) end. rewrite E in H.
    pose proof (fmt_d_byte_dec c1 ltac:(tauto)) as F. destruct (fmt_d_byte c1) as [|k r'] eqn:Ed; [apply (f_equal (hd 0)) in H; cbn in H; lia|]. inversion F as [|? ? F1 _]; subst.
    cbn [app] in H. apply (f_equal (hd 0)) in H. cbn [hd] in H. unfold is_dec in F1. lia.
  - exfalso. destruct (after_text _ Ha Ea) as (Ta & Wa & Sa). rewrite Ta in H. destruct b; try discriminate Eb. cbn [wh_text what_ok] in *.
    rewrite <- ?app_assoc in H. change (zs " ") with [32] in H. cbn [app] in H. apply (f_equal (@tl Z)) in H. cbn [tl] in H.
    rewrite <- app_assoc in H. match type of H with context [cmd_string ?c ++ ?x] => destruct (cmd_head c x Wa) as (h & r & E & Hh) end. rewrite E in H.
    pose proof (fmt_d_byte_dec c1 ltac:(tauto)) as F. destruct (fmt_d_byte c1) as [|k r'] eqn:Ed; [apply (f_equal (hd 0)) in H; cbn in H; lia|]. inversion F as [|? ? F1 _]; subst.
    cbn [app] in H. apply (f_equal (hd 0)) in H. cbn [hd] in H. unfold is_dec in F1. lia.
Qed.

Lemma payload_str_join : forall b, payload_str b = hex_join (zs ", ") b.
Proof. intro b. unfold payload_str. apply payload_go_join. lia. Qed.
Lemma no_sq_payload : forall b, bytes_ok b -> Forall (fun c => c <> 93) (payload_str b).
Proof.
  assert (B : forall v, is_byte v -> Forall (fun c => c <> 93) (fmt_02x v)).
  { intros v Hv. unfold is_byte in Hv. unfold fmt_02x, hex_char. apply Forall_cons; [destruct (v / 16 <? 10) eqn:E; lia|]. apply Forall_cons; [destruct (v mod 16 <? 10) eqn:E; lia|]. apply Forall_nil. }
  intros b Hb. unfold payload_str. generalize (zlen b) 0. induction Hb as [|v b Hv Hb IH]; intros n i; cbn [payload_go]; [constructor|].
  apply Forall_app. split; [apply B, Hv|]. apply Forall_app. split; [|apply IH]. destruct (i <? n - 1); repeat constructor; discriminate.
Qed.
Lemma nonl_payload : forall b, bytes_ok b -> Forall nonl (payload_str b).
Proof.
  intros b Hb. unfold payload_str. generalize (zlen b) 0. induction Hb as [|v b Hv Hb IH]; intros n i; cbn [payload_go]; [constructor|].
  unfold is_byte in Hv. apply Forall_app. split; [apply nonl_02x; lia|]. apply Forall_app. split; [|apply IH]. destruct (i <? n - 1); [apply nonl_zs; reflexivity|apply Forall_nil].
Qed.
Lemma payload_cut : forall a b x y, bytes_ok a -> bytes_ok b -> payload_str a ++ 93 :: x = payload_str b ++ 93 :: y -> a = b /\ x = y.
Proof.
  intros a b x y Ha Hb H. apply (until_cut (fun c => c <> 93)) in H; try (apply no_sq_payload; assumption); try lia. destruct H as [H G].
  split; [apply C73_payload_told; assumption|]. injection G as ->. reflexivity.
Qed.
Lemma lr_head : forall r, exists h t, lr_string r = h :: t /\ (h = 76 \/ h = 85).
Proof.
  intro r. unfold lr_string, lrt_string. destruct (lr_type r =? 0); [|destruct (lr_type r =? 1); [|destruct (lr_type r =? 2)]];
    do 2 eexists; (split; [reflexivity|]); cbn; lia.
Qed.
Lemma py_start : forall et p, paystart (py_text et p ++ [10]) = true.
Proof.
  intros et p. destruct p as [|[k d]|r|c|c|b e|b]; try reflexivity. cbn [py_text]. destruct (lr_head r) as (h & t & -> & [-> | ->]); reflexivity.
Qed.
Lemma first_two : forall et p, exists c0 c1 t, py_text et p ++ [10; 10] = c0 :: c1 :: t /\
  match p with
  | PyNone => c0 = 10
  | PyLink _ => c0 = 32 /\ (c1 = 76 \/ c1 = 85)
  | PyError _ _ => c0 = 32 /\ c1 = 112
  | PyUnknown _ => c0 = 32 /\ c1 = 117
  | _ => c0 = 32 /\ c1 = 38
  end.
Proof.
  intros et p. destruct p as [|[k d]|r|c|c|b e|b]; cbn [py_text]; try (do 3 eexists; (split; [reflexivity|]); (reflexivity || (split; reflexivity))).
  destruct (lr_head r) as (h & t & -> & E). do 3 eexists. split; [reflexivity|]. split; [reflexivity|exact E].
Qed.
Lemma py_cut : forall et p q, pay_ok p -> pay_ok q -> (py_text et p = py_text et q <-> pay_alike et p q).
Proof.
  intros et p q Hp Hq. split.
  - intro H. destruct (first_two et p) as (c0 & c1 & t & Ep & Fp). destruct (first_two et q) as (d0 & d1 & u & Eq & Fq).
    pose proof H as H'. apply (f_equal (fun l => l ++ [10; 10])) in H'. rewrite Ep, Eq in H'. injection H' as H0 H1 _. clear Ep Eq.
    destruct p as [|[k d]|r|c|c|b e|b]; destruct q as [|[k' d']|r'|c'|c'|b' e'|b']; cbn [pay_alike] in *; try reflexivity; try (exfalso; lia);
      clear Fp Fq H0 H1; cbn [py_text pay_ok] in *.
    + apply app_inv_head in H. destruct Hp as (L1 & L2 & B1 & B2), Hq as (L1' & L2' & B1' & B2').
      destruct k as [|k0 [|k1 [|k2 [|]]]]; try discriminate L1. destruct d as [|e0 [|e1 [|]]]; try discriminate L2.
      destruct k' as [|k0' [|k1' [|k2' [|]]]]; try discriminate L1'. destruct d' as [|e0' [|e1' [|]]]; try discriminate L2'. cbn [nth] in H.
      unfold bytes_ok in *. repeat match goal with Q : Forall is_byte (_ :: _) |- _ => apply Forall_cons_iff in Q; destruct Q end.
      unfold pk_string, devcat_string in H. rewrite <- !app_assoc in H. apply app_inv_head in H.
      apply fmt_02x_cut in H; [|assumption..]. destruct H as [-> H]. apply fmt_02x_cut in H; [|assumption..]. destruct H as [-> H].
      apply fmt_02x_cut in H; [|assumption..]. destruct H as [-> H]. apply app_inv_head in H.
      apply fmt_02x_cut in H; [|assumption..]. destruct H as [-> H]. apply app_inv_head in H.
      apply fmt_02x_cut in H; [|assumption..]. destruct H as [-> _]. reflexivity.
    + exfalso. apply app_inv_head in H. unfold pk_string in H. rewrite <- !app_assoc in H. change (zs "0x") with ([48] ++ [120]) in H. change (zs " ") with [32] in H. cbn [app] in H.
      apply (until_cut is_num [48]) in H; try (apply fmt_int_num); try (unfold is_num, is_dec; lia); [|repeat constructor; unfold is_num, is_dec; lia].
      destruct H as [_ H]. discriminate H.
    + exfalso. apply app_inv_head in H. unfold pk_string in H. rewrite <- !app_assoc in H. change (zs "0x") with ([48] ++ [120]) in H. change (zs " ") with [32] in H. cbn [app] in H.
      apply (until_cut is_num [48]) in H; try (apply fmt_int_num); try (unfold is_num, is_dec; lia); [|repeat constructor; unfold is_num, is_dec; lia].
      destruct H as [_ H]. discriminate H.
    + apply app_inv_head in H. apply lr_string_alike; assumption.
    + exfalso. symmetry in H. apply app_inv_head in H. unfold pk_string in H. rewrite <- !app_assoc in H. change (zs "0x") with ([48] ++ [120]) in H. change (zs " ") with [32] in H. cbn [app] in H.
      apply (until_cut is_num [48]) in H; try (apply fmt_int_num); try (unfold is_num, is_dec; lia); [|repeat constructor; unfold is_num, is_dec; lia].
      destruct H as [_ H]. discriminate H.
    + apply app_inv_head in H. change (zs " ") with [32] in H. change (zs "}") with [125] in H. cbn [app] in H.
      destruct c as [a1 a2 a3 a4 a5], c' as [b1 b2 b3 b4 b5]. cbn [dc_house dc_unit dc_ramp dc_level dc_snt] in H.
      do 5 (apply num_cut in H; [|unfold is_num, is_dec; lia]; destruct H as [-> H]). reflexivity.
    + exfalso. apply app_inv_head in H. change (zs " ") with [32] in H. change (zs "}") with [125] in H. cbn [app] in H.
      apply num_cut in H; [|unfold is_num, is_dec; lia]. destruct H as [_ H].
      apply (until_cut is_num) in H; try (apply fmt_int_num); try (unfold is_num, is_dec; lia). destruct H as [_ H]. discriminate H.
    + exfalso. symmetry in H. apply app_inv_head in H. unfold pk_string in H. rewrite <- !app_assoc in H. change (zs "0x") with ([48] ++ [120]) in H. change (zs " ") with [32] in H. cbn [app] in H.
      apply (until_cut is_num [48]) in H; try (apply fmt_int_num); try (unfold is_num, is_dec; lia); [|repeat constructor; unfold is_num, is_dec; lia].
      destruct H as [_ H]. discriminate H.
    + exfalso. symmetry in H. apply app_inv_head in H. change (zs " ") with [32] in H. change (zs "}") with [125] in H. cbn [app] in H.
      apply num_cut in H; [|unfold is_num, is_dec; lia]. destruct H as [_ H].
      apply (until_cut is_num) in H; try (apply fmt_int_num); try (unfold is_num, is_dec; lia). destruct H as [_ H]. discriminate H.
    + apply app_inv_head in H. change (zs " ") with [32] in H. change (zs "}") with [125] in H. cbn [app] in H.
      destruct c as [a1 a2], c' as [b1 b2]. cbn [sc_house sc_unit] in H.
      do 2 (apply num_cut in H; [|unfold is_num, is_dec; lia]; destruct H as [-> H]). reflexivity.
    + apply app_inv_head in H. change (zs "] ") with [93; 32] in H. cbn [app] in H. apply payload_cut in H; [|assumption..]. destruct H as [-> H].
      injection H as H. auto.
    + apply app_inv_head in H. change (zs "]") with [93] in H. apply payload_cut in H; [|assumption..]. destruct H as [-> _]. reflexivity.
  - intro H. destruct p as [|[k d]|r|c|c|b e|b]; destruct q as [|[k' d']|r'|c'|c'|b' e'|b']; cbn [pay_alike] in H; try contradiction; try discriminate H; try reflexivity; try (rewrite H; reflexivity).
    + cbn [py_text]. apply (f_equal (app (zs " "))). apply lr_string_alike; assumption.
    + destruct H as [-> H]. cbn [py_text]. rewrite H. reflexivity.
Qed.
Lemma named_text : forall c d, word24 c -> word24 d -> named_alike c d -> cmd_string c = cmd_string d.
Proof. intros c d Hc Hd H. apply cmd_string_alike; assumption. Qed.
Lemma wh_alike_text : forall a b, what_ok a -> what_ok b -> what_alike a b -> wh_text a = wh_text b.
Proof.
  intros a b Ha Hb H. destruct a; destruct b; cbn [what_alike what_ok wh_text] in *; try contradiction;
    repeat match goal with Q : _ /\ _ |- _ => destruct Q end; subst; try reflexivity;
    repeat match goal with Q : named_alike ?c ?d |- _ => rewrite (named_text c d) by assumption; clear Q end; reflexivity.
Qed.

Theorem line_text : forall et a b, line_ok a -> line_ok b -> (sn_body et a = sn_body et b <-> line_alike et a b).
Proof.
  intros et [r m l w p] [r' m' l' w' p'] (A1 & A2 & A3 & A4 & A5) (B1 & B2 & B3 & B4 & B5). cbn [sn_rt sn_max sn_left sn_wh sn_py] in *.
  unfold sn_body, line_alike. cbn [sn_rt sn_max sn_left sn_wh sn_py]. split.
  - intro H. change (zs " ") with [32] in H. change (zs ":") with [58] in H. cbn [app] in H.
    apply rt_cut in H; [|assumption..]. destruct H as [-> H].
    apply dcut in H; try assumption; try nodec. destruct H as [-> H]. apply (f_equal (@tl Z)) in H. cbn [tl] in H.
    assert (W : forall w, exists t, wh_text w = 32 :: t) by (intros []; eexists; reflexivity).
    assert (G : l = l' /\ wh_text w ++ py_text et p = wh_text w' ++ py_text et p').
    { destruct (W w) as [t E]. destruct (W w') as [t' E']. rewrite E, E' in *. cbn [app] in *. apply dcut in H; try assumption; try nodec. }
    destruct G as [-> G]. apply (f_equal (fun x => x ++ [10])) in G. rewrite <- !app_assoc in G.
    apply wh_cut in G; try assumption; try apply py_start. destruct G as [GW G]. apply app_inv_tail in G. apply py_cut in G; [|assumption..]. auto 10.
  - intros (-> & -> & -> & HW & HP). rewrite (wh_alike_text w w') by assumption. apply (py_cut et) in HP; [|assumption..]. rewrite HP. reflexivity.
Qed.

Lemma nonl_lr : forall r, request_ok r -> Forall nonl (lr_string r).
Proof.
  intros r (H1 & H2 & H3). unfold lr_string. pose proof (fun x => Z.mod_pos_bound x 256) as B.
  apply Forall_app; split.
  { unfold lrt_string. destruct (lr_type r =? 0); [|destruct (lr_type r =? 1); [|destruct (lr_type r =? 2)]]; apply nonl_zs; reflexivity. }
  apply Forall_app; split; [apply nonl_zs; reflexivity|]. apply Forall_app; split.
  { unfold mem_string. apply Forall_app; split; [apply nonl_02x; unfold byte_of; apply B; lia|]. apply Forall_app; split; [apply nonl_zs; reflexivity|apply nonl_02x; unfold byte_of; apply B; lia]. }
  apply Forall_app; split; [apply nonl_zs; reflexivity|]. apply Forall_app; split; [apply nonl_num|].
  destruct (lr_link r) as [l|]; [|constructor]. destruct H3 as (F & G & A & D0 & D1 & D2). apply Forall_app; split; [apply nonl_zs; reflexivity|].
  unfold link_string, is_byte in *. apply Forall_app; split.
  { unfold rcf_string. apply Forall_cons; [destruct (rcf_in_use _); discriminate|]. apply Forall_cons; [destruct (rcf_controller _); discriminate|]. apply Forall_nil. }
  apply Forall_app; split; [apply nonl_zs; reflexivity|]. apply Forall_app; split; [apply nonl_d; exact G|]. apply Forall_app; split; [apply nonl_zs; reflexivity|].
  apply Forall_app; split; [apply nonl_addr|].
  repeat first [apply nonl_zs; reflexivity | apply nonl_02x; lia | apply Forall_app; split].
Qed.
Lemma nonl_body : forall et l, (forall e, Forall nonl (et e)) -> line_ok l -> Forall nonl (sn_body et l).
Proof.
  intros et [r m l w p] He (A1 & A2 & A3 & A4 & A5). cbn [sn_rt sn_max sn_left sn_wh sn_py] in *. unfold sn_body. cbn [sn_rt sn_max sn_left sn_wh sn_py].
  assert (Z0 : forall s, forallb (fun c => negb (c =? 10)) (zs s) = true -> Forall nonl (zs s)) by exact nonl_zs.
  apply Forall_app. split; [|apply Forall_app; split; [apply Z0; reflexivity|apply Forall_app; split; [apply nonl_d; assumption|apply Forall_app; split; [apply Z0; reflexivity|
    apply Forall_app; split; [apply nonl_d; assumption|apply Forall_app; split]]]]].
  - destruct r as [a|a c0 c1 f|a d|e a d]; cbn [rt_text route_ok] in *.
    + repeat first [apply Z0; reflexivity | apply nonl_addr | apply Forall_app; split].
    + destruct A1 as (_ & B0 & B1 & B2). unfold is_byte in *. apply Forall_app; split; [apply Z0; reflexivity|]. apply Forall_app; split; [apply nonl_addr|].
      apply Forall_app; split; [apply Z0; reflexivity|]. apply Forall_app; split; [apply nonl_devcat; lia|]. apply Forall_app; split; [apply Z0; reflexivity|]. apply nonl_num.
    + apply Forall_app; split; [apply Z0; reflexivity|]. apply Forall_app; split; [apply nonl_addr|]. apply Forall_app; split; [apply Z0; reflexivity|]. apply nonl_addr.
    + apply Forall_app; split; [destruct e; apply Z0; reflexivity|]. apply Forall_app; split; [apply Z0; reflexivity|].
      apply Forall_app; split; [apply nonl_addr|]. apply Forall_app; split; [apply Z0; reflexivity|]. apply nonl_addr.
  - destruct w as [c|c1 c2|c o g cl f|c g|c]; cbn [wh_text what_ok] in *; repeat match goal with Q : _ /\ _ |- _ => destruct Q end;
      repeat first [apply Z0; reflexivity | apply nonl_cmd; assumption | apply nonl_d; assumption | apply Forall_app; split].
  - destruct p as [|[k d]|q|c|c|b e|b]; cbn [py_text pay_ok] in *.
    + constructor.
    + destruct A5 as (L1 & L2 & B1 & B2). assert (N : forall i l, bytes_ok l -> 0 <= nth i l 0).
      { intros i x Hx. destruct (Nat.lt_ge_cases i (List.length x)) as [Hi|Hi]; [|rewrite nth_overflow by exact Hi; lia].
        pose proof (proj1 (Forall_forall _ _) Hx _ (nth_In x 0 Hi)) as Hb. unfold is_byte in Hb. lia. }
      unfold pk_string. repeat first [apply Z0; reflexivity | apply nonl_02x; apply N; assumption | apply nonl_devcat; apply N; assumption | apply Forall_app; split].
    + apply Forall_app; split; [apply Z0; reflexivity|]. apply nonl_lr, A5.
    + repeat first [apply Z0; reflexivity | apply nonl_num | apply Forall_app; split].
    + repeat first [apply Z0; reflexivity | apply nonl_num | apply Forall_app; split].
    + repeat first [apply Z0; reflexivity | apply He | apply nonl_payload; assumption | apply Forall_app; split].
    + repeat first [apply Z0; reflexivity | apply nonl_payload; assumption | apply Forall_app; split].
Qed.
