(** Proofs about the texts of packets, settings, records, requests and link listings. *)
From Coq Require Import ZArith List Bool Lia String Permutation Sorted ZifyBool ZifyNat.
From Verif Require Import GoBase GoLemmas GoText GoJson Command Message Address Link LinkText PlmPacket Plm DevLinkdb BasicDevice Thermostat
  Display DisplaySpec DisplayProofs.
Import ListNotations.
Open Scope Z_scope.
Ltac Zify.zify_post_hook ::= Z.div_mod_to_equations.

(** ** Modem commands *)
Definition plm_name (i : Z) : list Z := match plm_cmd_string i with Ret s => s | _ => [] end.
Definition is_ret (o : outcome (list Z)) (s : list Z) : bool := match o with Ret t => bytes_eqb t s | _ => false end.
Lemma is_ret_eq : forall o s, is_ret o s = true -> o = Ret s.
Proof. intros [t| |] s H; try discriminate. cbn [is_ret] in H. apply bytes_eqb_eq in H. congruence. Qed.
Lemma plm_name_ret : forall i, is_byte i -> plm_cmd_string i = Ret (plm_name i).
Proof.
  intros i Hi. apply is_ret_eq. revert i Hi. apply (sweep1 (fun i => is_ret (plm_cmd_string i) (plm_name i))). vm_compute. reflexivity.
Qed.
Lemma plm_documented : forall i n, In (i, n) modem_names -> plm_cmd_string i = Ret (zs n).
Proof.
  assert (F : forallb (fun x => is_ret (plm_cmd_string (fst x)) (zs (snd x))) modem_names = true) by (vm_compute; reflexivity).
  intros i n H. rewrite forallb_forall in F. exact (is_ret_eq _ _ (F _ H)).
Qed.
Lemma plm_undocumented : forall i, is_byte i -> (forall n, ~ In (i, n) modem_names) ->
  plm_cmd_string i = Ret (zs "Command(" ++ fmt_d_byte i ++ zs ")").
Proof.
  intros i Hi H.
  pose proof (sweep1 (fun i => existsb (fun x => fst x =? i) modem_names || is_ret (plm_cmd_string i) (zs "Command(" ++ fmt_d_byte i ++ zs ")"))
    ltac:(vm_compute; reflexivity) i Hi) as S. cbv beta in S. apply orb_true_iff in S. destruct S as [S|S]; [|apply is_ret_eq, S].
  exfalso. apply existsb_exists in S. destruct S as ([k n] & S1 & S2). cbn [fst] in S2. apply (H n). replace i with k by lia. exact S1.
Qed.

Fixpoint is_prefix (a b : list Z) : bool :=
  match a, b with [], _ => true | x :: a', y :: b' => (x =? y) && is_prefix a' b' | _, [] => false end.
Lemma is_prefix_app : forall a b x y, a ++ x = b ++ y -> is_prefix a b = true \/ is_prefix b a = true.
Proof.
  induction a as [|c a IH]; intros [|d b] x y H; auto. injection H as -> H. cbn [is_prefix]. rewrite Z.eqb_refl. cbn [andb]. eapply IH, H.
Qed.
Lemma plm_name_cut : forall i j x y, is_byte i -> is_byte j -> plm_name i ++ x = plm_name j ++ y -> i = j /\ x = y.
Proof.
  intros i j x y Hi Hj H.
  assert (S : forall i j, is_byte i -> is_byte j -> negb (is_prefix (plm_name i) (plm_name j)) || (i =? j) = true).
  { intros a b Ha Hb. revert a b Ha Hb. apply (sweep2 (fun i j => negb (is_prefix (plm_name i) (plm_name j)) || (i =? j))). vm_compute. reflexivity. }
  assert (E : i = j).
  { destruct (is_prefix_app _ _ _ _ H) as [P|P]; [pose proof (S i j Hi Hj) as Q|pose proof (S j i Hj Hi) as Q]; rewrite P in Q; cbn [negb orb] in Q; lia. }
  subst j. apply app_inv_head in H. auto.
Qed.

(** ** Packets *)
Definition ending_text (e : ending) : list Z := match e with Acked => zs " ACK" | Refused => zs " NAK" | Neither => [] end.
Lemma ending_exists : forall p, exists e, ending_of p e /\
  (if pkt_is_ack p then zs " ACK" else if pkt_is_nak p then zs " NAK" else []) = ending_text e.
Proof.
  intro p. unfold pkt_is_ack, pkt_is_nak. destruct (0x60 <=? p_cmd p) eqn:E.
  - destruct (p_ack p =? 6) eqn:A; [exists Acked; split; [cbn; lia|reflexivity]|].
    destruct (p_ack p =? 21) eqn:B; [exists Refused; split; [cbn; lia|reflexivity]|].
    exists Neither. split; [cbn; lia|reflexivity].
  - exists Neither. split; [cbn; lia|reflexivity].
Qed.
Lemma ending_unique : forall p e e', ending_of p e -> ending_of p e' -> e = e'.
Proof. intros p [| |] [| |]; cbn; intros; try reflexivity; lia. Qed.

Definition sp_hex (l : list Z) : list Z := flat_map (fun y => zs " " ++ fmt_02x y) l.
Lemma sp_hex_join : forall l, match l with [] => [] | _ => zs " " ++ hex_join (zs " ") l end = sp_hex l.
Proof. intros [|x l]; [reflexivity|]. rewrite hex_join_cons. reflexivity. Qed.
Lemma lower_not_upper : forall x, is_byte x -> hex_char (x / 16) <> 65 /\ hex_char (x / 16) <> 78.
Proof. intros x Hx. unfold hex_char, is_byte in *. destruct (x / 16 <? 10) eqn:E; lia. Qed.
Lemma sp_hex_ending : forall a b e e', bytes_ok a -> bytes_ok b -> sp_hex a ++ ending_text e = sp_hex b ++ ending_text e' -> a = b /\ e = e'.
Proof.
  induction a as [|x a IH]; intros [|y b] e e' Ha Hb H.
  - split; [reflexivity|]. destruct e, e'; try reflexivity; discriminate H.
  - exfalso. inversion Hb; subst. pose proof (lower_not_upper y ltac:(assumption)) as N. unfold sp_hex in H. cbn [flat_map app] in H.
    destruct e; unfold ending_text in H; rewrite <- !app_assoc in H; try discriminate H; unfold fmt_02x in H;
      pose proof (f_equal (fun l => nth 1 l 0) H) as K; cbn in K; lia.
  - exfalso. inversion Ha; subst. pose proof (lower_not_upper x ltac:(assumption)) as N. unfold sp_hex in H. cbn [flat_map app] in H.
    destruct e'; unfold ending_text in H; rewrite <- !app_assoc in H; try discriminate H; unfold fmt_02x in H;
      pose proof (f_equal (fun l => nth 1 l 0) H) as K; cbn in K; lia.
  - inversion Ha; subst. inversion Hb; subst. unfold sp_hex in H. cbn [flat_map] in H. rewrite <- !app_assoc in H. apply app_inv_head in H.
    apply fmt_02x_cut in H; [|assumption..]. destruct H as [-> H]. destruct (IH b e e') as [-> ->]; auto.
Qed.
Lemma pkt_v_text : forall p e, packet_ok p -> ending_of p e -> pkt_format_v p = Ret (plm_name (p_cmd p) ++ sp_hex (p_payload p) ++ ending_text e).
Proof.
  intros p e (Hc & _) He. unfold pkt_format_v. rewrite (plm_name_ret _ Hc), sp_hex_join. destruct (ending_exists p) as (e' & He' & ->).
  rewrite (ending_unique _ _ _ He He'). reflexivity.
Qed.
Theorem pkt_v_alike : forall p q, packet_ok p -> packet_ok q ->
  (pkt_format_v p = pkt_format_v q <-> p_cmd p = p_cmd q /\ p_payload p = p_payload q /\ forall e, ending_of p e <-> ending_of q e).
Proof.
  intros p q Hp Hq. destruct (ending_exists p) as (e & He & _). destruct (ending_exists q) as (e' & He' & _).
  rewrite (pkt_v_text p e Hp He), (pkt_v_text q e' Hq He'). destruct Hp as (Pc & Pp & Pa). destruct Hq as (Qc & Qp & Qa). split.
  - intro H. inversion H as [K]. apply plm_name_cut in K; [|assumption..]. destruct K as [E K]. apply sp_hex_ending in K; [|assumption..].
    destruct K as [F ->]. split; [exact E|]. split; [exact F|]. intro x. split; intro X.
    + rewrite (ending_unique _ _ _ X He). exact He'.
    + rewrite (ending_unique _ _ _ X He'). exact He.
  - intros (-> & -> & H). apply H in He. rewrite (ending_unique _ _ _ He He'). reflexivity.
Qed.

(** ** Flag texts *)
Lemma cfg_alike : forall a b, is_byte a -> is_byte b -> (cfg_string a = cfg_string b <-> a / 16 = b / 16).
Proof.
  intros a b Ha Hb. pose proof (sweep2 (fun a b => Bool.eqb (bytes_eqb (cfg_string a) (cfg_string b)) (a / 16 =? b / 16)) ltac:(vm_compute; reflexivity) a b Ha Hb) as S.
  cbv beta in S. apply eqb_prop in S. rewrite <- bytes_eqb_eq, S. lia.
Qed.
Lemma es_alike : forall a b, is_byte a -> is_byte b -> (es_string a = es_string b <-> a mod 16 = b mod 16).
Proof.
  intros a b Ha Hb. pose proof (sweep2 (fun a b => Bool.eqb (bytes_eqb (es_string a) (es_string b)) (a mod 16 =? b mod 16)) ltac:(vm_compute; reflexivity) a b Ha Hb) as S.
  cbv beta in S. apply eqb_prop in S. rewrite <- bytes_eqb_eq, S. lia.
Qed.
Lemma rcf_alike : forall a b, is_byte a -> is_byte b -> (rcf_string a = rcf_string b <-> a / 64 = b / 64).
Proof.
  intros a b Ha Hb. pose proof (sweep2 (fun a b => Bool.eqb (bytes_eqb (rcf_string a) (rcf_string b)) (a / 64 =? b / 64)) ltac:(vm_compute; reflexivity) a b Ha Hb) as S.
  cbv beta in S. apply eqb_prop in S. rewrite <- bytes_eqb_eq, S. lia.
Qed.

(** ** Thermostat names *)
Lemma tmode_documented : forall i n, In (i, n) mode_names -> tmode_string i = Ret (zs n).
Proof.
  assert (F : forallb (fun x => is_ret (tmode_string (fst x)) (zs (snd x))) mode_names = true) by (vm_compute; reflexivity).
  intros i n H. rewrite forallb_forall in F. exact (is_ret_eq _ _ (F _ H)).
Qed.
Lemma speed_documented : forall i n, In (i, n) speed_names -> fan_speed_string i = Ret (zs n).
Proof.
  assert (F : forallb (fun x => is_ret (fan_speed_string (fst x)) (zs (snd x))) speed_names = true) by (vm_compute; reflexivity).
  intros i n H. rewrite forallb_forall in F. exact (is_ret_eq _ _ (F _ H)).
Qed.

(** ** Records and requests *)
Theorem link_string_alike : forall a b, link_ok a -> link_ok b -> (link_string a = link_string b <-> record_alike a b).
Proof.
  intros a b (A1 & A2 & A3 & A4 & A5 & A6) (B1 & B2 & B3 & B4 & B5 & B6). unfold link_string, record_alike. split.
  - intro H. apply app_cut in H; [|reflexivity]. destruct H as [H1 H]. apply rcf_alike in H1; [|assumption..].
    apply app_inv_head in H. change (zs " ") with [32] in H.
    apply (until_cut is_dec) in H; try (apply fmt_d_byte_dec; assumption); try (unfold is_dec; lia).
    destruct H as [H2 H]. apply fmt_d_byte_inj in H2; [|assumption..]. apply (f_equal (@tl Z)) in H. cbn [tl app] in H.
    apply addr_string_cut in H; [|assumption..]. destruct H as [H3 H]. apply app_inv_head in H.
    apply fmt_02x_cut in H; [|assumption..]. destruct H as [H4 H]. apply app_inv_head in H.
    apply fmt_02x_cut in H; [|assumption..]. destruct H as [H5 H]. apply app_inv_head in H.
    apply fmt_02x_inj in H; [|assumption..]. auto 10.
  - intros (H1 & H2 & H3 & H4 & H5 & H6). apply (rcf_alike _ _ A1 B1) in H1. rewrite H1, H2, H3, H4, H5, H6. reflexivity.
Qed.

Definition is_num (c : Z) : Prop := c = 45 \/ is_dec c.
Lemma fmt_nat_dec : forall n, 0 <= n -> Forall is_dec (fmt_nat n).
Proof.
  intros n Hn. unfold fmt_nat.
  assert (G : forall f n acc, 0 <= n -> Forall is_dec acc -> Forall is_dec (dec_go f n acc)).
  { induction f as [|f IH]; intros m acc Hm Ha; [exact Ha|]. cbn [dec_go]. destruct (m <? 10) eqn:E.
    - constructor; [unfold is_dec; lia|exact Ha].
    - apply IH; [lia|]. constructor; [unfold is_dec; lia|exact Ha]. }
  apply G; auto.
Qed.
Lemma fmt_int_num : forall n, Forall is_num (fmt_int n).
Proof.
  intro n. unfold fmt_int. destruct (n <? 0) eqn:E.
  - constructor; [left; reflexivity|]. eapply Forall_impl; [|apply fmt_nat_dec; lia]. intros c Hc. right. exact Hc.
  - eapply Forall_impl; [|apply fmt_nat_dec; lia]. intros c Hc. right. exact Hc.
Qed.
Lemma lrt_cut : forall a b x y, is_byte a -> is_byte b -> lrt_string a ++ zs " " ++ x = lrt_string b ++ zs " " ++ y ->
  (a = b \/ (3 <= a /\ 3 <= b)) /\ x = y.
Proof.
  intros a b x y Ha Hb H. unfold is_byte in *.
  assert (T : forall a, 0 <= a -> a = 0 \/ a = 1 \/ a = 2 \/ (3 <= a /\ lrt_string a = zs "Unknown")).
  { intros c Hc. destruct (Z_lt_dec c 3); [lia|]. right. right. right. split; [lia|]. unfold lrt_string.
    destruct (c =? 0) eqn:E0; [lia|]. destruct (c =? 1) eqn:E1; [lia|]. destruct (c =? 2) eqn:E2; [lia|]. reflexivity. }
  destruct (T a) as [->|[->|[->|[? Ea]]]]; [lia|..]; (destruct (T b) as [->|[->|[->|[? Eb]]]]; [lia|..]); try rewrite Ea in H; try rewrite Eb in H;
    try discriminate H; (split; [lia|]); cbn in H; congruence.
Qed.
Lemma mem_string_cut : forall a b x y, 0 <= a < 65536 -> 0 <= b < 65536 -> mem_string a ++ x = mem_string b ++ y -> a = b /\ x = y.
Proof.
  intros a b x y Ha Hb H. unfold mem_string in H. rewrite <- !app_assoc in H.
  assert (L : forall x, byte_of (Z.land x 0xff) = x mod 256).
  { intro z. change 0xff with (Z.ones 8). rewrite Z.land_ones by lia. change (2 ^ 8) with 256. unfold byte_of. lia. }
  rewrite !L in H. apply fmt_02x_cut in H; [|apply byte_of_range..]. destruct H as [H1 H]. apply app_inv_head in H.
  apply fmt_02x_cut in H; [|unfold is_byte; lia..]. destruct H as [H2 ->]. unfold byte_of in H1. split; [lia|reflexivity].
Qed.
Theorem lr_string_alike : forall a b, request_ok a -> request_ok b -> (lr_string a = lr_string b <-> request_alike a b).
Proof.
  intros a b (A1 & A2 & A3) (B1 & B2 & B3). unfold lr_string, request_alike. split.
  - intro H. apply lrt_cut in H; [|assumption..]. destruct H as [H1 H]. apply mem_string_cut in H; [|assumption..]. destruct H as [H2 H].
    apply app_inv_head in H. split; [exact H1|]. split; [exact H2|].
    destruct (lr_link a) as [l|], (lr_link b) as [k|].
    + change (zs " ") with [32] in H. apply (until_cut is_num) in H; try apply fmt_int_num; try (unfold is_num, is_dec; lia).
      destruct H as [H3 H]. split; [apply fmt_int_inj, H3|]. apply (f_equal (@tl Z)) in H. cbn [tl app] in H. apply link_string_alike; assumption.
    + exfalso. rewrite app_nil_r in H. pose proof (fmt_int_num (lr_num b)) as N. rewrite <- H in N. apply Forall_app in N. destruct N as [_ N].
      inversion N as [|? ? N1 _]. unfold is_num, is_dec in N1. lia.
    + exfalso. rewrite app_nil_r in H. pose proof (fmt_int_num (lr_num a)) as N. rewrite H in N. apply Forall_app in N. destruct N as [_ N].
      inversion N as [|? ? N1 _]. unfold is_num, is_dec in N1. lia.
    + rewrite !app_nil_r in H. split; [apply fmt_int_inj, H|exact I].
  - intros (H1 & H2 & H3 & H4). rewrite H2, H3.
    assert (T : lrt_string (lr_type a) = lrt_string (lr_type b)).
    { destruct H1 as [->|[X Y]]; [reflexivity|]. unfold lrt_string.
      destruct (lr_type a =? 0) eqn:E0; [lia|]. destruct (lr_type a =? 1) eqn:E1; [lia|]. destruct (lr_type a =? 2) eqn:E2; [lia|].
      destruct (lr_type b =? 0) eqn:F0; [lia|]. destruct (lr_type b =? 1) eqn:F1; [lia|]. destruct (lr_type b =? 2) eqn:F2; [lia|]. reflexivity. }
    rewrite T. destruct (lr_link a) as [l|], (lr_link b) as [k|]; try contradiction; [|reflexivity].
    apply (link_string_alike l k A3 B3) in H4. rewrite H4. reflexivity.
Qed.

(** ** Listings *)
Lemma chunks_alike : forall (g : link -> list Z) (R : link -> link -> Prop) (ok : link -> Prop) w, (0 < w)%nat ->
  (forall x, ok x -> List.length (g x) = w) -> (forall x y, ok x -> ok y -> g x = g y -> R x y) ->
  forall a b, Forall ok a -> Forall ok b -> flat_map g a = flat_map g b -> Forall2 R a b.
Proof.
  intros g R ok w Hw Hl Hr. induction a as [|x a IH]; intros [|y b] Ha Hb H; cbn [flat_map] in H; [constructor| | |].
  - inversion Hb; subst. apply (f_equal (@List.length Z)) in H. rewrite app_length, Hl in H by assumption. cbn in H. lia.
  - inversion Ha; subst. apply (f_equal (@List.length Z)) in H. rewrite app_length, Hl in H by assumption. cbn in H. lia.
  - inversion Ha; subst. inversion Hb; subst. apply app_cut in H; [|rewrite !Hl by assumption; reflexivity]. destruct H as [HR1 HR2].
    constructor; [apply Hr; assumption|apply IH; assumption].
Qed.

Lemma dump_line_text : forall l, dump_line l =
  zs "- [0x" ++ fmt_02x (l_flags l) ++ zs ", 0x" ++ fmt_02x (l_group l) ++ zs ", 0x" ++ fmt_02x (byte_of (l_addr l / 65536)) ++
  zs ", 0x" ++ fmt_02x (byte_of (l_addr l / 256)) ++ zs ", 0x" ++ fmt_02x (byte_of (l_addr l)) ++ zs ", 0x" ++ fmt_02x (l_d0 l) ++
  zs ", 0x" ++ fmt_02x (l_d1 l) ++ zs ", 0x" ++ fmt_02x (l_d2 l) ++ zs "]".
Proof. intro l. destruct l. reflexivity. Qed.
Lemma dump_line_inj : forall a b, link_ok a -> link_ok b -> dump_line a = dump_line b -> a = b.
Proof.
  intros a b (A1 & A2 & A3 & A4 & A5 & A6) (B1 & B2 & B3 & B4 & B5 & B6) H. rewrite !dump_line_text in H.
  do 7 (apply app_inv_head in H; apply fmt_02x_cut in H; [|solve [assumption | apply byte_of_range]..]; destruct H as [? H]).
  apply app_inv_head in H; apply fmt_02x_cut in H; [|assumption..]. destruct H as [? _].
  assert (l_addr a = l_addr b) by (rewrite (dst_bytes _ A3), (dst_bytes _ B3); congruence).
  destruct a, b; cbn in *; congruence.
Qed.
Lemma unlines_map : forall g (l : list link), unlines (map g l) = flat_map (fun x => g x ++ [ch_nl]) l.
Proof. intros g l. unfold unlines. induction l as [|x l IH]; [reflexivity|]. cbn [map flat_map]. rewrite IH. reflexivity. Qed.
Lemma unlines_app : forall a b, unlines (a ++ b) = unlines a ++ unlines b.
Proof. intros a b. unfold unlines. apply flat_map_app. Qed.
Lemma dump_text : forall l, l <> [] -> dump_links l = zs "links" ++ [ch_nl] ++ flat_map (fun x => dump_line x ++ [ch_nl]) l.
Proof. intros [|x l] H; [congruence|]. rewrite <- unlines_map. reflexivity. Qed.
Theorem dump_inj : forall a b, Forall link_ok a -> Forall link_ok b -> dump_links a = dump_links b -> a = b.
Proof.
  intros a b Ha Hb H.
  assert (N : forall l, l <> [] -> dump_links l <> dump_links []) by (intros [|x l] Hl E; [congruence|]; discriminate E).
  destruct a as [|x a]; [destruct b as [|y b]; [reflexivity|exfalso; symmetry in H; revert H; apply N; discriminate]|].
  destruct b as [|y b]; [exfalso; revert H; apply N; discriminate|].
  rewrite (dump_text (x :: a)) in H by discriminate. rewrite (dump_text (y :: b)) in H by discriminate.
  apply app_inv_head in H. apply app_inv_head in H.
  assert (F : Forall2 eq (x :: a) (y :: b)).
  { refine (chunks_alike (fun x => dump_line x ++ [ch_nl]) eq link_ok 51 _ _ _ (x :: a) (y :: b) Ha Hb H); [lia| |].
    - intros z _. rewrite dump_line_text. reflexivity.
    - intros u v Hu Hv E. apply app_inv_tail in E. apply dump_line_inj; assumption. }
  clear - F. remember (x :: a) as p. remember (y :: b) as q. clear - F. induction F; congruence.
Qed.

Lemma pad_left_dec : forall g, is_byte g -> List.length (pad_left 5 (fmt_d_byte g)) = 5%nat.
Proof.
  intros g Hg. apply Nat.eqb_eq. revert g Hg. apply (sweep1 (fun g => Nat.eqb (List.length (pad_left 5 (fmt_d_byte g))) 5)). vm_compute. reflexivity.
Qed.
Lemma pad_left_dec_inj : forall g h, is_byte g -> is_byte h -> pad_left 5 (fmt_d_byte g) = pad_left 5 (fmt_d_byte h) -> g = h.
Proof.
  intros g h Hg Hh H. pose proof (sweep2 (fun g h => negb (bytes_eqb (pad_left 5 (fmt_d_byte g)) (pad_left 5 (fmt_d_byte h))) || (g =? h))
    ltac:(vm_compute; reflexivity) g h Hg Hh) as S. cbv beta in S. rewrite H, bytes_eqb_refl in S. cbn [negb orb] in S. lia.
Qed.
Lemma print_line_alike : forall a b, link_ok a -> link_ok b -> (print_line a = print_line b <-> record_alike a b).
Proof.
  intros a b (A1 & A2 & A3 & A4 & A5 & A6) (B1 & B2 & B3 & B4 & B5 & B6). unfold print_line, record_alike.
  assert (P8 : forall x, pad_left 8 (addr_string x) = addr_string x) by reflexivity. rewrite !P8.
  assert (P5 : forall x, pad_right 5 (rcf_string x) = rcf_string x ++ zs "   ") by reflexivity. rewrite !P5. split.
  - intro H. apply app_inv_head in H. rewrite <- !app_assoc in H. apply app_cut in H; [|reflexivity]. destruct H as [H1 H].
    apply rcf_alike in H1; [|assumption..]. apply app_inv_head in H. apply app_inv_head in H.
    apply app_cut in H; [|rewrite !pad_left_dec by assumption; reflexivity]. destruct H as [H2 H]. apply pad_left_dec_inj in H2; [|assumption..].
    apply app_inv_head in H. apply addr_string_cut in H; [|assumption..]. destruct H as [H3 H]. apply app_inv_head in H.
    apply fmt_02x_cut in H; [|assumption..]. destruct H as [H4 H]. apply app_inv_head in H.
    apply fmt_02x_cut in H; [|assumption..]. destruct H as [H5 H]. apply app_inv_head in H.
    apply fmt_02x_inj in H; [|assumption..]. auto 10.
  - intros (H1 & H2 & H3 & H4 & H5 & H6). apply (rcf_alike _ _ A1 B1) in H1. rewrite H1, H2, H3, H4, H5, H6. reflexivity.
Qed.
Lemma print_line_length : forall a, link_ok a -> List.length (print_line a) = 35%nat.
Proof.
  intros a (A1 & A2 & _). unfold print_line. rewrite !app_length, pad_left_dec by assumption. reflexivity.
Qed.
Lemma print_text : forall l, l <> [] -> print_template l =
  zs "Link Database:" ++ [ch_nl] ++ zs "    Flags Group Address    Data" ++ [ch_nl] ++ flat_map (fun x => print_line x ++ [ch_nl]) l.
Proof. intros [|x l] H; [congruence|]. rewrite <- unlines_map. reflexivity. Qed.
Theorem print_alike : forall a b, Forall link_ok a -> Forall link_ok b -> (print_template a = print_template b <-> Forall2 record_alike a b).
Proof.
  intros a b Ha Hb.
  assert (N : forall l, l <> [] -> print_template l <> print_template []) by (intros [|x l] Hl E; [congruence|]; discriminate E).
  destruct a as [|x a].
  { destruct b as [|y b]; [split; [constructor|reflexivity]|]. split; intro H; [exfalso; symmetry in H; revert H; apply N; discriminate|inversion H]. }
  destruct b as [|y b]; [split; intro H; [exfalso; revert H; apply N; discriminate|inversion H]|].
  rewrite (print_text (x :: a)) by discriminate. rewrite (print_text (y :: b)) by discriminate. split.
  - intro H. do 4 (apply app_inv_head in H).
    refine (chunks_alike (fun x => print_line x ++ [ch_nl]) record_alike link_ok 36 _ _ _ (x :: a) (y :: b) Ha Hb H); [lia| |].
    + intros z Hz. rewrite app_length, print_line_length by assumption. reflexivity.
    + intros u v Hu Hv E. apply app_inv_tail in E. apply print_line_alike; assumption.
  - intro H. do 4 f_equal. revert Ha Hb H. generalize (x :: a) as p. generalize (y :: b) as q. clear. intros q p Ha Hb H.
    induction H as [|u v p q Huv H IH]; [reflexivity|]. inversion Ha; subst. inversion Hb; subst. cbn [flat_map]. rewrite IH by assumption.
    apply print_line_alike in Huv; [|assumption..]. rewrite Huv. reflexivity.
Qed.

(** The order: comparing the texts of two addresses is comparing the numbers. *)
Lemma text_lt_02x : forall a b x y, is_byte a -> is_byte b ->
  text_lt (fmt_02x a ++ x) (fmt_02x b ++ y) = if a =? b then text_lt x y else a <? b.
Proof.
  intros a b x y Ha Hb. unfold fmt_02x. cbn [app text_lt].
  pose proof (sweep2 (fun a b => let c := if hex_char (a / 16) =? hex_char (b / 16) then (if hex_char (a mod 16) =? hex_char (b mod 16) then 0 else if hex_char (a mod 16) <? hex_char (b mod 16) then 1 else 2)
                                  else if hex_char (a / 16) <? hex_char (b / 16) then 1 else 2 in
                     c =? (if a =? b then 0 else if a <? b then 1 else 2)) ltac:(vm_compute; reflexivity) a b Ha Hb) as S.
  cbv beta zeta in S. destruct (hex_char (a / 16) =? hex_char (b / 16)); destruct (a =? b); destruct (a <? b);
    destruct (hex_char (a mod 16) =? hex_char (b mod 16)); destruct (hex_char (a mod 16) <? hex_char (b mod 16));
    destruct (hex_char (a / 16) <? hex_char (b / 16)); try discriminate S; reflexivity.
Qed.
Lemma text_lt_refl_head : forall c x y, text_lt (c :: x) (c :: y) = text_lt x y.
Proof. intros. cbn [text_lt]. rewrite Z.eqb_refl. reflexivity. Qed.
Lemma addr_text_lt : forall a b, word24 a -> word24 b -> text_lt (addr_string a) (addr_string b) = (a <? b).
Proof.
  intros a b Ha Hb. unfold addr_string. rewrite text_lt_02x by apply byte_of_range. cbn [app]. rewrite text_lt_refl_head.
  rewrite text_lt_02x by apply byte_of_range. cbn [app]. rewrite text_lt_refl_head.
  rewrite <- (app_nil_r (fmt_02x (byte_of a))), <- (app_nil_r (fmt_02x (byte_of b))). rewrite text_lt_02x by apply byte_of_range.
  pose proof (dst_bytes a Ha) as Ea. pose proof (dst_bytes b Hb) as Eb.
  pose proof (byte_of_range (a / 65536)) as R1. pose proof (byte_of_range (a / 256)) as R2. pose proof (byte_of_range a) as R3.
  pose proof (byte_of_range (b / 65536)) as Q1. pose proof (byte_of_range (b / 256)) as Q2. pose proof (byte_of_range b) as Q3.
  remember (byte_of (a / 65536)) as a2. remember (byte_of (a / 256)) as a1. remember (byte_of a) as a0.
  remember (byte_of (b / 65536)) as b2. remember (byte_of (b / 256)) as b1. remember (byte_of b) as b0.
  clear - Ea Eb R1 R2 R3 Q1 Q2 Q3. unfold is_byte in *. cbn [text_lt].
  destruct (a2 =? b2) eqn:E2; [destruct (a1 =? b1) eqn:E1; [destruct (a0 =? b0) eqn:E0|]|]; lia.
Qed.
Lemma less_listed : forall a b, link_ok a -> link_ok b -> (link_less a b = true <-> listed_before a b).
Proof.
  intros a b (_ & _ & A & _) (_ & _ & B & _). unfold link_less, listed_before. rewrite addr_text_lt by assumption.
  destruct (l_addr a =? l_addr b) eqn:E; lia.
Qed.

Lemma perm_forall2 : forall (R : link -> link -> Prop) a q r, Permutation a q -> Forall2 R q r -> exists r', Permutation r r' /\ Forall2 R a r'.
Proof.
  intros R a q r P. revert r. induction P as [|x a q P IH|x y l|a q s P1 IH1 P2 IH2]; intros r F.
  - exists r. split; [apply Permutation_refl|exact F].
  - inversion F; subst. destruct (IH _ H3) as (r' & Pr & Fr). exists (y :: r'). split; [apply perm_skip, Pr|constructor; assumption].
  - inversion F as [|? c ? r1 H1 F1]; subst. inversion F1 as [|? d ? r2 H2 F2]; subst. exists (d :: c :: r2).
    split; [apply perm_swap|]. constructor; [assumption|constructor; assumption].
  - destruct (IH2 _ F) as (r2 & Pr & Fr). destruct (IH1 _ Fr) as (r1 & Pr1 & Fr1). exists r1. split; [eapply Permutation_trans; eassumption|exact Fr1].
Qed.
Theorem print_contents : forall a b out, Forall link_ok a -> Forall link_ok b -> print_links a out -> print_links b out ->
  exists b', Permutation b b' /\ Forall2 record_alike a b'.
Proof.
  intros a b out Ha Hb (qa & Pa & _ & ->) (qb & Pb & _ & H).
  assert (Ka : Forall link_ok qa) by (rewrite <- Pa; exact Ha). assert (Kb : Forall link_ok qb) by (rewrite <- Pb; exact Hb).
  apply print_alike in H; [|assumption..]. destruct (perm_forall2 _ _ _ _ Pa H) as (r & Pr & Fr).
  exists r. split; [eapply Permutation_trans; eassumption|exact Fr].
Qed.

(** With distinct (address, group) pairs there is only one sorted arrangement. *)
Definition link_key (l : link) : Z * Z := (l_addr l, l_group l).
Definition not_after (a b : link) : Prop := l_addr a < l_addr b \/ (l_addr a = l_addr b /\ l_group a <= l_group b).
Lemma sorted_not_after : forall q, Forall link_ok q -> StronglySorted (fun a b => link_less b a = false) q -> StronglySorted not_after q.
Proof.
  intros q Hq S. induction S as [|x q S IH F]; [constructor|]. inversion Hq; subst. constructor; [apply IH; assumption|].
  rewrite Forall_forall in *. intros y Hy. specialize (F y Hy). cbv beta in F.
  pose proof (less_listed y x ltac:(auto) ltac:(auto)) as L. rewrite F in L. unfold not_after, listed_before in *.
  destruct (Z_lt_dec (l_addr x) (l_addr y)); [left; assumption|]. right.
  assert (~ (l_addr y < l_addr x \/ l_addr y = l_addr x /\ l_group y < l_group x)) by (intro X; apply L in X; discriminate). lia.
Qed.
Lemma sorted_unique : forall p q, Permutation p q -> StronglySorted not_after p -> StronglySorted not_after q -> NoDup (map link_key p) -> p = q.
Proof.
  induction p as [|x p IH]; intros q P Sp Sq N; [apply Permutation_nil in P; congruence|].
  destruct q as [|y q]; [apply Permutation_sym, Permutation_nil in P; discriminate|].
  inversion Sp as [|? ? Sp' Fx]; subst. inversion Sq as [|? ? Sq' Fy]; subst. cbn [map] in N. inversion N as [|? ? Nx N']; subst.
  assert (E : x = y).
  { assert (Ix : In x (y :: q)) by (eapply Permutation_in; [exact P|left; reflexivity]).
    assert (Iy : In y (x :: p)) by (eapply Permutation_in; [apply Permutation_sym, P|left; reflexivity]).
    destruct Ix as [Ix|Ix]; [congruence|]. destruct Iy as [Iy|Iy]; [congruence|]. exfalso.
    rewrite Forall_forall in Fx, Fy. pose proof (Fx _ Iy) as A. pose proof (Fy _ Ix) as B. unfold not_after in A, B.
    apply Nx. replace (link_key x) with (link_key y) by (unfold link_key; f_equal; lia). apply in_map, Iy. }
  subst y. f_equal. apply Permutation_cons_inv in P. apply IH; assumption.
Qed.
Theorem print_order_irrelevant : forall a b t u, Forall link_ok a -> NoDup (map link_key a) -> Permutation a b ->
  print_links a t -> print_links b u -> t = u.
Proof.
  intros a b t u Ha N P (qa & Pa & Sa & ->) (qb & Pb & Sb & ->). f_equal.
  assert (Hb : Forall link_ok b) by (rewrite <- P; exact Ha).
  apply sorted_unique.
  - eapply Permutation_trans; [apply Permutation_sym, Pa|]. exact (Permutation_trans P Pb).
  - apply sorted_not_after; [rewrite <- Pa; exact Ha|exact Sa].
  - apply sorted_not_after; [rewrite <- Pb; exact Hb|exact Sb].
  - eapply Permutation_NoDup; [apply Permutation_map, Pa|exact N].
Qed.

(** There is always a listing. *)
Fixpoint insert_link (x : link) (q : list link) : list link :=
  match q with [] => [x] | y :: t => if link_less y x then y :: insert_link x t else x :: q end.
Definition sort_links (l : list link) : list link := fold_right insert_link [] l.
Lemma insert_perm : forall x q, Permutation (x :: q) (insert_link x q).
Proof.
  intros x. induction q as [|y q IH]; [apply Permutation_refl|]. cbn [insert_link]. destruct (link_less y x); [|apply Permutation_refl].
  eapply Permutation_trans; [apply perm_swap|]. apply perm_skip, IH.
Qed.
Lemma sort_perm : forall l, Permutation l (sort_links l).
Proof.
  induction l as [|x l IH]; [apply Permutation_refl|]. cbn [sort_links fold_right]. eapply Permutation_trans; [apply perm_skip, IH|apply insert_perm].
Qed.
Lemma less_false : forall a b, link_ok a -> link_ok b -> (link_less b a = false <-> not_after a b).
Proof.
  intros a b Ha Hb. pose proof (less_listed b a Hb Ha) as L. unfold listed_before, not_after in *. destruct (link_less b a).
  - split; [discriminate|]. intro. assert (X : true = true) by reflexivity. apply L in X. lia.
  - split; [|reflexivity]. intros _. assert (~ (l_addr b < l_addr a \/ l_addr b = l_addr a /\ l_group b < l_group a)) by (intro X; apply L in X; discriminate). lia.
Qed.
Lemma insert_sorted : forall x q, link_ok x -> Forall link_ok q -> StronglySorted (fun a b => link_less b a = false) q ->
  StronglySorted (fun a b => link_less b a = false) (insert_link x q).
Proof.
  intros x q Hx Hq S. induction S as [|y q S IH F]; [constructor; constructor|]. inversion Hq; subst. cbn [insert_link]. destruct (link_less y x) eqn:E.
  - constructor; [apply IH; assumption|]. rewrite <- insert_perm. constructor; [|exact F].
    apply less_listed in E; [|assumption..]. apply less_false; try assumption. unfold listed_before, not_after in *. lia.
  - constructor; [constructor; assumption|]. constructor; [exact E|]. rewrite Forall_forall in *. intros z Hz. specialize (F z Hz). cbv beta in F.
    apply less_false in E; [|auto..]. apply less_false in F; [|auto..]. apply less_false; auto. unfold not_after in *. lia.
Qed.
Lemma print_exists : forall l, Forall link_ok l -> exists out, print_links l out.
Proof.
  intros l Hl. exists (print_template (sort_links l)). exists (sort_links l). split; [apply sort_perm|]. split; [|reflexivity].
  induction Hl as [|x l Hx Hl IH]; [constructor|]. cbn [sort_links fold_right]. apply insert_sorted; [exact Hx| |exact IH].
  fold (sort_links l). rewrite <- sort_perm. exact Hl.
Qed.
