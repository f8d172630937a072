(** Proofs about the displayed texts. *)
From Coq Require Import ZArith List Bool Lia String ZifyBool ZifyNat.
From Verif Require Import GoBase GoLemmas GoText GoJson JsonProofs Command Message Address AddressSpec AddressProofs Link LinkText MessageSpec MessageProofs Display DisplaySpec.
Import ListNotations.
Open Scope Z_scope.
Ltac Zify.zify_post_hook ::= Z.div_mod_to_equations.

(** ** Cutting texts apart *)
Lemma app_cut : forall A (a b x y : list A), List.length a = List.length b -> a ++ x = b ++ y -> a = b /\ x = y.
Proof.
  induction a as [|c a IH]; intros [|d b] x y L H; try discriminate; [auto|].
  injection H as -> H. injection L as L. destruct (IH _ _ _ L H) as [-> ->]. auto.
Qed.
Lemma app_cut_r : forall A (a b x y : list A), List.length x = List.length y -> a ++ x = b ++ y -> a = b /\ x = y.
Proof.
  intros A a b x y L H. apply app_cut; [|exact H]. apply (f_equal (@List.length A)) in H. rewrite !app_length in H. lia.
Qed.
Lemma until_cut : forall (P : Z -> Prop) (a b x y : list Z) c d,
  Forall P a -> Forall P b -> ~ P c -> ~ P d -> a ++ c :: x = b ++ d :: y -> a = b /\ c :: x = d :: y.
Proof.
  intros P. induction a as [|u a IH]; intros [|v b] x y c d Ha Hb Hc Hd H; cbn [app] in H.
  - auto.
  - injection H as -> _. inversion Hb. contradiction.
  - injection H as -> _. inversion Ha. contradiction.
  - inversion Ha; subst. inversion Hb; subst. pose proof (f_equal (@tl Z) H) as H'. injection H as -> _. cbn [tl] in H'.
    destruct (IH b x y c d) as [-> E]; auto.
Qed.
(** The same reading from the right. *)
Lemma until_cut_r : forall (P : Z -> Prop) (a b x y : list Z) c d,
  Forall P a -> Forall P b -> ~ P c -> ~ P d -> (x ++ [c]) ++ a = (y ++ [d]) ++ b -> a = b /\ x = y /\ c = d.
Proof.
  intros P a b x y c d Ha Hb Hc Hd H. apply (f_equal (@rev Z)) in H. rewrite !rev_app_distr in H. cbn [rev app] in H.
  apply (until_cut P) in H; auto; try (apply Forall_rev; assumption). destruct H as [E F].
  apply (f_equal (@rev Z)) in E. rewrite !rev_involutive in E.
  inversion F as [[Ec Ex]]. apply (f_equal (@rev Z)) in Ex. rewrite !rev_involutive in Ex. auto.
Qed.

(** ** Numbers *)
Definition is_dec (c : Z) : Prop := 48 <= c <= 57.
Lemma fmt_d_byte_dec : forall b, is_byte b -> Forall is_dec (fmt_d_byte b).
Proof.
  intros b Hb. unfold fmt_d_byte, is_dec, is_byte in *.
  destruct (b <? 10) eqn:E1; [repeat constructor; lia|]. destruct (b <? 100) eqn:E2; repeat constructor; lia.
Qed.
Definition dec_value (l : list Z) : Z := fold_left (fun a c => 10 * a + (c - 48)) l 0.
Lemma fmt_d_byte_value : forall b, is_byte b -> dec_value (fmt_d_byte b) = b.
Proof.
  intros b Hb. apply Z.eqb_eq. revert b Hb. apply (sweep1 (fun b => dec_value (fmt_d_byte b) =? b)). vm_compute. reflexivity.
Qed.
Lemma fmt_d_byte_inj : forall a b, is_byte a -> is_byte b -> fmt_d_byte a = fmt_d_byte b -> a = b.
Proof. intros a b Ha Hb H. rewrite <- (fmt_d_byte_value a Ha), <- (fmt_d_byte_value b Hb), H. reflexivity. Qed.
Lemma fmt_int_byte : forall b, is_byte b -> fmt_int b = fmt_d_byte b.
Proof.
  intros b Hb. apply bytes_eqb_eq. revert b Hb. apply (sweep1 (fun b => bytes_eqb (fmt_int b) (fmt_d_byte b))). vm_compute. reflexivity.
Qed.
Lemma fmt_int_inj : forall a b, fmt_int a = fmt_int b -> a = b.
Proof.
  intros a b H. pose proof (jnumber_int a [] I) as Ha. pose proof (jnumber_int b [] I) as Hb. rewrite !app_nil_r in *. rewrite H in Ha.
  rewrite Ha in Hb. injection Hb as Hb. exact Hb.
Qed.
Lemma hex_char_inj : forall a b, 0 <= a < 16 -> 0 <= b < 16 -> hex_char a = hex_char b -> a = b.
Proof. intros a b Ha Hb. unfold hex_char. destruct (a <? 10) eqn:E; destruct (b <? 10) eqn:F; lia. Qed.
Lemma fmt_02x_inj : forall a b, is_byte a -> is_byte b -> fmt_02x a = fmt_02x b -> a = b.
Proof.
  intros a b Ha Hb H. unfold fmt_02x in H. unfold is_byte in *. pose proof (f_equal (fun l => nth 0 l 0) H) as H1.
  pose proof (f_equal (fun l => nth 1 l 0) H) as H2. cbn [nth] in H1, H2. clear H.
  apply hex_char_inj in H1; [|lia..]. apply hex_char_inj in H2; lia.
Qed.
Lemma fmt_02x_cut : forall a b x y, is_byte a -> is_byte b -> fmt_02x a ++ x = fmt_02x b ++ y -> a = b /\ x = y.
Proof. intros a b x y Ha Hb H. apply app_cut in H; [|reflexivity]. destruct H as [H ->]. split; [apply fmt_02x_inj; assumption|reflexivity]. Qed.

Lemma addr_string_inj : forall a b, word24 a -> word24 b -> addr_string a = addr_string b -> a = b.
Proof.
  intros a b Ha Hb H.
  assert (P : forall c, word24 c -> addr_unmarshal_text 0 (addr_string c) = (c, None)).
  { intros c Hc. apply addr_rendering_parses. apply addr_string_rendering. exact Hc. }
  pose proof (P a Ha) as Pa. pose proof (P b Hb) as Pb. rewrite H in Pa. rewrite Pa in Pb. injection Pb as Pb. exact Pb.
Qed.
Lemma addr_string_length : forall a, List.length (addr_string a) = 8%nat.
Proof. reflexivity. Qed.
Lemma addr_string_cut : forall a b x y, word24 a -> word24 b -> addr_string a ++ x = addr_string b ++ y -> a = b /\ x = y.
Proof.
  intros a b x y Ha Hb H. apply app_cut in H; [|rewrite !addr_string_length; reflexivity]. destruct H as [H ->].
  split; [apply addr_string_inj; assumption|reflexivity].
Qed.

(** ** Command names *)
Lemma lookup_name_in : forall t c n, lookup_name c t = Some n -> In (c, n) t.
Proof.
  induction t as [|[k m] t IH]; intros c n H; [discriminate|]. cbn [lookup_name] in H. destruct (k =? c) eqn:E.
  - injection H as <-. left. f_equal. lia.
  - right. apply IH, H.
Qed.

Definition is_decb (c : Z) : bool := (48 <=? c) && (c <=? 57).
(** [ends_numbered s]: the text ends in "(", digits, ")". *)
Fixpoint skip_decs (s : list Z) : list Z := match s with c :: t => if is_decb c then skip_decs t else s | [] => [] end.
Definition ends_numbered (s : list Z) : bool :=
  match rev s with
  | c :: t => (c =? 41) && match skip_decs t with d :: _ => d =? 40 | [] => false end
  | [] => false
  end.
Lemma skip_decs_app : forall a r, Forall is_dec a -> skip_decs (a ++ r) = skip_decs r.
Proof.
  induction a as [|c a IH]; intros r H; [reflexivity|]. inversion H; subst. cbn [app skip_decs]. unfold is_decb.
  unfold is_dec in *. replace ((48 <=? c) && (c <=? 57)) with true by lia. auto.
Qed.
Lemma ends_numbered_true : forall n d, Forall is_dec d -> ends_numbered (n ++ zs "(" ++ d ++ zs ")") = true.
Proof.
  intros n d H. change (zs ")") with [41]. change (zs "(") with [40]. unfold ends_numbered. rewrite !rev_app_distr. cbn [rev app]. rewrite <- app_assoc. rewrite skip_decs_app by (apply Forall_rev; exact H). reflexivity.
Qed.
Lemma hex_char_not_paren : forall n, hex_char n =? 40 = false \/ n < 0.
Proof. intro n. unfold hex_char. destruct (n <? 10) eqn:E; lia. Qed.
Lemma ends_raw_false : forall s b, is_byte b -> ends_numbered (s ++ zs ", 0x" ++ fmt_02x b ++ zs ")") = false.
Proof.
  intros s b Hb. change (zs ")") with [41]. change (zs ", 0x") with [44; 32; 48; 120]. unfold ends_numbered. rewrite !rev_app_distr. unfold fmt_02x. cbn [rev app].
  unfold is_byte in Hb. cbn [skip_decs].
  assert (N : forall n, 0 <= n < 16 -> (hex_char n =? 40) = false) by (intros n Hn; destruct (hex_char_not_paren n); [assumption|lia]).
  destruct (is_decb (hex_char (b mod 16))); [|cbn; apply N; lia]. destruct (is_decb (hex_char (b / 16))); [|cbn; apply N; lia].
  reflexivity.
Qed.

Definition raw_head : list Z := zs "Command(0x".
Definition ramp_twinsb (a b : Z) : bool :=
  ((a =? 0x2e00) && (b =? 0x3400)) || ((a =? 0x2f00) && (b =? 0x3500)).
(** The table, checked entry by entry: keys are 24-bit, no name ends in a number in brackets or looks like a raw command, equal names only for
    the ramp commands. *)
Definition table_ok : bool :=
  forallb (fun kn => (0 <=? fst kn) && (fst kn <? 16777216) && negb (ends_numbered (snd kn)) &&
                     negb (bytes_eqb (firstn 10 (snd kn)) raw_head) && negb (existsb (Z.eqb 91) (snd kn))) cmd_strings &&
  forallb (fun kn => forallb (fun lm => negb (bytes_eqb (snd kn) (snd lm)) || (fst kn =? fst lm) ||
                                        ramp_twinsb (fst kn) (fst lm) || ramp_twinsb (fst lm) (fst kn)) cmd_strings) cmd_strings.
Lemma table_fact : table_ok = true.
Proof. vm_compute. reflexivity. Qed.

Lemma name_facts : forall c n, lookup_name c cmd_strings = Some n ->
  word24 c /\ ends_numbered n = false /\ firstn 10 n <> raw_head /\ ~ In 91 n.
Proof.
  intros c n H. apply lookup_name_in in H. pose proof table_fact as T. unfold table_ok in T. apply andb_true_iff in T. destruct T as [T _].
  rewrite forallb_forall in T. specialize (T _ H). cbn [fst snd] in T. unfold word24.
  repeat (apply andb_true_iff in T; destruct T as [T ?]).
  split; [lia|]. split; [destruct (ends_numbered n); [discriminate|reflexivity]|]. split.
  - intro F. rewrite F, bytes_eqb_refl in *. discriminate.
  - intro F. assert (X : existsb (Z.eqb 91) n = true) by (apply existsb_exists; exists 91; split; [exact F|reflexivity]).
    rewrite X in *. discriminate.
Qed.
Lemma name_twins : forall c d n, lookup_name c cmd_strings = Some n -> lookup_name d cmd_strings = Some n ->
  c = d \/ ramp_twinsb c d = true \/ ramp_twinsb d c = true.
Proof.
  intros c d n H G. apply lookup_name_in in H, G. pose proof table_fact as T. unfold table_ok in T. apply andb_true_iff in T.
  destruct T as [_ T]. rewrite forallb_forall in T. specialize (T _ H). rewrite forallb_forall in T. specialize (T _ G).
  cbn [fst snd] in T. rewrite bytes_eqb_refl in T. cbn [negb orb] in T. rewrite !orb_true_iff in T. rewrite Z.eqb_eq in T. tauto.
Qed.

Lemma command_parts : forall c, word24 c ->
  command0 c = c / 65536 /\ command1 c = (c / 256) mod 256 /\ command2 c = c mod 256 /\ Z.land c 0xffff00 = c - c mod 256.
Proof.
  intros c Hc. unfold command0, command1, command2, word24 in *.
  assert (L : forall x, Z.land x 255 = x mod 256) by (intro x; change 255 with (Z.ones 8); rewrite Z.land_ones by lia; reflexivity).
  rewrite !L, !Z.shiftr_div_pow2 by lia. change (2 ^ 16) with 65536. change (2 ^ 8) with 256.
  split; [rewrite Z.mod_small; lia|]. split; [reflexivity|]. split; [reflexivity|].
  rewrite land_ffff00. lia.
Qed.

(** The three shapes of a command text. *)
Inductive shape (c : Z) : list Z -> Prop :=
| ShName : forall n, lookup_name c cmd_strings = Some n -> shape c n
| ShSub : forall n, lookup_name (c - c mod 256) cmd_strings = Some n -> shape c (n ++ zs "(" ++ fmt_d_byte (c mod 256) ++ zs ")")
| ShRaw : shape c (zs "Command(0x" ++ fmt_02x (c / 65536) ++ zs ", 0x" ++ fmt_02x ((c / 256) mod 256) ++ zs ", 0x" ++ fmt_02x (c mod 256) ++ zs ")").
Lemma cmd_string_shape : forall c, word24 c -> shape c (cmd_string c).
Proof.
  intros c Hc. unfold cmd_string. destruct (command_parts c Hc) as (E0 & E1 & E2 & E3). rewrite E0, E1, E2, E3.
  destruct (lookup_name c cmd_strings) eqn:A; [constructor; exact A|].
  destruct (lookup_name (c - c mod 256) cmd_strings) eqn:B; [apply ShSub; exact B|]. apply ShRaw.
Qed.

Lemma numbered_cut : forall n m a b, is_byte a -> is_byte b ->
  n ++ zs "(" ++ fmt_d_byte a ++ zs ")" = m ++ zs "(" ++ fmt_d_byte b ++ zs ")" -> n = m /\ a = b.
Proof.
  intros n m a b Ha Hb H. rewrite !app_assoc in H. apply app_cut_r in H; [|reflexivity]. destruct H as [H _].
  change (zs "(") with [40] in H. apply (until_cut_r is_dec) in H; try (apply fmt_d_byte_dec; assumption); try (unfold is_dec; lia).
  destruct H as (E & -> & _). split; [reflexivity|]. apply fmt_d_byte_inj; assumption.
Qed.
Lemma raw_not_name : forall n t, firstn 10 n <> raw_head -> n <> raw_head ++ t.
Proof. intros n t H E. apply H. rewrite E. reflexivity. Qed.

Lemma twins_named : forall c d r, is_byte r -> (c = d \/ ramp_twinsb c d = true \/ ramp_twinsb d c = true) -> named_alike (c + r) (d + r).
Proof.
  intros c d r Hr H. unfold named_alike, ramp_twins, ramp_twinsb in *.
  destruct H as [-> | [H | H]]; [left; reflexivity|right; left|right; right]; exists r; split; auto; lia.
Qed.

Theorem cmd_string_inj : forall c d, word24 c -> word24 d -> cmd_string c = cmd_string d -> named_alike c d.
Proof.
  intros c d Hc Hd H. pose proof (cmd_string_shape c Hc) as Sc. pose proof (cmd_string_shape d Hd) as Sd. rewrite H in Sc.
  remember (cmd_string d) as s eqn:Es. clear H Es.
  assert (Bc : is_byte (c mod 256)) by (unfold is_byte; lia). assert (Bd : is_byte (d mod 256)) by (unfold is_byte; lia).
  inversion Sc as [n Hn E|n Hn E|E]; inversion Sd as [m Hm F|m Hm F|F]; subst; clear Sc Sd.
  - replace c with (c + 0) by lia. replace d with (d + 0) by lia. apply twins_named; [unfold is_byte; lia|].
    eapply name_twins; eassumption.
  - pose proof (name_facts _ _ Hn) as (_ & N & _). rewrite ends_numbered_true in N by (apply fmt_d_byte_dec; assumption). discriminate.
  - pose proof (name_facts _ _ Hn) as (_ & _ & N & _). exfalso. apply N. reflexivity.
  - pose proof (name_facts _ _ Hm) as (_ & N & _). rewrite ends_numbered_true in N by (apply fmt_d_byte_dec; assumption). discriminate.
  - apply numbered_cut in F; [|assumption..]. destruct F as [<- F]. 
    replace c with (c - c mod 256 + c mod 256) by lia. replace d with (d - d mod 256 + c mod 256) by lia.
    apply twins_named; [assumption|]. eapply name_twins; eassumption.
  - exfalso. pose proof (ends_numbered_true n (fmt_d_byte (c mod 256)) (fmt_d_byte_dec _ Bc)) as T. rewrite <- F in T.
    rewrite !app_assoc in T. rewrite <- (app_assoc _ (fmt_02x (d mod 256))) in T. rewrite <- (app_assoc _ (zs ", 0x")) in T.
    rewrite ends_raw_false in T by assumption. discriminate.
  - pose proof (name_facts _ _ Hm) as (_ & _ & N & _). exfalso. apply N. reflexivity.
  - exfalso. pose proof (ends_numbered_true m (fmt_d_byte (d mod 256)) (fmt_d_byte_dec _ Bd)) as T. rewrite F in T.
    rewrite !app_assoc in T. rewrite <- (app_assoc _ (fmt_02x (c mod 256))) in T. rewrite <- (app_assoc _ (zs ", 0x")) in T.
    rewrite ends_raw_false in T by assumption. discriminate.
  - left. unfold word24 in *. apply app_inv_head in F. apply fmt_02x_cut in F; [|unfold is_byte; lia..]. destruct F as [F0 F].
    apply app_inv_head in F. apply fmt_02x_cut in F; [|unfold is_byte; lia..]. destruct F as [F1 F].
    apply app_inv_head in F. apply fmt_02x_cut in F; [|assumption..]. destruct F as [F2 _]. lia.
Qed.

Lemma twins_string : forall a b, ramp_twins a b -> cmd_string a = cmd_string b.
Proof.
  intros a b (r & Hr & H). apply bytes_eqb_eq.
  destruct H as [[-> ->] | [-> ->]].
  - exact (sweep1 (fun r => bytes_eqb (cmd_string (0x2e00 + r)) (cmd_string (0x3400 + r))) ltac:(vm_compute; reflexivity) r Hr).
  - exact (sweep1 (fun r => bytes_eqb (cmd_string (0x2f00 + r)) (cmd_string (0x3500 + r))) ltac:(vm_compute; reflexivity) r Hr).
Qed.
Theorem cmd_string_alike : forall c d, word24 c -> word24 d -> (cmd_string c = cmd_string d <-> named_alike c d).
Proof.
  intros c d Hc Hd. split; [apply cmd_string_inj; assumption|].
  intros [-> | [H | H]]; [reflexivity|apply twins_string, H|symmetry; apply twins_string, H].
Qed.

(** ** Messages *)
Lemma fl_string_length : forall f, is_byte f -> List.length (fl_string f) = 10%nat.
Proof.
  intros f Hf. apply Nat.eqb_eq. revert f Hf. apply (sweep1 (fun f => Nat.eqb (List.length (fl_string f)) 10)). vm_compute. reflexivity.
Qed.
Lemma fl_string_inj : forall f g, is_byte f -> is_byte g -> fl_string f = fl_string g -> f = g.
Proof.
  intros f g Hf Hg H.
  pose proof (sweep2 (fun f g => negb (bytes_eqb (fl_string f) (fl_string g)) || (f =? g)) ltac:(vm_compute; reflexivity) f g Hf Hg) as S.
  cbv beta in S. rewrite H, bytes_eqb_refl in S. cbn [negb orb] in S. lia.
Qed.
Lemma flag_tests : forall f, is_byte f ->
  (fl_type f =? mt_AllLinkBroadcast) = (f / 32 =? 6) /\ (fl_type f =? mt_Broadcast) = (f / 32 =? 4) /\
  (fl_type f =? mt_AllLinkCleanup) = (f / 32 =? 2) /\ fl_ack f = ((f / 32 =? 1) || (f / 32 =? 3)) /\
  fl_extended f = ((f / 16) mod 2 =? 1).
Proof.
  intros f Hf.
  pose proof (sweep1 (fun f => Bool.eqb (fl_type f =? mt_AllLinkBroadcast) (f / 32 =? 6) && Bool.eqb (fl_type f =? mt_Broadcast) (f / 32 =? 4) &&
    Bool.eqb (fl_type f =? mt_AllLinkCleanup) (f / 32 =? 2) && Bool.eqb (fl_ack f) ((f / 32 =? 1) || (f / 32 =? 3)) &&
    Bool.eqb (fl_extended f) ((f / 16) mod 2 =? 1)) ltac:(vm_compute; reflexivity) f Hf) as S.
  cbv beta in S. repeat (apply andb_true_iff in S; destruct S as [S ?]).
  repeat match goal with H : Bool.eqb _ _ = true |- _ => apply eqb_prop in H end. auto.
Qed.

(** Bytes in hexadecimal, with a separator. *)
Lemma hex_join_cons : forall sep x l, hex_join sep (x :: l) = fmt_02x x ++ flat_map (fun y => sep ++ fmt_02x y) l.
Proof.
  intros sep x l. unfold hex_join. revert x. induction l as [|y l IH]; intro x; [cbn; rewrite ?app_nil_r; reflexivity|].
  cbn [map flat_map]. cbn [map] in IH. rewrite join_cons, IH, <- app_assoc. reflexivity.
Qed.
Lemma hex_chunks_inj : forall sep a b, bytes_ok a -> bytes_ok b ->
  flat_map (fun y => sep ++ fmt_02x y) a = flat_map (fun y => sep ++ fmt_02x y) b -> a = b.
Proof.
  intros sep. induction a as [|x a IH]; intros [|y b] Ha Hb H; cbn [flat_map] in H; [reflexivity| | |].
  - destruct sep; discriminate H.
  - destruct sep; discriminate H.
  - inversion Ha; subst. inversion Hb; subst. rewrite <- !app_assoc in H. apply app_inv_head in H.
    apply fmt_02x_cut in H; [|assumption..]. destruct H as [-> H]. f_equal. apply IH; assumption.
Qed.
Lemma hex_join_inj : forall sep a b, bytes_ok a -> bytes_ok b -> hex_join sep a = hex_join sep b -> a = b.
Proof.
  intros sep [|x a] [|y b] Ha Hb H; rewrite ?hex_join_cons in H; [reflexivity|discriminate H|discriminate H|].
  inversion Ha; subst. inversion Hb; subst. apply fmt_02x_cut in H; [|assumption..]. destruct H as [-> H]. f_equal.
  eapply hex_chunks_inj; eassumption.
Qed.

(** No square bracket before the data. *)
Definition no_sq (c : Z) : Prop := c <> 91.
Lemma no_sq_02x : forall b, Forall no_sq (fmt_02x b).
Proof. intro b. unfold fmt_02x, hex_char, no_sq. destruct (b / 16 <? 10) eqn:E, (b mod 16 <? 10) eqn:F; repeat constructor; lia. Qed.
Lemma no_sq_dec : forall b, is_byte b -> Forall no_sq (fmt_d_byte b).
Proof. intros b H. eapply Forall_impl; [|apply fmt_d_byte_dec, H]. unfold is_dec, no_sq. intros. lia. Qed.
Ltac no_sq_lit := match goal with |- Forall no_sq (zs ?s) => let l := eval vm_compute in (zs s) in change (zs s) with l; unfold no_sq; repeat constructor; lia end.
Lemma no_sq_addr : forall a, Forall no_sq (addr_string a).
Proof.
  intro a. unfold addr_string. repeat (apply Forall_app; split); try apply no_sq_02x; unfold no_sq, ch_dot; repeat constructor; lia.
Qed.
Lemma no_sq_cmd : forall c, word24 c -> Forall no_sq (cmd_string c).
Proof.
  intros c Hc. destruct (cmd_string_shape c Hc) as [n H|n H|].
  - destruct (name_facts _ _ H) as (_ & _ & _ & N). apply Forall_forall. intros x Hx ->. contradiction.
  - destruct (name_facts _ _ H) as (_ & _ & _ & N). repeat (apply Forall_app; split); try no_sq_lit.
    + apply Forall_forall. intros x Hx ->. contradiction.
    + apply no_sq_dec. unfold is_byte. lia.
  - repeat (apply Forall_app; split); try no_sq_lit; apply no_sq_02x.
Qed.

Lemma byte_of_byte : forall x, is_byte (byte_of x).
Proof. apply byte_of_range. Qed.

(** The parts of the text. *)
Definition dst_text (f dst : Z) : list Z :=
  if f / 32 =? 6 then zs "ff.ff.ff"
  else if f / 32 =? 4 then
    zs "ff.ff.ff DevCat " ++ devcat_string (byte_of (dst / 65536)) (byte_of (dst / 256)) ++ zs " Firmware " ++ fmt_d_byte (byte_of dst)
  else if f / 32 =? 2 then addr_string dst ++ zs " Cleanup" else addr_string dst.
Definition cmd_text (f cmd : Z) : list Z :=
  if (f / 32 =? 1) || (f / 32 =? 3) then fmt_d_byte (command1 cmd) ++ zs "." ++ fmt_d_byte (command2 cmd) else cmd_string cmd.
Definition group_text (f dst : Z) : list Z := if f / 32 =? 6 then zs " Group(" ++ fmt_d_byte (byte_of dst) ++ zs ")" else [].
Definition data_text (f : Z) (pl : list Z) : list Z := if (f / 16) mod 2 =? 1 then zs " [" ++ hex_join (zs " ") pl ++ zs "]" else [].
Lemma msg_string_parts : forall m, is_byte (m_flags m) ->
  msg_string m = fl_string (m_flags m) ++ zs " " ++ addr_string (m_src m) ++ zs " -> " ++
    dst_text (m_flags m) (m_dst m) ++ zs " " ++ cmd_text (m_flags m) (m_cmd m) ++ group_text (m_flags m) (m_dst m) ++
    data_text (m_flags m) (m_payload m).
Proof.
  intros m Hf. unfold msg_string. destruct (flag_tests _ Hf) as (E1 & E2 & E3 & E4 & E5). rewrite E1, E2, E3, E4, E5.
  unfold dst_text, cmd_text, group_text, data_text, fw_string. rewrite (fmt_int_byte (byte_of _)) by apply byte_of_range.
  cbv zeta. rewrite <- !app_assoc. reflexivity.
Qed.

Lemma command_bytes : forall c, word24 c -> is_byte (command1 c) /\ is_byte (command2 c) /\ 256 * command1 c + command2 c = c mod 65536.
Proof. intros c Hc. destruct (command_parts c Hc) as (_ & -> & -> & _). unfold word24, is_byte in *. lia. Qed.

Lemma no_sq_head : forall f dst cmd, word24 cmd -> Forall no_sq (dst_text f dst ++ zs " " ++ cmd_text f cmd ++ group_text f dst).
Proof.
  intros f dst cmd Hc. destruct (command_bytes _ Hc) as (B1 & B2 & _).
  apply Forall_app. split.
  - unfold dst_text. destruct (f / 32 =? 6); [no_sq_lit|]. destruct (f / 32 =? 4).
    + unfold devcat_string. repeat (apply Forall_app; split); try no_sq_lit; try apply no_sq_02x. apply no_sq_dec, byte_of_range.
    + destruct (f / 32 =? 2); [apply Forall_app; split; [|no_sq_lit]|]; apply no_sq_addr.
  - apply Forall_app. split; [no_sq_lit|]. apply Forall_app. split.
    + unfold cmd_text. destruct ((f / 32 =? 1) || (f / 32 =? 3)).
      * repeat (apply Forall_app; split); try no_sq_lit; apply no_sq_dec; assumption.
      * apply no_sq_cmd, Hc.
    + unfold group_text. destruct (f / 32 =? 6); [|constructor].
      repeat (apply Forall_app; split); try no_sq_lit. apply no_sq_dec, byte_of_range.
Qed.

Lemma cmd_text_alike : forall f c d, word24 c -> word24 d ->
  (cmd_text f c = cmd_text f d <-> (ack_flags f -> c mod 65536 = d mod 65536) /\ (~ ack_flags f -> named_alike c d)).
Proof.
  intros f c d Hc Hd. unfold cmd_text, ack_flags. destruct (command_bytes _ Hc) as (C1 & C2 & Ec). destruct (command_bytes _ Hd) as (D1 & D2 & Ed).
  destruct ((f / 32 =? 1) || (f / 32 =? 3)) eqn:E.
  - split.
    + intro H. split; [|intro N; exfalso; apply N; lia]. intros _. change (zs ".") with [46] in H.
      apply (until_cut is_dec) in H; try (apply fmt_d_byte_dec; assumption); try (unfold is_dec; lia).
      destruct H as [H1 H2]. cbn [app] in H2. inversion H2 as [H3]. apply fmt_d_byte_inj in H1; [|assumption..]. apply fmt_d_byte_inj in H3; [|assumption..].
      rewrite <- Ec, <- Ed. congruence.
    + intros [H _]. assert (F : c mod 65536 = d mod 65536) by (apply H; lia).
      replace (command1 c) with (command1 d) by (unfold is_byte in *; lia). replace (command2 c) with (command2 d) by (unfold is_byte in *; lia). reflexivity.
  - rewrite (cmd_string_alike c d Hc Hd). split; [intro H; split; [intro; lia|intros _; exact H]|intros [_ H]; apply H; lia].
Qed.

Lemma dst_bytes : forall a, word24 a -> a = 65536 * byte_of (a / 65536) + 256 * byte_of (a / 256) + byte_of a.
Proof. intros a Ha. unfold byte_of, word24 in *. lia. Qed.

Theorem msg_string_alike : forall m o, msg_ok m -> msg_ok o -> (msg_string m = msg_string o <-> shown_alike m o).
Proof.
  intros m o (Ms & Md & Mf & Mc & Mp) (Os & Od & Of & Oc & Op). rewrite !msg_string_parts by assumption. split.
  - intro H. apply app_cut in H; [|rewrite !fl_string_length by assumption; reflexivity]. destruct H as [Hf H].
    apply fl_string_inj in Hf; [|assumption..]. rewrite <- Hf in H. clear Of. remember (m_flags m) as f eqn:Ef.
    apply app_inv_head in H. apply addr_string_cut in H; [|assumption..]. destruct H as [Hs H]. apply app_inv_head in H.
    assert (K : dst_text f (m_dst m) ++ zs " " ++ cmd_text f (m_cmd m) ++ group_text f (m_dst m) =
                dst_text f (m_dst o) ++ zs " " ++ cmd_text f (m_cmd o) ++ group_text f (m_dst o) /\
                (ext_flags f -> m_payload m = m_payload o)).
    { unfold data_text in H. unfold ext_flags. destruct ((f / 16) mod 2 =? 1) eqn:E.
      - pose proof (no_sq_head f (m_dst m) _ Mc) as N1. pose proof (no_sq_head f (m_dst o) _ Oc) as N2.
        change (zs " [") with ([32] ++ [91]) in H.
        assert (H' : (dst_text f (m_dst m) ++ zs " " ++ cmd_text f (m_cmd m) ++ group_text f (m_dst m)) ++ [32] ++ [91] ++ hex_join (zs " ") (m_payload m) ++ zs "]" =
                     (dst_text f (m_dst o) ++ zs " " ++ cmd_text f (m_cmd o) ++ group_text f (m_dst o)) ++ [32] ++ [91] ++ hex_join (zs " ") (m_payload o) ++ zs "]")
          by (rewrite <- !app_assoc; rewrite <- !app_assoc in H; exact H).
        clear H. remember (dst_text f (m_dst m) ++ zs " " ++ cmd_text f (m_cmd m) ++ group_text f (m_dst m)) as L1.
        remember (dst_text f (m_dst o) ++ zs " " ++ cmd_text f (m_cmd o) ++ group_text f (m_dst o)) as L2.
        rewrite (app_assoc L1), (app_assoc L2) in H'. cbn [app] in H'.
        apply (until_cut no_sq) in H'; try (apply Forall_app; split; [assumption|repeat constructor; unfold no_sq; lia]); try (unfold no_sq; lia).
        destruct H' as [H1 H2]. apply app_inv_tail in H1. split; [exact H1|]. intros _. inversion H2 as [H3].
        apply app_inv_tail in H3. eapply hex_join_inj; eassumption.
      - rewrite !app_nil_r in H. split; [exact H|]. intro; lia. }
    clear H. destruct K as [H Hp].
    assert (D : m_dst m mod 256 = m_dst o mod 256 /\ (~ all_link_flags f -> m_dst m = m_dst o) /\ cmd_text f (m_cmd m) = cmd_text f (m_cmd o)).
    { unfold dst_text, group_text in H. unfold all_link_flags. destruct (f / 32 =? 6) eqn:E6.
      - apply app_inv_head in H. apply app_inv_head in H. change (zs " Group(") with (zs " Group" ++ zs "(") in H.
        rewrite <- !app_assoc in H. rewrite !(app_assoc (cmd_text _ _)) in H.
        apply numbered_cut in H; [|apply byte_of_range..]. destruct H as [H1 H2]. apply app_inv_tail in H1.
        split; [exact H2|]. split; [intro; lia|exact H1].
      - rewrite !app_nil_r in H. destruct (f / 32 =? 4) eqn:E4.
        + rewrite <- !app_assoc in H. apply app_inv_head in H. unfold devcat_string in H. rewrite <- !app_assoc in H.
          apply fmt_02x_cut in H; [|apply byte_of_range..]. destruct H as [H2 H]. apply app_inv_head in H.
          apply fmt_02x_cut in H; [|apply byte_of_range..]. destruct H as [H1 H]. apply app_inv_head in H. change (zs " ") with [32] in H.
          apply (until_cut is_dec) in H; try (apply fmt_d_byte_dec, byte_of_range); try (unfold is_dec; lia).
          destruct H as [H0 H]. apply fmt_d_byte_inj in H0; [|apply byte_of_range..]. inversion H as [H3].
          split; [exact H0|]. split; [|reflexivity]. intros _. rewrite (dst_bytes _ Md), (dst_bytes _ Od). congruence.
        + destruct (f / 32 =? 2); rewrite <- ?app_assoc in H; (apply addr_string_cut in H; [|assumption..]); destruct H as [H1 H];
            apply app_inv_head in H; rewrite ?app_nil_r in H; (split; [congruence|split; [intros _; exact H1|]]); try (apply app_inv_head in H); exact H. }
    destruct D as (D1 & D2 & D3). apply cmd_text_alike in D3; [|assumption..]. destruct D3 as [D3 D4].
    unfold shown_alike. rewrite <- Ef. auto 10.
  - intros (Hf & Hs & D1 & D2 & C1 & C2 & Hp). rewrite <- Hf, Hs in *.
    assert (C : cmd_text (m_flags m) (m_cmd m) = cmd_text (m_flags m) (m_cmd o)) by (apply cmd_text_alike; auto). rewrite C.
    assert (P : data_text (m_flags m) (m_payload m) = data_text (m_flags m) (m_payload o)).
    { unfold data_text. unfold ext_flags in Hp. destruct ((m_flags m / 16) mod 2 =? 1) eqn:E; [|reflexivity]. rewrite Hp by lia. reflexivity. }
    rewrite P. assert (G : byte_of (m_dst m) = byte_of (m_dst o)) by exact D1.
    assert (D : dst_text (m_flags m) (m_dst m) = dst_text (m_flags m) (m_dst o)).
    { unfold dst_text. unfold all_link_flags in D2. destruct (m_flags m / 32 =? 6) eqn:E; [reflexivity|]. rewrite D2 by lia. reflexivity. }
    rewrite D. unfold group_text. rewrite G. reflexivity.
Qed.
