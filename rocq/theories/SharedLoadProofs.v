(** Lemmas about loading the device file in several reads. *)
From Coq Require Import ZArith List Bool Lia ZifyBool ZifyNat Permutation.
From Verif Require Import GoBase GoLemmas GoText GoJson JsonProofs GoProg Address AddressSpec AddressProofs MsgWriter BasicDevice Database DatabaseSpec DatabaseProofs
  DisplayProofs DisplayProofs2 SharedDb SharedDbSpec SharedDbProofs SharedLoad SharedLoadSpec.
Import ListNotations.
Open Scope Z_scope.
Ltac Zify.zify_post_hook ::= Z.div_mod_to_equations.

(* ------------------------------------------------------------------ what a load that succeeds gives *)
Lemma hex2_range : forall s v r, scan_hex8 (Some 2%nat) s = Some (v, r) -> is_byte v.
Proof.
  intros s v r H. unfold scan_hex8 in H. destruct (skip_space s) as [s1|]; [|discriminate].
  assert (G : forall w acc n s v n' r, 0 <= acc -> take_digits hex_val 16 w acc n s = (v, n', r) -> 0 <= v).
  { clear. intros w acc n s. revert w acc n. induction s as [|c s IH]; intros w acc n v n' r Ha H; cbn in H; [inversion H; subst; exact Ha|].
    assert (Hd : forall d, hex_val c = Some d -> 0 <= d) by (intros d E; unfold hex_val in E; repeat (destruct (_ && _) eqn:? in E; [inversion E; lia|]); discriminate).
    destruct w as [[|k]|]; [inversion H; subst; exact Ha| |]; (destruct (hex_val c) as [d|]; [|inversion H; subst; exact Ha]);
      (eapply IH; [|exact H]; specialize (Hd d eq_refl); lia). }
  destruct (take_digits hex_val 16 (Some 2%nat) 0 0 s1) as [[x n] r1] eqn:E. apply G in E; [|lia].
  destruct (Nat.eqb n 0); [discriminate|]. destruct (x <? 256) eqn:L; [|discriminate]. inversion H; subst. unfold is_byte. lia.
Qed.
Lemma addr_text_range : forall old t a, addr_unmarshal_text old t = (a, None) -> 0 <= a < 2 ^ 24.
Proof.
  intros old t a H. unfold addr_unmarshal_text, addr_scan in H.
  destruct (scan_hex8 (Some 2%nat) (addr_rejoin t)) as [[x r1]|] eqn:E1; [|discriminate]. destruct (scan_lit ch_dot r1); [|discriminate].
  destruct (scan_hex8 (Some 2%nat) l) as [[y r3]|] eqn:E2; [|discriminate]. destruct (scan_lit ch_dot r3); [|discriminate].
  destruct (scan_hex8 (Some 2%nat) l0) as [[z r5]|] eqn:E3; [|discriminate].
  apply hex2_range in E1, E2, E3. unfold is_byte in *. inversion H; subst. change (2 ^ 24) with 16777216. lia.
Qed.
Lemma devcat_range : forall t x y, devcat_scan t = Some (x, y) -> is_byte x /\ is_byte y.
Proof.
  intros t x y H. unfold devcat_scan in H.
  destruct (scan_hex8 (Some 2%nat) t) as [[x0 r1]|] eqn:E1; [|discriminate]. destruct (scan_lit ch_dot r1); [|discriminate].
  destruct (scan_hex8 (Some 2%nat) l) as [[y0 r3]|] eqn:E2; [|discriminate]. apply hex2_range in E1, E2. inversion H; subst. auto.
Qed.
Lemma json_int_range : forall old sv j n sv', - 2 ^ 63 <= old < 2 ^ 63 -> json_int old sv j = (n, sv') -> - 2 ^ 63 <= n < 2 ^ 63.
Proof.
  intros old sv j n sv' Ho H. unfold json_int in H. destruct j; try (inversion H; subst; exact Ho).
  destruct ((- 2 ^ 63 <=? n0) && (n0 <? 2 ^ 63)) eqn:E; inversion H; subst; [|exact Ho].
  apply andb_true_iff in E. destruct E as [A B]. apply Z.leb_le in A. apply Z.ltb_lt in B. split; assumption.
Qed.
Lemma decode_fields_ok : forall l i sv i' sv', info_ok i -> decode_fields i sv l = inr (i', sv') -> info_ok i'.
Proof.
  induction l as [|[k j] l IH]; intros i sv i' sv' Hi H; cbn [decode_fields] in H; [inversion H; subst; exact Hi|].
  pose proof Hi as (A & B & C & D & E).
  destruct (fold_eqb k n_address).
  { destruct (json_text j) as [s|]; [|discriminate]. destruct (addr_unmarshal_text (di_addr i) s) as [a [e|]] eqn:Ea; [discriminate|].
    apply addr_text_range in Ea. eapply IH; [|exact H]. repeat split; cbn; try apply Ea; try assumption; try apply B; try apply C; try apply D; try apply E. }
  destruct (fold_eqb k n_devCat).
  { destruct (json_text j) as [s|]; [|discriminate]. destruct (devcat_scan s) as [[x y]|] eqn:Ea; [|discriminate].
    apply devcat_range in Ea. destruct Ea as [X Y]. eapply IH; [|exact H]. unfold info_ok; cbn. auto. }
  destruct (fold_eqb k n_firmwareVersion).
  { destruct (json_int (di_fw i) sv j) as [n s2] eqn:Ea. apply json_int_range in Ea; [|exact D]. eapply IH; [|exact H]. unfold info_ok; cbn; auto. }
  destruct (fold_eqb k n_engineVersion).
  { destruct (json_int (di_engine i) sv j) as [n s2] eqn:Ea. apply json_int_range in Ea; [|exact E]. eapply IH; [|exact H]. unfold info_ok; cbn; auto. }
  eapply IH; eassumption.
Qed.
Lemma info_zero_ok : info_ok dinfo_zero.
Proof. unfold info_ok, is_byte, dinfo_zero. cbn. lia. Qed.
Lemma decode_map_ok : forall l m sv m' , NoDup (map fst m) -> Forall (fun kv => 0 <= fst kv < 2 ^ 24 /\ info_ok (snd kv)) m ->
  decode_map m sv l = (m', None) -> NoDup (map fst m') /\ Forall (fun kv => 0 <= fst kv < 2 ^ 24 /\ info_ok (snd kv)) m'.
Proof.
  induction l as [|[k j] l IH]; intros m sv m' N F H; cbn [decode_map] in H; [inversion H; subst; auto|].
  destruct (decode_info sv j) as [e|[i s2]] eqn:Ei; [discriminate|].
  destruct (addr_unmarshal_text 0 k) as [a [e|]] eqn:Ea; [discriminate|]. apply addr_text_range in Ea.
  eapply IH; [| |exact H]; [apply mset_nodup; exact N|]. apply mset_forall; [exact F|]. cbn. split; [exact Ea|].
  unfold decode_info in Ei. destruct j; try (inversion Ei; subst; exact info_zero_ok). eapply decode_fields_ok; [exact info_zero_ok|exact Ei].
Qed.
Lemma load_fine : forall c t db, c = 123 :: t -> new_filedb (Some c) = (db, None) -> db_ok db /\ db_dirty db = false.
Proof.
  intros c t db -> H. unfold new_filedb, load_db, db_load, db_unmarshal in H.
  destruct (json_parse (123 :: t)) as [j|] eqn:Ej; [|discriminate].
  assert (Hj : exists l, j = JObj l).
  { unfold json_parse in Ej. rewrite Nat.add_comm in Ej. cbn [Nat.add jvalue] in Ej. change (jws (123 :: t)) with (123 :: t) in Ej. cbv iota in Ej.
    change (123 =? ch_lbrace) with true in Ej. cbv iota in Ej. destruct (jws t) as [|c1 t1]; [discriminate|].
    destruct (c1 =? ch_rbrace).
    - destruct (jws t1); [|discriminate]. inversion Ej. eauto.
    - destruct (jmembers _ t) as [l r| |]; try discriminate. destruct (jws r); [|discriminate]. inversion Ej; eauto. }
  destruct Hj as (l & ->). destruct (decode_map [] None l) as [m e] eqn:Em. inversion H; subst.
  destruct (decode_map_ok l [] None m) as [N F]; [constructor|constructor|exact Em|].
  split; [|reflexivity]. exists m. auto.
Qed.

(* ------------------------------------------------------------------ the bytes of a saved text *)
Lemma marshal_head : forall d, db_ok d -> exists t, db_marshal d = 123 :: t.
Proof. intros [v f] (m & E & _). cbn in E. subst v. eexists. reflexivity. Qed.
Definition solid (c : Z) : Prop := 33 <= c.
Ltac solid_list := repeat (apply Forall_cons || apply Forall_nil); unfold solid; try lia.
Lemma fmt_02x_solid : forall b, is_byte b -> Forall solid (fmt_02x b).
Proof.
  intros b H. unfold is_byte in H. unfold fmt_02x, hex_char. solid_list; destruct (_ <? _) eqn:?; lia.
Qed.
Lemma jprint_char_solid : forall c, solid c -> Forall solid (jprint_char c).
Proof.
  unfold solid. intros c H. unfold jprint_char, ch_bslash, ch_quote. destruct ((c =? 34) || (c =? 92)); [solid_list|].
  destruct (c =? 10); [solid_list|]. destruct (c =? 13); [solid_list|]. destruct (c =? 9); [solid_list|].
  destruct ((c <? 32) || (c =? 60) || (c =? 62) || (c =? 38)) eqn:E; [|solid_list].
  apply Forall_app. split; [solid_list|]. apply fmt_02x_solid. unfold is_byte. lia.
Qed.
Lemma jprint_string_solid : forall s, Forall solid s -> Forall solid (jprint_string s).
Proof.
  intros s H. unfold jprint_string. rewrite !Forall_app. repeat split; try (solid_list; unfold ch_quote; lia).
  induction H as [|c s Hc Hs IH]; [constructor|]. cbn [flat_map]. apply Forall_app. split; [apply jprint_char_solid; exact Hc|exact IH].
Qed.
Lemma join_solid : forall l, Forall (Forall solid) l -> Forall solid (join [ch_comma] l).
Proof.
  intros l H. induction H as [|x l Hx Hl IH]; [constructor|]. cbn [join]. destruct l as [|y l]; [exact Hx|].
  rewrite !Forall_app. repeat split; [exact Hx|solid_list; unfold ch_comma; lia|exact IH].
Qed.
Lemma obj_solid : forall l, Forall (fun kv => Forall solid (fst kv) /\ Forall solid (jprint (snd kv))) l -> Forall solid (jprint (JObj l)).
Proof.
  intros l H. cbn [jprint]. rewrite !Forall_app. repeat split; try (solid_list; unfold ch_lbrace, ch_rbrace; lia).
  apply join_solid. apply Forall_map. eapply Forall_impl; [|exact H]. intros [k v] [A B]. cbn [fst snd] in *. rewrite !Forall_app.
  repeat split; [apply jprint_string_solid; exact A|solid_list; unfold ch_colon; lia|exact B].
Qed.
Lemma fmt_int_solid : forall n, Forall solid (fmt_int n).
Proof. intros n. eapply Forall_impl; [|apply fmt_int_num]. unfold is_num, is_dec, solid. intros; lia. Qed.
Lemma addr_solid : forall a, Forall solid (addr_string a).
Proof.
  intros a. unfold addr_string. rewrite !Forall_app. repeat split; try (apply fmt_02x_solid; apply byte_of_range); solid_list; unfold ch_dot; lia.
Qed.
Lemma marshal_solid : forall d, db_ok d -> Forall solid (db_marshal d).
Proof.
  intros [v f] (m & E & _ & F). cbn in E. subst v. unfold db_marshal, map_json. cbn [db_values]. apply obj_solid.
  destruct (sorted_members_from m) as (m1 & P & Em). rewrite Em, map_map. cbn [fst snd]. apply Forall_map.
  apply (Permutation_Forall P) in F. eapply Forall_impl; [|exact F]. intros [k i] (_ & _ & H0 & H1 & _). cbn [fst snd] in *. split; [apply addr_solid|].
  unfold info_json. apply obj_solid. solid_list; cbn [fst snd]; (split; [solid_list|]); cbn [jprint]; try apply fmt_int_solid; apply jprint_string_solid; [apply addr_solid|].
  unfold devcat_string. rewrite !Forall_app. repeat split; try (apply fmt_02x_solid; assumption). solid_list; unfold ch_dot; lia.
Qed.

(* ------------------------------------------------------------------ every byte read comes from its place in a saved text *)
Definition placed (g : list Z) (S : list memdb) : Prop :=
  forall p b, nth_error g p = Some b -> exists d, In d S /\ nth_error (db_marshal d) p = Some b.
Lemma placed_mono : forall g S T, incl S T -> placed g S -> placed g T.
Proof. intros g S T H P p b E. destruct (P p b E) as (d & I & N). exists d. split; [apply H; exact I|exact N]. Qed.
Lemma placed_nil : forall S, placed [] S.
Proof. intros S p b E. destruct p; discriminate. Qed.
Lemma nth_error_skipn : forall (A : Type) n p (l : list A), nth_error (skipn n l) p = nth_error l (n + p)%nat.
Proof.
  induction n as [|n IH]; intros p l; [reflexivity|]. destruct l as [|x l]; [cbn; destruct p; reflexivity|]. cbn. apply IH.
Qed.
Lemma nth_error_firstn : forall (A : Type) n p (l : list A) b, nth_error (firstn n l) p = Some b -> nth_error l p = Some b.
Proof.
  intros A n p l b H. rewrite <- (firstn_skipn n l). rewrite nth_error_app1; [exact H|]. apply nth_error_Some. rewrite H. discriminate.
Qed.
Lemma placed_read : forall g c n S, placed g S -> placed c S -> placed (g ++ firstn n (skipn (length g) c)) S.
Proof.
  intros g c n S Hg Hc p b E. destruct (lt_dec p (length g)) as [L|L].
  - rewrite nth_error_app1 in E by exact L. apply Hg. exact E.
  - rewrite nth_error_app2 in E by lia. apply nth_error_firstn in E. rewrite nth_error_skipn in E.
    replace (length g + (p - length g))%nat with p in E by lia. apply Hc. exact E.
Qed.
Lemma placed_write : forall c db S, placed c S -> placed (write_at c 0 (db_marshal db)) (S ++ [db]).
Proof.
  intros c db S Hc p b E. unfold write_at in E. cbn [firstn Nat.sub repeat app Nat.add] in E.
  destruct (lt_dec p (length (db_marshal db))) as [L|L].
  - rewrite nth_error_app1 in E by exact L. exists db. split; [apply in_or_app; right; left; reflexivity|exact E].
  - rewrite nth_error_app2 in E by lia. rewrite nth_error_skipn in E.
    replace (length (db_marshal db) + (p - length (db_marshal db)))%nat with p in E by lia.
    apply (placed_mono c S); [|exact Hc|exact E]. intros x Hx. apply in_or_app. left. exact Hx.
Qed.
Lemma placed_self : forall d S, In d S -> placed (db_marshal d) S.
Proof. intros d S H p b E. exists d. auto. Qed.

Definition load_inv (s : lshared) (S : list memdb) : Prop :=
  Forall db_ok S /\ (exists d, whole_inv (ls_sh s) d) /\ placed (contents s) S /\ (forall i g, ls_got s i = Some g -> placed g S).

Definition saved_now (s : lshared) (e : levent) : list memdb :=
  match e with
  | LEv (EvWrite i None) => match sh_runs (ls_sh s) i with RSaving db _ => [db] | _ => [] end
  | _ => []
  end.
Lemma all_saved_cons : forall s e es, all_saved s (e :: es) = saved_now s e ++ all_saved (lstep s e) es.
Proof. reflexivity. Qed.

Lemma placed_head : forall g S, Forall db_ok S -> placed g S -> g = [] \/ exists t, g = 123 :: t.
Proof.
  intros [|b g] S Hs Hp; [left; reflexivity|]. right. destruct (Hp 0%nat b eq_refl) as (d & I & N).
  destruct (marshal_head d) as (t & E); [rewrite Forall_forall in Hs; apply Hs; exact I|]. rewrite E in N. inversion N. eauto.
Qed.
Lemma placed_solid : forall g S, Forall db_ok S -> placed g S -> Forall solid g.
Proof.
  intros g S Hs Hp. apply Forall_forall. intros b Hb. apply In_nth_error in Hb. destruct Hb as (p & E). destruct (Hp p b E) as (d & I & N).
  rewrite Forall_forall in Hs. pose proof (marshal_solid d (Hs d I)) as M. rewrite Forall_forall in M. apply M. eapply nth_error_In. exact N.
Qed.
Lemma load_started : forall g S, Forall db_ok S -> placed g S -> run_fine (ev_start (Some g)).
Proof.
  intros g S Hs Hp. unfold ev_start. destruct (placed_head g S Hs Hp) as [->|(t & ->)]; [exact I|].
  destruct (new_filedb (Some (123 :: t))) as [db [e|]] eqn:E; [exact I|]. cbn. eapply load_fine; [reflexivity|exact E].
Qed.

Lemma contents_file : forall s c, sh_file (ls_sh s) = Some c -> contents s = c.
Proof. intros s c H. unfold contents. rewrite H. reflexivity. Qed.
Lemma incl_left : forall (A : Type) (S T : list A), incl S (S ++ T).
Proof. intros A S T x H. apply in_or_app. left. exact H. Qed.
Lemma set_got_placed : forall got i x S, (forall j g, got j = Some g -> placed g S) -> (forall g, x = Some g -> placed g S) ->
  forall j g, set_got got i x j = Some g -> placed g S.
Proof. intros got i x S H Hx j g E. unfold set_got in E. destruct (Nat.eqb j i); [apply Hx; exact E|eapply H; exact E]. Qed.

Lemma shared_step_placed : forall s S e, Forall db_ok S -> (exists d, whole_inv (ls_sh s) d) -> placed (contents s) S -> in_one_piece e ->
  placed (match sh_file (shared_step (ls_sh s) e) with Some c => c | None => [] end) (S ++ saved_now s (LEv e)).
Proof.
  intros s S e Hs (d & Hd & Hr & Hf) Hc Hw.
  assert (Same : placed (match sh_file (ls_sh s) with Some c => c | None => [] end) (S ++ saved_now s (LEv e))).
  { eapply placed_mono; [apply incl_left|exact Hc]. }
  destruct e as [i|i x|i|i [n|]|i]; cbn [shared_step] in *; try contradiction.
  - destruct (sh_runs (ls_sh s) i); exact Same.
  - destruct (sh_runs (ls_sh s) i); try exact Same. destruct (db_dirty db); exact Same.
  - destruct (sh_runs (ls_sh s) i); try exact Same. destruct (db_dirty db); [apply placed_nil|exact Same].
  - unfold saved_now in *. pose proof (Hr i) as Hi. destruct (sh_runs (ls_sh s) i) as [| |db|db k|]; try exact Same.
    destruct Hi as [_ ->]. cbn [skipn sh_file]. apply placed_write. exact Hc.
  - exact Same.
Qed.

Lemma load_inv_step : forall s S e, load_inv s S -> lin_one_piece e -> lput_fine e -> load_inv (lstep s e) (S ++ saved_now s e).
Proof.
  intros s S e H Hw Hp. pose proof H as (Hs & (d & Hd) & Hc & Hg). destruct e as [e|i|i n]; cbn [lin_one_piece lput_fine] in *.
  - assert (Hn : Forall db_ok (S ++ saved_now s (LEv e))).
    { apply Forall_app. split; [exact Hs|]. unfold saved_now. destruct e as [i|i x|i|i [n|]|i]; try constructor.
      destruct Hd as (_ & Hr & _). pose proof (Hr i) as Hi. destruct (sh_runs (ls_sh s) i); constructor; [apply Hi|constructor]. }
    assert (G : forall got, (forall j g, got j = Some g -> placed g S) -> load_inv (mkLsh (shared_step (ls_sh s) e) got) (S ++ saved_now s (LEv e))).
    { intros got Hgot. split; [exact Hn|]. split; [exists (saved_by (ls_sh s) e d); apply whole_step; assumption|].
      split; [apply shared_step_placed; eauto|]. intros j g E. eapply placed_mono; [apply incl_left|]. eapply Hgot. exact E. }
    destruct e as [i|i x|i|i n|i]; cbn [lstep]; try (apply G; exact Hg).
    + destruct (ls_got s i); [cbn [saved_now]; rewrite app_nil_r; exact H|apply G; exact Hg].
    + apply G. apply set_got_placed; [exact Hg|]. intros g E. discriminate.
  - cbn [saved_now lstep]. rewrite app_nil_r. unfold load_open. destruct (ls_got s i) eqn:Eg; [exact H|].
    destruct (sh_runs (ls_sh s) i) eqn:Er; try exact H. pose proof Hd as (_ & _ & Hf).
    destruct (sh_file (ls_sh s)) as [c|] eqn:Ef; [|destruct Hf as [E|(rest & E & _)]; discriminate].
    split; [exact Hs|]. split; [exists d; exact Hd|]. split; [unfold contents; cbn [ls_sh]; rewrite Ef; rewrite (contents_file s c Ef) in Hc; exact Hc|].
    cbn [ls_got]. apply set_got_placed; [exact Hg|]. intros g E. inversion E. apply placed_nil.
  - cbn [saved_now lstep]. rewrite app_nil_r. unfold load_read. destruct (ls_got s i) as [g|] eqn:Eg; [|exact H].
    pose proof (placed_read g (contents s) (Datatypes.S n) S (Hg i g Eg) Hc) as Hr.
    destruct (firstn (Datatypes.S n) (skipn (length g) (contents s))) as [|b bs] eqn:Eb.
    + split; [exact Hs|]. split; [|split; [exact Hc|]].
      * exists d. destruct Hd as (A & B & C). split; [exact A|]. split; [|exact C]. cbn [ls_sh sh_runs]. apply set_run_fine; [exact B|].
        eapply load_started; [exact Hs|]. eapply Hg. exact Eg.
      * cbn [ls_got]. apply set_got_placed; [exact Hg|]. intros x E. discriminate.
    + split; [exact Hs|]. split; [exists d; exact Hd|]. split; [exact Hc|]. cbn [ls_got]. apply set_got_placed; [exact Hg|].
      intros x E. inversion E. exact Hr.
Qed.
Lemma load_inv_run : forall es s S, load_inv s S -> Forall lin_one_piece es -> Forall lput_fine es -> load_inv (lrun s es) (S ++ all_saved s es).
Proof.
  induction es as [|e es IH]; intros s S H Hw Hp; [cbn; rewrite app_nil_r; exact H|]. inversion Hw; subst. inversion Hp; subst.
  rewrite all_saved_cons, app_assoc. unfold lrun. cbn [fold_left]. apply (IH (lstep s e)); try assumption. apply load_inv_step; assumption.
Qed.
Lemma load_inv_start : forall db, db_ok db -> load_inv (l_at_rest (Some (db_marshal db))) [db].
Proof.
  intros db H. split; [repeat constructor; exact H|]. split; [exists db; apply whole_start; exact H|].
  split; [cbn; apply placed_self; left; reflexivity|]. intros i g E. discriminate.
Qed.

(* ------------------------------------------------------------------ a whole text and what was read behind it *)
Lemma load_longer : forall d rest, db_ok d -> Forall solid rest -> rest <> [] ->
  ev_start (Some (db_marshal d ++ rest)) = RRefused EJsonSyntax.
Proof.
  intros [v f] rest (m & E & _ & F) Hb Hr. cbn in E. subst v.
  unfold ev_start, new_filedb, load_db, db_load, db_unmarshal, db_marshal. cbn [db_values]. unfold map_json. rewrite json_parse_more; [reflexivity| |].
  - apply (map_json_wf m). eapply Forall_impl; [|exact F]. intros kv [_ H]. exact H.
  - destruct rest as [|b rest]; [contradiction|]. inversion Hb as [|? ? Hx _]. unfold solid in Hx. cbn [jws]. unfold jspace.
    replace ((b =? 32) || (b =? 9) || (b =? 13) || (b =? 10)) with false by lia. discriminate.
Qed.
Lemma load_shorter : forall d g rest, db_ok d -> db_marshal d = g ++ rest -> rest <> [] -> ev_start (Some g) = RRefused EJsonSyntax.
Proof.
  intros [v f] g rest (m & E & _ & F) Hb Hr. cbn in E. subst v.
  unfold ev_start, new_filedb, load_db, db_load, db_unmarshal. rewrite (db_marshal_cut m f g rest); [reflexivity| |exact Hb|exact Hr].
  eapply Forall_impl; [|exact F]. intros kv [_ H]. exact H.
Qed.
