From Coq Require Import ZArith List Bool Lia ZifyBool ZifyNat.
From Verif Require Import GoBase GoLemmas GoSlice GoProg Address Link Message PlmPacket Plm PlmSpec PlmProofs PlmLinkdb MemProofs Conc ConcSpec.
Import ListNotations.
Open Scope Z_scope.
Ltac Zify.zify_post_hook ::= Z.div_mod_to_equations.

(** ** A tree run alone is the method *)
Lemma solo_bind : forall A B (c : client A) (f : A -> client B) sc d st,
  solo sc (cbind c f) d st =
  match solo sc c d st with (Ret a, (d1, st1)) => solo sc (f a) d1 st1 | (Panic, w) => (Panic, w) | (NoFuel, w) => (NoFuel, w) end.
Proof.
  intros A B c f sc. induction c as [o|b k IH|q k IH|k IH|t c IH|k IH|t c IH|g k IH]; intros d st; cbn [cbind solo].
  - destruct o; reflexivity.
  - destruct (port_write sc st b) as [e st1]. apply IH.
  - destruct (receive sc q st) as [r st1]. apply IH.
  - apply IH.
  - apply IH.
  - apply IH.
  - apply IH.
  - apply IH.
Qed.

Lemma solo_map : forall A B (g : A -> B) (c : client A) sc d st,
  solo sc (cmap g c) d st =
  match solo sc c d st with (Ret a, w) => (Ret (g a), w) | (Panic, w) => (Panic, w) | (NoFuel, w) => (NoFuel, w) end.
Proof. intros. unfold cmap. rewrite solo_bind. destruct (solo sc c d st) as [[a| |] [d1 st1]]; reflexivity. Qed.

Lemma solo_read_packet : forall sc d st, solo sc cl_read_packet d st = psnd (plm_read_packet sc) (d, st).
Proof. intros sc d st. unfold cl_read_packet, plm_read_packet, psnd. cbn [solo fst snd]. destruct (receive sc QPkt st) as [[p| |] st1]; reflexivity. Qed.

Lemma solo_read : forall sc d st, solo sc cl_read d st = psnd (plm_read sc) (d, st).
Proof.
  intros sc d st. unfold cl_read, plm_read, psnd. cbn [solo fst snd]. destruct (receive sc QMsg st) as [[p| |] st1]; try reflexivity.
  destruct (msg_unmarshal msg_zero (p_payload p)); reflexivity.
Qed.

Lemma solo_write_packet : forall sc pkt d st, solo sc (cl_write_packet pkt) d st = psnd (plm_write_packet sc pkt) (d, st).
Proof.
  intros sc pkt d st. unfold cl_write_packet, plm_write_packet, psnd. cbn [solo fst snd]. destruct (port_write sc st (pkt_marshal pkt)) as [[e|] st1]; [reflexivity|].
  rewrite solo_bind, solo_read_packet. unfold psnd. cbn [fst snd]. destruct (plm_read_packet sc st1) as [[[ack [e|]]| |] st2]; reflexivity.
Qed.

Lemma solo_retry_loop : forall n nak sc pkt last d st, solo sc (cl_retry_loop n nak pkt last) d st = psnd (retry_loop (plm_pw sc) n nak pkt last) (d, st).
Proof.
  unfold psnd. cbn [fst snd].
  induction n as [|n IH]; intros nak sc pkt last d st; cbn [cl_retry_loop retry_loop]; [reflexivity|].
  rewrite solo_bind, solo_write_packet. cbn [plm_pw pw_write]. unfold psnd. cbn [fst snd]. destruct (plm_write_packet sc pkt st) as [[[ack err]| |] st1]; try reflexivity.
  destruct ((err_is err EPlmNak && nak) || err_is err EPlmReadTimeout); [apply IH|reflexivity].
Qed.

Lemma solo_retry : forall sc n pkt d st, solo sc (cl_retry n pkt) d st = psnd (pw_write (retry (plm_pw sc) n true) pkt) (d, st).
Proof. intros. apply solo_retry_loop. Qed.
Lemma solo_retry_nak : forall sc n nak pkt d st, solo sc (cl_retry_nak n nak pkt) d st = psnd (pw_write (retry (plm_pw sc) n nak) pkt) (d, st).
Proof. intros. apply solo_retry_loop. Qed.

Lemma solo_await : forall fuel dst sc d st, solo sc (cl_await fuel dst) d st = psnd (await_ack fuel sc dst) (d, st).
Proof.
  unfold psnd. cbn [fst snd].
  induction fuel as [|k IH]; intros dst sc d st; cbn [cl_await await_ack]; [reflexivity|].
  rewrite solo_bind, solo_read. unfold psnd. cbn [fst snd]. destruct (plm_read sc st) as [[[[m|] [e|]]| |] st1]; try reflexivity.
  destruct ((m_src m =? dst) && (fl_ack (m_flags m) || fl_nak (m_flags m))); [reflexivity|apply IH].
Qed.

Lemma solo_write : forall fuel msg sc d st, solo sc (cl_write fuel (p_retries st) msg) d st = psnd (plm_write fuel sc msg) (d, st).
Proof.
  intros fuel msg sc d st. unfold cl_write, plm_write. rewrite solo_bind, solo_retry. unfold psnd. cbn [fst snd].
  destruct (pw_write (retry (plm_pw sc) (p_retries st) true) _ st) as [[[ack [e|]]| |] st1]; try reflexivity. apply solo_await.
Qed.

Lemma solo_info : forall sc d st, solo sc (cl_info (p_retries st)) d st = psnd (plm_info sc) (d, st).
Proof.
  intros sc d st. unfold cl_info, plm_info. rewrite solo_bind, solo_retry. unfold psnd. cbn [fst snd].
  destruct (pw_write (retry (plm_pw sc) (p_retries st) true) _ st) as [[[[a|] [e|]]| |] st1]; try reflexivity.
Qed.

Lemma solo_reset : forall sc d st, solo sc (cl_reset (p_retries st)) d st = psnd (plm_reset sc) (d, st).
Proof.
  intros sc d st. unfold cl_reset, plm_reset. cbn [solo]. rewrite solo_bind, solo_retry. unfold psnd. cbn [fst snd].
  destruct (pw_write (retry (plm_pw sc) (p_retries st) true) _ _) as [[[a e]| |] st1]; try reflexivity.
Qed.

Lemma solo_config : forall sc d st, solo sc (cl_config (p_retries st)) d st = psnd (plm_config sc) (d, st).
Proof.
  intros sc d st. unfold cl_config, plm_config. rewrite solo_bind, solo_retry. unfold psnd. cbn [fst snd].
  destruct (pw_write (retry (plm_pw sc) (p_retries st) true) _ st) as [[[[a|] [e|]]| |] st1]; try reflexivity.
Qed.
Lemma solo_set_config : forall sc c d st, solo sc (cl_set_config (p_retries st) c) d st = psnd (plm_set_config sc c) (d, st).
Proof.
  intros sc c d st. unfold cl_set_config, plm_set_config. rewrite solo_bind, solo_retry. unfold psnd. cbn [fst snd].
  destruct (pw_write (retry (plm_pw sc) (p_retries st) true) _ st) as [[[a e]| |] st1]; try reflexivity.
Qed.
Lemma solo_address : forall sc d st, solo sc (cl_address (p_retries st)) d st = psnd (plm_address sc) (d, st).
Proof.
  intros sc d st. unfold cl_address, plm_address. cbn [solo]. unfold psnd. cbn [fst snd]. destruct (p_addr st =? 0); [|reflexivity].
  rewrite solo_bind, solo_info. unfold psnd. cbn [fst snd]. destruct (plm_info sc st) as [[[[i|] [e|]]| |] st1]; reflexivity.
Qed.
Lemma solo_mode : forall sc pkt d st, solo sc (cl_mode pkt) d st = psnd (do (_, err) <- pw_write (plm_pw sc) pkt ;; pret err) (d, st).
Proof.
  intros sc pkt d st. unfold cl_mode. rewrite solo_bind, solo_write_packet. unfold psnd, pbind, pret. cbn [plm_pw pw_write fst snd].
  destruct (plm_write_packet sc pkt st) as [[[ack e]| |] st1]; reflexivity.
Qed.

(** The link database: the memory follows the list. *)
Definition agrees {A} (r : outcome A * (dbmem * plm)) (v : outcome A * (plmdb * plm)) : Prop :=
  match r with (o, (d, st)) => v = (o, (db_of d, st)) /\ db_ok d end.

Lemma solo_refresh_loop : forall fuel retries links err sc d st,
  solo sc (cl_refresh_loop fuel retries links err) d st = psnd (refresh_loop fuel (plm_pw sc) retries links err) (d, st).
Proof.
  unfold psnd. cbn [fst snd].
  induction fuel as [|k IH]; intros retries links [e|] sc d st; cbn [cl_refresh_loop refresh_loop]; try reflexivity.
  rewrite solo_bind, solo_read_packet. unfold psnd, pbind. cbn [fst snd plm_pw pw_read].
  destruct (plm_read_packet sc st) as [[[[p|] [e|]]| |] st1]; try reflexivity.
  destruct (p_cmd p =? pc_AllLinkRecordResp); [|apply IH].
  destruct (link_unmarshal link_zero (p_payload p)) as [l [e|]]; [reflexivity|].
  rewrite solo_bind, solo_retry_nak. unfold psnd. cbn [fst snd].
  change (mkPW (plm_write_packet sc) (plm_read_packet sc)) with (plm_pw sc).
  destruct (pw_write (retry (plm_pw sc) retries false) (mkPkt pc_GetNextAllLink [] 0) st1) as [[[a e]| |] st2]; try reflexivity. apply IH.
Qed.

Lemma store_view : forall spare links d, sl_view (dm_heap (db_store spare links d)) (dm_links (db_store spare links d)) = links /\ db_ok (db_store spare links d).
Proof.
  intros spare links d. unfold db_store, db_ok, sl_ok, sl_view. cbn [dm_heap dm_links sl_arr sl_off sl_len sl_cap skipn].
  assert (E : arr (dm_heap d ++ [links ++ repeat link_zero spare]) (length (dm_heap d)) = links ++ repeat link_zero spare).
  { unfold arr. rewrite app_nth2, Nat.sub_diag by lia. reflexivity. }
  rewrite E, !app_length, repeat_length. cbn [length]. split; [|lia].
  rewrite firstn_app, Nat.sub_diag, firstn_all. cbn. apply app_nil_r.
Qed.

Lemma solo_refresh : forall fuel spare now sc d st, db_ok d ->
  agrees (solo sc (cl_refresh fuel spare now) d st) (pdb_refresh fuel (plm_pw sc) now (db_of d, st)).
Proof.
  intros fuel spare now sc d st Hd. unfold cl_refresh, pdb_refresh. cbn [solo]. unfold pbind at 1, pfst at 1, pget. cbn [fst snd].
  destruct (negb (pdb_old now (db_of d))); [split; [reflexivity|exact Hd]|].
  rewrite solo_bind, solo_retry_nak. unfold pbind at 1, psnd at 1 2. cbn [fst snd].
  change (pd_retries (db_of d)) with (dm_retries d).
  destruct (pw_write (retry (plm_pw sc) (dm_retries d) true) _ st) as [[[a e]| |] st1]; try (split; [reflexivity|exact Hd]).
  rewrite solo_bind, solo_refresh_loop. unfold pbind at 1, psnd at 1 2. cbn [fst snd].
  destruct (refresh_loop fuel (plm_pw sc) (dm_retries d) [] e st1) as [[[links err]| |] st2]; try (split; [reflexivity|exact Hd]).
  destruct (err_is err EPlmNak); [|split; [reflexivity|exact Hd]].
  destruct (store_view spare links d) as [V K]. cbn [solo agrees]. split; [|exact K].
  unfold pbind, pfst, pput, pret, db_of. rewrite V. reflexivity.
Qed.

Lemma padded_self : forall l, padded (length l) l = l.
Proof. intro l. unfold padded. rewrite firstn_all, Nat.sub_diag. cbn. apply app_nil_r. Qed.

Lemma solo_links : forall fuel spare now sc d st, db_ok d ->
  agrees (solo sc (cl_links fuel spare now) d st) (pdb_links fuel (plm_pw sc) now (db_of d, st)).
Proof.
  intros fuel spare now sc d st Hd. unfold cl_links, pdb_links. rewrite solo_bind. pose proof (solo_refresh fuel spare now sc d st Hd) as H.
  destruct (solo sc (cl_refresh fuel spare now) d st) as [[err| |] [d1 st1]]; cbn [agrees] in H; destruct H as [H Hd1];
    unfold pbind at 1; rewrite H; [|split; [reflexivity|exact Hd1]..].
  cbn [solo agrees]. split; [|exact Hd1]. unfold pbind, pfst, pget, pret. cbn [fst snd db_of pd_links].
  rewrite <- (view_length _ _ Hd1) at 1. rewrite padded_self. reflexivity.
Qed.

Lemma solo_delete_link : forall l sc d st, solo sc (cl_delete_link l) d st = psnd (pdb_delete_link (plm_pw sc) l) (d, st).
Proof. intros. apply solo_retry_nak. Qed.
Lemma solo_write_link : forall l sc d st, solo sc (cl_write_link l) d st = psnd (pdb_write_link (plm_pw sc) l) (d, st).
Proof. intros. apply solo_retry_nak. Qed.

Lemma view_get : forall (h : heap link) s i l t, sl_ok h s -> skipn i (sl_view h s) = l :: t -> (i < sl_len s)%nat /\ sl_get h s i = Ret l /\ skipn (S i) (sl_view h s) = t.
Proof.
  intros h s i l t Hok H. assert (Hi : (i < sl_len s)%nat).
  { destruct (Nat.lt_ge_cases i (sl_len s)) as [Hi|Hi]; [exact Hi|]. rewrite skipn_all2 in H by (rewrite (view_length _ _ Hok); exact Hi). discriminate H. }
  split; [exact Hi|]. unfold sl_get. rewrite (proj2 (Nat.ltb_lt _ _) Hi).
  assert (E : nth_error (sl_view h s) i = Some l).
  { rewrite <- (firstn_skipn i (sl_view h s)), H. rewrite nth_error_app2; rewrite firstn_length_le; rewrite ?(view_length _ _ Hok); try lia.
    rewrite Nat.sub_diag. reflexivity. }
  assert (E2 : nth_error (arr h (sl_arr s)) (sl_off s + i) = Some l).
  { unfold sl_view in E. rewrite <- (firstn_skipn (sl_off s) (arr h (sl_arr s))). destruct Hok as (K1 & K2 & K3).
    rewrite nth_error_app2; rewrite firstn_length_le by lia; [|lia]. replace (sl_off s + i - sl_off s)%nat with i by lia.
    rewrite <- E. rewrite <- (firstn_skipn (sl_len s) (skipn (sl_off s) (arr h (sl_arr s)))) at 1.
    apply nth_error_app1. rewrite firstn_length, skipn_length. lia. }
  rewrite E2. split; [reflexivity|].
  assert (G : forall A (x : list A) n y z, skipn n x = y :: z -> skipn (S n) x = z).
  { clear. induction x as [|a x IH]; intros [|n] y z H; cbn [skipn] in *; try discriminate H; [injection H as _ ->; reflexivity|]. eapply IH; eauto. }
  eapply G; eauto.
Qed.

Lemma solo_delete_all : forall ls fuel i sc d st, db_ok d -> skipn i (sl_view (dm_heap d) (dm_links d)) = ls -> (length ls < fuel)%nat ->
  (i <= sl_len (dm_links d))%nat ->
  solo sc (cl_delete_all fuel i) d st = psnd (delete_all (plm_pw sc) ls) (d, st).
Proof.
  induction ls as [|l t IH]; intros fuel i sc d st Hd Hs Hf Hi; (destruct fuel as [|k]; [cbn in Hf; lia|]); cbn [cl_delete_all solo].
  - assert (E : (i <? sl_len (dm_links d))%nat = false).
    { apply Nat.ltb_ge. rewrite <- (view_length _ _ Hd). apply (f_equal (@length link)) in Hs. rewrite skipn_length in Hs. cbn in Hs. lia. }
    rewrite E. reflexivity.
  - destruct (view_get _ _ _ _ _ Hd Hs) as (Hi2 & Hg & Ht). rewrite (proj2 (Nat.ltb_lt _ _) Hi2). cbn [solo].
    rewrite (proj2 (Nat.ltb_lt _ _) Hi2). cbn [solo]. rewrite Hg.
    rewrite solo_bind, solo_delete_link. unfold psnd, pbind. cbn [fst snd delete_all]. unfold pbind.
    destruct (pdb_delete_link (plm_pw sc) l st) as [[[a [e|]]| |] st1]; try reflexivity.
    rewrite (IH k (S i) sc d st1 Hd Ht); [reflexivity|cbn in Hf; lia|lia].
Qed.

Lemma solo_write_one : forall l sc d st, solo sc (cl_write_one l) d st = psnd (write_one (plm_pw sc) l) (d, st).
Proof.
  intros l sc d st. unfold cl_write_one, write_one. rewrite solo_bind, solo_write_link. unfold psnd, pbind. cbn [fst snd].
  destruct (pdb_write_link (plm_pw sc) l st) as [[[a [e|]]| |] st1]; try reflexivity.
  destruct (error_eqb e EPlmWrongPayload); [|reflexivity]. destruct a as [a|]; [|reflexivity].
  rewrite solo_bind, solo_delete_link. unfold psnd. cbn [fst snd].
  destruct (pdb_delete_link (plm_pw sc) _ st1) as [[[a1 [e1|]]| |] st2]; try reflexivity.
  rewrite solo_bind, solo_write_link. unfold psnd. cbn [fst snd].
  destruct (pdb_write_link (plm_pw sc) l st2) as [[[a2 e2]| |] st3]; reflexivity.
Qed.

Lemma solo_write_all : forall ls grow sc d st, db_ok d ->
  agrees (solo sc (cl_write_all grow ls) d st) (write_all (plm_pw sc) ls (db_of d, st)).
Proof.
  induction ls as [|l t IH]; intros grow sc d st Hd; cbn [cl_write_all write_all]; [split; [reflexivity|exact Hd]|].
  rewrite solo_bind, solo_write_one. unfold pbind at 1, psnd at 1 2. cbn [fst snd].
  destruct (write_one (plm_pw sc) l st) as [[[e|]| |] st1]; try (split; [reflexivity|exact Hd]).
  unfold cl_append. cbn [solo]. destruct (append_one grow _ _ l Hd) as (h' & s' & E & K1 & K2 & V1 & V2). rewrite E. cbn [fst snd].
  unfold pbind at 1 2, pfst at 1 2, pget, pput. cbn [fst snd].
  assert (Ed : set_pd_links (db_of d) (pd_links (db_of d) ++ [l]) = db_of (set_dm_links (set_dm_heap d h') s')).
  { unfold set_pd_links, db_of. cbn. rewrite V1. reflexivity. }
  rewrite Ed. apply IH. exact K1.
Qed.

Lemma solo_write_links : forall fuel grow ls sc d st, db_ok d -> (sl_len (dm_links d) < fuel)%nat ->
  agrees (solo sc (cl_write_links fuel grow ls) d st) (pdb_write_links (plm_pw sc) ls (db_of d, st)).
Proof.
  intros fuel grow ls sc d st Hd Hf. unfold cl_write_links, pdb_write_links. rewrite solo_bind.
  rewrite (solo_delete_all (sl_view (dm_heap d) (dm_links d)) fuel 0 sc d st Hd eq_refl); [|rewrite (view_length _ _ Hd); exact Hf|lia].
  unfold pbind at 1 2, pfst at 1, pget, psnd at 1 2. cbn [fst snd]. change (pd_links (db_of d)) with (sl_view (dm_heap d) (dm_links d)).
  destruct (delete_all (plm_pw sc) (sl_view (dm_heap d) (dm_links d)) st) as [[[e|]| |] st1]; try (split; [reflexivity|exact Hd]).
  cbn [solo]. unfold pbind at 1, pfst at 1, pput. cbn [fst snd].
  change (set_pd_links (db_of d) []) with (db_of (set_dm_links d nil_slice)). apply solo_write_all.
  destruct Hd as (H1 & H2 & H3). unfold db_ok, sl_ok, nil_slice. cbn. lia.
Qed.

Lemma solo_call : forall k sc d st, db_ok d -> enough k d ->
  agrees (solo sc (call_client (p_retries st) k) d st) (method k sc (db_of d, st)).
Proof.
  intros k sc d st Hd He.
  assert (L : forall A (g : A -> cresult) (m : prog plm A) r, r = psnd m (d, st) ->
    agrees match r with (Ret a, w) => (Ret (g a), w) | (Panic, w) => (Panic, w) | (NoFuel, w) => (NoFuel, w) end (wrapped g (psnd m (db_of d, st)))).
  { intros A g m r ->. unfold psnd. cbn [fst snd]. destruct (m st) as [[a| |] st1]; (split; [reflexivity|exact Hd]). }
  assert (M : forall A (g : A -> cresult) (r : outcome A * (dbmem * plm)) (v : outcome A * (plmdb * plm)), agrees r v ->
    agrees match r with (Ret a, w) => (Ret (g a), w) | (Panic, w) => (Panic, w) | (NoFuel, w) => (NoFuel, w) end (wrapped g v)).
  { intros A g [[a| |] [d1 st1]] v [-> K]; (split; [reflexivity|exact K]). }
  destruct k; cbn [call_client]; unfold method; rewrite solo_map; cbn [snd].
  - apply L. apply solo_read_packet.
  - apply L. apply solo_read.
  - apply L. apply solo_write_packet.
  - apply L. apply solo_retry.
  - apply L. apply solo_write.
  - apply L. apply solo_info.
  - apply L. apply solo_reset.
  - apply L. apply solo_config.
  - apply L. apply solo_set_config.
  - apply L. apply solo_address.
  - apply L. apply solo_mode.
  - apply L. apply solo_mode.
  - apply L. apply solo_mode.
  - apply M. apply solo_links. exact Hd.
  - apply M. apply solo_write_links; [exact Hd|exact He].
Qed.

(** ** A run alone is an execution *)
Lemma acts_app : forall l1 l2 y, acts y (l1 ++ l2) = match acts y l1 with Some y1 => acts y1 l2 | None => None end.
Proof. induction l1 as [|a t IH]; intros l2 y; cbn [acts app]; [reflexivity|]. destruct (act y a); [apply IH|reflexivity]. Qed.

Lemma acts_reads : forall es y, acts y (map AReader es) = Some (mkSys (reader_turns (y_plm y) es) (y_db y) (y_gors y) (y_got y) (y_put y)).
Proof.
  induction es as [|e es IH]; intros y; cbn [map acts act]; [destruct y; reflexivity|]. rewrite IH. reflexivity.
Qed.

Lemma only_reads : forall i es, Forall (only i) (map AReader es).
Proof. intros i es. induction es as [|e t IH]; cbn [map]; [apply Forall_nil|]. apply Forall_cons; [exact I|exact IH]. Qed.

Lemma wait_exec : forall es q k st d g p r st1, wait_for q st es = (r, st1) -> r <> RTimeout ->
  exists l, Forall (only 0) l /\ exists g1, acts (mkSys st d [mkGor true (CRecv q k)] g p) l = Some (mkSys st1 d [mkGor false (k r)] g1 p).
Proof.
  induction es as [|e es IH]; intros q k st d g p r st1 H Hr; cbn [wait_for] in H.
  - destruct (queue_of q st) as [|x rest] eqn:Eq.
    + destruct (p_closed st) eqn:Ec; [|pair_inv H; congruence]. pair_inv H.
      exists [ARecv 0]. split; [apply Forall_cons; [reflexivity|apply Forall_nil]|]. exists g. cbn. rewrite Eq, Ec. reflexivity.
    + pair_inv H. exists [ARecv 0]. split; [apply Forall_cons; [reflexivity|apply Forall_nil]|]. exists (g ++ [(0%nat, (q, x))]).
      cbn. rewrite Eq. reflexivity.
  - destruct (queue_of q st) as [|x rest] eqn:Eq.
    + destruct (p_closed st) eqn:Ec.
      * pair_inv H. exists [ARecv 0]. split; [apply Forall_cons; [reflexivity|apply Forall_nil]|]. exists g. cbn. rewrite Eq, Ec. reflexivity.
      * destruct (IH q k _ d g p r st1 H Hr) as (l & Hl & g1 & Hg). exists (AReader e :: l). split; [apply Forall_cons; [exact I|exact Hl]|].
        exists g1. cbn [acts act y_plm y_db y_gors y_got y_put]. exact Hg.
    + pair_inv H. exists (ARecv 0 :: map AReader (e :: es)). split; [apply Forall_cons; [reflexivity|apply only_reads]|].
      exists (g ++ [(0%nat, (q, x))]). cbn [acts act y_plm y_gors nth_error]. rewrite Eq. rewrite acts_reads. reflexivity.
Qed.

Lemma late_timeout : forall sc q st st1, receive sc q st = (RTimeout, st1) ->
  st1 = reader_turns (log_wait (tick (reader_turns st (s_before (sc (p_time st)))))) (s_wait (sc (p_time st))).
Proof.
  intros sc q st st1 H. unfold receive in H. cbv zeta in H. destruct (s_late (sc (p_time st))); [apply (f_equal snd) in H; symmetry; exact H|].
  revert H. generalize (log_wait (tick (reader_turns st (s_before (sc (p_time st)))))). generalize (s_wait (sc (p_time st))).
  induction l as [|e es IH]; intros s H; cbn [wait_for] in H.
  - destruct (queue_of q s); [|apply (f_equal fst) in H; cbn in H; discriminate H].
    destruct (p_closed s); [apply (f_equal fst) in H; cbn in H; discriminate H|]. apply (f_equal snd) in H. symmetry. exact H.
  - destruct (queue_of q s); [|apply (f_equal fst) in H; cbn in H; discriminate H].
    destruct (p_closed s); [apply (f_equal fst) in H; cbn in H; discriminate H|]. apply (IH _ H).
Qed.

Lemma received_dec : forall r : received, r = RTimeout \/ r <> RTimeout.
Proof. intros [p| |]; [right|right|left]; congruence. Qed.

Lemma solo_exec : forall (c : client cresult) sc d st o d' st' g p, solo sc c d st = (o, (d', st')) ->
  exists l, Forall (only 0) l /\ exists w g1 p1, acts (mkSys st d [mkGor false c] g p) l = Some (mkSys st' d' [mkGor w (CDone o)] g1 p1).
Proof.
  assert (M : forall c c' : client cresult, forall st d st1 d1 g p, act (mkSys st d [mkGor false c] g p) (AMem 0) = Some (mkSys st1 d1 [mkGor false c'] g p) ->
    forall o d' st', (exists l, Forall (only 0) l /\ exists w g1 p1, acts (mkSys st1 d1 [mkGor false c'] g p) l = Some (mkSys st' d' [mkGor w (CDone o)] g1 p1)) ->
    exists l, Forall (only 0) l /\ exists w g1 p1, acts (mkSys st d [mkGor false c] g p) l = Some (mkSys st' d' [mkGor w (CDone o)] g1 p1)).
  { intros c c' st d st1 d1 g p Ha o d' st' (l & Hl & w & g1 & p1 & Hg). exists (AMem 0 :: l). split; [apply Forall_cons; [reflexivity|exact Hl]|].
    exists w, g1, p1. cbn [acts]. rewrite Ha. exact Hg. }
  induction c as [o|b k IH|q k IH|k IH|t c IH|k IH|t c IH|f0 k IH]; intros sc d st o' d' st' g p H; cbn [solo] in H.
  - injection H as <- <- <-. exists []. split; [apply Forall_nil|]. exists false, g, p. reflexivity.
  - destruct (port_write sc st b) as [e st1] eqn:E. destruct (IH e sc d st1 o' d' st' g (p ++ [(0%nat, b)]) H) as (l & Hl & w & g1 & p1 & Hg).
    unfold port_write in E. pair_inv E.
    exists (map AReader (s_before (sc (p_time st))) ++ ASend 0 (s_werr (sc (p_time st))) :: l).
    split; [apply Forall_app; split; [apply only_reads|apply Forall_cons; [reflexivity|exact Hl]]|]. exists w, g1, p1.
    rewrite acts_app, acts_reads. cbn [acts act y_plm y_db y_gors y_got y_put nth_error list_set]. exact Hg.
  - destruct (receive sc q st) as [r st1] eqn:E. destruct (received_dec r) as [->|Hr].
    + destruct (IH RTimeout sc d st1 o' d' st' g p H) as (l & Hl & w & g1 & p1 & Hg). apply late_timeout in E. subst st1.
      exists (map AReader (s_before (sc (p_time st))) ++ AWait 0 :: (map AReader (s_wait (sc (p_time st))) ++ ALate 0 :: l)).
      split.
      { apply Forall_app; split; [apply only_reads|]. apply Forall_cons; [reflexivity|]. apply Forall_app; split; [apply only_reads|].
        apply Forall_cons; [reflexivity|exact Hl]. }
      exists w, g1, p1. rewrite acts_app, acts_reads. cbn [acts act y_plm y_db y_gors y_got y_put nth_error list_set set_gor].
      rewrite acts_app, acts_reads. cbn [acts act y_plm y_db y_gors y_got y_put nth_error list_set set_gor]. exact Hg.
    + unfold receive in E. cbv zeta in E. destruct (s_late (sc (p_time st))); [pair_inv E; congruence|].
      destruct (wait_exec _ q k _ d g p r st1 E Hr) as (l1 & Hl1 & g0 & Hg0).
      destruct (IH r sc d st1 o' d' st' g0 p H) as (l & Hl & w & g1 & p1 & Hg).
      exists (map AReader (s_before (sc (p_time st))) ++ AWait 0 :: (l1 ++ l)). split.
      { apply Forall_app; split; [apply only_reads|]. apply Forall_cons; [reflexivity|]. apply Forall_app; auto. }
      exists w, g1, p1. rewrite acts_app, acts_reads. cbn [acts act y_plm y_db y_gors y_got y_put nth_error list_set set_gor].
      rewrite acts_app. unfold set_gor. cbn [y_db y_gors y_got y_put list_set]. rewrite Hg0. exact Hg.
  - eapply M; [|apply (IH _ _ _ _ _ _ _ _ _ H)]. reflexivity.
  - eapply M; [|apply (IH _ _ _ _ _ _ _ _ H)]. reflexivity.
  - eapply M; [|apply (IH _ _ _ _ _ _ _ _ _ H)]. reflexivity.
  - eapply M; [|apply (IH _ _ _ _ _ _ _ _ H)]. reflexivity.
  - eapply M; [|apply (IH _ _ _ _ _ _ _ _ _ H)]. reflexivity.
Qed.

(** ** An execution in which only one goroutine acts is a run alone *)
Lemma solo_ext : forall A (c : client A) sc sc' d st, (forall n, (p_time st <= n)%nat -> sc n = sc' n) -> solo sc c d st = solo sc' c d st.
Proof.
  intros A. induction c as [o|b k IH|q k IH|k IH|t c IH|k IH|t c IH|f0 k IH]; intros sc sc' d st H; cbn [solo]; [reflexivity| | | | | | |].
  - assert (E : port_write sc st b = port_write sc' st b) by (unfold port_write; rewrite H; [reflexivity|lia]).
    rewrite E. destruct (port_write sc' st b) as [e st1] eqn:E1. apply IH.
    destruct (port_write_fields _ _ _ _ _ E1) as (_ & _ & Ht & _). intros n Hn. apply H. lia.
  - assert (E : receive sc q st = receive sc' q st) by (unfold receive; rewrite H; [reflexivity|lia]).
    rewrite E. destruct (receive sc' q st) as [r st1] eqn:E1. apply IH.
    destruct (receive_fields _ _ _ _ _ E1) as (_ & _ & Ht & _). intros n Hn. apply H. lia.
  - apply IH. exact H.
  - apply IH. exact H.
  - apply IH. exact H.
  - apply IH. exact H.
  - apply IH. exact H.
Qed.

Lemma turn_tick : forall st e, reader_turn (tick st) e = tick (reader_turn st e).
Proof. intros st e. unfold reader_turn. cbn. destruct (p_closed st); [reflexivity|]. destruct e as [p|]; [destruct (is_msg_packet p)|]; reflexivity. Qed.
Lemma turn_wait : forall st e, reader_turn (log_wait st) e = log_wait (reader_turn st e).
Proof. intros st e. unfold reader_turn. cbn. destruct (p_closed st); [reflexivity|]. destruct e as [p|]; [destruct (is_msg_packet p)|]; reflexivity. Qed.
Lemma turn_timeout : forall st e t, reader_turn (set_timeout st t) e = set_timeout (reader_turn st e) t.
Proof. intros st e t. unfold reader_turn. cbn. destruct (p_closed st); [reflexivity|]. destruct e as [p|]; [destruct (is_msg_packet p)|]; reflexivity. Qed.
Lemma turn_addr : forall st e a, reader_turn (set_addr st a) e = set_addr (reader_turn st e) a.
Proof. intros st e t. unfold reader_turn. cbn. destruct (p_closed st); [reflexivity|]. destruct e as [p|]; [destruct (is_msg_packet p)|]; reflexivity. Qed.
Lemma turns_addr : forall es st a, reader_turns (set_addr st a) es = set_addr (reader_turns st es) a.
Proof. unfold reader_turns. induction es as [|e es IH]; intros st t; cbn [fold_left]; [reflexivity|]. rewrite turn_addr. apply IH. Qed.
Lemma turns_wait : forall es st, reader_turns (log_wait (tick st)) es = log_wait (tick (reader_turns st es)).
Proof.
  unfold reader_turns. induction es as [|e es IH]; intros st; cbn [fold_left]; [reflexivity|]. rewrite turn_wait, turn_tick. apply IH.
Qed.
Lemma turns_timeout : forall es st t, reader_turns (set_timeout st t) es = set_timeout (reader_turns st es) t.
Proof. unfold reader_turns. induction es as [|e es IH]; intros st t; cbn [fold_left]; [reflexivity|]. rewrite turn_timeout. apply IH. Qed.

(** A schedule with another step at one moment. *)
Definition at_moment (t : nat) (s : step) (sc : schedule) : schedule := fun n => if Nat.eqb n t then s else sc n.
Lemma at_moment_same : forall t s sc, at_moment t s sc t = s.
Proof. intros. unfold at_moment. rewrite Nat.eqb_refl. reflexivity. Qed.
Lemma at_moment_later : forall A (c : client A) t s sc d st, p_time st = S t -> solo (at_moment t s sc) c d st = solo sc c d st.
Proof.
  intros A c t s sc d st H. apply solo_ext. intros n Hn. unfold at_moment. destruct (Nat.eqb_spec n t); [lia|reflexivity].
Qed.

Lemma nth_some_lt : forall A (l : list A) i x, nth_error l i = Some x -> (i < length l)%nat.
Proof. intros A l i x H. apply nth_error_Some. congruence. Qed.

Lemma set_same : forall A (l : list A) i x y, nth_error l i = Some y -> nth_error (list_set l i x) i = Some x.
Proof. intros A l i x y H. apply nth_error_list_set_eq. eapply nth_some_lt; eauto. Qed.

Definition nowhere : schedule := fun _ => mkStep [] [] false None.

Lemma exec_solo : forall i l y y' o, Forall (only i) l -> acts y l = Some y' -> finished y' i = Some o ->
  forall c st0 b,
    (nth_error (y_gors y) i = Some (mkGor false c) -> y_plm y = reader_turns st0 b ->
       exists sc es st', solo sc c (y_db y) st0 = (o, (y_db y', st')) /\ y_plm y' = reader_turns st' es) /\
    (forall q k, c = CRecv q k -> nth_error (y_gors y) i = Some (mkGor true c) -> y_plm y = reader_turns (log_wait (tick st0)) b ->
       exists sc es st', solo sc c (y_db y) st0 = (o, (y_db y', st')) /\ y_plm y' = reader_turns st' es).
Proof.
  intros i. induction l as [|a l IH]; intros y y' o Hl H Ho c st0 b; cbn [acts] in H.
  - injection H as <-. split.
    + intros Hg Hp. unfold finished in Ho. rewrite Hg in Ho. destruct c; try discriminate Ho. injection Ho as <-.
      exists nowhere, b, st0. split; [reflexivity|exact Hp].
    + intros q k -> Hg Hp. unfold finished in Ho. rewrite Hg in Ho. discriminate Ho.
  - destruct (act y a) as [y1|] eqn:Ea; [|discriminate H]. inversion Hl as [|? ? Ha Hl']; subst.
    specialize (IH y1 y' o Hl' H Ho). split.
    + intros Hg Hp. destruct a as [e|j werr|j|j|j|j]; cbn [only] in Ha; try subst j; cbn [act] in Ea.
      * injection Ea as <-. apply (proj1 (IH c st0 (b ++ [e]))); cbn [y_gors y_plm y_db]; [exact Hg|]. rewrite turns_app, Hp. reflexivity.
      * rewrite Hg in Ea. destruct c as [o1|buf k|q k|k|t k|k|t k|f0 k]; try discriminate Ea. injection Ea as <-.
        destruct (proj1 (IH (k werr) (log_sent (tick (y_plm y)) buf) [])) as (sc & es & st' & Hs & He); cbn [y_gors y_plm y_db].
        { eapply set_same; eauto. }
        { reflexivity. }
        exists (at_moment (p_time st0) (mkStep b [] false werr) sc), es, st'. split; [|exact He].
        cbn [solo]. unfold port_write. rewrite at_moment_same. cbn [s_before s_werr]. rewrite <- Hp.
        rewrite at_moment_later; [exact Hs|]. cbn. f_equal. rewrite Hp. apply reader_turns_fields.
      * rewrite Hg in Ea. destruct c as [o1|buf k|q k|k|t k|k|t k|f0 k]; try discriminate Ea. injection Ea as <-.
        apply (proj2 (IH (CRecv q k) st0 b) q k eq_refl); cbn [y_gors y_plm y_db set_gor].
        { eapply set_same; eauto. }
        { rewrite turns_wait, Hp. reflexivity. }
      * rewrite Hg in Ea. destruct c; discriminate Ea.
      * rewrite Hg in Ea. destruct c; discriminate Ea.
      * rewrite Hg in Ea. destruct c as [o1|buf k|q k|k|t k|k|t k|f0 k]; try discriminate Ea; injection Ea as <-.
        -- destruct (proj1 (IH (k (p_timeout st0)) st0 b)) as (sc & es & st' & Hs & He); cbn [y_gors y_plm y_db set_gor].
           { replace (p_timeout st0) with (p_timeout (y_plm y)) by (rewrite Hp; apply reader_turns_fields). eapply set_same; eauto. }
           { exact Hp. }
           exists sc, es, st'. split; [exact Hs|exact He].
        -- destruct (proj1 (IH k (set_timeout st0 t) b)) as (sc & es & st' & Hs & He); cbn [y_gors y_plm y_db set_gor].
           { eapply set_same; eauto. }
           { rewrite Hp, turns_timeout. reflexivity. }
           exists sc, es, st'. split; [exact Hs|exact He].
        -- destruct (proj1 (IH (k (p_addr st0)) st0 b)) as (sc & es & st' & Hs & He); cbn [y_gors y_plm y_db set_gor].
           { replace (p_addr st0) with (p_addr (y_plm y)) by (rewrite Hp; apply reader_turns_fields). eapply set_same; eauto. }
           { exact Hp. }
           exists sc, es, st'. split; [exact Hs|exact He].
        -- destruct (proj1 (IH k (set_addr st0 t) b)) as (sc & es & st' & Hs & He); cbn [y_gors y_plm y_db set_gor].
           { eapply set_same; eauto. }
           { rewrite Hp, turns_addr. reflexivity. }
           exists sc, es, st'. split; [exact Hs|exact He].
        -- destruct (proj1 (IH (k (y_db y)) st0 b)) as (sc & es & st' & Hs & He); cbn [y_gors y_plm y_db set_gor].
           { eapply set_same; eauto. }
           { exact Hp. }
           exists sc, es, st'. split; [exact Hs|exact He].
    + intros q k -> Hg Hp. destruct a as [e|j werr|j|j|j|j]; cbn [only] in Ha; try subst j; cbn [act] in Ea.
      * injection Ea as <-. apply (proj2 (IH (CRecv q k) st0 (b ++ [e])) q k eq_refl); cbn [y_gors y_plm y_db]; [exact Hg|]. rewrite turns_app, Hp. reflexivity.
      * rewrite Hg in Ea. discriminate Ea.
      * rewrite Hg in Ea. discriminate Ea.
      * rewrite Hg in Ea. rewrite turns_wait in Hp. destruct (queue_of q (y_plm y)) as [|p rest] eqn:Eq.
        -- destruct (p_closed (y_plm y)) eqn:Ec; [|discriminate Ea]. injection Ea as <-.
           destruct (proj1 (IH (k RNil) (y_plm y) [])) as (sc & es & st' & Hs & He); cbn [y_gors y_plm y_db set_gor].
           { eapply set_same; eauto. }
           { reflexivity. }
           exists (at_moment (p_time st0) (mkStep b [] false None) sc), es, st'. split; [|exact He].
           cbn [solo]. unfold receive. cbv zeta. rewrite at_moment_same. cbn [s_before s_late s_wait]. rewrite <- Hp. cbn [wait_for]. rewrite Eq, Ec.
           rewrite at_moment_later; [exact Hs|]. rewrite Hp. cbn. f_equal. apply reader_turns_fields.
        -- injection Ea as <-.
           destruct (proj1 (IH (k (RPacket p)) (set_queue q (y_plm y) rest) [])) as (sc & es & st' & Hs & He); cbn [y_gors y_plm y_db].
           { eapply set_same; eauto. }
           { reflexivity. }
           exists (at_moment (p_time st0) (mkStep b [] false None) sc), es, st'. split; [|exact He].
           cbn [solo]. unfold receive. cbv zeta. rewrite at_moment_same. cbn [s_before s_late s_wait]. rewrite <- Hp. cbn [wait_for]. rewrite Eq.
           change (reader_turns (set_queue q (y_plm y) rest) []) with (set_queue q (y_plm y) rest).
           rewrite at_moment_later; [exact Hs|]. destruct (set_queue_fields q (y_plm y) rest) as (_ & _ & Ht & _). rewrite Ht, Hp. cbn. f_equal. apply reader_turns_fields.
      * rewrite Hg in Ea. rewrite turns_wait in Hp. injection Ea as <-.
        destruct (proj1 (IH (k RTimeout) (y_plm y) [])) as (sc & es & st' & Hs & He); cbn [y_gors y_plm y_db set_gor].
        { eapply set_same; eauto. }
        { reflexivity. }
        exists (at_moment (p_time st0) (mkStep b [] true None) sc), es, st'. split; [|exact He].
        cbn [solo]. unfold receive. cbv zeta. rewrite at_moment_same. cbn [s_before s_late s_wait]. rewrite <- Hp.
        change (reader_turns (y_plm y) []) with (y_plm y).
        rewrite at_moment_later; [exact Hs|]. rewrite Hp. cbn. f_equal. apply reader_turns_fields.
      * rewrite Hg in Ea. discriminate Ea.
Qed.

(** ** The queues under any interleaving *)
Lemma turn_fifo1 : forall q st e h, fifo h (queue_of q st) ->
  exists h', fifo h' (queue_of q (reader_turn st e)) /\ arrivals h' = arrivals h ++ filter (goes_to q) (live_from (p_closed st) [e]) /\ takings h' = takings h.
Proof.
  intros q st e h H. pose proof (turns_fifo [e] q st h H) as T. eexists. split; [exact T|].
  assert (Aapp : forall a b, arrivals (a ++ b) = arrivals a ++ arrivals b) by (intros; apply flat_map_app).
  assert (Tapp : forall a b, takings (a ++ b) = takings a ++ takings b) by (intros; apply flat_map_app).
  rewrite Aapp, Tapp.
  assert (Harr : forall ps, arrivals (arr_hist q ps) = filter (goes_to q) ps /\ takings (arr_hist q ps) = []).
  { intros ps. unfold arr_hist. induction (filter (goes_to q) ps) as [|p l IH]; cbn; [auto|].
    destruct IH as [I1 I2]. unfold arrivals, takings in *. rewrite I1, I2. auto. }
  destruct (Harr (live_from (p_closed st) [e])) as [A1 A2]. rewrite A1, A2, app_nil_r. auto.
Qed.

Lemma taken_app : forall q a b, taken q (a ++ b) = taken q a ++ taken q b.
Proof. intros. apply flat_map_app. Qed.

Lemma acts_fifo : forall l y y' q h, acts y l = Some y' -> fifo h (queue_of q (y_plm y)) -> takings h = taken q (y_got y) ->
  exists h', fifo h' (queue_of q (y_plm y')) /\ arrivals h' = arrivals h ++ filter (goes_to q) (live_from (p_closed (y_plm y)) (reads l)) /\
    takings h' = taken q (y_got y').
Proof.
  induction l as [|a l IH]; intros y y' q h H Hf Ht; cbn [acts] in H.
  - injection H as <-. exists h. split; [exact Hf|]. split; [|exact Ht]. cbn [reads flat_map]. unfold live_from. destruct (p_closed (y_plm y)); cbn; rewrite app_nil_r; reflexivity.
  - destruct (act y a) as [y1|] eqn:Ea; [|discriminate H].
    assert (Hrest : reads (a :: l) = reads [a] ++ reads l) by (unfold reads; cbn [flat_map]; rewrite app_nil_r; reflexivity).
    assert (Q : forall st', queue_of q (y_plm y1) = queue_of q (y_plm y) -> p_closed (y_plm y1) = p_closed (y_plm y) -> y_got y1 = y_got y ->
      reads [a] = [] -> st' = y_plm y1 ->
      exists h', fifo h' (queue_of q (y_plm y')) /\ arrivals h' = arrivals h ++ filter (goes_to q) (live_from (p_closed (y_plm y)) (reads (a :: l))) /\ takings h' = taken q (y_got y')).
    { intros st' Q1 Q2 Q3 Q4 _. destruct (IH y1 y' q h H) as (h' & I1 & I2 & I3); [rewrite Q1; exact Hf|rewrite Q3; exact Ht|].
      exists h'. split; [exact I1|]. split; [|exact I3]. rewrite Hrest, Q4, <- Q2. exact I2. }
    destruct a as [e|j werr|j|j|j|j]; cbn [act] in Ea.
    + injection Ea as <-. destruct (turn_fifo1 q (y_plm y) e h Hf) as (h1 & F1 & F2 & F3).
      destruct (IH _ y' q h1 H) as (h' & I1 & I2 & I3); cbn [y_plm y_got]; [exact F1|rewrite F3; exact Ht|].
      exists h'. split; [exact I1|]. split; [|exact I3]. rewrite I2, F2, <- app_assoc. f_equal. rewrite Hrest. change (reads [AReader e]) with [e].
      rewrite (live_app [e] (reads l)), (filter_app (goes_to q)). f_equal. do 2 f_equal. cbn [y_plm].
      pose proof (turns_closed [e] (y_plm y)) as Tc. cbn [reader_turns fold_left] in Tc. exact Tc.
    + destruct (nth_error (y_gors y) j) as [[[|] [o|buf k|q0 k|k|t k|k|t k|f0 k]]|]; try discriminate Ea. injection Ea as <-.
      eapply Q; cbn; try reflexivity; destruct q; reflexivity.
    + destruct (nth_error (y_gors y) j) as [[[|] [o|buf k|q0 k|k|t k|k|t k|f0 k]]|]; try discriminate Ea. injection Ea as <-.
      eapply Q; cbn; try reflexivity; destruct q; reflexivity.
    + destruct (nth_error (y_gors y) j) as [[[|] [o|buf k|q0 k|k|t k|k|t k|f0 k]]|]; try discriminate Ea.
      destruct (queue_of q0 (y_plm y)) as [|p rest] eqn:Eq.
      * destruct (p_closed (y_plm y)) eqn:Ec; [|discriminate Ea]. injection Ea as <-. eapply Q; cbn; try reflexivity; auto.
      * injection Ea as <-. destruct (which_eqb q q0) eqn:E.
        -- apply which_eqb_spec in E. subst q0. rewrite Eq in Hf. apply fifo_out in Hf.
           destruct (IH _ y' q (h ++ [Out p]) H) as (h' & I1 & I2 & I3); cbn [y_plm y_got].
           { rewrite queue_set_same. exact Hf. }
           { rewrite taken_app. unfold takings. rewrite flat_map_app. fold (takings h). rewrite Ht. f_equal. cbn. destruct q; reflexivity. }
           exists h'. split; [exact I1|]. split; [|exact I3]. rewrite I2. unfold arrivals at 1. rewrite flat_map_app. cbn [flat_map]. rewrite !app_nil_r.
           cbn [y_plm]. destruct (set_queue_fields q (y_plm y) rest) as (_ & _ & _ & _ & _ & _ & Hc). rewrite Hc. reflexivity.
        -- destruct (IH _ y' q h H) as (h' & I1 & I2 & I3); cbn [y_plm y_got].
           { rewrite queue_set_other by (intros ->; destruct q0; discriminate). exact Hf. }
           { rewrite taken_app, Ht. cbn [taken flat_map fst snd]. rewrite E. cbn. rewrite app_nil_r. reflexivity. }
           exists h'. split; [exact I1|]. split; [|exact I3]. rewrite I2. cbn [y_plm].
           destruct (set_queue_fields q0 (y_plm y) rest) as (_ & _ & _ & _ & _ & _ & Hc). rewrite Hc. reflexivity.
    + destruct (nth_error (y_gors y) j) as [[[|] [o|buf k|q0 k|k|t k|k|t k|f0 k]]|]; try discriminate Ea. injection Ea as <-. eapply Q; cbn; reflexivity.
    + destruct (nth_error (y_gors y) j) as [[[|] [o|buf k|q0 k|k|t k|k|t k|f0 k]]|]; try discriminate Ea; injection Ea as <-.
      * eapply Q; cbn; reflexivity.
      * eapply Q; cbn; try reflexivity; destruct q; reflexivity.
      * eapply Q; cbn; reflexivity.
      * eapply Q; cbn; try reflexivity; destruct q; reflexivity.
      * eapply Q; cbn; reflexivity.
Qed.

Lemma subseq_app_r : forall A (a b c : list A), subseq a b -> subseq a (b ++ c).
Proof. intros A a b c H. induction H; cbn; [apply sub_nil|apply sub_take; exact IHsubseq|apply sub_skip; exact IHsubseq]. Qed.
Lemma subseq_snoc : forall A (a b : list A) x, subseq a b -> subseq (a ++ [x]) (b ++ [x]).
Proof.
  intros A a b x H. induction H as [b|y a b H IH|y a b H IH]; cbn.
  - induction b as [|y b IH]; cbn; [apply sub_take; apply sub_nil|apply sub_skip; exact IH].
  - apply sub_take. exact IH.
  - apply sub_skip. exact IH.
Qed.
Lemma subseq_cut : forall A (b a : list A) c, subseq (a ++ c) b -> subseq a b.
Proof.
  intros A b. induction b as [|y b IH]; intros a c H.
  - destruct a; [apply sub_nil|inversion H].
  - destruct a as [|x a]; [apply sub_nil|]. cbn in H. inversion H; subst.
    + apply sub_take. eapply IH; eauto.
    + apply sub_skip. apply (IH (x :: a) c). assumption.
Qed.
Lemma subseq_trans : forall A (b c : list A), subseq b c -> forall a, subseq a b -> subseq a c.
Proof.
  intros A b c H. induction H as [c|x b c H IH|x b c H IH]; intros a Ha.
  - inversion Ha; apply sub_nil.
  - inversion Ha; subst; [apply sub_nil|apply sub_take; apply IH; assumption|apply sub_skip; apply IH; assumption].
  - apply sub_skip. apply IH. exact Ha.
Qed.
Lemma subseq_filter : forall A (f : A -> bool) b, subseq (filter f b) b.
Proof. intros A f b. induction b as [|x b IH]; cbn; [apply sub_nil|]. destruct (f x); [apply sub_take|apply sub_skip]; exact IH. Qed.

Lemma fifo_subseq : forall h q, fifo h q -> subseq (takings h ++ q) (arrivals h).
Proof.
  assert (Aapp : forall a b, arrivals (a ++ b) = arrivals a ++ arrivals b) by (intros; apply flat_map_app).
  assert (Tapp : forall a b, takings (a ++ b) = takings a ++ takings b) by (intros; apply flat_map_app).
  intros h q H. induction H as [|h q p H IH Hl|h q p H IH Hl|h q p H IH]; [apply sub_nil| | |]; rewrite Aapp, Tapp; cbn; rewrite ?app_nil_r.
  - rewrite app_assoc. apply subseq_snoc. exact IH.
  - apply subseq_app_r. exact IH.
  - rewrite <- app_assoc. exact IH.
Qed.

(** ** What every goroutine knows from its own accesses *)
Section Follow.
  Context {A : Type}.
  Variable P : list (which * packet) -> list (list Z) -> option (outcome A) -> Prop.
  (** [P] holds wherever the goroutine stands, of what it received and sent so far. *)
  Fixpoint follows (hi : list (which * packet)) (ho : list (list Z)) (c : client A) : Prop :=
    match c with
    | CDone o => P hi ho (Some o)
    | CSend b k => P hi ho None /\ forall e, follows hi (ho ++ [b]) (k e)
    | CRecv q k => P hi ho None /\ (forall p, follows (hi ++ [(q, p)]) ho (k (RPacket p))) /\ follows hi ho (k RNil) /\ follows hi ho (k RTimeout)
    | CGetTimeout k => P hi ho None /\ forall t, follows hi ho (k t)
    | CSetTimeout _ k => P hi ho None /\ follows hi ho k
    | CGetAddr k => P hi ho None /\ forall a, follows hi ho (k a)
    | CSetAddr _ k => P hi ho None /\ follows hi ho k
    | CDb _ k => P hi ho None /\ forall d, follows hi ho (k d)
    end.
End Follow.

Lemma follows_here : forall A P hi ho (c : client A), follows P hi ho c -> P hi ho match c with CDone o => Some o | _ => None end.
Proof. intros A P hi ho [o|b k|q k|k|t k|k|t k|f0 k] H; cbn in H; [exact H|apply H..]. Qed.

Lemma follows_bind : forall A B (P : list (which * packet) -> list (list Z) -> option (outcome B) -> Prop) (c : client A) (f : A -> client B) hi ho,
  follows (fun hi ho o => match o with
                          | None => P hi ho None
                          | Some (Ret a) => follows P hi ho (f a)
                          | Some Panic => P hi ho (Some Panic)
                          | Some NoFuel => P hi ho (Some NoFuel)
                          end) hi ho c -> follows P hi ho (cbind c f).
Proof.
  intros A B P c f. induction c as [o|b k IH|q k IH|k IH|t c IH|k IH|t c IH|f0 k IH]; intros hi ho H; cbn [follows cbind] in *.
  - destruct o; exact H.
  - destruct H as [H1 H2]. split; [exact H1|]. intro e. apply IH. apply H2.
  - destruct H as (H1 & H2 & H3 & H4). split; [exact H1|]. split; [intro p; apply IH; apply H2|]. split; apply IH; assumption.
  - destruct H as [H1 H2]. split; [exact H1|]. intro t. apply IH. apply H2.
  - destruct H as [H1 H2]. split; [exact H1|]. apply IH. exact H2.
  - destruct H as [H1 H2]. split; [exact H1|]. intro t. apply IH. apply H2.
  - destruct H as [H1 H2]. split; [exact H1|]. apply IH. exact H2.
  - destruct H as [H1 H2]. split; [exact H1|]. intro t. apply IH. apply H2.
Qed.

Lemma follows_mono : forall A (P Q : list (which * packet) -> list (list Z) -> option (outcome A) -> Prop) (c : client A) hi ho,
  (forall hi ho o, P hi ho o -> Q hi ho o) -> follows P hi ho c -> follows Q hi ho c.
Proof.
  intros A P Q c. induction c as [o|b k IH|q k IH|k IH|t c IH|k IH|t c IH|f0 k IH]; intros hi ho H F; cbn [follows] in *.
  - apply H. exact F.
  - destruct F as [F1 F2]. split; [apply H; exact F1|]. intro e. apply IH; auto.
  - destruct F as (F1 & F2 & F3 & F4). split; [apply H; exact F1|]. split; [intro p; apply IH; auto|]. split; apply IH; auto.
  - destruct F as [F1 F2]. split; [apply H; exact F1|]. intro t. apply IH; auto.
  - destruct F as [F1 F2]. split; [apply H; exact F1|]. apply IH; auto.
  - destruct F as [F1 F2]. split; [apply H; exact F1|]. intro t. apply IH; auto.
  - destruct F as [F1 F2]. split; [apply H; exact F1|]. apply IH; auto.
  - destruct F as [F1 F2]. split; [apply H; exact F1|]. intro t. apply IH; auto.
Qed.

Lemma by_gor_app : forall X i (a b : list (nat * X)), by_gor i (a ++ b) = by_gor i a ++ by_gor i b.
Proof. intros. apply flat_map_app. Qed.
Lemma by_gor_own : forall X i (l : list (nat * X)) x, by_gor i (l ++ [(i, x)]) = by_gor i l ++ [x].
Proof. intros. rewrite by_gor_app. cbn. rewrite Nat.eqb_refl. reflexivity. Qed.
Lemma by_gor_other : forall X i j (l : list (nat * X)) x, i <> j -> by_gor i (l ++ [(j, x)]) = by_gor i l.
Proof. intros X i j l x H. rewrite by_gor_app. cbn. destruct (Nat.eqb_spec j i); [congruence|]. rewrite !app_nil_r. reflexivity. Qed.
Lemma by_gor_in : forall X i (l : list (nat * X)) x, In x (by_gor i l) <-> In (i, x) l.
Proof.
  intros X i l x. unfold by_gor. rewrite in_flat_map. split.
  - intros ([j z] & H1 & H2). cbn in H2. destruct (Nat.eqb_spec j i); [|destruct H2]. destruct H2 as [->|[]]. subst j. exact H1.
  - intro H. exists (i, x). split; [exact H|]. cbn. rewrite Nat.eqb_refl. left. reflexivity.
Qed.

Lemma act_follows : forall P i y y1 a, act y a = Some y1 ->
  (forall g, nth_error (y_gors y) i = Some g -> follows P (by_gor i (y_got y)) (by_gor i (y_put y)) (g_rest g)) ->
  forall g, nth_error (y_gors y1) i = Some g -> follows P (by_gor i (y_got y1)) (by_gor i (y_put y1)) (g_rest g).
Proof.
  intros P i y y1 a Ea H g Hg.
  destruct a as [e|j werr|j|j|j|j]; cbn [act] in Ea.
  - injection Ea as <-. apply H. exact Hg.
  - destruct (nth_error (y_gors y) j) as [[[|] [o|buf k|q0 k|k|t k|k|t k|f0 k]]|] eqn:Ej; try discriminate Ea. injection Ea as <-. cbn [y_gors y_got y_put] in *.
    destruct (Nat.eq_dec i j) as [->|Hn].
    + rewrite (set_same _ _ _ _ _ Ej) in Hg. injection Hg as <-. rewrite by_gor_own. apply (proj2 (H _ Ej)).
    + rewrite nth_error_list_set_neq in Hg by auto. rewrite by_gor_other by auto. apply H. exact Hg.
  - destruct (nth_error (y_gors y) j) as [[[|] [o|buf k|q0 k|k|t k|k|t k|f0 k]]|] eqn:Ej; try discriminate Ea. injection Ea as <-. cbn [set_gor y_gors y_got y_put] in *.
    destruct (Nat.eq_dec i j) as [->|Hn].
    + rewrite (set_same _ _ _ _ _ Ej) in Hg. injection Hg as <-. apply (H _ Ej).
    + rewrite nth_error_list_set_neq in Hg by auto. apply H. exact Hg.
  - destruct (nth_error (y_gors y) j) as [[[|] [o|buf k|q0 k|k|t k|k|t k|f0 k]]|] eqn:Ej; try discriminate Ea.
    destruct (queue_of q0 (y_plm y)) as [|p rest].
    + destruct (p_closed (y_plm y)); [|discriminate Ea]. injection Ea as <-. cbn [set_gor y_gors y_got y_put] in *.
      destruct (Nat.eq_dec i j) as [->|Hn].
      * rewrite (set_same _ _ _ _ _ Ej) in Hg. injection Hg as <-. apply (H _ Ej).
      * rewrite nth_error_list_set_neq in Hg by auto. apply H. exact Hg.
    + injection Ea as <-. cbn [y_gors y_got y_put] in *. destruct (Nat.eq_dec i j) as [->|Hn].
      * rewrite (set_same _ _ _ _ _ Ej) in Hg. injection Hg as <-. rewrite by_gor_own. apply (H _ Ej).
      * rewrite nth_error_list_set_neq in Hg by auto. rewrite by_gor_other by auto. apply H. exact Hg.
  - destruct (nth_error (y_gors y) j) as [[[|] [o|buf k|q0 k|k|t k|k|t k|f0 k]]|] eqn:Ej; try discriminate Ea. injection Ea as <-. cbn [set_gor y_gors y_got y_put] in *.
    destruct (Nat.eq_dec i j) as [->|Hn].
    + rewrite (set_same _ _ _ _ _ Ej) in Hg. injection Hg as <-. apply (H _ Ej).
    + rewrite nth_error_list_set_neq in Hg by auto. apply H. exact Hg.
  - destruct (nth_error (y_gors y) j) as [[[|] [o|buf k|q0 k|k|t k|k|t k|f0 k]]|] eqn:Ej; try discriminate Ea; injection Ea as <-; cbn [set_gor y_gors y_got y_put] in *;
      (destruct (Nat.eq_dec i j) as [->|Hn];
       [rewrite (set_same _ _ _ _ _ Ej) in Hg; injection Hg as <-; apply (H _ Ej)|rewrite nth_error_list_set_neq in Hg by auto; apply H; exact Hg]).
Qed.

Lemma acts_follows : forall P i l y y', acts y l = Some y' ->
  (forall g, nth_error (y_gors y) i = Some g -> follows P (by_gor i (y_got y)) (by_gor i (y_put y)) (g_rest g)) ->
  forall g, nth_error (y_gors y') i = Some g -> follows P (by_gor i (y_got y')) (by_gor i (y_put y')) (g_rest g).
Proof.
  intros P i l. induction l as [|a l IH]; intros y y' H Hy; cbn [acts] in H.
  - injection H as <-. exact Hy.
  - destruct (act y a) as [y1|] eqn:Ea; [|discriminate H]. eapply IH; [exact H|]. eapply act_follows; eauto.
Qed.

Lemma started_follows : forall P i st d calls k l y, nth_error calls i = Some k -> follows P [] [] (call_client (p_retries st) k) ->
  acts (started st d calls) l = Some y ->
  exists g, nth_error (y_gors y) i = Some g /\ follows P (by_gor i (y_got y)) (by_gor i (y_put y)) (g_rest g).
Proof.
  intros P i st d calls k l y Hk Hf H.
  assert (Hlen : forall l y y', acts y l = Some y' -> length (y_gors y') = length (y_gors y)).
  { clear. induction l as [|a l IH]; intros y y' H; cbn [acts] in H; [injection H as <-; reflexivity|].
    destruct (act y a) as [y1|] eqn:Ea; [|discriminate H]. rewrite (IH _ _ H).
    destruct a as [e|j werr|j|j|j|j]; cbn [act] in Ea;
      try (destruct (nth_error (y_gors y) j) as [[[|] [o|buf k|q0 k|k|t k|k|t k|f0 k]]|]; try discriminate Ea);
      try (destruct (queue_of q0 (y_plm y)); [destruct (p_closed (y_plm y)); [|discriminate Ea]|]);
      injection Ea as <-; cbn; rewrite ?list_set_length; reflexivity. }
  pose proof (Hlen _ _ _ H) as Hl. cbn [started y_gors] in Hl. rewrite map_length in Hl.
  pose proof (nth_some_lt _ _ _ _ Hk) as Hi.
  destruct (nth_error (y_gors y) i) as [g|] eqn:Eg; [|apply nth_error_None in Eg; lia].
  exists g. split; [reflexivity|]. eapply (acts_follows P i l (started st d calls) y H); [|exact Eg].
  intros g0 Hg0. cbn [started y_gors y_got y_put by_gor flat_map] in *. rewrite nth_error_map, Hk in Hg0. injection Hg0 as <-. exact Hf.
Qed.

(** ** What the calls do *)
(** Facts about a packet call: what it sent, and what it knows when it succeeds. *)
Definition pkt_fact (n : nat) (pkt : packet) (hi : list (which * packet)) (ho : list (list Z)) (o : option (outcome pw_result)) : Prop :=
  (exists j, (j <= n)%nat /\ ho = repeat (pkt_marshal pkt) j) /\
  (forall a, o = Some (Ret (Some a, None)) -> good_ack pkt a /\ exists h, hi = h ++ [(QPkt, a)]).

Lemma repeat_snoc : forall A (x : A) n, repeat x n ++ [x] = repeat x (S n).
Proof. intros A x n. induction n as [|n IH]; [reflexivity|]. cbn [repeat app]. rewrite IH. reflexivity. Qed.

Lemma fact_none : forall n pkt hi ho j, (j <= n)%nat -> ho = repeat (pkt_marshal pkt) j -> pkt_fact n pkt hi ho None.
Proof. intros. split; [eauto|]. intros a Ha. discriminate Ha. Qed.
Lemma fact_other : forall n pkt hi ho j o, (j <= n)%nat -> ho = repeat (pkt_marshal pkt) j -> (forall a, o <> Ret (Some a, None)) -> pkt_fact n pkt hi ho (Some o).
Proof. intros n pkt hi ho j o Hj Hh Ho. split; [eauto|]. intros a Ha. exfalso. apply (Ho a). congruence. Qed.

Lemma write_packet_follows : forall pkt n j hi ho (R : list (which * packet) -> list (list Z) -> option (outcome pw_result) -> Prop),
  ho = repeat (pkt_marshal pkt) j -> (S j <= n)%nat -> R hi ho None -> (forall hi', R hi' (repeat (pkt_marshal pkt) (S j)) None) ->
  (forall hi' o, pkt_fact n pkt hi' (repeat (pkt_marshal pkt) (S j)) (Some o) -> R hi' (repeat (pkt_marshal pkt) (S j)) (Some o)) ->
  follows R hi ho (cl_write_packet pkt).
Proof.
  intros pkt n j hi ho R -> Hj R0 R1 R2. unfold cl_write_packet, cl_read_packet. cbn [follows cbind]. split; [exact R0|]. intros [e|]; rewrite repeat_snoc.
  - cbn [follows]. apply R2. apply (fact_other _ _ _ _ (S j)); [exact Hj|reflexivity|]. intros a Ha. discriminate Ha.
  - cbn [follows cbind]. split; [apply R1|]. split; [|split].
    + intros p. apply R2. split; [exists (S j); auto|]. intros a Ha. injection Ha as Ha.
      pose proof (judge_shape _ _ _ Ha) as Hs. cbn in Hs. injection Hs as <-. apply judge_success in Ha. split; [exact Ha|]. eauto.
    + apply R2. apply (fact_other _ _ _ _ (S j)); [exact Hj|reflexivity|]. intros a Ha. discriminate Ha.
    + apply R2. apply (fact_other _ _ _ _ (S j)); [exact Hj|reflexivity|]. intros a Ha. discriminate Ha.
Qed.

Lemma retry_follows : forall m nak pkt n j hi ho last,
  ho = repeat (pkt_marshal pkt) j -> (j + m <= n)%nat -> (forall a, last <> (Some a, None)) -> follows (pkt_fact n pkt) hi ho (cl_retry_loop m nak pkt last).
Proof.
  induction m as [|m IH]; intros nak pkt n j hi ho last Hh Hj Hlast; cbn [cl_retry_loop].
  - cbn [follows]. apply (fact_other _ _ _ _ j); [lia|exact Hh|]. intros a Ha. injection Ha as Ha. exact (Hlast a Ha).
  - apply follows_bind. apply (write_packet_follows pkt n j); [exact Hh|lia| | |].
    + apply (fact_none _ _ _ _ j); [lia|exact Hh].
    + intro hi'. apply (fact_none _ _ _ _ (S j)); [lia|reflexivity].
    + intros hi' o Ho. destruct o as [[ack err]| |].
      * destruct ((err_is err EPlmNak && nak) || err_is err EPlmReadTimeout) eqn:E.
        -- apply (IH _ _ _ (S j)); [reflexivity|lia|]. intros a Ha. injection Ha as -> ->. cbn in E. discriminate E.
        -- cbn [follows]. exact Ho.
      * exact Ho.
      * exact Ho.
Qed.

Lemma cl_retry_follows : forall retries pkt hi, follows (pkt_fact (Z.to_nat (retries + 1)) pkt) hi [] (cl_retry retries pkt).
Proof. intros. unfold cl_retry. apply (retry_follows _ _ _ _ 0%nat); [reflexivity|lia|]. intros a Ha. discriminate Ha. Qed.

(** Facts about a message call. *)
Definition msg_fact (n : nat) (pkt : packet) (dst : Z) (hi : list (which * packet)) (ho : list (list Z)) (o : option (outcome (option message * option error))) : Prop :=
  (exists j, (j <= n)%nat /\ ho = repeat (pkt_marshal pkt) j) /\
  (forall m, o = Some (Ret (Some m, None)) -> m_src m = dst /\ fl_ack (m_flags m) = true /\
     exists h p, hi = h ++ [(QMsg, p)] /\ msg_unmarshal msg_zero (p_payload p) = (m, None)).

Lemma await_follows : forall fuel dst n pkt hi ho, (exists j, (j <= n)%nat /\ ho = repeat (pkt_marshal pkt) j) ->
  follows (msg_fact n pkt dst) hi ho (cl_await fuel dst).
Proof.
  induction fuel as [|k IH]; intros dst n pkt hi ho Hh; cbn [cl_await].
  - cbn [follows]. split; [exact Hh|]. intros m Hm. discriminate Hm.
  - unfold cl_read. cbn [cbind follows]. split; [split; [exact Hh|]; intros m Hm; discriminate Hm|]. split; [|split].
    + intro p. destruct (msg_unmarshal msg_zero (p_payload p)) as [x [e|]] eqn:Eu.
      * cbn [follows]. split; [exact Hh|]. intros m Hm. discriminate Hm.
      * destruct (m_src x =? dst) eqn:Es; cbn [andb]; [|apply IH; exact Hh].
        destruct (fl_nak (m_flags x)) eqn:En.
        -- rewrite orb_true_r. cbn [follows]. split; [exact Hh|]. intros m Hm. discriminate Hm.
        -- rewrite orb_false_r. destruct (fl_ack (m_flags x)) eqn:Ek; [|apply IH; exact Hh].
           cbn [follows]. split; [exact Hh|]. intros m Hm. injection Hm as <-. split; [lia|]. split; [exact Ek|]. exists hi, p. auto.
    + cbn [follows]. split; [exact Hh|]. intros m Hm. discriminate Hm.
    + cbn [follows]. split; [exact Hh|]. intros m Hm. discriminate Hm.
Qed.

(** Sends alone. *)
Definition sends_fact {A} (n : nat) (b : list Z) (hi : list (which * packet)) (ho : list (list Z)) (o : option (outcome A)) : Prop :=
  exists j, (j <= n)%nat /\ ho = repeat b j.

Lemma write_follows : forall fuel retries msg,
  follows (msg_fact (Z.to_nat (retries + 1)) (mkPkt pc_SendInsteonMsg (skipn 3 (msg_marshal msg)) 0) (m_dst msg)) [] [] (cl_write fuel retries msg).
Proof.
  intros. unfold cl_write. apply follows_bind. eapply follows_mono; [|apply cl_retry_follows].
  intros hi ho [[[ack [e|]]| |]|] [H1 H2]; cbn [follows]; try (split; [exact H1|]; intros m Hm; discriminate Hm).
  apply await_follows. exact H1.
Qed.

Lemma sends_map : forall A B (g : A -> B) n b (c : client A) hi ho, follows (sends_fact n b) hi ho c -> follows (sends_fact n b) hi ho (cmap g c).
Proof.
  intros A B g n b c hi ho H. unfold cmap. apply follows_bind. eapply follows_mono; [|exact H].
  intros hi' ho' [[a| |]|] Hs; cbn [follows]; exact Hs.
Qed.

Lemma marshal_bytes : forall pkt, pkt_marshal pkt = 0x02 :: p_cmd pkt :: p_payload pkt.
Proof. reflexivity. Qed.

Lemma call_sends : forall retries k, single k -> follows (sends_fact (Z.to_nat (call_times retries k)) (call_bytes k)) [] [] (call_client retries k).
Proof.
  intros retries k Hs.
  assert (E1 : forall A n b hi o, @sends_fact A n b hi [] o) by (intros A n b hi o; exists 0%nat; split; [lia|reflexivity]).
  assert (R : forall pkt, follows (sends_fact (Z.to_nat (retries + 1)) (pkt_marshal pkt)) [] [] (cl_retry retries pkt)).
  { intro pkt. eapply follows_mono; [|apply cl_retry_follows]. intros hi ho o [H1 H2]. exact H1. }
  assert (W : forall pkt, follows (sends_fact 1 (pkt_marshal pkt)) [] [] (cl_write_packet pkt)).
  { intro pkt. apply (write_packet_follows pkt 1 0); [reflexivity|lia|exists 0%nat; split; [lia|reflexivity]|intro; exists 1%nat; split; [lia|reflexivity]|].
    intros hi' o Ho. exists 1%nat. split; [lia|reflexivity]. }
  assert (I : follows (sends_fact (Z.to_nat (retries + 1)) [2; 96]) [] [] (cl_info retries)).
  { unfold cl_info. apply follows_bind. eapply follows_mono; [|apply R].
    intros hi ho [[[[a|] [e|]]| |]|] H; cbn [follows]; exact H. }
  assert (M : forall pkt, follows (sends_fact 1 (pkt_marshal pkt)) [] [] (cl_mode pkt)).
  { intro pkt. unfold cl_mode. apply follows_bind. eapply follows_mono; [|apply W]. intros hi ho [[[a e]| |]|] H; cbn [follows]; exact H. }
  destruct k as [| |pkt|pkt|fuel msg| | | |c| |group| |group|fuel spare now|fuel grow ls]; cbn [call_client call_times call_bytes single] in *; try contradiction; apply sends_map.
  - unfold cl_read_packet. cbn [follows]. split; [apply E1|]. split; [intro; apply E1|]; split; apply E1.
  - unfold cl_read. cbn [follows]. split; [apply E1|]. split; [intro; apply E1|]; split; apply E1.
  - apply W.
  - apply R.
  - eapply follows_mono; [|apply write_follows]. intros hi ho o [H1 H2]. exact H1.
  - exact I.
  - unfold cl_reset. cbn [follows]. split; [apply E1|]. intro t. split; [apply E1|]. apply follows_bind. eapply follows_mono; [|apply R].
    intros hi ho [[[ack e]| |]|] H; cbn [follows]; [split; exact H|exact H..].
  - unfold cl_config. apply follows_bind. eapply follows_mono; [|apply R]. intros hi ho [[[[a|] [e|]]| |]|] H; cbn [follows]; exact H.
  - unfold cl_set_config. apply follows_bind. eapply follows_mono; [|apply R]. intros hi ho [[[a e]| |]|] H; cbn [follows]; exact H.
  - unfold cl_address. cbn [follows]. split; [apply E1|]. intro a. destruct (a =? 0); [|cbn [follows]; split; [apply E1|]; intro r; apply E1].
    apply follows_bind. eapply follows_mono; [|apply I]. intros hi ho [[[[x|] [e|]]| |]|] H; cbn [follows]; try exact H; repeat split; try exact H; intros; exact H.
  - apply (M (mkPkt pc_StartAllLink (alr_marshal 0x03 group) 0)).
  - apply (M (mkPkt pc_CancelAllLink [] 0)).
  - apply (M (mkPkt pc_StartAllLink (alr_marshal 0xff group) 0)).
Qed.

(** What a tree does does not depend on what went before. *)
Lemma follows_shift : forall A (P : list (which * packet) -> list (list Z) -> option (outcome A) -> Prop) (c : client A) hi ho hi0 ho0, follows P hi ho c ->
  follows (fun hi' ho' o => exists h b, hi' = hi0 ++ h /\ ho' = ho0 ++ b /\ P h b o) (hi0 ++ hi) (ho0 ++ ho) c.
Proof.
  intros A P c. induction c as [o|b k IH|q k IH|k IH|t c IH|k IH|t c IH|f0 k IH]; intros hi ho hi0 ho0 H; cbn [follows] in *.
  - exists hi, ho. auto.
  - destruct H as [H1 H2]. split; [exists hi, ho; auto|]. intro e. rewrite <- app_assoc. apply IH. apply H2.
  - destruct H as (H1 & H2 & H3 & H4). split; [exists hi, ho; auto|]. split; [intro p; rewrite <- app_assoc; apply IH; apply H2|]. split; apply IH; assumption.
  - destruct H as [H1 H2]. split; [exists hi, ho; auto|]. intro t. apply IH. apply H2.
  - destruct H as [H1 H2]. split; [exists hi, ho; auto|]. apply IH. exact H2.
  - destruct H as [H1 H2]. split; [exists hi, ho; auto|]. intro t. apply IH. apply H2.
  - destruct H as [H1 H2]. split; [exists hi, ho; auto|]. apply IH. exact H2.
  - destruct H as [H1 H2]. split; [exists hi, ho; auto|]. intro t. apply IH. apply H2.
Qed.
Lemma follows_after : forall A (P Q : list (which * packet) -> list (list Z) -> option (outcome A) -> Prop) (c : client A) hi ho, follows P [] [] c ->
  (forall h b o, P h b o -> Q (hi ++ h) (ho ++ b) o) -> follows Q hi ho c.
Proof.
  intros A P Q c hi ho H HQ. pose proof (follows_shift A P c [] [] hi ho H) as F. rewrite !app_nil_r in F.
  eapply follows_mono; [|exact F]. intros hi' ho' o (h & b & -> & -> & K). apply HQ. exact K.
Qed.

Lemma retry_nak_sends : forall n nak pkt, follows (sends_fact (Z.to_nat (n + 1)) (pkt_marshal pkt)) [] [] (cl_retry_nak n nak pkt).
Proof.
  intros n nak pkt. unfold cl_retry_nak. eapply follows_mono; [|apply (retry_follows _ nak pkt (Z.to_nat (n + 1)) 0%nat); [reflexivity|lia|]].
  - intros hi ho o [H1 H2]. exact H1.
  - intros a Ha. discriminate Ha.
Qed.

(** What Links sends. *)
Definition asks (ho : list (list Z)) : Prop := exists n m, ho = repeat [0x02; 0x69] n ++ repeat [0x02; 0x6a] m.
Lemma asks_more : forall ho j, asks ho -> asks (ho ++ repeat [0x02; 0x6a] j).
Proof. intros ho j (n & m & ->). exists n, (m + j)%nat. rewrite <- app_assoc, repeat_app. reflexivity. Qed.
Lemma refresh_asks : forall fuel retries links err hi ho, asks ho -> follows (fun _ ho _ => asks ho) hi ho (cl_refresh_loop fuel retries links err).
Proof.
  induction fuel as [|k IH]; intros retries links [e|] hi ho H; cbn [cl_refresh_loop]; try exact H.
  apply follows_bind. unfold cl_read_packet. cbn [follows]. split; [exact H|]. split; [|split; exact H].
  intro p. destruct (p_cmd p =? pc_AllLinkRecordResp); [|apply IH; exact H].
  destruct (link_unmarshal link_zero (p_payload p)) as [l [e|]]; [exact H|].
  apply follows_bind. eapply follows_after; [apply retry_nak_sends|].
  intros h b o (j & _ & ->). pose proof (asks_more ho j H) as H'. destruct o as [[[a e]| |]|]; [|exact H'..]. apply IH. exact H'.
Qed.
Lemma links_asks : forall retries fuel spare now, follows (fun _ ho _ => asks ho) [] [] (call_client retries (KLinks fuel spare now)).
Proof.
  intros retries fuel spare now. cbn [call_client]. unfold cmap. apply follows_bind. unfold cl_links. apply follows_bind.
  assert (E : asks []) by (exists 0%nat, 0%nat; reflexivity).
  assert (L : forall hi ho err, asks ho -> follows (fun hi ho o => match o with
      | Some (Ret a) => follows (fun _ ho _ => asks ho) hi ho (CDone (Ret (RsLinks a)))
      | Some Panic => asks ho | Some NoFuel => asks ho | None => asks ho end) hi ho
    (CDb (fun d => d) (fun d1 => CDb (fun d => d) (fun d2 => CDb (fun d => d) (fun d3 => CDone (Ret (padded (sl_len (dm_links d1)) (sl_view (dm_heap d3) (dm_links d2)), err))))))).
  { intros hi ho err H. cbn [follows]. repeat (split; [exact H|]; intro). exact H. }
  unfold cl_refresh. cbn [follows]. split; [exact E|]. intro d. destruct (negb (pdb_old now (db_of d))); [cbn [follows]; apply (L [] [] None E)|].
  apply follows_bind. eapply follows_mono; [|apply retry_nak_sends]. intros hi ho [[[a err]| |]|] (j & _ & ->).
  2-4: exists j, 0%nat; cbn [repeat]; rewrite app_nil_r; reflexivity.
  assert (H0 : asks (repeat (pkt_marshal (mkPkt pc_GetFirstAllLink [] 0)) j)) by (exists j, 0%nat; cbn [repeat]; rewrite app_nil_r; reflexivity).
  apply follows_bind. eapply follows_mono; [|apply (refresh_asks fuel _ _ _ _ _ H0)]. intros hi' ho' [[[links err1]| |]|] H; try exact H.
  destruct (err_is err1 EPlmNak); cbn [follows]; [split; [exact H|]; intro; exact (L hi' ho' None H)|exact (L hi' ho' err1 H)].
Qed.

(** What WriteLinks sends. *)
Definition deletes (f : list Z) : Prop := is_record f = false -> exists l, f = delete_frame l.
Definition one_record (l : link) (ho : list (list Z)) : Prop :=
  Forall deletes ho /\ exists n, (n <= 8)%nat /\ filter is_record ho = repeat (record_frame l) n.
Lemma delete_is : forall l, is_record (delete_frame l) = false.
Proof. reflexivity. Qed.
Lemma record_is : forall l, is_record (record_frame l) = true.
Proof. intro l. unfold is_record, record_frame. destruct (rcf_controller (l_flags l)); reflexivity. Qed.
Lemma deletes_repeat : forall l j, Forall deletes (repeat (delete_frame l) j).
Proof. intros l j. apply Forall_forall. intros f Hf. apply repeat_spec in Hf. subst f. intros _. eauto. Qed.
Lemma records_repeat : forall l j, Forall deletes (repeat (record_frame l) j).
Proof. intros l j. apply Forall_forall. intros f Hf. apply repeat_spec in Hf. subst f. intro H. rewrite record_is in H. discriminate H. Qed.
Lemma filter_deletes : forall l j, filter is_record (repeat (delete_frame l) j) = [].
Proof. intros l j. induction j as [|j IH]; [reflexivity|]. cbn [repeat filter]. rewrite delete_is. exact IH. Qed.
Lemma filter_records : forall l j, filter is_record (repeat (record_frame l) j) = repeat (record_frame l) j.
Proof. intros l j. induction j as [|j IH]; [reflexivity|]. cbn [repeat filter]. rewrite record_is, IH. reflexivity. Qed.

Lemma delete_sends : forall l, follows (sends_fact 4 (delete_frame l)) [] [] (cl_delete_link l).
Proof. intro l. exact (retry_nak_sends 3 true (mkPkt pc_ManageAllLinkRecord (mrr_marshal lc_DeleteFirst l) 0)). Qed.
Lemma write_sends : forall l, follows (sends_fact 4 (record_frame l)) [] [] (cl_write_link l).
Proof.
  intro l. exact (retry_nak_sends 3 true (mkPkt pc_ManageAllLinkRecord (mrr_marshal (if rcf_controller (l_flags l) then lc_ModFirstCtrl else lc_ModFirstResp) l) 0)).
Qed.

Lemma write_one_sends : forall l, follows (fun _ ho _ => one_record l ho) [] [] (cl_write_one l).
Proof.
  intro l. unfold cl_write_one. apply follows_bind. eapply follows_mono; [|apply write_sends]. intros hi ho o (j & Hj & ->).
  assert (H1 : one_record l (repeat (record_frame l) j)) by (split; [apply records_repeat|]; exists j; rewrite filter_records; split; [lia|reflexivity]).
  destruct o as [[[a [e|]]| |]|]; try exact H1. destruct (error_eqb e EPlmWrongPayload); [|exact H1]. destruct a as [a|]; [|exact H1].
  apply follows_bind. eapply follows_after; [apply delete_sends|]. intros h b o (j2 & Hj2 & ->).
  assert (H2 : one_record l (repeat (record_frame l) j ++ repeat (delete_frame (fst (link_unmarshal link_zero (p_payload a)))) j2)).
  { split; [apply Forall_app; split; [apply records_repeat|apply deletes_repeat]|]. exists j. rewrite filter_app, filter_records, filter_deletes, app_nil_r. split; [lia|reflexivity]. }
  destruct o as [[[a1 [e1|]]| |]|]; try exact H2.
  apply follows_bind. eapply follows_after; [apply write_sends|]. intros h2 b o (j3 & Hj3 & ->).
  assert (H3 : one_record l ((repeat (record_frame l) j ++ repeat (delete_frame (fst (link_unmarshal link_zero (p_payload a)))) j2) ++ repeat (record_frame l) j3)).
  { split; [apply Forall_app; split; [apply H2|apply records_repeat]|]. exists (j + j3)%nat.
    rewrite !filter_app, !filter_records, filter_deletes, app_nil_r, repeat_app. split; [lia|reflexivity]. }
  destruct o as [[[a2 e2]| |]|]; exact H3.
Qed.

Definition told (pre : list link) (ho : list (list Z)) : Prop :=
  Forall deletes ho /\ exists ns, length ns = length pre /\ Forall (fun n => (n <= 8)%nat) ns /\
    filter is_record ho = concat (map (fun '(l, n) => repeat (record_frame l) n) (combine pre ns)).
Lemma combine_snoc : forall A B (a : list A) (b : list B) x y c, length a = length b -> combine (a ++ x :: c) (b ++ [y]) = combine a b ++ [(x, y)].
Proof.
  intros A B. induction a as [|u a IH]; intros [|v b] x y c H; cbn in H; try discriminate H; cbn [app combine].
  - destruct c; reflexivity.
  - rewrite IH by lia. reflexivity.
Qed.
Lemma combine_more : forall A B (a : list A) (b : list B) c, length a = length b -> combine (a ++ c) b = combine a b.
Proof.
  intros A B. induction a as [|u a IH]; intros [|v b] c H; cbn in H; try discriminate H; cbn [app combine]; [destruct c; reflexivity|].
  rewrite IH by lia. reflexivity.
Qed.
Lemma told_one : forall pre l ho b, told pre ho -> one_record l b -> told (pre ++ [l]) (ho ++ b).
Proof.
  intros pre l ho b (H1 & ns & H2 & H3 & H4) (K1 & n & K2 & K3). split; [apply Forall_app; auto|]. exists (ns ++ [n]).
  split; [rewrite !app_length, H2; reflexivity|]. split; [apply Forall_app; split; [exact H3|apply Forall_cons; [exact K2|apply Forall_nil]]|].
  rewrite combine_snoc by auto. rewrite filter_app, H4, K3, map_app, concat_app. cbn. rewrite app_nil_r. reflexivity.
Qed.
Lemma told_records : forall pre t ho, told pre ho -> writes_records (pre ++ t) ho.
Proof.
  intros pre t ho (H1 & ns & H2 & H3 & H4). split; [exact H1|]. exists ns. split; [rewrite app_length; lia|]. split; [exact H3|].
  rewrite combine_more by auto. exact H4.
Qed.

Lemma write_all_sends : forall ls grow pre hi ho, told pre ho ->
  follows (fun _ ho _ => writes_records (pre ++ ls) ho) hi ho (cl_write_all grow ls).
Proof.
  induction ls as [|l t IH]; intros grow pre hi ho H; cbn [cl_write_all]; [apply told_records; exact H|].
  apply follows_bind. eapply follows_after; [apply write_one_sends|]. intros h b o Hb. cbn beta in Hb.
  pose proof (told_one _ _ _ _ H Hb) as H1. pose proof (told_records _ t _ H1) as H2. rewrite <- app_assoc in H2. cbn [app] in H2.
  destruct o as [[[e|]| |]|]; try exact H2.
  unfold cl_append. cbn [follows]. split; [exact H2|]. intro d1. split; [exact H2|]. intro d2. split; [exact H2|]. intro d3.
  specialize (IH grow (pre ++ [l]) (hi ++ h) (ho ++ b) H1). rewrite <- app_assoc in IH. exact IH.
Qed.

Lemma told_deletes : forall ho l j, told [] ho -> told [] (ho ++ repeat (delete_frame l) j).
Proof.
  intros ho l j (H1 & ns & H2 & H3 & H4). destruct ns; [|discriminate H2]. split; [apply Forall_app; split; [exact H1|apply deletes_repeat]|]. exists []. split; [reflexivity|]. split; [exact H3|].
  rewrite filter_app, H4, filter_deletes. reflexivity.
Qed.
Lemma delete_all_sends : forall fuel i hi ho, told [] ho -> follows (fun _ ho _ => told [] ho) hi ho (cl_delete_all fuel i).
Proof.
  induction fuel as [|k IH]; intros i hi ho H; cbn [cl_delete_all]; [exact H|]. cbn [follows]. split; [exact H|]. intro d1.
  destruct (i <? sl_len (dm_links d1))%nat; [|exact H]. cbn [follows]. split; [exact H|]. intro d2.
  destruct (i <? sl_len (dm_links d2))%nat; [|exact H]. cbn [follows]. split; [exact H|]. intro d3.
  destruct (sl_get (dm_heap d3) (dm_links d2) i) as [l| |]; [|exact H..].
  apply follows_bind. eapply follows_after; [apply delete_sends|]. intros h b o (j & Hj & ->).
  pose proof (told_deletes ho l j H) as H1. destruct o as [[[a [e|]]| |]|]; try exact H1. apply IH. exact H1.
Qed.
Lemma write_links_sends : forall retries fuel grow ls, follows (fun _ ho _ => writes_records ls ho) [] [] (call_client retries (KWriteLinks fuel grow ls)).
Proof.
  intros retries fuel grow ls. cbn [call_client]. unfold cmap. apply follows_bind. unfold cl_write_links. apply follows_bind.
  assert (E : told [] []) by (split; [apply Forall_nil|]; exists []; split; [reflexivity|]; split; [apply Forall_nil|reflexivity]).
  eapply follows_mono; [|apply (delete_all_sends fuel 0%nat [] [] E)]. intros hi ho o H. pose proof (told_records [] ls ho H) as H1. cbn [app] in H1.
  destruct o as [[[e|]| |]|]; try exact H1. cbn [follows]. split; [exact H1|]. intro d.
  eapply follows_mono; [|apply (write_all_sends ls grow [] hi ho H)]. intros hi' ho' [[a| |]|] H2; exact H2.
Qed.

Lemma follows_both : forall A (P Q : list (which * packet) -> list (list Z) -> option (outcome A) -> Prop) (c : client A) hi ho,
  follows P hi ho c -> follows Q hi ho c -> follows (fun hi ho o => P hi ho o /\ Q hi ho o) hi ho c.
Proof.
  intros A P Q c. induction c as [o|b k IH|q k IH|k IH|t c IH|k IH|t c IH|f0 k IH]; intros hi ho F G; cbn [follows] in *.
  - auto.
  - destruct F, G. auto.
  - destruct F as (F1 & F2 & F3 & F4), G as (G1 & G2 & G3 & G4). auto 6.
  - destruct F, G. auto.
  - destruct F, G. auto.
  - destruct F, G. auto.
  - destruct F, G. auto.
  - destruct F, G. auto.
Qed.

(** A packet call never returns nothing at all. *)
Definition something (hi : list (which * packet)) (ho : list (list Z)) (o : option (outcome pw_result)) : Prop := o <> Some (Ret (None, None)).
Lemma write_packet_something : forall pkt hi ho, follows something hi ho (cl_write_packet pkt).
Proof.
  intros pkt hi ho. unfold cl_write_packet, cl_read_packet, something. cbn [follows cbind]. split; [discriminate|]. intros [e|]; cbn [follows cbind]; [discriminate|].
  split; [discriminate|]. split; [|split; discriminate]. intros p H. injection H as H.
  pose proof (judge_shape _ _ _ H) as Hs. cbn in Hs. discriminate Hs.
Qed.
Lemma retry_something : forall m nak pkt hi ho last, (m = 0%nat -> last <> (None, None)) -> follows something hi ho (cl_retry_loop m nak pkt last).
Proof.
  induction m as [|m IH]; intros nak pkt hi ho last H; cbn [cl_retry_loop]; [cbn [follows]; intro E; injection E as E; exact (H eq_refl E)|].
  apply follows_bind. eapply follows_mono; [|apply write_packet_something]. intros hi' ho' [[[a e]| |]|] Hs; try discriminate.
  destruct ((err_is e EPlmNak && nak) || err_is e EPlmReadTimeout) eqn:E; [|exact Hs]. apply IH. intros _ E1. injection E1 as -> ->. cbn in E. discriminate E.
Qed.

Definition acked (pkt : packet) (hi : list (which * packet)) (o : option (outcome cresult)) : Prop :=
  forall r, o = Some (Ret r) -> success r -> exists a, reports r a /\ good_ack pkt a /\ In (QPkt, a) hi.
(** A value computed from an acknowledgement, and when it counts as success. *)
Definition from_ack {A} (g : A -> cresult) (f : pw_result -> client A) : Prop := forall a e, (a, e) <> (None, None) -> exists o, f (a, e) = CDone o /\
  forall v, o = Ret v -> success (g v) -> e = None /\ exists x, a = Some x /\ reports (g v) x.
Lemma acked_from : forall A pkt n (c : client pw_result) (f : pw_result -> client A) (g : A -> cresult),
  follows (pkt_fact n pkt) [] [] c -> follows something [] [] c -> from_ack g f -> follows (fun hi ho o => acked pkt hi o) [] [] (cmap g (cbind c f)).
Proof.
  intros A pkt n c f g H1 H2 Hf. unfold cmap. apply follows_bind. apply follows_bind. eapply follows_mono; [|apply (follows_both _ _ _ _ _ _ H1 H2)].
  intros hi ho [[[a e]| |]|] [[K1 K2] K3]; cbn [follows]; try (intros r Hr; discriminate Hr).
  destruct (Hf a e) as (o & Eo & Ho); [intro E; apply K3; rewrite E; reflexivity|]. rewrite Eo. cbn [follows].
  destruct o as [v| |]; cbn [follows]; intros r Hr Hs; try discriminate Hr. injection Hr as <-. destruct (Ho v eq_refl Hs) as (-> & x & -> & Rx).
  destruct (K2 x eq_refl) as [G (h & ->)]. exists x. split; [exact Rx|]. split; [exact G|]. apply in_or_app. right. left. reflexivity.
Qed.

Lemma from_error : from_ack RsError (fun '(_, e) => CDone (Ret e)).
Proof.
  intros a e H. exists (Ret e). split; [reflexivity|]. intros v Hv Hs. injection Hv as <-. destruct e as [e|]; [contradiction Hs|]. split; [reflexivity|].
  destruct a as [a|]; [|congruence]. exists a. split; reflexivity.
Qed.

Lemma call_acked : forall retries k pkt, 0 <= retries -> sends_packet k pkt -> follows (fun hi ho o => acked pkt hi o) [] [] (call_client retries k).
Proof.
  intros retries k pkt Hr Hk.
  assert (Wp : follows (pkt_fact 1 pkt) [] [] (cl_write_packet pkt)).
  { apply (write_packet_follows pkt 1 0); [reflexivity|lia|apply (fact_none _ _ _ _ 0%nat); [lia|reflexivity]
      |intro; apply (fact_none _ _ _ _ 1%nat); [lia|reflexivity]|]. intros hi' o Ho. exact Ho. }
  assert (Rp : follows (pkt_fact (Z.to_nat (retries + 1)) pkt) [] [] (cl_retry retries pkt)) by apply cl_retry_follows.
  assert (Ws : follows something [] [] (cl_write_packet pkt)) by apply write_packet_something.
  assert (Rs : follows something [] [] (cl_retry retries pkt)) by (apply retry_something; lia).
  assert (P : forall n (c : client pw_result), follows (pkt_fact n pkt) [] [] c -> follows (fun hi ho o => acked pkt hi o) [] [] (cmap RsPacket c)).
  { intros n c H. unfold cmap. apply follows_bind. eapply follows_mono; [|exact H].
    intros hi ho [[[[a|] [e|]]| |]|] [H1 H2]; cbn [follows]; intros r Hrr Hs; try discriminate Hrr; injection Hrr as <-; try contradiction.
    destruct (H2 a eq_refl) as [G (h & ->)]. exists a. split; [reflexivity|]. split; [exact G|]. apply in_or_app. right. left. reflexivity. }
  destruct k as [| |p|p|fuel msg| | | |c| |group| |group|fuel spare now|fuel grow ls]; cbn [sends_packet] in Hk; try contradiction; subst; cbn [call_client].
  - eapply P; exact Wp.
  - eapply P; exact Rp.
  - eapply acked_from; [exact Rp|exact Rs|]. intros [a|] [e|] Hn; eexists; (split; [reflexivity|]); intros v Hv Hs.
    + injection Hv as <-. contradiction Hs.
    + unfold info_unmarshal in Hv. destruct (p_payload a) as [|b5 [|b4 [|b3 [|b2 [|b1 [|b0 t]]]]]] eqn:Ep; cbn [bindo] in Hv; try discriminate Hv.
      injection Hv as <-. split; [reflexivity|]. exists a. split; [reflexivity|]. cbn [reports]. split; [reflexivity|]. eexists. split; [reflexivity|].
      exists b5, b4, b3, b2, b1, b0, t. split; [exact Ep|]. reflexivity.
    + injection Hv as <-. contradiction Hs.
    + discriminate Hv.
  - unfold cl_reset, cmap. cbn [cbind follows]. split; [intros r E; discriminate E|]. intro t. split; [intros r E; discriminate E|].
    assert (F := acked_from _ _ _ _ _ RsError Rp Rs from_error). unfold cmap in F.
    apply follows_bind. apply follows_bind. eapply follows_mono; [|apply (follows_both _ _ _ _ _ _ Rp Rs)].
    intros hi ho [[[a e]| |]|] [[K1 K2] K3]; cbn [follows]; try (intros r E; discriminate E).
    assert (Q : forall x, a = Some x -> e = None -> good_ack (mkPkt 103 [] 0) x /\ In (QPkt, x) hi).
    { intros x -> ->. destruct (K2 x eq_refl) as [G (h & ->)]. split; [exact G|]. apply in_or_app. right. left. reflexivity. }
    split; [intros r E; discriminate E|]. intros r E Hs. injection E as <-. destruct e as [e|]; [contradiction Hs|].
    destruct a as [a|]; [|exfalso; apply K3; reflexivity]. exists a. split; [reflexivity|]. apply Q; reflexivity.
  - eapply acked_from; [exact Rp|exact Rs|]. intros [a|] [e|] Hn; eexists; (split; [reflexivity|]); intros v Hv Hs.
    + injection Hv as <-. contradiction Hs.
    + unfold cfg_unmarshal in Hv. destruct (p_payload a) as [|c t] eqn:Ep; injection Hv as <-; [contradiction Hs|]. split; [reflexivity|]. exists a. split; [reflexivity|].
      cbn [reports]. split; [reflexivity|]. exists t. exact Ep.
    + injection Hv as <-. contradiction Hs.
    + discriminate Hv.
  - eapply acked_from; [exact Rp|exact Rs|apply from_error].
  - eapply acked_from; [exact Wp|exact Ws|apply from_error].
  - eapply acked_from; [exact Wp|exact Ws|apply from_error].
  - eapply acked_from; [exact Wp|exact Ws|apply from_error].
Qed.

Lemma call_answered : forall retries fuel msg,
  follows (fun hi ho o => forall m, o = Some (Ret (RsMessage (Some m, None))) -> m_src m = m_dst msg /\ fl_ack (m_flags m) = true /\
    exists p, In (QMsg, p) hi /\ msg_unmarshal msg_zero (p_payload p) = (m, None)) [] [] (call_client retries (KWrite fuel msg)).
Proof.
  intros retries fuel msg. cbn [call_client]. unfold cmap. apply follows_bind. eapply follows_mono; [|apply write_follows].
  intros hi ho [[r| |]|] [H1 H2]; cbn [follows]; intros m Hm; try discriminate Hm. injection Hm as ->.
  destruct (H2 m eq_refl) as (G1 & G2 & h & p & -> & G3). split; [exact G1|]. split; [exact G2|]. exists p. split; [|exact G3].
  apply in_or_app. right. left. reflexivity.
Qed.

(** ** Counting acknowledgements *)
Lemma distinct_acks : forall (good : packet -> Prop) got ids, NoDup ids ->
  (forall i, In i ids -> exists a, In (i, (QPkt, a)) got /\ good a) ->
  exists ps, length ps = length ids /\ Forall good ps /\ subseq ps (taken QPkt got).
Proof.
  intros good got. induction got as [|[j [q p]] got IH]; intros ids Hn H.
  - destruct ids as [|i ids]; [|destruct (H i (or_introl eq_refl)) as (a & [] & _)]. exists []. split; [reflexivity|]. split; [apply Forall_nil|apply sub_nil].
  - assert (Hskip : (forall i, In i ids -> exists a, In (i, (QPkt, a)) got /\ good a) ->
      exists ps, length ps = length ids /\ Forall good ps /\ subseq ps (taken QPkt ((j, (q, p)) :: got))).
    { intro H'. destruct (IH ids Hn H') as (ps & P1 & P2 & P3). exists ps. split; [exact P1|]. split; [exact P2|].
      unfold taken in *. cbn [flat_map fst snd]. destruct q; cbn [which_eqb]; [exact P3|]. cbn [app]. apply sub_skip. exact P3. }
    destruct (in_dec Nat.eq_dec j ids) as [Hj|Hj].
    + destruct (H j Hj) as (a & [Ea|Ha] & Ga).
      * injection Ea as -> ->. destruct (in_split _ _ Hj) as (l1 & l2 & ->).
        destruct (IH (l1 ++ l2)) as (ps & P1 & P2 & P3).
        { apply NoDup_remove_1 in Hn. exact Hn. }
        { intros i Hi. destruct (H i) as (b & Hb & Gb).
          - apply in_app_or in Hi. apply in_or_app. destruct Hi; [left|right; right]; assumption.
          - exists b. split; [|exact Gb]. destruct Hb as [Eb|Hb]; [|exact Hb]. injection Eb as -> _.
            apply NoDup_remove_2 in Hn. contradiction. }
        exists (a :: ps). split; [|split].
        -- cbn [length]. rewrite P1, !app_length. cbn [length]. lia.
        -- apply Forall_cons; assumption.
        -- unfold taken in *. cbn [flat_map fst snd which_eqb app]. apply sub_take. exact P3.
      * apply Hskip. intros i Hi. destruct (Nat.eq_dec i j) as [->|Hij]; [exists a; auto|].
        destruct (H i Hi) as (b & [Eb|Hb] & Gb); [injection Eb as -> _; congruence|]. exists b. auto.
    + apply Hskip. intros i Hi. destruct (H i Hi) as (b & [Eb|Hb] & Gb); [injection Eb as -> _; contradiction|]. exists b. auto.
Qed.

(** ** The line and the time-out *)
Lemma act_sent : forall y y1 a, act y a = Some y1 -> exists ext, y_put y1 = y_put y ++ ext /\ p_sent (y_plm y1) = p_sent (y_plm y) ++ map snd ext.
Proof.
  intros y y1 a Ea.
  assert (N : y_put y1 = y_put y -> p_sent (y_plm y1) = p_sent (y_plm y) -> exists ext, y_put y1 = y_put y ++ ext /\ p_sent (y_plm y1) = p_sent (y_plm y) ++ map snd ext).
  { intros -> ->. exists []. cbn. rewrite !app_nil_r. auto. }
  destruct a as [e|j werr|j|j|j|j]; cbn [act] in Ea.
  - injection Ea as <-. apply N; [reflexivity|]. apply reader_turn_fields.
  - destruct (nth_error (y_gors y) j) as [[[|] [o|buf k|q0 k|k|t k|k|t k|f0 k]]|]; try discriminate Ea. injection Ea as <-. exists [(j, buf)]. auto.
  - destruct (nth_error (y_gors y) j) as [[[|] [o|buf k|q0 k|k|t k|k|t k|f0 k]]|]; try discriminate Ea. injection Ea as <-. apply N; reflexivity.
  - destruct (nth_error (y_gors y) j) as [[[|] [o|buf k|q0 k|k|t k|k|t k|f0 k]]|]; try discriminate Ea.
    destruct (queue_of q0 (y_plm y)) as [|p rest]; [destruct (p_closed (y_plm y)); [|discriminate Ea]|]; injection Ea as <-; apply N; try reflexivity.
    apply set_queue_fields.
  - destruct (nth_error (y_gors y) j) as [[[|] [o|buf k|q0 k|k|t k|k|t k|f0 k]]|]; try discriminate Ea. injection Ea as <-. apply N; reflexivity.
  - destruct (nth_error (y_gors y) j) as [[[|] [o|buf k|q0 k|k|t k|k|t k|f0 k]]|]; try discriminate Ea; injection Ea as <-; apply N; reflexivity.
Qed.

Lemma acts_sent : forall l y y', acts y l = Some y' -> exists ext, y_put y' = y_put y ++ ext /\ p_sent (y_plm y') = p_sent (y_plm y) ++ map snd ext.
Proof.
  induction l as [|a l IH]; intros y y' H; cbn [acts] in H.
  - injection H as <-. exists []. cbn. rewrite !app_nil_r. auto.
  - destruct (act y a) as [y1|] eqn:Ea; [|discriminate H]. destruct (act_sent _ _ _ Ea) as (e1 & E1 & E2).
    destruct (IH _ _ H) as (e2 & F1 & F2). exists (e1 ++ e2). rewrite F1, F2, E1, E2, map_app, !app_assoc. auto.
Qed.

(** ** The time-out *)
(** A goroutine that neither reads nor assigns it. *)
Fixpoint silent {A} (c : client A) : Prop :=
  match c with
  | CDone _ => True
  | CSend _ k => forall e, silent (k e)
  | CRecv _ k => forall r, silent (k r)
  | CGetTimeout _ => False
  | CSetTimeout _ _ => False
  | CGetAddr k => forall a, silent (k a)
  | CSetAddr _ k => silent k
  | CDb _ k => forall d, silent (k d)
  end.
Lemma silent_bind : forall A B (c : client A) (f : A -> client B), silent c -> (forall a, silent (f a)) -> silent (cbind c f).
Proof.
  intros A B c f. induction c as [o|b k IH|q k IH|k IH|t c IH|k IH|t c IH|f0 k IH]; intros H Hf; cbn [silent cbind] in *; auto. destruct o; cbn; auto.
Qed.
Lemma silent_write_packet : forall pkt, silent (cl_write_packet pkt).
Proof. intros pkt. cbn [cl_write_packet silent]. intros [e|]; [exact I|]. unfold cl_read_packet. cbn [cbind silent]. intros [p| |]; exact I. Qed.
Lemma silent_retry : forall n nak pkt last, silent (cl_retry_loop n nak pkt last).
Proof.
  induction n as [|n IH]; intros nak pkt last; cbn [cl_retry_loop]; [exact I|]. apply silent_bind; [apply silent_write_packet|].
  intros [ack err]. destruct ((err_is err EPlmNak && nak) || err_is err EPlmReadTimeout); [apply IH|exact I].
Qed.
Lemma silent_await : forall fuel dst, silent (cl_await fuel dst).
Proof.
  induction fuel as [|k IH]; intros dst; cbn [cl_await]; [exact I|]. apply silent_bind; [cbn; intros; exact I|].
  intros [[m|] [e|]]; try exact I. destruct ((m_src m =? dst) && (fl_ack (m_flags m) || fl_nak (m_flags m))); [exact I|apply IH].
Qed.
Lemma silent_links : forall fuel retries links err, silent (cl_refresh_loop fuel retries links err).
Proof.
  induction fuel as [|k IH]; intros retries links [e|]; cbn [cl_refresh_loop]; try exact I.
  apply silent_bind; [cbn; intros; exact I|]. intros [[p|] [e|]]; try exact I.
  destruct (p_cmd p =? pc_AllLinkRecordResp); [|apply IH]. destruct (link_unmarshal link_zero (p_payload p)) as [l [e|]]; [exact I|].
  apply silent_bind; [apply silent_retry|]. intros [a e]. apply IH.
Qed.
Lemma silent_delete_all : forall fuel i, silent (cl_delete_all fuel i).
Proof.
  induction fuel as [|k IH]; intros i; cbn [cl_delete_all silent]; [exact I|]. intro d1. destruct (i <? sl_len (dm_links d1))%nat; [|exact I].
  cbn [silent]. intro d2. destruct (i <? sl_len (dm_links d2))%nat; [|exact I]. cbn [silent]. intro d3.
  destruct (sl_get (dm_heap d3) (dm_links d2) i) as [l| |]; [|exact I..]. apply silent_bind; [apply silent_retry|]. intros [a [e|]]; [exact I|apply IH].
Qed.
Lemma silent_write_all : forall ls grow, silent (cl_write_all grow ls).
Proof.
  induction ls as [|l t IH]; intros grow; cbn [cl_write_all]; [exact I|]. apply silent_bind.
  - unfold cl_write_one. apply silent_bind; [apply silent_retry|]. intros [a [e|]]; [|exact I]. destruct (error_eqb e EPlmWrongPayload); [|exact I].
    destruct a as [a|]; [|exact I]. apply silent_bind; [apply silent_retry|]. intros [a1 [e1|]]; [exact I|].
    apply silent_bind; [apply silent_retry|]. intros [a2 e2]. exact I.
  - intros [e|]; [exact I|]. unfold cl_append. cbn [silent]. intros d1 d2 d3. apply IH.
Qed.
Lemma silent_call : forall retries k, k <> KReset -> silent (call_client retries k).
Proof.
  intros retries k Hk.
  assert (I0 : silent (cl_info retries)) by (apply silent_bind; [apply silent_retry|]; intros [[a|] [e|]]; exact I).
  assert (M : forall pkt, silent (cl_mode pkt)) by (intro pkt; apply silent_bind; [apply silent_write_packet|]; intros [a e]; exact I).
  destruct k as [| |pkt|pkt|fuel msg| | | |c| |group| |group|fuel spare now|fuel grow ls]; cbn [call_client]; try congruence; apply silent_bind; try (intro; exact I); auto.
  - apply silent_write_packet.
  - apply silent_retry.
  - apply silent_bind; [apply silent_retry|]. intros [a [e|]]; [exact I|apply silent_await].
  - apply silent_bind; [apply silent_retry|]. intros [[a|] [e|]]; exact I.
  - apply silent_bind; [apply silent_retry|]. intros [a e]. exact I.
  - cbn [cl_address silent]. intro a. destruct (a =? 0); [|cbn; intros; exact I]. apply silent_bind; [exact I0|].
    intros [[x|] [e|]]; cbn; intros; exact I.
  - apply silent_bind.
    + cbn [cl_refresh silent]. intro d. destruct (negb (pdb_old now (db_of d))); [exact I|]. apply silent_bind; [apply silent_retry|]. intros [a e].
      apply silent_bind; [apply silent_links|]. intros [l e1]. destruct (err_is e1 EPlmNak); cbn; auto.
    + intro e. cbn [silent]. intros d1 d2 d3. exact I.
  - apply silent_bind; [apply silent_delete_all|]. intros [e|]; [exact I|]. cbn [silent]. intro d. apply silent_write_all.
Qed.

Section Timeouts.
  Variable T : Z -> Prop.
  (** The goroutine only ever assigns values in [T], if it only ever reads such. *)
  Fixpoint assigns {A} (c : client A) : Prop :=
    match c with
    | CDone _ => True
    | CSend _ k => forall e, assigns (k e)
    | CRecv _ k => forall r, assigns (k r)
    | CGetTimeout k => forall t, T t -> assigns (k t)
    | CSetTimeout t k => T t /\ assigns k
    | CGetAddr k => forall a, assigns (k a)
    | CSetAddr _ k => assigns k
    | CDb _ k => forall d, assigns (k d)
    end.
  Lemma assigns_bind : forall A B (c : client A) (f : A -> client B), assigns c -> (forall a, assigns (f a)) -> assigns (cbind c f).
  Proof.
    intros A B c f. induction c as [o|b k IH|q k IH|k IH|t c IH|k IH|t c IH|f0 k IH]; intros H Hf; cbn [assigns cbind] in *.
    - destruct o; cbn; auto.
    - intro e. apply IH; auto.
    - intro r. apply IH; auto.
    - intros t Ht. apply IH; auto.
    - destruct H. split; auto.
    - intro a. apply IH; auto.
    - apply IH; auto.
    - intro d. apply IH; auto.
  Qed.
  Lemma silent_assigns : forall A (c : client A), silent c -> assigns c.
  Proof.
    intros A c. induction c as [o|b k IH|q k IH|k IH|t c IH|k IH|t c IH|f0 k IH]; intros H; cbn [silent assigns] in *; auto; contradiction.
  Qed.
  Lemma assigns_call : forall retries k, (k = KReset -> T reset_timeout) -> assigns (call_client retries k).
  Proof.
    intros retries k Hk. destruct k; try (apply silent_assigns; apply silent_call; congruence). cbn [call_client]. apply assigns_bind; [|intro; exact I].
    cbn [cl_reset assigns]. intros t Ht. split; [auto|]. apply assigns_bind; [apply silent_assigns; apply silent_retry|]. intros [a e]. cbn. auto.
  Qed.

  Definition in_range (y : sys) : Prop := T (p_timeout (y_plm y)) /\ forall i g, nth_error (y_gors y) i = Some g -> assigns (g_rest g).
  Lemma set_range : forall (gs : list gor) j g0 g, nth_error gs j = Some g0 -> assigns (g_rest g) -> (forall i g, nth_error gs i = Some g -> assigns (g_rest g)) ->
    forall i x, nth_error (list_set gs j g) i = Some x -> assigns (g_rest x).
  Proof.
    intros gs j g0 g Hj Hg H i x Hi. destruct (Nat.eq_dec i j) as [->|Hn].
    - rewrite (set_same _ _ _ _ _ Hj) in Hi. injection Hi as <-. exact Hg.
    - rewrite nth_error_list_set_neq in Hi by auto. eauto.
  Qed.
  Lemma act_range : forall y y1 a, act y a = Some y1 -> in_range y ->
    in_range y1 /\ exists ws, p_waits (y_plm y1) = p_waits (y_plm y) ++ ws /\ Forall T ws.
  Proof.
    intros y y1 a Ea [H1 H2].
    assert (N : in_range y1 -> p_waits (y_plm y1) = p_waits (y_plm y) -> in_range y1 /\ exists ws, p_waits (y_plm y1) = p_waits (y_plm y) ++ ws /\ Forall T ws).
    { intros Hr ->. split; [exact Hr|]. exists []. rewrite app_nil_r. auto. }
    destruct a as [e|j werr|j|j|j|j]; cbn [act] in Ea.
    - injection Ea as <-. destruct (reader_turn_fields (y_plm y) e) as (_ & F2 & _ & F4 & _). apply N; [|exact F2]. split; cbn [y_plm y_gors]; [rewrite F4; exact H1|exact H2].
    - destruct (nth_error (y_gors y) j) as [[[|] [o|buf k|q0 k|k|t k|k|t k|f0 k]]|] eqn:Ej; try discriminate Ea. injection Ea as <-. apply N; [|reflexivity].
      split; [exact H1|]. eapply set_range; [exact Ej| |exact H2]. apply (H2 _ _ Ej).
    - destruct (nth_error (y_gors y) j) as [[[|] [o|buf k|q0 k|k|t k|k|t k|f0 k]]|] eqn:Ej; try discriminate Ea. injection Ea as <-.
      split; [split; [exact H1|]|exists [p_timeout (y_plm y)]; split; [reflexivity|apply Forall_cons; [exact H1|apply Forall_nil]]].
      eapply set_range; [exact Ej| |exact H2]. apply (H2 _ _ Ej).
    - destruct (nth_error (y_gors y) j) as [[[|] [o|buf k|q0 k|k|t k|k|t k|f0 k]]|] eqn:Ej; try discriminate Ea.
      destruct (queue_of q0 (y_plm y)) as [|p rest]; [destruct (p_closed (y_plm y)); [|discriminate Ea]|]; injection Ea as <-.
      + apply N; [|reflexivity]. split; [exact H1|]. eapply set_range; [exact Ej| |exact H2]. apply (H2 _ _ Ej).
      + destruct (set_queue_fields q0 (y_plm y) rest) as (_ & F2 & _ & F4 & _). apply N; [|exact F2]. split; [cbn [y_plm]; rewrite F4; exact H1|].
        eapply set_range; [exact Ej| |exact H2]. apply (H2 _ _ Ej).
    - destruct (nth_error (y_gors y) j) as [[[|] [o|buf k|q0 k|k|t k|k|t k|f0 k]]|] eqn:Ej; try discriminate Ea. injection Ea as <-. apply N; [|reflexivity].
      split; [exact H1|]. eapply set_range; [exact Ej| |exact H2]. apply (H2 _ _ Ej).
    - destruct (nth_error (y_gors y) j) as [[[|] [o|buf k|q0 k|k|t k|k|t k|f0 k]]|] eqn:Ej; try discriminate Ea; injection Ea as <-; (apply N; [|reflexivity]).
      + split; [exact H1|]. eapply set_range; [exact Ej| |exact H2]. apply (H2 _ _ Ej). exact H1.
      + destruct (H2 _ _ Ej) as [Ht Hk]. split; [exact Ht|]. eapply set_range; [exact Ej|exact Hk|exact H2].
      + split; [exact H1|]. eapply set_range; [exact Ej| |exact H2]. apply (H2 _ _ Ej).
      + split; [exact H1|]. eapply set_range; [exact Ej| |exact H2]. apply (H2 _ _ Ej).
      + split; [exact H1|]. eapply set_range; [exact Ej| |exact H2]. apply (H2 _ _ Ej).
  Qed.
  Lemma acts_range : forall l y y', acts y l = Some y' -> in_range y ->
    in_range y' /\ exists ws, p_waits (y_plm y') = p_waits (y_plm y) ++ ws /\ Forall T ws.
  Proof.
    induction l as [|a l IH]; intros y y' H Hy; cbn [acts] in H.
    - injection H as <-. split; [exact Hy|]. exists []. rewrite app_nil_r. auto.
    - destruct (act y a) as [y1|] eqn:Ea; [|discriminate H]. destruct (act_range _ _ _ Ea Hy) as (R1 & w1 & W1 & F1).
      destruct (IH _ _ H R1) as (R2 & w2 & W2 & F2). split; [exact R2|]. exists (w1 ++ w2). rewrite W2, W1, app_assoc. split; [reflexivity|].
      apply Forall_app. auto.
  Qed.
  Lemma started_range : forall st d calls, T (p_timeout st) -> (In KReset calls -> T reset_timeout) -> in_range (started st d calls).
  Proof.
    intros st d calls H1 H2. split; [exact H1|]. intros i g Hg. cbn [started y_gors] in Hg. rewrite nth_error_map in Hg.
    destruct (nth_error calls i) as [k|] eqn:Ek; [|discriminate Hg]. injection Hg as <-. cbn [g_rest]. apply assigns_call.
    intros ->. apply H2. eapply nth_error_In; eauto.
  Qed.
End Timeouts.

(** With one goroutine assigning the time-out: what it will be when that one is done. *)
Fixpoint restores {A} (t0 cur : Z) (c : client A) : Prop :=
  match c with
  | CDone (Ret _) => cur = t0
  | CDone _ => True
  | CSend _ k => forall e, restores t0 cur (k e)
  | CRecv _ k => forall r, restores t0 cur (k r)
  | CGetTimeout k => restores t0 cur (k cur)
  | CSetTimeout t k => restores t0 t k
  | CGetAddr k => forall a, restores t0 cur (k a)
  | CSetAddr _ k => restores t0 cur k
  | CDb _ k => forall d, restores t0 cur (k d)
  end.
Lemma restores_bind : forall A B t0 (c : client A) (f : A -> client B) cur, silent c -> (forall a, restores t0 cur (f a)) -> restores t0 cur (cbind c f).
Proof.
  intros A B t0 c f cur. induction c as [o|b k IH|q k IH|k IH|t c IH|k IH|t c IH|f0 k IH]; intros H Hf; cbn [silent restores cbind] in *; auto; try contradiction.
  destruct o; cbn; auto.
Qed.
Lemma restores_reset : forall retries t0, restores t0 t0 (call_client retries KReset).
Proof.
  intros. cbn [call_client cmap cl_reset cbind restores]. unfold cl_retry.
  assert (G : forall c : client pw_result, silent c -> restores t0 reset_timeout
    (cbind (cbind c (fun '(_, e) => CSetTimeout t0 (CDone (Ret e)))) (fun a => CDone (Ret (RsError a))))).
  { intros c. induction c as [o|b k IH|q k IH|k IH|t c IH|k IH|t c IH|f0 k IH]; intros H; cbn [silent restores cbind] in *; auto; try contradiction.
    destruct o as [[a e]| |]; cbn; auto. }
  apply G. apply silent_retry.
Qed.

Definition one_assigns (t0 : Z) (i : nat) (y : sys) : Prop :=
  forall j g, nth_error (y_gors y) j = Some g -> if Nat.eqb j i then restores t0 (p_timeout (y_plm y)) (g_rest g) else silent (g_rest g).

Lemma one_set : forall t0 i j y g0 g st d got put, one_assigns t0 i y -> nth_error (y_gors y) j = Some g0 -> p_timeout st = p_timeout (y_plm y) ->
  ((if Nat.eqb j i then restores t0 (p_timeout (y_plm y)) (g_rest g0) else silent (g_rest g0)) ->
   if Nat.eqb j i then restores t0 (p_timeout (y_plm y)) (g_rest g) else silent (g_rest g)) ->
  one_assigns t0 i (mkSys st d (list_set (y_gors y) j g) got put).
Proof.
  intros t0 i j y g0 g st d got put H Hj Ht Hg m x Hm. cbn [y_gors y_plm] in *. rewrite Ht. destruct (Nat.eq_dec m j) as [->|Hn].
  - rewrite (set_same _ _ _ _ _ Hj) in Hm. injection Hm as <-. apply Hg. apply (H _ _ Hj).
  - rewrite nth_error_list_set_neq in Hm by auto. apply (H _ _ Hm).
Qed.

Lemma act_one : forall t0 i y y1 a, act y a = Some y1 -> one_assigns t0 i y -> one_assigns t0 i y1.
Proof.
  intros t0 i y y1 a Ea H.
  destruct a as [e|j werr|j|j|j|j]; cbn [act] in Ea.
  - injection Ea as <-. destruct (reader_turn_fields (y_plm y) e) as (_ & _ & _ & F4 & _). intros m x Hm. cbn [y_plm y_gors] in *. rewrite F4. apply (H _ _ Hm).
  - destruct (nth_error (y_gors y) j) as [[[|] [o|buf k|q0 k|k|t k|k|t k|f0 k]]|] eqn:Ej; try discriminate Ea. injection Ea as <-.
    eapply one_set; [exact H|exact Ej|reflexivity|]. cbn [g_rest]. destruct (Nat.eqb j i); cbn; auto.
  - destruct (nth_error (y_gors y) j) as [[[|] [o|buf k|q0 k|k|t k|k|t k|f0 k]]|] eqn:Ej; try discriminate Ea. injection Ea as <-.
    eapply one_set; [exact H|exact Ej|reflexivity|]. cbn [g_rest]. auto.
  - destruct (nth_error (y_gors y) j) as [[[|] [o|buf k|q0 k|k|t k|k|t k|f0 k]]|] eqn:Ej; try discriminate Ea.
    destruct (queue_of q0 (y_plm y)) as [|p rest]; [destruct (p_closed (y_plm y)); [|discriminate Ea]|]; injection Ea as <-.
    + eapply one_set; [exact H|exact Ej|reflexivity|]. cbn [g_rest]. destruct (Nat.eqb j i); cbn; auto.
    + eapply one_set; [exact H|exact Ej|apply set_queue_fields|]. cbn [g_rest]. destruct (Nat.eqb j i); cbn; auto.
  - destruct (nth_error (y_gors y) j) as [[[|] [o|buf k|q0 k|k|t k|k|t k|f0 k]]|] eqn:Ej; try discriminate Ea. injection Ea as <-.
    eapply one_set; [exact H|exact Ej|reflexivity|]. cbn [g_rest]. destruct (Nat.eqb j i); cbn; auto.
  - destruct (nth_error (y_gors y) j) as [[[|] [o|buf k|q0 k|k|t k|k|t k|f0 k]]|] eqn:Ej; try discriminate Ea; injection Ea as <-.
    + eapply one_set; [exact H|exact Ej|reflexivity|]. cbn [g_rest]. destruct (Nat.eqb j i); cbn; auto. contradiction.
    + pose proof (H _ _ Ej) as Hj. cbn [g_rest] in Hj. destruct (Nat.eqb_spec j i) as [->|Hn]; [|destruct Hj]. cbn [restores] in Hj.
      intros m x Hm. cbn [set_gor y_gors y_plm set_timeout p_timeout] in *. destruct (Nat.eqb_spec m i) as [->|Hn].
      * rewrite (set_same _ _ _ _ _ Ej) in Hm. injection Hm as <-. exact Hj.
      * rewrite nth_error_list_set_neq in Hm by auto. specialize (H _ _ Hm). destruct (Nat.eqb_spec m i); [contradiction|exact H].
    + eapply one_set; [exact H|exact Ej|reflexivity|]. cbn [g_rest]. destruct (Nat.eqb j i); cbn; auto.
    + eapply one_set; [exact H|exact Ej|reflexivity|]. cbn [g_rest]. destruct (Nat.eqb j i); cbn; auto.
    + eapply one_set; [exact H|exact Ej|reflexivity|]. cbn [g_rest]. destruct (Nat.eqb j i); cbn; auto.
Qed.
Lemma acts_one : forall t0 i l y y', acts y l = Some y' -> one_assigns t0 i y -> one_assigns t0 i y'.
Proof.
  intros t0 i l. induction l as [|a l IH]; intros y y' H Hy; cbn [acts] in H; [injection H as <-; exact Hy|].
  destruct (act y a) as [y1|] eqn:Ea; [|discriminate H]. eapply IH; [exact H|]. eapply act_one; eauto.
Qed.
