(** Proofs for Props_ConcDb.v: what a goroutine does to shared memory, and what it may rely on. *)
From Coq Require Import ZArith List Bool Lia ZifyBool ZifyNat.
From Verif Require Import GoBase GoLemmas GoSlice GoProg Address AddressProofs Link Message PlmPacket Plm PlmSpec PlmProofs PlmLinkdb Conc ConcSpec ConcProofs ConcDbSpec MemProofs.
Import ListNotations.
Open Scope Z_scope.
Ltac Zify.zify_post_hook ::= Z.div_mod_to_equations.

Definition hist : Type := list (which * packet).

(** ** One goroutine *)
Section Keeps.
  (** The values the modem's address may have, the states of the link database, the histories that are possible, what the others may do to
      the database, what this goroutine may do to it, what it may send, and how a write to the port may end. *)
  Variables (AA : Z -> Prop) (D : dbmem -> Prop) (ok : hist -> Prop) (rely guar : dbmem -> dbmem -> Prop) (Sd : list Z -> Prop) (We : option error -> Prop).
  Fixpoint keeps {A} (R : hist -> dbmem -> A -> Prop) (hi : hist) (d0 : dbmem) (c : client A) : Prop :=
    match c with
    | CDone o => forall a, o = Ret a -> R hi d0 a
    | CSend b k => Sd b /\ forall e, We e -> keeps R hi d0 (k e)
    | CRecv q k => (forall p, ok (hi ++ [(q, p)]) -> keeps R (hi ++ [(q, p)]) d0 (k (RPacket p))) /\ keeps R hi d0 (k RNil) /\ keeps R hi d0 (k RTimeout)
    | CGetTimeout k => forall t, keeps R hi d0 (k t)
    | CSetTimeout _ k => keeps R hi d0 k
    | CGetAddr k => forall a, AA a -> keeps R hi d0 (k a)
    | CSetAddr a k => AA a /\ keeps R hi d0 k
    | CDb f k => forall d, D d -> rely d0 d -> D (f d) /\ guar d (f d) /\ keeps R hi (f d) (k d)
    end.
  Lemma keeps_bind : forall A B (R : hist -> dbmem -> B -> Prop) (c : client A) (f : A -> client B) hi d0,
    keeps (fun hi d a => keeps R hi d (f a)) hi d0 c -> keeps R hi d0 (cbind c f).
  Proof.
    intros A B R c f. induction c as [o|b k IH|q k IH|k IH|t c IH|k IH|t c IH|f0 k IH]; intros hi d0 H; cbn [keeps cbind] in *.
    - destruct o as [a| |]; [exact (H a eq_refl)|cbn; discriminate|cbn; discriminate].
    - destruct H as [H1 H2]. split; [exact H1|]. intros e He. apply IH. apply H2. exact He.
    - destruct H as (H1 & H2 & H3). split; [intros p Hp; apply IH; apply H1; exact Hp|]. split; apply IH; assumption.
    - intro t. apply IH. apply H.
    - apply IH. exact H.
    - intros a Ha. apply IH. apply H. exact Ha.
    - destruct H as [H1 H2]. split; [exact H1|]. apply IH. exact H2.
    - intros d Hd Hr. destruct (H d Hd Hr) as (H1 & H2 & H3). split; [exact H1|]. split; [exact H2|]. apply IH. exact H3.
  Qed.
  Lemma keeps_mono : forall A (R Q : hist -> dbmem -> A -> Prop) (c : client A) hi d0,
    (forall hi d a, R hi d a -> Q hi d a) -> keeps R hi d0 c -> keeps Q hi d0 c.
  Proof.
    intros A R Q c. induction c as [o|b k IH|q k IH|k IH|t c IH|k IH|t c IH|f0 k IH]; intros hi d0 M H; cbn [keeps] in *.
    - intros a Ha. apply M. apply H. exact Ha.
    - destruct H as [H1 H2]. split; [exact H1|]. intros e He. apply IH; auto.
    - destruct H as (H1 & H2 & H3). split; [intros p Hp; apply IH; auto|]. split; apply IH; auto.
    - intro t. apply IH; auto.
    - apply IH; auto.
    - intros a Ha. apply IH; auto.
    - destruct H as [H1 H2]. split; [exact H1|]. apply IH; auto.
    - intros d Hd Hr. destruct (H d Hd Hr) as (H1 & H2 & H3). split; [exact H1|]. split; [exact H2|]. apply IH; auto.
  Qed.
  Lemma keeps_ok : forall A (R : hist -> dbmem -> A -> Prop) (c : client A) hi d0, ok hi -> keeps R hi d0 c -> keeps (fun hi d a => ok hi /\ R hi d a) hi d0 c.
  Proof.
    intros A R c. induction c as [o|b k IH|q k IH|k IH|t c IH|k IH|t c IH|f0 k IH]; intros hi d0 M H; cbn [keeps] in *.
    - intros a Ha. split; [exact M|]. apply H. exact Ha.
    - destruct H as [H1 H2]. split; [exact H1|]. intros e He. apply IH; auto.
    - destruct H as (H1 & H2 & H3). split; [intros p Hp; apply IH; auto|]. split; apply IH; auto.
    - intro t. apply IH; auto.
    - apply IH; auto.
    - intros a Ha. apply IH; auto.
    - destruct H as [H1 H2]. split; [exact H1|]. apply IH; auto.
    - intros d Hd Hr. destruct (H d Hd Hr) as (H1 & H2 & H3). split; [exact H1|]. split; [exact H2|]. apply IH; auto.
  Qed.
  (** A goroutine that touches neither the address nor the database. *)
  Fixpoint plain {A} (c : client A) : Prop :=
    match c with
    | CDone _ => True
    | CSend b k => Sd b /\ forall e, plain (k e)
    | CRecv _ k => forall r, plain (k r)
    | CGetTimeout k => forall t, plain (k t)
    | CSetTimeout _ k => plain k
    | CGetAddr _ | CSetAddr _ _ | CDb _ _ => False
    end.
  Lemma plain_bind : forall A B (c : client A) (f : A -> client B), plain c -> (forall a, plain (f a)) -> plain (cbind c f).
  Proof.
    intros A B c f. induction c as [o|b k IH|q k IH|k IH|t c IH|k IH|t c IH|f0 k IH]; intros H Hf; cbn [plain cbind] in *; auto; try contradiction.
    - destruct o; cbn; auto.
    - destruct H as [H1 H2]. auto.
  Qed.
  Lemma plain_keeps : forall A (R : hist -> dbmem -> A -> Prop) P (c : client A) hi ho d0, plain c -> follows P hi ho c ->
    (forall hi' ho' a, P hi' ho' (Some (Ret a)) -> R hi' d0 a) -> keeps R hi d0 c.
  Proof.
    intros A R P c. induction c as [o|b k IH|q k IH|k IH|t c IH|k IH|t c IH|f0 k IH]; intros hi ho d0 Hp F H; cbn [plain follows keeps] in *; try contradiction.
    - intros a ->. exact (H _ _ _ F).
    - destruct Hp as [P1 P2], F as [F1 F2]. split; [exact P1|]. intros e _. exact (IH e _ _ _ (P2 e) (F2 e) H).
    - destruct F as (F1 & F2 & F3 & F4). split; [intros p _; exact (IH _ _ _ _ (Hp _) (F2 p) H)|]. split; [exact (IH _ _ _ _ (Hp _) F3 H)|exact (IH _ _ _ _ (Hp _) F4 H)].
    - destruct F as [F1 F2]. intro t. exact (IH t _ _ _ (Hp t) (F2 t) H).
    - destruct F as [F1 F2]. exact (IH _ _ _ Hp F2 H).
  Qed.
  (** When nothing is asked of the result. *)
  Lemma plain_any : forall A (R : hist -> dbmem -> A -> Prop) (c : client A) hi d0, plain c -> (forall hi a, R hi d0 a) -> keeps R hi d0 c.
  Proof.
    intros A R c. induction c as [o|b k IH|q k IH|k IH|t c IH|k IH|t c IH|f0 k IH]; intros hi d0 Hp H; cbn [plain keeps] in *; try contradiction; auto.
    - destruct Hp. auto.
  Qed.
  Lemma plain_write_packet : forall pkt, Sd (pkt_marshal pkt) -> plain (cl_write_packet pkt).
  Proof. intros pkt H. cbn [cl_write_packet plain]. split; [exact H|]. intros [e|]; [exact I|]. unfold cl_read_packet. cbn [cbind plain]. intros [p| |]; exact I. Qed.
  Lemma plain_retry : forall n nak pkt last, Sd (pkt_marshal pkt) -> plain (cl_retry_loop n nak pkt last).
  Proof.
    induction n as [|n IH]; intros nak pkt last H; cbn [cl_retry_loop]; [exact I|]. apply plain_bind; [apply plain_write_packet; exact H|].
    intros [ack err]. destruct ((err_is err EPlmNak && nak) || err_is err EPlmReadTimeout); [apply IH; exact H|exact I].
  Qed.
  Lemma plain_await : forall fuel dst, plain (cl_await fuel dst).
  Proof.
    induction fuel as [|k IH]; intros dst; cbn [cl_await]; [exact I|]. apply plain_bind; [cbn; intros; exact I|].
    intros [[m|] [e|]]; try exact I. destruct ((m_src m =? dst) && (fl_ack (m_flags m) || fl_nak (m_flags m))); [exact I|apply IH].
  Qed.
  Lemma plain_loop : forall fuel retries links err, Sd [0x02; 0x6a] -> plain (cl_refresh_loop fuel retries links err).
  Proof.
    induction fuel as [|k IH]; intros retries links [e|] H; cbn [cl_refresh_loop]; try exact I.
    apply plain_bind; [cbn; intros; exact I|]. intros [[p|] [e|]]; try exact I.
    destruct (p_cmd p =? pc_AllLinkRecordResp); [|apply IH; exact H]. destruct (link_unmarshal link_zero (p_payload p)) as [l [e|]]; [exact I|].
    apply plain_bind; [apply plain_retry; exact H|]. intros [a e]. apply IH. exact H.
  Qed.
  (** All calls but the three that touch shared memory. *)
  Definition apart (k : call) : Prop := match k with KAddress | KLinks _ _ _ | KWriteLinks _ _ _ => False | _ => True end.
  Lemma plain_call : forall retries k, apart k -> (forall b, Sd b) -> plain (call_client retries k).
  Proof.
    intros retries k Hk Hs.
    assert (M : forall pkt, plain (cl_mode pkt)) by (intro pkt; apply plain_bind; [apply plain_write_packet; auto|]; intros [a e]; exact I).
    destruct k as [| |pkt|pkt|fuel msg| | | |c| |group| |group|fuel spare now|fuel grow ls]; cbn [call_client apart] in *; try contradiction; apply plain_bind; try (intro; exact I); auto.
    - apply plain_write_packet. auto.
    - apply plain_retry. auto.
    - apply plain_bind; [apply plain_retry; auto|]. intros [a [e|]]; [exact I|apply plain_await].
    - apply plain_bind; [apply plain_retry; auto|]. intros [[a|] [e|]]; exact I.
    - cbn [cl_reset plain]. intro t. apply plain_bind; [apply plain_retry; auto|]. intros [a e]. exact I.
    - apply plain_bind; [apply plain_retry; auto|]. intros [[a|] [e|]]; exact I.
    - apply plain_bind; [apply plain_retry; auto|]. intros [a e]. exact I.
  Qed.
End Keeps.

(** ** All goroutines *)
Section System.
  Variables (AA : Z -> Prop) (D : dbmem -> Prop) (ok : nat -> hist -> Prop) (rely : nat -> dbmem -> dbmem -> Prop) (Sd : nat -> list Z -> Prop) (We : option error -> Prop)
            (R : nat -> hist -> dbmem -> cresult -> Prop).
  Hypothesis rely_refl : forall i d, rely i d d.
  Hypothesis rely_trans : forall i a b c, rely i a b -> rely i b c -> rely i a c.
  Hypothesis ok_prefix : forall i h t, ok i (h ++ t) -> ok i h.
  Definition guar (i : nat) (d d' : dbmem) : Prop := forall j, j <> i -> rely j d d'.
  Definition inv (y : sys) : Prop :=
    AA (p_addr (y_plm y)) /\ D (y_db y) /\ (forall i b, In (i, b) (y_put y) -> Sd i b) /\
    forall i g, nth_error (y_gors y) i = Some g ->
      exists d0, rely i d0 (y_db y) /\ keeps AA D (ok i) (rely i) (guar i) (Sd i) We (R i) (by_gor i (y_got y)) d0 (g_rest g).

  Lemma turn_addr_same : forall st e, p_addr (reader_turn st e) = p_addr st.
  Proof.
    intros st e. pose proof (turn_addr st e (p_addr st)) as H. replace (set_addr st (p_addr st)) with st in H by (destruct st; reflexivity). rewrite H.
    destruct (reader_turn st e); reflexivity.
  Qed.

  Lemma inv_set : forall y i g0 g st d got put d0,
    inv y -> nth_error (y_gors y) i = Some g0 -> AA (p_addr st) -> D d -> guar i (y_db y) d ->
    (forall j b, In (j, b) put -> Sd j b) -> (forall j, j <> i -> by_gor j got = by_gor j (y_got y)) -> rely i d0 d ->
    keeps AA D (ok i) (rely i) (guar i) (Sd i) We (R i) (by_gor i got) d0 (g_rest g) ->
    inv (mkSys st d (list_set (y_gors y) i g) got put).
  Proof.
    intros y i g0 g st d got put d0 (I1 & I2 & I3 & I4) Hg Ha Hd Hgu Hput Hgot Hr Hk. split; [exact Ha|]. split; [exact Hd|]. split; [exact Hput|].
    cbn [y_gors y_got y_db]. intros j gj Hj. destruct (Nat.eq_dec j i) as [->|Hn].
    - rewrite (ConcProofs.set_same _ _ _ _ _ Hg) in Hj. injection Hj as <-. exists d0. auto.
    - rewrite nth_error_list_set_neq in Hj by auto.
      destruct (I4 j gj Hj) as (d1 & R1 & K1). exists d1. split; [exact (rely_trans _ _ _ _ R1 (Hgu j Hn))|]. rewrite (Hgot j Hn). exact K1.
  Qed.

  Definition port_ok (a : action) : Prop := match a with ASend _ e => We e | _ => True end.
  Lemma act_inv : forall y y1 a, act y a = Some y1 -> port_ok a -> (forall i, ok i (by_gor i (y_got y1))) -> inv y -> inv y1.
  Proof.
    intros y y1 a H Hpo Hok Hi. pose proof Hi as (I1 & I2 & I3 & I4).
    assert (G0 : forall i, guar i (y_db y) (y_db y)) by (intros i j _; apply rely_refl).
    destruct a as [e|i werr|i|i|i|i]; cbn [act] in H.
    - injection H as <-. split; [cbn; rewrite turn_addr_same; exact I1|]. auto.
    - destruct (nth_error (y_gors y) i) as [[[|] [o|buf k|q k|k|t k|k|t k|f k]]|] eqn:Eg; try discriminate H. injection H as <-.
      destruct (I4 i _ Eg) as (d0 & R0 & K0). cbn [g_rest keeps] in K0. destruct K0 as [K1 K2].
      apply (inv_set y i _ _ _ _ _ _ d0 Hi Eg); cbn [g_rest y_got]; auto.
      intros j b Hb. apply in_app_or in Hb. destruct Hb as [Hb|[E|[]]]; [exact (I3 j b Hb)|]. injection E as <- <-. exact K1.
    - destruct (nth_error (y_gors y) i) as [[[|] [o|buf k|q k|k|t k|k|t k|f k]]|] eqn:Eg; try discriminate H. injection H as <-.
      destruct (I4 i _ Eg) as (d0 & R0 & K0). apply (inv_set y i _ _ _ _ _ _ d0 Hi Eg); auto.
    - destruct (nth_error (y_gors y) i) as [[[|] [o|buf k|q k|k|t k|k|t k|f k]]|] eqn:Eg; try discriminate H.
      destruct (I4 i _ Eg) as (d0 & R0 & K0). cbn [g_rest keeps] in K0. destruct K0 as (K1 & K2 & K3).
      destruct (queue_of q (y_plm y)) as [|p rest] eqn:Eq.
      + destruct (p_closed (y_plm y)); [|discriminate H]. injection H as <-. apply (inv_set y i _ _ _ _ _ _ d0 Hi Eg); auto.
      + injection H as <-. cbn [y_got] in Hok. specialize (Hok i). rewrite by_gor_own in Hok.
        apply (inv_set y i _ _ _ _ _ _ d0 Hi Eg); cbn [g_rest]; auto.
        * destruct q; exact I1.
        * intros j Hn. apply by_gor_other. congruence.
        * rewrite by_gor_own. apply K1. exact Hok.
    - destruct (nth_error (y_gors y) i) as [[[|] [o|buf k|q k|k|t k|k|t k|f k]]|] eqn:Eg; try discriminate H. injection H as <-.
      destruct (I4 i _ Eg) as (d0 & R0 & K0). cbn [g_rest keeps] in K0. destruct K0 as (K1 & K2 & K3). apply (inv_set y i _ _ _ _ _ _ d0 Hi Eg); auto.
    - destruct (nth_error (y_gors y) i) as [[[|] [o|buf k|q k|k|t k|k|t k|f k]]|] eqn:Eg; try discriminate H; injection H as <-;
        destruct (I4 i _ Eg) as (d0 & R0 & K0); cbn [g_rest keeps] in K0.
      + apply (inv_set y i _ _ _ _ _ _ d0 Hi Eg); cbn [g_rest]; auto.
      + apply (inv_set y i _ _ _ _ _ _ d0 Hi Eg); cbn [g_rest]; auto.
      + apply (inv_set y i _ _ _ _ _ _ d0 Hi Eg); cbn [g_rest]; auto.
      + destruct K0 as [K1 K2]. apply (inv_set y i _ _ _ _ _ _ d0 Hi Eg); cbn [g_rest]; auto.
      + destruct (K0 (y_db y) I2 R0) as (K1 & K2 & K3). apply (inv_set y i _ _ _ _ _ _ (f (y_db y)) Hi Eg); cbn [g_rest]; auto.
  Qed.
  Lemma got_grows : forall l y y', acts y l = Some y' -> exists t, y_got y' = y_got y ++ t.
  Proof.
    induction l as [|a l IH]; intros y y' H; cbn [acts] in H; [injection H as <-; exists []; symmetry; apply app_nil_r|].
    destruct (act y a) as [y1|] eqn:Ea; [|discriminate H]. destruct (IH _ _ H) as (t & ->).
    assert (E : exists t0, y_got y1 = y_got y ++ t0).
    { destruct a as [e|i werr|i|i|i|i]; cbn [act] in Ea;
        [injection Ea as <-; exists []; symmetry; apply app_nil_r|..];
        destruct (nth_error (y_gors y) i) as [[[|] [o|buf k|q k|k|tt k|k|tt k|f k]]|] eqn:Eg; try discriminate Ea;
        try (injection Ea as <-; exists []; symmetry; apply app_nil_r).
      destruct (queue_of q (y_plm y)) as [|p rest]; [destruct (p_closed (y_plm y)); [|discriminate Ea]|]; injection Ea as <-; cbn [y_got set_gor]; [exists []; symmetry; apply app_nil_r|eauto]. }
    destruct E as (t0 & ->). exists (t0 ++ t). symmetry. apply app_assoc.
  Qed.
  Lemma acts_inv : forall l y y', acts y l = Some y' -> Forall port_ok l -> (forall i, ok i (by_gor i (y_got y'))) -> inv y -> inv y'.
  Proof.
    induction l as [|a l IH]; intros y y' H Hpo Hok Hi; cbn [acts] in H; [injection H as <-; exact Hi|]. inversion Hpo; subst.
    destruct (act y a) as [y1|] eqn:Ea; [|discriminate H]. apply (IH y1 y' H); [assumption|exact Hok|]. apply (act_inv y y1 a Ea); [assumption| |exact Hi].
    intro i. destruct (got_grows _ _ _ H) as (t & E). specialize (Hok i). rewrite E, by_gor_app in Hok. exact (ok_prefix _ _ _ Hok).
  Qed.
  Lemma started_inv : forall st d calls, AA (p_addr st) -> D d ->
    (forall i k, nth_error calls i = Some k -> keeps AA D (ok i) (rely i) (guar i) (Sd i) We (R i) [] d (call_client (p_retries st) k)) -> inv (started st d calls).
  Proof.
    intros st d calls Ha Hd Hk. split; [exact Ha|]. split; [exact Hd|]. split; [intros i b []|]. cbn [started y_gors y_got y_db]. intros i g Hg.
    rewrite nth_error_map in Hg. destruct (nth_error calls i) as [k|] eqn:Ek; [|discriminate Hg]. injection Hg as <-. exists d. split; [apply rely_refl|].
    apply Hk. exact Ek.
  Qed.
  (** What holds of a finished call. *)
  Lemma inv_finished : forall y i r, inv y -> finished y i = Some (Ret r) -> exists d0, rely i d0 (y_db y) /\ R i (by_gor i (y_got y)) d0 r.
  Proof.
    intros y i r (_ & _ & _ & I4) Hf. unfold finished in Hf. destruct (nth_error (y_gors y) i) as [[w c]|] eqn:Eg; [|discriminate Hf].
    destruct c; try discriminate Hf. injection Hf as ->. destruct (I4 i _ Eg) as (d0 & R0 & K). exists d0. split; [exact R0|]. exact (K r eq_refl).
  Qed.
End System.

(** ** Walking over the modem's records *)
Lemma walked_app : forall a b, walked (a ++ b) = walked a ++ walked b.
Proof. intros a b. unfold walked. apply flat_map_app. Qed.
Lemma walked_other : forall q p, p_cmd p <> 0x57 -> walked [(q, p)] = [].
Proof.
  intros q p H. unfold walked, record_in. cbn [flat_map fst snd]. replace (p_cmd p =? 0x57) with false by (symmetry; apply Z.eqb_neq; exact H).
  destruct q; [reflexivity|]. destruct (p_payload p) as [|? [|? [|? [|? [|? [|? [|? [|? ?]]]]]]]]; reflexivity.
Qed.
Lemma walked_record : forall p l, p_cmd p = 0x57 -> link_unmarshal link_zero (p_payload p) = (l, None) -> record_in p = Some l.
Proof.
  intros p l H E. unfold record_in. rewrite H. cbn [Z.eqb Pos.eqb]. unfold link_unmarshal in E.
  destruct (p_payload p) as [|f [|g [|a [|b [|c [|d0 [|d1 [|d2 t]]]]]]]]; try discriminate E. injection E as <-. rewrite addr_put3. reflexivity.
Qed.
Lemma judge_nak : forall pkt p a e, judge_ack pkt (Some p) = Ret (a, e) -> e = Some EPlmNak -> nak_reply p.
Proof.
  intros pkt p a e H ->. unfold judge_ack in H.
  match type of H with bindo ?x _ = _ => destruct x as [err| |] eqn:Ex; cbn [bindo] in H; try discriminate end.
  injection H as _ He. destruct (pkt_is_nak p) eqn:En; [apply pkt_is_nak_iff; exact En|]. subst err. exfalso.
  repeat match type of Ex with (if ?b then _ else _) = _ => destruct b; try discriminate Ex end.
  - injection Ex as Ex. destruct (bytes_eqb _ _) in Ex; discriminate Ex.
  - injection Ex as Ex. destruct (bytes_eqb _ _) in Ex; discriminate Ex.
Qed.
Lemma judge_kept : forall pkt p a e, judge_ack pkt (Some p) = Ret (a, e) -> e = None \/ e = Some EPlmNak -> 0x60 <= p_cmd p.
Proof.
  intros pkt p a e H [E|E]; subst e.
  - pose proof (judge_shape _ _ _ H) as Hs. cbn in Hs. subst a. apply judge_success in H. destruct H. assumption.
  - apply judge_nak in H; [|reflexivity]. destruct H. assumption.
Qed.

Section Walk.
  Variables (AA : Z -> Prop) (D : dbmem -> Prop) (ok : hist -> Prop) (rely guar : dbmem -> dbmem -> Prop) (Sd : list Z -> Prop) (We : option error -> Prop).
  Hypothesis port_no_nak : ~ We (Some EPlmNak).
  Notation keeps := (keeps AA D ok rely guar Sd We).

  Lemma keep_write_packet : forall pkt hi d0 (R : hist -> dbmem -> pw_result -> Prop), Sd (pkt_marshal pkt) ->
    (forall e, We (Some e) -> R hi d0 (None, Some e)) ->
    (forall p a e, ok (hi ++ [(QPkt, p)]) -> judge_ack pkt (Some p) = Ret (a, e) -> R (hi ++ [(QPkt, p)]) d0 (a, e)) ->
    R hi d0 (None, Some (EWrap EPlmReadTimeout)) -> keeps R hi d0 (cl_write_packet pkt).
  Proof.
    intros pkt hi d0 R Hs H1 H2 H3. unfold cl_write_packet, cl_read_packet. cbn [ConcDbProofs.keeps cbind]. split; [exact Hs|]. intros [e|] He; cbn [ConcDbProofs.keeps cbind].
    - intros a Ha. injection Ha as <-. apply H1. exact He.
    - split; [intros p Hp [a e] Ha; exact (H2 p a e Hp Ha)|]. split; intros a Ha; [discriminate Ha|]. injection Ha as <-. exact H3.
  Qed.

  Definition quiet (hi0 : hist) (d0 : dbmem) (hi : hist) (d : dbmem) (r : pw_result) : Prop :=
    d = d0 /\ (snd r = None \/ snd r = Some EPlmNak -> exists h, hi = hi0 ++ h /\ walked h = []) /\ (snd r = Some EPlmNak -> ends_refused hi).
  Lemma keep_retry : forall n nak pkt last hi0 h d0, Sd (pkt_marshal pkt) -> walked h = [] -> (snd last = Some EPlmNak -> ends_refused (hi0 ++ h)) ->
    keeps (quiet hi0 d0) (hi0 ++ h) d0 (cl_retry_loop n nak pkt last).
  Proof.
    induction n as [|n IH]; intros nak pkt last hi0 h d0 Hs Hh Hl; cbn [cl_retry_loop].
    - cbn [ConcDbProofs.keeps]. intros a Ha. injection Ha as <-. split; [reflexivity|]. split; [|exact Hl]. intros _. exists h. auto.
    - apply keeps_bind. apply keep_write_packet; [exact Hs|..].
      + intros e He. destruct ((err_is (Some e) EPlmNak && nak) || err_is (Some e) EPlmReadTimeout).
        * apply IH; [exact Hs|exact Hh|]. cbn [snd]. intro E. injection E as ->. contradiction.
        * cbn [ConcDbProofs.keeps]. intros a Ha. injection Ha as <-. split; [reflexivity|]. cbn [snd]. split; [intros [E|E]; [discriminate E|]|intro E]; injection E as ->; contradiction.
      + intros p a e Hp Hj.
        assert (Q : e = None \/ e = Some EPlmNak -> walked (h ++ [(QPkt, p)]) = []).
        { intro E. rewrite walked_app, Hh. cbn [app]. apply walked_other. pose proof (judge_kept _ _ _ _ Hj E). lia. }
        assert (Z : e = Some EPlmNak -> ends_refused ((hi0 ++ h) ++ [(QPkt, p)])).
        { intro E. exists (hi0 ++ h), p. split; [reflexivity|]. exact (judge_nak _ _ _ _ Hj E). }
        destruct ((err_is e EPlmNak && nak) || err_is e EPlmReadTimeout) eqn:Er.
        * destruct (err_is e EPlmNak) eqn:En.
          -- assert (En' : e = Some EPlmNak) by (destruct e as [[]|]; cbn in En; try discriminate En; reflexivity).
             rewrite <- app_assoc in Z |- *. apply IH; [exact Hs|apply Q; right; exact En'|]. cbn [snd]. exact Z.
          -- exfalso. cbn [andb orb] in Er. assert (Et : e = Some EPlmReadTimeout) by (destruct e as [[]|]; cbn in Er; try discriminate Er; reflexivity). subst e.
             unfold judge_ack in Hj. match type of Hj with bindo ?x _ = _ => destruct x as [err| |] eqn:Ex; cbn [bindo] in Hj; try discriminate end.
             injection Hj as _ He. destruct (pkt_is_nak p); [discriminate He|]. subst err.
             repeat match type of Ex with (if ?b then _ else _) = _ => destruct b; try discriminate Ex end;
               injection Ex as Ex; destruct (bytes_eqb _ _) in Ex; discriminate Ex.
        * cbn [ConcDbProofs.keeps]. intros r Hr. injection Hr as <-. split; [reflexivity|]. cbn [snd]. split; [|exact Z].
          intro E. exists (h ++ [(QPkt, p)]). split; [symmetry; apply app_assoc|apply Q; exact E].
      + cbn [err_is error_eqb andb orb]. cbn [ConcDbProofs.keeps]. intros r Hr. injection Hr as <-. split; [reflexivity|]. cbn [snd]. split; [intros [E|E]; discriminate E|intro E; discriminate E].
  Qed.
  Definition walks (d0 : dbmem) (hi : hist) (d : dbmem) (r : list link * option error) : Prop :=
    d = d0 /\ snd r <> None /\ (snd r = Some EPlmNak -> walked hi = fst r /\ ends_refused hi).
  Lemma keep_loop : forall fuel retries links err hi d0, Sd [0x02; 0x6a] -> (err = None -> walked hi = links) ->
    (err = Some EPlmNak -> walked hi = links /\ ends_refused hi) -> keeps (walks d0) hi d0 (cl_refresh_loop fuel retries links err).
  Proof.
    assert (Z0 : forall links e hi d0, (Some e = Some EPlmNak -> walked hi = links /\ ends_refused hi) -> keeps (walks d0) hi d0 (CDone (Ret (links, Some e)))).
    { intros links e hi d0 H. cbn [ConcDbProofs.keeps]. intros a Ha. injection Ha as <-. split; [reflexivity|]. split; [discriminate|exact H]. }
    induction fuel as [|k IH]; intros retries links [e|] hi d0 Hs H1 H2; cbn [cl_refresh_loop].
    - apply Z0. exact H2.
    - cbn [ConcDbProofs.keeps]. intros a Ha. discriminate Ha.
    - apply Z0. exact H2.
    - apply keeps_bind. unfold cl_read_packet. cbn [ConcDbProofs.keeps]. split; [|split].
      * intros p _ r Hr. injection Hr as <-. cbn [ConcDbProofs.keeps]. destruct (p_cmd p =? pc_AllLinkRecordResp) eqn:Ec.
        -- destruct (link_unmarshal link_zero (p_payload p)) as [l [e|]] eqn:El.
          ++ cbn [ConcDbProofs.keeps]. intros a Ha. injection Ha as <-. split; [reflexivity|]. split; [discriminate|]. cbn [snd fst]. intro E. injection E as ->.
            exfalso. unfold link_unmarshal in El. destruct (p_payload p) as [|? [|? [|? [|? [|? [|? [|? [|? ?]]]]]]]]; discriminate El.
          ++ assert (W : walked (hi ++ [(QPkt, p)]) = links ++ [l]).
            { rewrite walked_app, (H1 eq_refl). f_equal. unfold walked. cbn [flat_map fst snd]. apply Z.eqb_eq in Ec. rewrite (walked_record p l Ec El). reflexivity. }
            apply keeps_bind. unfold cl_retry_nak. eapply keeps_mono; [|rewrite <- (app_nil_r (hi ++ [(QPkt, p)])); apply (keep_retry _ _ _ _ _ [] d0); [exact Hs|reflexivity|discriminate]].
            intros hi' d [a e2] (-> & Q1 & Q2). cbn [snd] in Q1, Q2. apply IH; [exact Hs|..].
            ** intros ->. destruct (Q1 (or_introl eq_refl)) as (h & -> & Hh). rewrite walked_app, Hh, app_nil_r. exact W.
            ** intros ->. destruct (Q1 (or_intror eq_refl)) as (h & -> & Hh). split; [rewrite walked_app, Hh, app_nil_r; exact W|exact (Q2 eq_refl)].
        -- apply IH; [exact Hs| |discriminate]. intros _. rewrite walked_app, (H1 eq_refl), walked_other by (apply Z.eqb_neq; exact Ec). apply app_nil_r.
      * intros r Hr. injection Hr as <-. cbn [ConcDbProofs.keeps]. intros a Ha. discriminate Ha.
      * intros r Hr. injection Hr as <-. cbn [ConcDbProofs.keeps]. intros a Ha. injection Ha as <-. split; [reflexivity|]. split; [discriminate|]. cbn [snd]. intro E. discriminate E.
  Qed.
  (** refresh: what is left to show is what its store does. *)
  Lemma keep_refresh : forall fuel spare now d0 (R : hist -> dbmem -> option error -> Prop), ok [] -> Sd [0x02; 0x69] -> Sd [0x02; 0x6a] ->
    (forall d, D d -> rely d0 d -> D d /\ guar d d) ->
    (forall d, D d -> rely d0 d -> pdb_old now (db_of d) = false -> R [] d None) ->
    (forall hi d e, D d -> rely d0 d -> pdb_old now (db_of d) = true -> R hi d (Some e)) ->
    (forall hi d d1, D d -> rely d0 d -> pdb_old now (db_of d) = true -> ok hi -> ends_refused hi -> D d1 -> rely d d1 ->
       D (db_store spare (walked hi) d1) /\ guar d1 (db_store spare (walked hi) d1) /\ R hi (db_store spare (walked hi) d1) None) ->
    keeps R [] d0 (cl_refresh fuel spare now).
  Proof.
    intros fuel spare now d0 R O0 S1 S2 Hid H1 H2 H3. cbn [cl_refresh ConcDbProofs.keeps]. intros d Hd Hr. destruct (Hid d Hd Hr) as [_ G]. split; [exact Hd|]. split; [exact G|].
    destruct (pdb_old now (db_of d)) eqn:Eo; cbn [negb].
    - apply keeps_bind. unfold cl_retry_nak. eapply keeps_mono; [|apply keeps_ok; [exact O0|]; apply (keep_retry _ _ _ _ [] [] d); [exact S1|reflexivity|discriminate]].
      intros hi dd [a err] (O1 & -> & Q1 & Q2). cbn [snd] in Q1, Q2. apply keeps_bind. eapply keeps_mono; [|apply keeps_ok; [exact O1|]; apply (keep_loop fuel (dm_retries d) [] err hi d S2)].
      + intros hi' d' [links e1] (O2 & -> & Wn & W). cbn [fst snd] in Wn, W. destruct (err_is e1 EPlmNak) eqn:Ee.
        * assert (E1 : e1 = Some EPlmNak) by (destruct e1 as [[]|]; cbn in Ee; try discriminate Ee; reflexivity). destruct (W E1) as [W1 W2]. subst links.
          cbn [ConcDbProofs.keeps]. intros d1 D1 R1. destruct (H3 hi' d d1 Hd Hr Eo O2 W2 D1 R1) as (K1 & K2 & K3). split; [exact K1|]. split; [exact K2|].
          intros x Hx. injection Hx as <-. exact K3.
        * cbn [ConcDbProofs.keeps]. intros x Hx. injection Hx as <-. destruct e1 as [e1|].
          -- apply H2; assumption.
          -- contradiction.
      + intros ->. destruct (Q1 (or_introl eq_refl)) as (h & -> & Hh). exact Hh.
      + intros ->. destruct (Q1 (or_intror eq_refl)) as (h & -> & Hh). split; [exact Hh|exact (Q2 eq_refl)].
    - cbn [ConcDbProofs.keeps]. intros a Ha. injection Ha as <-. apply H1; assumption.
  Qed.
End Walk.

(** ** The calls that touch shared memory *)
Section Calls.
  Variables (AA : Z -> Prop) (D : dbmem -> Prop) (ok : hist -> Prop) (rely guar : dbmem -> dbmem -> Prop) (Sd : list Z -> Prop) (We : option error -> Prop).
  Hypothesis port_no_nak : ~ We (Some EPlmNak).
  Hypothesis sends_any : forall b, Sd b.
  Hypothesis ok_nil : ok [].
  Notation keeps := (keeps AA D ok rely guar Sd We).

  Lemma keep_apart : forall retries k d0 (R : hist -> dbmem -> cresult -> Prop), apart k -> (forall hi r, R hi d0 r) -> keeps R [] d0 (call_client retries k).
  Proof. intros retries k d0 R Hk H. apply plain_any; [apply plain_call; assumption|]. exact H. Qed.

  (** Address: what Info says of the modem is a value the address may have. *)
  Lemma keep_address : forall retries d0 (R : hist -> dbmem -> Z -> Prop),
    (forall hi p b5 b4 b3 t, ok hi -> In (QPkt, p) hi -> good_ack (mkPkt 0x60 [] 0) p -> p_payload p = b5 :: b4 :: b3 :: t -> AA (b5 * 65536 + b4 * 256 + b3)) ->
    (forall hi a, AA a -> R hi d0 a) -> keeps R [] d0 (cl_address retries).
  Proof.
    intros retries d0 R HA HR. cbn [cl_address ConcDbProofs.keeps].
    assert (E : forall hi, keeps R hi d0 (CGetAddr (fun r => CDone (Ret r)))) by (intros hi; cbn; intros a Ha x Hx; injection Hx as <-; apply HR; exact Ha).
    intros a Ha. destruct (a =? 0); [|apply E]. apply keeps_bind. unfold cl_info. apply keeps_bind.
    eapply keeps_mono; [|apply keeps_ok; [exact ok_nil|];
      apply (plain_keeps AA D ok rely guar Sd We _ (fun hi d r => d = d0 /\ forall a, r = (Some a, None) -> good_ack (mkPkt pc_GetInfo [] 0) a /\ exists h, hi = h ++ [(QPkt, a)])
        _ _ [] [] d0 (plain_retry _ _ _ _ _ (sends_any _)) (cl_retry_follows retries (mkPkt pc_GetInfo [] 0) []))].
    - intros hi d [ack e] (O1 & -> & Q). destruct e as [e|].
      + destruct ack; intros x Hx; injection Hx as <-; apply E.
      + destruct ack as [a0|]; [|cbn; intros x Hx; discriminate Hx]. destruct (Q a0 eq_refl) as [G (h & ->)]. cbn [ConcDbProofs.keeps]. intros [i e] Hi.
        unfold info_unmarshal in Hi. destruct (p_payload a0) as [|b5 [|b4 [|b3 [|b2 [|b1 [|b0 t]]]]]] eqn:Ep; cbn [bindo] in Hi; try discriminate Hi.
        injection Hi as <- <-. cbn [ConcDbProofs.keeps i_addr]. split; [|apply E]. change [b5; b4; b3] with (b5 :: b4 :: b3 :: []). rewrite addr_put3.
        apply (HA _ a0 b5 b4 b3 (b2 :: b1 :: b0 :: t) O1); [apply in_or_app; right; left; reflexivity|exact G|exact Ep].
    - intros hi ho r [F1 F2]. split; [reflexivity|]. intros x ->. apply F2. reflexivity.
  Qed.

  (** Deleting the remembered records leaves memory as it is. *)
  Lemma keep_delete_all : forall (Inv : dbmem -> Prop), (forall d0 d, Inv d0 -> D d -> rely d0 d -> Inv d /\ guar d d) ->
    forall fuel i hi d0 (R : hist -> dbmem -> option error -> Prop), Inv d0 -> (forall hi d e, Inv d -> R hi d e) -> keeps R hi d0 (cl_delete_all fuel i).
  Proof.
    intros Inv HI. induction fuel as [|n IH]; intros i hi d0 R H0 HR; cbn [cl_delete_all ConcDbProofs.keeps]; [intros a Ha; discriminate Ha|].
    intros d1 D1 R1. destruct (HI d0 d1 H0 D1 R1) as [I1 G1]. split; [exact D1|]. split; [exact G1|].
    destruct (i <? sl_len (dm_links d1))%nat; [|cbn; intros a Ha; injection Ha as <-; apply HR; exact I1].
    cbn [ConcDbProofs.keeps]. intros d2 D2 R2. destruct (HI d1 d2 I1 D2 R2) as [I2 G2]. split; [exact D2|]. split; [exact G2|].
    destruct (i <? sl_len (dm_links d2))%nat; [|cbn; intros a Ha; discriminate Ha].
    cbn [ConcDbProofs.keeps]. intros d3 D3 R3. destruct (HI d2 d3 I2 D3 R3) as [I3 G3]. split; [exact D3|]. split; [exact G3|].
    destruct (sl_get (dm_heap d3) (dm_links d2) i) as [l| |]; [|cbn; intros a Ha; discriminate Ha..].
    apply keeps_bind. apply plain_any; [apply plain_retry; apply sends_any|]. intros hi' [a [e|]].
    - cbn. intros x Hx. injection Hx as <-. apply HR. exact I3.
    - apply IH; assumption.
  Qed.
  Lemma plain_write_one : forall l, plain Sd (cl_write_one l).
  Proof.
    intros l. unfold cl_write_one. apply plain_bind; [apply plain_retry; auto|]. intros [a [e|]]; [|exact I]. destruct (error_eqb e EPlmWrongPayload); [|exact I].
    destruct a as [a|]; [|exact I]. apply plain_bind; [apply plain_retry; auto|]. intros [a1 [e1|]]; [exact I|].
    apply plain_bind; [apply plain_retry; auto|]. intros [a2 e2]. exact I.
  Qed.
End Calls.

Lemma list_set_forall : forall A (P : A -> Prop) (l : list A) i x, Forall P l -> P x -> Forall P (list_set l i x).
Proof. intros A P. induction l as [|h t IH]; intros [|i] x H Hx; cbn [list_set]; inversion H; subst; auto. Qed.
Lemma write_at_forall : forall A (P : A -> Prop) xs (l : list A) i, Forall P l -> Forall P xs -> Forall P (write_at l i xs).
Proof. intros A P. induction xs as [|x t IH]; intros l i H Hx; cbn [write_at]; [exact H|]. inversion Hx; subst. apply IH; [apply list_set_forall; assumption|assumption]. Qed.
Lemma arr_forall : forall A (P : A -> Prop) (h : heap A) a, Forall (Forall P) h -> Forall P (arr h a).
Proof. intros A P h a H. unfold arr. destruct (nth_in_or_default a h []) as [E|E]; [|rewrite E; constructor]. rewrite Forall_forall in H. apply H. exact E. Qed.
Lemma firstn_forall : forall A (P : A -> Prop) n (l : list A), Forall P l -> Forall P (firstn n l).
Proof. intros A P n l H. rewrite <- (firstn_skipn n l) in H. apply Forall_app in H. apply H. Qed.
Lemma skipn_forall : forall A (P : A -> Prop) n (l : list A), Forall P l -> Forall P (skipn n l).
Proof. intros A P n l H. rewrite <- (firstn_skipn n l) in H. apply Forall_app in H. apply H. Qed.
Lemma repeat_forall : forall A (P : A -> Prop) n (x : A), P x -> Forall P (repeat x n).
Proof. intros A P n x H. induction n; cbn; auto. Qed.
Lemma sl_view_forall : forall A (P : A -> Prop) (h : heap A) s, Forall (Forall P) h -> Forall P (sl_view h s).
Proof. intros A P h s H. unfold sl_view. apply firstn_forall, skipn_forall, arr_forall. exact H. Qed.
Lemma append_forall : forall A (P : A -> Prop) z grow (h : heap A) s xs, P z -> Forall (Forall P) h -> Forall P xs -> Forall (Forall P) (fst (sl_append z grow h s xs)).
Proof.
  intros A P z grow h s xs Hz H Hx. unfold sl_append. destruct (sl_len s + length xs <=? sl_cap s)%nat; cbn [fst].
  - apply list_set_forall; [exact H|]. apply write_at_forall; [apply arr_forall; exact H|exact Hx].
  - apply Forall_app. split; [exact H|]. apply Forall_cons; [|constructor]. apply Forall_app. split; [apply sl_view_forall; exact H|].
    apply Forall_app. split; [exact Hx|]. apply repeat_forall. exact Hz.
Qed.
Lemma walked_in : forall h x, In x (walked h) -> exists p, In (QPkt, p) h /\ record_in p = Some x.
Proof.
  intros h x H. unfold walked in H. apply in_flat_map in H. destruct H as ([q p] & H1 & H2). cbn [fst snd] in H2. exists p.
  destruct q; [contradiction H2|]. destruct (record_in p) as [l|]; [|contradiction H2]. destruct H2 as [->|[]]. auto.
Qed.

(** ** Every record is genuine, every address was told *)
Definition sane (e : option error) : Prop := e <> Some EPlmNak.
Definition seen (got : list (nat * (which * packet))) (i : nat) (h : hist) : Prop := exists t, by_gor i got = h ++ t.
Lemma seen_prefix : forall got i h t, seen got i (h ++ t) -> seen got i h.
Proof. intros got i h t (t0 & H). exists (t ++ t0). rewrite H. symmetry. apply app_assoc. Qed.
Lemma seen_in : forall got i h q p, seen got i h -> In (q, p) h -> In (i, (q, p)) got.
Proof. intros got i h q p (t & H) Hp. apply by_gor_in. rewrite H. apply in_or_app. left. exact Hp. Qed.

Section Genuine.
  Variables (st : plm) (d : dbmem) (calls : list call) (got : list (nat * (which * packet))).
  Let gen := genuine d calls got.
  Definition all_genuine (d1 : dbmem) : Prop := Forall (Forall gen) (dm_heap d1).
  Definition result_genuine (i : nat) (hi : hist) (d1 : dbmem) (r : cresult) : Prop :=
    match r with RsLinks (ls, _) => Forall gen ls | RsAddr a => told_addr st got a | _ => True end.
  Let rl := fun (i : nat) (_ _ : dbmem) => True.
  Let keeps0 i {A} := @keeps (told_addr st got) all_genuine (seen got i) (rl i) (guar rl i) (fun _ => True) sane A.

  Lemma keep_append_all : forall grow ls hi d0 i (R : hist -> dbmem -> option error -> Prop), Forall gen ls -> (forall hi d e, R hi d e) -> keeps0 i R hi d0 (cl_write_all grow ls).
  Proof.
    intros grow. induction ls as [|l t IH]; intros hi d0 i R Hl HR; cbn [cl_write_all].
    - intros a Ha. apply HR.
    - inversion Hl; subst. apply keeps_bind. apply plain_any; [apply plain_write_one; intros; exact I|]. intros hi' [e|]; [intros a Ha; apply HR|].
      unfold cl_append. cbn [ConcDbProofs.keeps]. intros d1 D1 _. split; [exact D1|]. split; [intros j _; exact I|]. intros d2 D2 _. split.
      { unfold all_genuine, set_dm_heap. cbn [dm_heap]. apply append_forall; [left; reflexivity|exact D2|auto]. }
      split; [intros j _; exact I|]. intros d3 D3 _. split; [exact D3|]. split; [intros j _; exact I|]. apply IH; assumption.
  Qed.

  Lemma genuine_call : forall i k, In k calls -> seen got i [] -> keeps0 i (result_genuine i) [] d (call_client (p_retries st) k).
  Proof.
    intros i k Hk Hok.
    assert (SN : ~ sane (Some EPlmNak)) by (intro H; apply H; reflexivity).
    assert (GG : forall a b, guar rl i a b) by (intros a b j _; exact I).
    destruct k as [| |pkt|pkt|fuel msg| | | |c| |group| |group|fuel spare now|fuel grow ls]; cbn [call_client].
    1,2,3,4,5,6,7,8,9,11,12,13: unfold cmap; apply keeps_bind; apply plain_any; [|intros hi r a Ha; injection Ha as <-; exact I].
    - cbn. intros; exact I.
    - cbn. intros; exact I.
    - apply plain_write_packet. exact I.
    - apply plain_retry. exact I.
    - apply plain_bind; [apply plain_retry; exact I|]. intros [a [e|]]; [exact I|apply plain_await].
    - apply plain_bind; [apply plain_retry; exact I|]. intros [[a|] [e|]]; exact I.
    - cbn [cl_reset plain]. intro t. apply plain_bind; [apply plain_retry; exact I|]. intros [a e]. exact I.
    - apply plain_bind; [apply plain_retry; exact I|]. intros [[a|] [e|]]; exact I.
    - apply plain_bind; [apply plain_retry; exact I|]. intros [a e]. exact I.
    - apply plain_bind; [apply plain_write_packet; exact I|]. intros [a e]. exact I.
    - apply plain_bind; [apply plain_write_packet; exact I|]. intros [a e]. exact I.
    - apply plain_bind; [apply plain_write_packet; exact I|]. intros [a e]. exact I.
    - unfold cmap. apply keeps_bind. apply (keep_address _ _ _ _ _ _ _ (fun _ => I) Hok).
      + intros hi p b5 b4 b3 t Ho Hi Hg Hp. right. exists i, p, b5, b4, b3, t. split; [exact (seen_in _ _ _ _ _ Ho Hi)|]. auto.
      + intros hi a Ha x Hx. injection Hx as <-. exact Ha.
    - unfold cmap. apply keeps_bind. unfold cl_links. apply keeps_bind. apply (keep_refresh _ _ _ _ _ _ _ SN fuel spare now d _ Hok I I).
      + intros; auto.
      + intros d1 D1 _ _. cbn [ConcDbProofs.keeps]. intros d2 D2 _. split; [exact D2|]. split; [apply GG|]. intros d3 D3 _. split; [exact D3|]. split; [apply GG|].
        intros d4 D4 _. split; [exact D4|]. split; [apply GG|]. intros a Ha. injection Ha as <-. intros b Hb. injection Hb as <-. cbn [result_genuine].
        apply Forall_app. split; [apply firstn_forall, sl_view_forall; exact D4|apply repeat_forall; left; reflexivity].
      + intros hi d1 e D1 _ _. cbn [ConcDbProofs.keeps]. intros d2 D2 _. split; [exact D2|]. split; [apply GG|]. intros d3 D3 _. split; [exact D3|]. split; [apply GG|].
        intros d4 D4 _. split; [exact D4|]. split; [apply GG|]. intros a Ha. injection Ha as <-. intros b Hb. injection Hb as <-. cbn [result_genuine].
        apply Forall_app. split; [apply firstn_forall, sl_view_forall; exact D4|apply repeat_forall; left; reflexivity].
      + intros hi d1 d2 D1 _ _ Ho _ D2 _. split; [|split; [apply GG|]].
        * unfold all_genuine, db_store. cbn [dm_heap]. apply Forall_app. split; [exact D2|]. apply Forall_cons; [|constructor]. apply Forall_app. split.
          -- apply Forall_forall. intros x Hx. destruct (walked_in _ _ Hx) as (p & P1 & P2). right. right. right. exists i, p. split; [exact (seen_in _ _ _ _ _ Ho P1)|exact P2].
          -- apply repeat_forall. left. reflexivity.
        * cbn [ConcDbProofs.keeps]. intros d3 D3 _. split; [exact D3|]. split; [apply GG|]. intros d4 D4 _. split; [exact D4|]. split; [apply GG|].
          intros d5 D5 _. split; [exact D5|]. split; [apply GG|]. intros a Ha. injection Ha as <-. intros b Hb. injection Hb as <-. cbn [result_genuine].
          apply Forall_app. split; [apply firstn_forall, sl_view_forall; exact D5|apply repeat_forall; left; reflexivity].
    - unfold cmap. apply keeps_bind. unfold cl_write_links. apply keeps_bind. eapply (keep_delete_all _ _ _ _ _ _ _ (fun _ => I) (fun _ => True)).
      + intros; auto.
      + exact I.
      + intros hi d1 [e|] _; [intros a Ha; injection Ha as <-; intros b Hb; injection Hb as <-; exact I|].
        cbn [ConcDbProofs.keeps]. intros d2 D2 _. split; [exact D2|]. split; [apply GG|]. apply keep_append_all.
        * apply Forall_forall. intros x Hx. right. right. left. exists (KWriteLinks fuel grow ls), ls. split; [exact Hk|]. split; [|exact Hx]. exists fuel, grow. reflexivity.
        * intros hi' d3 e a Ha. injection Ha as <-. exact I.
  Qed.
End Genuine.

(** The calls that do not touch shared memory, and Address, when any address will do. *)
Lemma other_call : forall D (ok : hist -> Prop) rely guar (We : option error -> Prop) retries k d0 (R : hist -> dbmem -> cresult -> Prop), ok [] ->
  ~ reads_links k -> (forall ls, ~ writes_links k ls) -> (forall hi r, (forall x, r <> RsLinks x) -> R hi d0 r) ->
  keeps (fun _ => True) D ok rely guar (fun _ => True) We R [] d0 (call_client retries k).
Proof.
  intros D ok rely guar We retries k d0 R Hok H1 H2 HR.
  destruct k as [| |pkt|pkt|fuel msg| | | |c| |group| |group|fuel spare now|fuel grow ls]; cbn [call_client].
  1,2,3,4,5,6,7,8,9,11,12,13: unfold cmap; apply keeps_bind; apply plain_any; [|intros hi r a Ha; injection Ha as <-; apply HR; discriminate].
  - cbn. intros; exact I.
  - cbn. intros; exact I.
  - apply plain_write_packet. exact I.
  - apply plain_retry. exact I.
  - apply plain_bind; [apply plain_retry; exact I|]. intros [a [e|]]; [exact I|apply plain_await].
  - apply plain_bind; [apply plain_retry; exact I|]. intros [[a|] [e|]]; exact I.
  - cbn [cl_reset plain]. intro t. apply plain_bind; [apply plain_retry; exact I|]. intros [a e]. exact I.
  - apply plain_bind; [apply plain_retry; exact I|]. intros [[a|] [e|]]; exact I.
  - apply plain_bind; [apply plain_retry; exact I|]. intros [a e]. exact I.
  - apply plain_bind; [apply plain_write_packet; exact I|]. intros [a e]. exact I.
  - apply plain_bind; [apply plain_write_packet; exact I|]. intros [a e]. exact I.
  - apply plain_bind; [apply plain_write_packet; exact I|]. intros [a e]. exact I.
  - unfold cmap. apply keeps_bind. apply keep_address; [intro; exact I|exact Hok|intros; exact I|]. intros hi a _ x Hx. injection Hx as <-. apply HR. discriminate.
  - exfalso. apply H1. exists fuel, spare, now. reflexivity.
  - exfalso. apply (H2 ls). exists fuel, grow. reflexivity.
Qed.

(** ** Only readers *)
Lemma grown_view : forall (h : heap link) ext s, sl_ok h s -> sl_view (h ++ ext) s = sl_view h s.
Proof. intros h ext s (H & _ & _). unfold sl_view, arr. rewrite app_nth1 by exact H. reflexivity. Qed.
Lemma store_remembered : forall spare ls d, remembered (db_store spare ls d) = ls /\ db_ok (db_store spare ls d).
Proof. intros. apply store_view. Qed.

Section Readers.
  Variables (st : plm) (d : dbmem) (calls : list call) (got : list (nat * (which * packet))).
  Let kn := known d calls got.
  Definition readable (d1 : dbmem) : Prop := db_ok d1 /\ kn (remembered d1).
  Definition only_grows (i : nat) (a b : dbmem) : Prop := exists ext, dm_heap b = dm_heap a ++ ext.
  Definition result_known (i : nat) (hi : hist) (d1 : dbmem) (r : cresult) : Prop :=
    match r with RsLinks (ls, _) => exists l1 l2, kn l1 /\ kn l2 /\ ls = firstn (length l1) l2 ++ repeat (mkLink 0 0 0 0 0 0) (length l1 - length l2) | _ => True end.
  Lemma only_grows_refl : forall i a, only_grows i a a.
  Proof. intros i a. exists []. symmetry. apply app_nil_r. Qed.
  Lemma only_grows_trans : forall i a b c, only_grows i a b -> only_grows i b c -> only_grows i a c.
  Proof. intros i a b c (x & Hx) (y & Hy). exists (x ++ y). rewrite Hy, Hx. symmetry. apply app_assoc. Qed.

  Lemma reader_call : forall i k, nth_error calls i = Some k -> (forall ls, ~ writes_links k ls) -> seen got i [] ->
    keeps (fun _ => True) readable (seen got i) (only_grows i) (guar only_grows i) (fun _ => True) sane (result_known i) [] d (call_client (p_retries st) k).
  Proof.
    intros i k Hk Hw Hok.
    assert (SN : ~ sane (Some EPlmNak)) by (intro H; apply H; reflexivity).
    assert (GG : forall a, guar only_grows i a a) by (intros a j _; apply only_grows_refl).
    assert (T : forall hi d0 e, keeps (fun _ => True) readable (seen got i) (only_grows i) (guar only_grows i) (fun _ => True) sane
      (fun hi d r => keeps (fun _ => True) readable (seen got i) (only_grows i) (guar only_grows i) (fun _ => True) sane (result_known i) hi d (CDone (Ret (RsLinks r)))) hi d0
      (CDb (fun d => d) (fun d1 => CDb (fun d => d) (fun d2 => CDb (fun d => d) (fun d3 =>
         CDone (Ret (padded (sl_len (dm_links d1)) (sl_view (dm_heap d3) (dm_links d2)), e))))))).
    { intros hi d0 e. cbn [keeps]. intros d1 D1 _. split; [exact D1|]. split; [apply GG|]. intros d2 D2 _. split; [exact D2|]. split; [apply GG|].
      intros d3 D3 (ext & E3). split; [exact D3|]. split; [apply GG|]. intros a Ha. injection Ha as <-. intros b Hb. injection Hb as <-. cbn [result_known].
      destruct D1 as [O1 K1], D2 as [O2 K2]. exists (remembered d1), (remembered d2). split; [exact K1|]. split; [exact K2|].
      rewrite E3, grown_view by exact O2. unfold padded, remembered. rewrite (view_length (dm_heap d1) (dm_links d1) O1). reflexivity. }
    assert (NR : forall P : Prop, (~ reads_links k -> P) -> (reads_links k -> P) -> P).
    { intros P HN HY. destruct k; try (apply HN; intros (? & ? & ? & E); discriminate E). apply HY. do 3 eexists. reflexivity. }
    apply NR; clear NR; intro Hr.
    - apply other_call; [exact Hok|exact Hr|exact Hw|]. intros hi [] Hx; try exact I. exfalso. apply (Hx r). reflexivity.
    - destruct Hr as (fuel & spare & now & ->). cbn [call_client]. unfold cmap. apply keeps_bind. unfold cl_links. apply keeps_bind.
      apply (keep_refresh _ _ _ _ _ _ _ SN fuel spare now d _ Hok I I).
      + intros; auto.
      + intros. apply T.
      + intros. apply T.
      + intros hi d1 d2 D1 _ _ Ho He D2 _. destruct (store_remembered spare (walked hi) d2) as [S1 S2].
        split; [split; [exact S2|]|split; [|apply T]].
        * rewrite S1. right. destruct Ho as (t & Ht). exists i, (KLinks fuel spare now), hi, t. split; [exact Hk|]. split; [do 3 eexists; reflexivity|]. auto.
        * intros j _. exists [walked hi ++ repeat link_zero spare]. reflexivity.
  Qed.
End Readers.

(** ** One reader, one writer *)
Definition alone_with (i : nat) (j : nat) (a b : dbmem) : Prop := if Nat.eqb j i then b = a else True.
Lemma alone_refl : forall i j a, alone_with i j a a.
Proof. intros i j a. unfold alone_with. destruct (Nat.eqb j i); auto. Qed.
Lemma alone_trans : forall i j a b c, alone_with i j a b -> alone_with i j b c -> alone_with i j a c.
Proof. intros i j a b c. unfold alone_with. destruct (Nat.eqb j i); [congruence|auto]. Qed.
Lemma alone_free : forall i a b, guar (alone_with i) i a b.
Proof. intros i a b j Hj. unfold alone_with. destruct (Nat.eqb_spec j i); [contradiction|exact I]. Qed.

Section OneReader.
  Variables (st : plm) (d : dbmem) (got : list (nat * (which * packet))) (i fuel spare : nat) (now : Z).
  Hypothesis Hd : db_ok d.
  Definition own_links (hi : hist) (d1 : dbmem) (r : cresult) : Prop :=
    match r with
    | RsLinks (ls, None) => remembered d1 = ls /\ if pdb_old now (db_of d) then ls = walked hi /\ ends_refused hi else ls = remembered d /\ hi = []
    | RsLinks (ls, Some _) => remembered d1 = remembered d /\ ls = remembered d
    | _ => False
    end.
  Lemma one_reader : seen got i [] ->
    keeps (fun _ => True) (fun _ => True) (seen got i) (alone_with i i) (guar (alone_with i) i) (fun _ => True) sane own_links [] d (call_client (p_retries st) (KLinks fuel spare now)).
  Proof.
    intros Hok. assert (SN : ~ sane (Some EPlmNak)) by (intro H; apply H; reflexivity).
    assert (E : forall a b, alone_with i i a b -> b = a) by (intros a b; unfold alone_with; rewrite Nat.eqb_refl; auto).
    cbn [call_client]. unfold cmap. apply keeps_bind. unfold cl_links. apply keeps_bind.
    assert (T : forall hi d0 e, db_ok d0 -> own_links hi d0 (RsLinks (remembered d0, e)) ->
      keeps (fun _ => True) (fun _ => True) (seen got i) (alone_with i i) (guar (alone_with i) i) (fun _ => True) sane
      (fun hi d r => keeps (fun _ => True) (fun _ => True) (seen got i) (alone_with i i) (guar (alone_with i) i) (fun _ => True) sane own_links hi d (CDone (Ret (RsLinks r)))) hi d0
      (CDb (fun d => d) (fun d1 => CDb (fun d => d) (fun d2 => CDb (fun d => d) (fun d3 =>
         CDone (Ret (padded (sl_len (dm_links d1)) (sl_view (dm_heap d3) (dm_links d2)), e))))))).
    { intros hi d0 e O0 K. cbn [keeps]. intros d1 _ R1. apply E in R1. subst d1. split; [exact I|]. split; [apply alone_free|]. intros d2 _ R2. apply E in R2. subst d2.
      split; [exact I|]. split; [apply alone_free|]. intros d3 _ R3. apply E in R3. subst d3. split; [exact I|]. split; [apply alone_free|].
      intros a Ha. injection Ha as <-. intros b Hb. injection Hb as <-.
      rewrite <- (view_length _ _ O0), padded_self. exact K. }
    apply (keep_refresh _ _ _ _ _ _ _ SN fuel spare now d _ Hok I I).
    - intros; split; [exact I|apply alone_free].
    - intros d1 _ R1 Eo. apply E in R1. subst d1. apply T; [exact Hd|]. cbn [own_links]. rewrite Eo. auto.
    - intros hi d1 e _ R1 Eo. apply E in R1. subst d1. apply T; [exact Hd|]. cbn [own_links]. auto.
    - intros hi d1 d2 _ R1 Eo Ho He _ R2. apply E in R1, R2. subst d1 d2. destruct (store_remembered spare (walked hi) d) as [S1 S2].
      split; [exact I|]. split; [apply alone_free|]. apply T; [exact S2|]. cbn [own_links]. rewrite Eo, S1. auto.
  Qed.
End OneReader.

Section OneWriter.
  Variables (st : plm) (d : dbmem) (got : list (nat * (which * packet))) (i fuel : nat) (grow : nat -> nat) (ls : list link).
  Hypothesis Hd : db_ok d.
  Definition own_write (hi : hist) (d1 : dbmem) (r : cresult) : Prop :=
    match r with
    | RsError None => remembered d1 = ls
    | RsError (Some _) => remembered d1 = remembered d \/ exists n, (n < length ls)%nat /\ remembered d1 = firstn n ls
    | _ => False
    end.
  Let K {A} := @keeps (fun _ => True) (fun _ => True) (seen got i) (alone_with i i) (guar (alone_with i) i) (fun _ => True) sane A.
  Lemma own_write_all : forall rest pre hi d0, ls = pre ++ rest -> db_ok d0 -> remembered d0 = pre ->
    K (fun hi d1 e => own_write hi d1 (RsError e)) hi d0 (cl_write_all grow rest).
  Proof.
    assert (E : forall a b, alone_with i i a b -> b = a) by (intros a b; unfold alone_with; rewrite Nat.eqb_refl; auto).
    induction rest as [|l t IH]; intros pre hi d0 Hl O0 V0; cbn [cl_write_all].
    - intros a Ha. injection Ha as <-. cbn [own_write]. rewrite V0, Hl. symmetry. apply app_nil_r.
    - apply keeps_bind. apply plain_any; [apply plain_write_one; intros; exact I|]. intros hi' [e|].
      + intros a Ha. injection Ha as <-. cbn [own_write]. right. exists (length pre). rewrite Hl, V0. split; [rewrite app_length; cbn; lia|].
        rewrite firstn_app, firstn_all, Nat.sub_diag, firstn_O, app_nil_r. reflexivity.
      + unfold cl_append. cbn [keeps]. intros d1 _ R1. apply E in R1. subst d1. split; [exact I|]. split; [apply alone_free|].
        intros d2 _ R2. apply E in R2. subst d2. split; [exact I|]. split; [apply alone_free|].
        intros d3 _ R3. apply E in R3. subst d3. split; [exact I|]. split; [apply alone_free|].
        destruct (append_one grow (dm_heap d0) (dm_links d0) l O0) as (h' & s' & Ea & A1 & A2 & A3 & A4).
        unfold set_dm_heap, set_dm_links. cbn [dm_age dm_heap dm_links dm_retries dm_timeout]. rewrite Ea. cbn [fst snd].
        apply (IH (pre ++ [l])); [rewrite Hl, <- app_assoc; reflexivity|exact A1|].
        unfold remembered. cbn [dm_heap dm_links]. rewrite A3. fold (remembered d0). rewrite V0. reflexivity.
  Qed.
  Lemma one_writer : K own_write [] d (call_client (p_retries st) (KWriteLinks fuel grow ls)).
  Proof.
    assert (E : forall a b, alone_with i i a b -> b = a) by (intros a b; unfold alone_with; rewrite Nat.eqb_refl; auto).
    cbn [call_client]. unfold cmap. apply keeps_bind. unfold cl_write_links. apply keeps_bind.
    apply (keep_delete_all _ _ _ _ _ _ _ (fun _ => I) (fun d1 => d1 = d)).
    - intros d0 d1 -> _ R1. apply E in R1. split; [exact R1|apply alone_free].
    - reflexivity.
    - intros hi d1 [e|] ->.
      + intros a Ha. injection Ha as <-. intros b Hb. injection Hb as <-. left. reflexivity.
      + cbn [keeps]. intros d2 _ R2. apply E in R2. subst d2. split; [exact I|]. split; [apply alone_free|].
        eapply keeps_mono; [|apply (own_write_all ls [] hi)].
        * intros hi' d2 e H a Ha. injection Ha as <-. exact H.
        * reflexivity.
        * destruct Hd as (H1 & H2 & H3). unfold db_ok, sl_ok, nil_slice, set_dm_links. cbn. lia.
        * unfold remembered, sl_view, set_dm_links, nil_slice. reflexivity.
  Qed.
End OneWriter.

(** ** The address, once known *)
Fixpoint noaddr {A} (c : client A) : Prop :=
  match c with
  | CDone _ => True
  | CSend _ k => forall e, noaddr (k e)
  | CRecv _ k => forall r, noaddr (k r)
  | CGetTimeout k => forall t, noaddr (k t)
  | CSetTimeout _ k => noaddr k
  | CGetAddr _ | CSetAddr _ _ => False
  | CDb _ k => forall d, noaddr (k d)
  end.
Lemma noaddr_bind : forall A B (c : client A) (f : A -> client B), noaddr c -> (forall a, noaddr (f a)) -> noaddr (cbind c f).
Proof.
  intros A B c f. induction c as [o|b k IH|q k IH|k IH|t c IH|k IH|t c IH|f0 k IH]; intros H Hf; cbn [noaddr cbind] in *; auto; try contradiction. destruct o; cbn; auto.
Qed.
Lemma plain_noaddr : forall A (c : client A), plain (fun _ => True) c -> noaddr c.
Proof. intros A c. induction c as [o|b k IH|q k IH|k IH|t c IH|k IH|t c IH|f0 k IH]; intros H; cbn [noaddr plain] in *; auto; try contradiction. destruct H. auto. Qed.
Lemma noaddr_keeps : forall A AA (D : dbmem -> Prop) ok rely (guar : dbmem -> dbmem -> Prop) (Sd : list Z -> Prop) We (R : hist -> dbmem -> A -> Prop) (c : client A) hi d0, noaddr c ->
  (forall d, D d) -> (forall a b, guar a b) -> (forall b, Sd b) -> (forall hi d a, R hi d a) -> keeps AA D ok rely guar Sd We R hi d0 c.
Proof.
  intros A AA D ok rely guar Sd We R c. induction c as [o|b k IH|q k IH|k IH|t c IH|k IH|t c IH|f0 k IH]; intros hi d0 Hn HD HG HS HR; cbn [noaddr keeps] in *; auto; contradiction.
Qed.
Lemma noaddr_call : forall retries k, k <> KAddress -> noaddr (call_client retries k).
Proof.
  intros retries k Hk.
  assert (AP : apart k -> noaddr (call_client retries k)) by (intro H; apply plain_noaddr; apply plain_call; auto).
  assert (RT : forall n nak pkt last, noaddr (cl_retry_loop n nak pkt last)) by (intros; apply plain_noaddr, plain_retry; exact I).
  destruct k as [| |pkt|pkt|fuel msg| | | |c| |group| |group|fuel spare now|fuel grow ls]; try (apply AP; exact I); [congruence|..]; cbn [call_client]; apply noaddr_bind; try (intro; exact I).
  - apply noaddr_bind.
    + cbn [cl_refresh noaddr]. intro d. destruct (negb (pdb_old now (db_of d))); [exact I|]. apply noaddr_bind; [apply RT|]. intros [a e].
      apply noaddr_bind; [apply plain_noaddr, plain_loop; exact I|]. intros [l e1]. destruct (err_is e1 EPlmNak); cbn; auto.
    + intro e. cbn [noaddr]. intros d1 d2 d3. exact I.
  - apply noaddr_bind.
    + assert (X : forall fuel i, noaddr (cl_delete_all fuel i)); [|apply X]. clear -RT. induction fuel as [|k IH]; intros i; cbn [cl_delete_all noaddr]; [exact I|]. intro d1. destruct (i <? sl_len (dm_links d1))%nat; [|exact I].
      cbn [noaddr]. intro d2. destruct (i <? sl_len (dm_links d2))%nat; [|exact I]. cbn [noaddr]. intro d3.
      destruct (sl_get (dm_heap d3) (dm_links d2) i) as [l| |]; [|exact I..]. apply noaddr_bind; [apply RT|]. intros [a [e|]]; [exact I|apply IH].
    + intros [e|]; [exact I|]. cbn [noaddr]. intros _. clear -RT. induction ls as [|l t IH]; cbn [cl_write_all]; [exact I|]. apply noaddr_bind.
      * apply plain_noaddr, plain_write_one. intros; exact I.
      * intros [e|]; [exact I|]. unfold cl_append. cbn [noaddr]. intros d1 d2 d3. exact IH.
Qed.
