(** * C69.  A request on a line with other traffic. *)
From Coq Require Import ZArith List Bool Lia ZifyBool ZifyNat.
From Verif Require Import GoBase GoProg Address AddressProofs Command Message MessageSpec MessageProofs MsgWriter BasicDevice DeviceSpec DeviceProofs DevReqSpec
  PlmPacket PlmReader PlmReaderSpec PlmReaderProofs Plm PlmSpec PlmProofs Query Database DatabaseProofs Link LineSpec MovesProofs LineProofs LinkLineProofs
  IcDev IcDevSpec IcLine ByteLine ByteLineSpec ByteLineProofs TrafficSpec TrafficProofs Props_IcDev Props_Line Props_ByteLine.
Import ListNotations.
Open Scope Z_scope.
Ltac Zify.zify_post_hook ::= Z.div_mod_to_equations.

(** Messages of other devices, and messages of the device itself that are no answer, come in before, between and after the modem's word and the answer, in
    pieces of any size: the frame is written once, the outcome is what the device said, and the messages after the answer are still there to be read. *)
Theorem C69_busy_line : forall fuel n os bs filters link ask yes links a f db st d fd st1 c1 c2 data r,
  let open := ic_open_dev (db_opener fuel os (plm_mw fuel (byte_schedule bs)) filters) link ask yes in
  0 <= a < 16777216 -> own_addresses db -> ask = false \/ yes = pret false -> 0 <= p_retries st1 -> bytes_only bs ->
  opens open a ((f, db), st) d (fd, st1) -> idle st1 -> acting n open links a (bd_info d) ((f, db), st) c1 c2 data r ->
  exists frame, request_frame (bd_info d) c1 c2 data frame /\
    forall echo before answer after good, echo_of frame echo -> Forall (unrelated a) before -> answer_from a good answer ->
      (List.length before < fuel)%nat -> busy_line bs (p_time st1) echo before answer after ->
      exists st', r = (Ret (nothing_shown, if good then None else Some EDevNak), (fd, st')) /\ p_sent st' = p_sent st1 ++ [frame] /\
        p_msgq st' = after /\ p_pktq st' = [].
Proof.
  intros fuel n os bs filters link ask yes links a f db st d fd st1 c1 c2 data r open Ha Hown Hask Hr Hb Ho Hidle Hact.
  destruct (ic_opener_line _ _ _ _ _ _ _ _ _ _ _ _ _ Ha Hown Hask Ho) as [_ H2]. destruct (H2 _ _ eq_refl) as [Hi Hw].
  destruct (acting_request _ _ _ _ _ _ _ _ _ _ _ Ho Hact) as (m & Hm & ->). clear Hact Ho. destruct d as [i mw]. cbn [bd_info bd_writer] in *. subst mw.
  assert (Hfo : request_frame i c1 c2 data (frame_of m)) by (apply request_frame_of; [rewrite Hi; exact Ha|exact Hm]).
  exists (frame_of m). split; [exact Hfo|]. intros echo before answer after good (K1 & K2 & x & y & z & K3) Hun Hans Hfu Hbusy.
  assert (Hd : m_dst m = a) by (rewrite <- Hi; apply Hm).
  rewrite <- Hi in Hans. destruct (answer_unmarshals i good _ Hans) as (_ & msg & Hu & Hsx & Hackx & Hnakx).
  destruct (busy_write fuel bs m st1 echo before answer after msg good Hb Hr Hidle Hfu Hbusy) as (st' & T1 & T2 & T3 & T4 & _); try assumption.
  - split; [rewrite K1; lia|]. split; [exact K2|]. split; [exact K1|]. right. right. left. split; [reflexivity|]. exists x, y, z. rewrite K3. reflexivity.
  - rewrite Hd. exact Hun.
  - rewrite Hsx, Hd. exact Hi.
  - exists st'. split; [|auto]. cbn [lift_mw mw_write]. unfold psnd. cbn [fst snd plm_mw mw_write]. rewrite T1. destruct good; reflexivity.
Qed.

(** A message of device 04.05.06, an update of the dimmer itself, and, after the answer, another of 04.05.06. *)
Definition ex_other69 : list Z := [2; 0x50; 4; 5; 6; 0x0a; 0x0b; 0x0c; 0x2f; 0x13; 0].
Definition ex_update69 : list Z := [2; 0x50; 0x11; 0x22; 0x33; 0; 0; 1; 0xcf; 0x13; 0].
Definition ex_busy69 : nat -> bstep := fun t =>
  match t with
  | 0%nat => mkB (ex_other69 ++ [2; 0x62; 0x11]) [] false None false
  | 1%nat => mkB [0x22; 0x33; 15; 0x13] ([0; 0x06] ++ firstn 4 ex_update69) false None false
  | 2%nat => mkB (skipn 4 ex_update69) [] false None false
  | 3%nat => mkB [] [] false None false
  | 4%nat => mkB [] (ex_answer69 ++ ex_other69) false None false
  | _ => mkB [] [] true None false
  end.
Definition ex_packet69 (l : list Z) : packet := mkPkt (nth 1 l 0) (skipn 2 l) 0.
Definition ex_echo69 : packet := mkPkt 0x62 ([0; 0; 0] ++ skipn 2 ex_frame69) 0x06.
Lemma ex_busy69_bytes : bytes_only ex_busy69.
Proof. intros [|[|[|[|[|t]]]]]; cbn; split; repeat (constructor; [unfold is_byte; lia|]); constructor. Qed.
Lemma ex_heard69 : forall u ps rest, drain (received ex_busy69 u) = (ps, rest) -> bytes_ok (received ex_busy69 u) -> heard ex_busy69 0 u ps.
Proof. intros u ps rest D B. exists (received ex_busy69 u), rest. split; [reflexivity|]. exact (drain_reads _ _ _ B D). Qed.
Ltac bytes_closed := cbn; unfold bytes_ok; repeat (constructor; [unfold is_byte; lia|]); constructor.
Lemma ex_busy69_ok : busy_line ex_busy69 0 ex_echo69 [ex_packet69 ex_other69; ex_packet69 ex_update69] (ex_packet69 ex_answer69) [ex_packet69 ex_other69].
Proof.
  split; [reflexivity|]. split; [reflexivity|]. split; [reflexivity|].
  split; [intros u Hu; destruct u as [|[|[|[|[|u]]]]]; try reflexivity; cbn in Hu; lia|].
  split; [intros u Hu; destruct u as [|[|[|[|[|u]]]]]; try reflexivity; cbn in Hu; lia|].
  split; [eexists; split; [eapply ex_heard69; [vm_compute; reflexivity|bytes_closed]|split; vm_compute; reflexivity]|].
  split; [cbn; lia|].
  split; [eexists; split; [eapply ex_heard69; [vm_compute; reflexivity|bytes_closed]|vm_compute; reflexivity]|].
  intros j Hj. destruct j as [|[|[|j]]]; [| | |cbn in Hj; lia];
    (eexists; split; [eapply ex_heard69; [vm_compute; reflexivity|bytes_closed]|vm_compute; lia]).
Qed.
Lemma ex_unrelated69 : Forall (unrelated 0x112233) [ex_packet69 ex_other69; ex_packet69 ex_update69].
Proof.
  constructor; [|constructor; [|constructor]].
  - split; [left; reflexivity|]. eexists 0x040506, 4, 5, 6, _, _, _, 0x2f, _, _, [], KDirectAck, false, 3, 3. split; [reflexivity|].
    split; [unfold addr3, is_byte; lia|]. split; [unfold flags_layout; cbn; lia|]. split; [discriminate|]. left. lia.
  - split; [left; reflexivity|]. eexists 0x112233, 0x11, 0x22, 0x33, _, _, _, 0xcf, _, _, [], KAllLink, false, 3, 3. split; [reflexivity|].
    split; [unfold addr3, is_byte; lia|]. split; [unfold flags_layout; cbn; lia|]. split; [discriminate|]. right. split; reflexivity.
Qed.
Lemma ex_answer_from69 : answer_from 0x112233 true (ex_packet69 ex_answer69).
Proof.
  split; [left; reflexivity|]. eexists 0x11, 0x22, 0x33, _, _, _, 0x2f, _, _, [], KDirectAck, false, 3, 3. split; [reflexivity|].
  split; [unfold addr3, is_byte; lia|]. split; [unfold flags_layout; cbn; lia|]. split; [reflexivity|discriminate].
Qed.
Example C69_busy_line_case : exists st', ex_off69 ex_busy69 = (Ret (nothing_shown, None), ((None, ex_db65), st')) /\ p_sent st' = [ex_frame69] /\
  p_msgq st' = [ex_packet69 ex_other69] /\ p_pktq st' = [].
Proof.
  destruct (ex_opens69 (byte_schedule ex_busy69)) as (d & Hd & Hi).
  destruct (C69_busy_line 5 5 (mkOS None (0%nat, None)) ex_busy69 [] (fun _ => pret None) false (pret false) (device_links 5 100000) 0x112233 None ex_db65 ex_plm69 d
    (None, ex_db65) ex_plm69 0x13 0 [] (ex_off69 ex_busy69)) as (frame & Hf & H);
    [lia|exact C65_ex_own|left; reflexivity|cbn; lia|exact ex_busy69_bytes|exact Hd|repeat split|rewrite Hi; apply ex_acting69|].
  rewrite Hi in Hf. rewrite (C65_one_frame _ _ _ _ _ _ Hf ex_frame69_ok) in H.
  refine (H ex_echo69 _ _ _ true _ ex_unrelated69 ex_answer_from69 _ ex_busy69_ok); [|cbn; lia].
  split; [reflexivity|]. split; [reflexivity|]. exists 0, 0, 0. reflexivity.
Qed.

(** One packet that is no message, here one of X10, before the modem's word is enough for the command to fail, although the frame came back acknowledged and
    the device acknowledged it. *)
Definition ex_x10_69 : list Z := [2; 0x52; 0x66; 0x00].
Theorem C69_other_packet_refuted : exists bs e w', bytes_only bs /\ ex_off69 bs = (Ret (nothing_shown, Some e), w') /\
  heard bs 0 (p_time (snd w')) [ex_packet69 ex_x10_69; ex_echo69; ex_packet69 ex_answer69].
Proof.
  exists (ex_bytes69 (ex_x10_69 ++ ex_frame69 ++ [0x06] ++ ex_answer69) []). eexists _, _.
  split; [intros [|[|[|t]]]; split; unfold bytes_ok; cbn; repeat constructor; unfold is_byte; lia|]. split; [vm_compute; reflexivity|].
  cbn [snd p_time]. exists (ex_x10_69 ++ ex_frame69 ++ [0x06] ++ ex_answer69), []. split; [reflexivity|].
  apply drain_reads; [bytes_closed|vm_compute; reflexivity].
Qed.
(** Ten messages of other devices before the answer fill the queue; the answer is thrown away and the command times out. *)
Theorem C69_crowded_line_refuted : exists bs e w', bytes_only bs /\ ex_off69 bs = (Ret (nothing_shown, Some e), w') /\
  heard bs 0 (p_time (snd w')) (ex_echo69 :: repeat (ex_packet69 ex_other69) 10 ++ [ex_packet69 ex_answer69]).
Proof.
  exists (ex_bytes69 (ex_frame69 ++ [0x06] ++ concat (repeat ex_other69 10) ++ ex_answer69) []). eexists _, _.
  split; [intros [|[|[|t]]]; split; unfold bytes_ok; cbn; repeat constructor; unfold is_byte; lia|]. split; [vm_compute; reflexivity|].
  cbn [snd p_time]. exists (ex_frame69 ++ [0x06] ++ concat (repeat ex_other69 10) ++ ex_answer69), []. split; [reflexivity|].
  apply drain_reads; [bytes_closed|vm_compute; reflexivity].
Qed.
Print Assumptions C69_busy_line.
Print Assumptions C69_other_packet_refuted.
Print Assumptions C69_crowded_line_refuted.
