(** Properties C08-C10: cutting the serial stream into packets. *)
From Coq Require Import ZArith List Bool Lia ZifyBool ZifyNat.
From Verif Require Import GoBase GoLemmas PlmPacket PlmReader PlmReaderSpec PlmReaderProofs CodecProofs.
Import ListNotations.
Open Scope Z_scope.

(** * C08.  A session is a list of frames, each after some noise in which no frame starts (noise may even hold start bytes),
    then trailing noise.  The reader's chunks are arbitrary: only their concatenation is fixed. *)
Theorem C08_session_read_back : forall items tail fuel b n,
  bytes_ok (stream b) -> (length (stream b) < fuel)%nat ->
  stream b = flat_map (fun it => match it with (noise, cmd, body) => noise ++ frame_bytes cmd body end) items ++ tail ->
  Forall (fun it => match it with (noise, cmd, body) => gap noise /\ modem_frame cmd body end) items ->
  gap tail -> last tail 0 <> 0x02 -> (length items < n)%nat ->
  exists ps b', pr_read_packets n fuel false b = (Ret (ps, Some (b_end b)), b') /\
    Forall2 (fun it p => match it with (_, cmd, body) => decodes false cmd body p end) items ps.
Proof. exact session_read_back. Qed.
(** What a frame decodes to is determined, so the packets above are the only possible ones. *)
Theorem C08_decoding_determined : forall host cmd body p q,
  decodes host cmd body p -> decodes host cmd body q -> p = q.
Proof. exact decodes_fun. Qed.
Example C08_decoding_determined_case : decodes false 0x6a [0x15] (mkPkt 0x6a [] 0x15) /\
  decodes false 0x62 [4; 5; 6; 0x0f; 0x11; 0xff; 6] (mkPkt 0x62 [0; 0; 0; 4; 5; 6; 0x0f; 0x11; 0xff] 6).
Proof. split; [apply (dec_reply false 0x6a [] 0x15); [lia|lia|left; reflexivity]|apply (dec_echo false [4; 5; 6; 0x0f; 0x11; 0xff] 6 eq_refl)]. Qed.
(** Noise without a start byte is a gap. *)
Theorem C08_plain_noise_is_gap : forall l, ~ In 0x02 l -> gap l.
Proof. exact plain_noise_gap. Qed.
(** How the stream is chopped does not matter, in either direction and for any bytes. *)
Theorem C08_chunking_irrelevant : forall n fuel host b1 b2,
  stream b1 = stream b2 -> b_end b1 = b_end b2 ->
  fst (pr_read_packets n fuel host b1) = fst (pr_read_packets n fuel host b2).
Proof. exact chunking_irrelevant. Qed.
Example C08_chunking_irrelevant_case : let b1 := mkBuf [2] None [[0x6a; 6; 2]; []; [0x54; 3]] EEOF in let b2 := mkBuf [] None [[2; 0x6a; 6; 2; 0x54; 3]] EEOF in
  b1 <> b2 /\ stream b1 = stream b2 /\ b_end b1 = b_end b2 /\
  fst (pr_read_packets 4 20 false b1) = Ret ([mkPkt 0x6a [] 6; mkPkt 0x54 [3] 0], Some EEOF).
Proof. cbv zeta. split; [discriminate|]. repeat split. Qed.

Definition ex_session : list (list Z * Z * list Z) :=
  [([9; 9], 0x50, [1;2;3;4;5;6;0x2b;0x11;0xff]);
   ([2], 0x62, [4;5;6;0x1f;0x2e;0; 1;2;3;4;5;6;7;8;9;10;11;12;13;14; 0x06]);
   ([], 0x6a, [0x15])].
Definition ex_reader : bufrd :=
  mkBuf [9] None [[9; 2]; []; [0x50;1;2;3;4]; [5;6;0x2b;0x11;0xff;2;2]; [0x62;4;5;6;0x1f];
    [0x2e;0; 1;2;3;4;5;6;7;8;9;10;11;12;13;14; 0x06; 2]; [0x6a]; [0x15; 7]] EEOF.
Example C08_ex : stream ex_reader =
    flat_map (fun it => match it with (noise, cmd, body) => noise ++ frame_bytes cmd body end) ex_session ++ [7] /\
  Forall (fun it => match it with (noise, cmd, body) => gap noise /\ modem_frame cmd body end) ex_session /\
  fst (pr_read_packets 4 100 false ex_reader) =
    Ret ([mkPkt 0x50 [1;2;3;4;5;6;0x2b;0x11;0xff] 0;
          mkPkt 0x62 ([0;0;0;4;5;6;0x1f;0x2e;0] ++ [1;2;3;4;5;6;7;8;9;10;11;12;13;14]) 0x06;
          mkPkt 0x6a [] 0x15], Some EEOF).
Proof.
  split; [reflexivity|]. split; [|vm_compute; reflexivity].
  repeat constructor; try (apply find_start_gap; reflexivity).
  - apply (rx_plain false 0x50 [1;2;3;4;5;6;0x2b;0x11;0xff] 11); [reflexivity|lia|reflexivity].
  - apply (rx_message false 4 5 6 0x1f 0x2e 0 [1;2;3;4;5;6;7;8;9;10;11;12;13;14] [0x06]); [reflexivity|unfold is_byte; lia|reflexivity].
  - apply (rx_plain false 0x6a [0x15] 3); [reflexivity|lia|reflexivity].
Qed.
Print Assumptions C08_session_read_back.
Print Assumptions C08_decoding_determined.
Print Assumptions C08_plain_noise_is_gap.
Print Assumptions C08_chunking_irrelevant.

(** * C09.  Arbitrary bytes, both reader modes. *)
Theorem C09_never_panics : forall fuel host b b', bytes_ok (stream b) -> pr_read_packet fuel host b <> (Panic, b').
Proof. exact read_packet_no_panic. Qed.
(** Whatever packets come out were cut, in order and without overlap, from the stream; each piece is a complete frame. *)
Theorem C09_packets_are_pieces : forall n fuel host b ps e b',
  bytes_ok (stream b) -> (length (stream b) < fuel)%nat ->
  pr_read_packets n fuel host b = (Ret (ps, e), b') ->
  exists items rest, stream b =
      flat_map (fun it => match it with (noise, cmd, body) => noise ++ frame_bytes cmd body end) items ++ rest /\
    (e = None -> rest = stream b') /\
    Forall2 (fun it p => match it with (noise, cmd, body) => gap noise /\ rx_frame host cmd body /\ decodes host cmd body p end) items ps.
Proof. exact packets_are_pieces_gen. Qed.
Example C09_packets_are_pieces_case : exists b', pr_read_packets 2 50 false (mkBuf [] None [[9; 2; 2; 0x6a]; [6; 2; 0x54; 3; 7]] EEOF) =
  (Ret ([mkPkt 0x6a [] 6; mkPkt 0x54 [3] 0], None), b') /\ stream b' = [7].
Proof. eexists. split; [vm_compute; reflexivity|reflexivity]. Qed.
Theorem C09_many_never_panic : forall n fuel host b b', bytes_ok (stream b) -> pr_read_packets n fuel host b <> (Panic, b').
Proof. exact read_packets_no_panic. Qed.
(** Reading fails only when the stream has no further complete frame, and then with the stream's own error
    (or unexpected end of file inside a frame). *)
Theorem C09_error_only_at_end : forall fuel host b e b', bytes_ok (stream b) -> (length (stream b) < fuel)%nat ->
  pr_read_packet fuel host b = (Ret (inr e), b') ->
  (e = b_end b \/ (b_end b = EEOF /\ e = EUnexpectedEOF)) /\ stream b' = [] /\
  (forall pre cmd body rest, stream b = pre ++ frame_bytes cmd body ++ rest -> gap pre -> ~ rx_frame host cmd body).
Proof. exact error_only_at_end. Qed.
Example C09_error_only_at_end_case : exists b', pr_read_packet 50 false (mkBuf [] None [[9; 2; 0x99]; [2; 0x54]] EEOF) = (Ret (inr EEOF), b').
Proof. eexists. vm_compute. reflexivity. Qed.
Example C09_ex : fst (pr_read_packets 5 50 false (mkBuf [] None [[2;2;0x99;2;0x6a;0x06;2;0x57;1;2]] EEOF)) =
  Ret ([mkPkt 0x6a [] 0x06], Some EUnexpectedEOF).
Proof. vm_compute. reflexivity. Qed.
Print Assumptions C09_never_panics.
Print Assumptions C09_packets_are_pieces.
Print Assumptions C09_many_never_panic.
Print Assumptions C09_error_only_at_end.

(** * C10.  Full statement: for every finite stream the reader returns.  False: a stream that ends in a start byte which begins
    no frame makes it loop, unreading that byte for ever. *)
Theorem C10_end_of_stream_refuted : exists b, forall fuel, fst (pr_read_packet fuel false b) = NoFuel.
Proof. exact lone_start_byte_hangs. Qed.
(** Missing for the full claim: streams whose last byte is a lone start byte. *)
Theorem C10_returns_partial : forall fuel host b, bytes_ok (stream b) -> (length (stream b) < fuel)%nat ->
  ~ (gap (stream b) /\ last (stream b) 0 = 0x02) ->
  exists r b', pr_read_packet fuel host b = (Ret r, b').
Proof. exact read_packet_returns. Qed.
Example C10_returns_case : let b := mkBuf [] None [[2; 0x6a]; [6; 2]] EEOF in last (stream b) 0 = 0x02 /\ ~ gap (stream b) /\
  fst (pr_read_packet 10 false b) = Ret (inl (mkPkt 0x6a [] 6)).
Proof.
  cbv zeta. split; [reflexivity|]. split; [|vm_compute; reflexivity]. intro H. apply (H 0%nat). exists 0x6a, [6; 2]. split; [reflexivity|discriminate].
Qed.
(** Exactly these streams hang. *)
Theorem C10_hangs_exactly : forall host b, bytes_ok (stream b) ->
  ((forall fuel, fst (pr_read_packet fuel host b) = NoFuel) <-> gap (stream b) /\ last (stream b) 0 = 0x02).
Proof. exact hangs_exactly. Qed.
Example C10_ex : fst (pr_read_packet 10 false (mkBuf [] None [[1; 2]; [3; 4]] EEOF)) = Ret (inr EEOF) /\
  ~ (gap [1; 2; 3; 4] /\ last [1; 2; 3; 4] 0 = 0x02).
Proof. split; [vm_compute; reflexivity|]. cbn [last]. lia. Qed.
Print Assumptions C10_end_of_stream_refuted.
Print Assumptions C10_returns_partial.
Print Assumptions C10_hangs_exactly.
