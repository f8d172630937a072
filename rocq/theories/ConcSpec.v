(** Specification for several goroutines sharing one PLM. *)
From Coq Require Import ZArith List Bool.
From Verif Require Import GoBase GoSlice GoProg Link Message PlmPacket Plm PlmSpec PlmLinkdb Conc.
Import ListNotations.
Open Scope Z_scope.

(** What the reader goroutine did in an execution. *)
Definition reads (l : list action) : list event := flat_map (fun a => match a with AReader e => [e] | _ => [] end) l.
(** The packets taken from queue [q], by whomever. *)
Definition taken (q : which) (g : list (nat * (which * packet))) : list packet :=
  flat_map (fun x => if which_eqb q (fst (snd x)) then [snd (snd x)] else []) g.
(** What goroutine [i] wrote down. *)
Definition by_gor {X} (i : nat) (l : list (nat * X)) : list X := flat_map (fun x => if Nat.eqb (fst x) i then [snd x] else []) l.
(** [subseq a b]: [a] is [b] with some elements left out. *)
Inductive subseq {A} : list A -> list A -> Prop :=
| sub_nil : forall b, subseq [] b
| sub_take : forall x a b, subseq a b -> subseq (x :: a) (x :: b)
| sub_skip : forall x a b, subseq a b -> subseq a (x :: b).

(** The calls that are about one frame: its bytes, how often at most it is sent, and the packet it is about. *)
Definition single (k : call) : Prop := match k with KLinks _ _ _ | KWriteLinks _ _ _ => False | _ => True end.
Definition call_bytes (k : call) : list Z :=
  match k with
  | KReadPacket | KRead | KLinks _ _ _ | KWriteLinks _ _ _ => []
  | KWritePacket pkt | KRetry pkt => 0x02 :: p_cmd pkt :: p_payload pkt
  | KWrite _ msg => 0x02 :: 0x62 :: skipn 3 (msg_marshal msg)
  | KInfo | KAddress => [0x02; 0x60]
  | KReset => [0x02; 0x67]
  | KConfig => [0x02; 0x73]
  | KSetConfig c => [0x02; 0x6b; Z.land c 0xf0]
  | KEnterLinking group => [0x02; 0x64; 0x03; group]
  | KExitLinking => [0x02; 0x65]
  | KEnterUnlinking group => [0x02; 0x64; 0xff; group]
  end.
Definition call_times (retries : Z) (k : call) : Z :=
  match k with
  | KReadPacket | KRead | KLinks _ _ _ | KWriteLinks _ _ _ => 0
  | KWritePacket _ | KEnterLinking _ | KExitLinking | KEnterUnlinking _ => 1
  | _ => retries + 1
  end.
(** The frames that delete a record, and the one that writes it; what a call to write [ls] sends: deletions, and the records in their
    order, each at most eight times, up to the one it stopped at. *)
Definition delete_frame (l : link) : list Z := 0x02 :: 0x6f :: 0x80 :: link_marshal l.
Definition record_frame (l : link) : list Z := 0x02 :: 0x6f :: (if rcf_controller (l_flags l) then 0x40 else 0x41) :: link_marshal l.
Definition is_record (f : list Z) : bool := negb (nth 2 f 0 =? 0x80).
Definition writes_records (ls : list link) (frames : list (list Z)) : Prop :=
  Forall (fun f => is_record f = false -> exists l, f = delete_frame l) frames /\
  exists ns, (length ns <= length ls)%nat /\ Forall (fun n => (n <= 8)%nat) ns /\
    filter is_record frames = concat (map (fun '(l, n) => repeat (record_frame l) n) (combine ls ns)).
(** The packet a call is about, the results that report success, and what [r] tells of the acknowledgement [a]. *)
Definition sends_packet (k : call) (pkt : packet) : Prop :=
  match k with
  | KWritePacket p | KRetry p => p = pkt
  | KInfo => pkt = mkPkt 0x60 [] 0
  | KReset => pkt = mkPkt 0x67 [] 0
  | KConfig => pkt = mkPkt 0x73 [] 0
  | KSetConfig c => pkt = mkPkt 0x6b [Z.land c 0xf0] 0
  | KEnterLinking group => pkt = mkPkt 0x64 [0x03; group] 0
  | KExitLinking => pkt = mkPkt 0x65 [] 0
  | KEnterUnlinking group => pkt = mkPkt 0x64 [0xff; group] 0
  | _ => False
  end.
Definition success (r : cresult) : Prop :=
  match r with
  | RsPacket (Some _, None) | RsInfo (Some _, None) | RsConfig (_, None) | RsError None => True
  | _ => False
  end.
Definition reports (r : cresult) (a : packet) : Prop :=
  match r with
  | RsPacket p => p = (Some a, None)
  | RsInfo (i, e) => e = None /\ exists x, i = Some x /\ exists b5 b4 b3 b2 b1 b0 t, p_payload a = b5 :: b4 :: b3 :: b2 :: b1 :: b0 :: t /\
      x = mkInfo (b5 * 65536 + b4 * 256 + b3) b2 b1 b0
  | RsConfig (c, e) => e = None /\ exists t, p_payload a = c :: t
  | RsError e => e = None
  | _ => False
  end.

(** Only the reader goroutine and goroutine [i] act. *)
Definition only (i : nat) (a : action) : Prop :=
  match a with AReader _ => True | ASend j _ | AWait j | ARecv j | ALate j | AMem j => j = i end.
(** Goroutine [i] returned with success. *)
Definition succeeded (y : sys) (i : nat) : Prop := exists r, finished y i = Some (Ret r) /\ success r.

(** A modem that does its part: nothing times out, no write fails, and what it sends back is one positive echo for every frame
    written, in the order of the frames. *)
Definition prompt (l : list action) : Prop := (forall i, ~ In (ALate i) l) /\ (forall i e, ~ In (ASend i (Some e)) l).
Definition echoed (frame : list Z) (p : packet) : Prop :=
  p_ack p = 0x06 /\ exists cmd body, frame = 0x02 :: cmd :: body /\ p_cmd p = cmd /\
    (if cmd =? 0x62 then exists x y z, p_payload p = x :: y :: z :: body else p_payload p = body).

(** The method of Plm.v or PlmLinkdb.v for a call, with the result wrapped. *)
Definition wrapped {A W} (g : A -> cresult) (r : outcome A * W) : outcome cresult * W :=
  match r with (Ret a, w) => (Ret (g a), w) | (Panic, w) => (Panic, w) | (NoFuel, w) => (NoFuel, w) end.
Definition method (k : call) (sc : schedule) : prog (plmdb * plm) cresult := fun w =>
  match k with
  | KReadPacket => wrapped RsPacket (psnd (plm_read_packet sc) w)
  | KRead => wrapped RsMessage (psnd (plm_read sc) w)
  | KWritePacket pkt => wrapped RsPacket (psnd (plm_write_packet sc pkt) w)
  | KRetry pkt => wrapped RsPacket (psnd (pw_write (retry (plm_pw sc) (p_retries (snd w)) true) pkt) w)
  | KWrite fuel msg => wrapped RsMessage (psnd (plm_write fuel sc msg) w)
  | KInfo => wrapped RsInfo (psnd (plm_info sc) w)
  | KReset => wrapped RsError (psnd (plm_reset sc) w)
  | KConfig => wrapped RsConfig (psnd (plm_config sc) w)
  | KSetConfig c => wrapped RsError (psnd (plm_set_config sc c) w)
  | KAddress => wrapped RsAddr (psnd (plm_address sc) w)
  | KEnterLinking group => wrapped RsError (psnd (pdb_enter_linking (plm_pw sc) group) w)
  | KExitLinking => wrapped RsError (psnd (pdb_exit_linking (plm_pw sc)) w)
  | KEnterUnlinking group => wrapped RsError (psnd (pdb_enter_unlinking (plm_pw sc) group) w)
  | KLinks fuel _ now => wrapped RsLinks (pdb_links fuel (plm_pw sc) now w)
  | KWriteLinks _ _ ls => wrapped RsError (pdb_write_links (plm_pw sc) ls w)
  end.
(** The link database is in order: its slice lies within its array. *)
Definition db_ok (d : dbmem) : Prop := sl_ok (dm_heap d) (dm_links d).
(** The bound on the turns of WriteLinks is beyond the number of records remembered. *)
Definition enough (k : call) (d : dbmem) : Prop := match k with KWriteLinks fuel _ _ => (sl_len (dm_links d) < fuel)%nat | _ => True end.
