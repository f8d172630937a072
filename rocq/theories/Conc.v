(** Several goroutines calling one PLM at the same time (plm/plm.go).  The PLM has no lock, so their steps interleave in every
    possible way.  Each method is written again as a tree of its accesses to what the goroutines share: the serial port, the two
    channels, the fields [timeout] and [address], and the link database with the memory of its records.  Props_Conc.v proves that
    a tree run alone is the method of Plm.v or PlmLinkdb.v.
    Simplification: an access is one indivisible step (also reading or assigning the three words of a slice, and copying records)
    and all goroutines see the accesses in one order. *)
From Coq Require Import ZArith List Bool.
From Verif Require Import GoBase GoSlice GoProg Address Link Message PlmPacket Plm PlmLinkdb.
Import ListNotations.
Open Scope Z_scope.

(** plm/linkdb.go:83-89 [linkdb] with the memory of the records: [dm_links] is the field [links], a slice. *)
Record dbmem : Type := mkDm { dm_age : Z; dm_heap : heap link; dm_links : slice; dm_retries : Z; dm_timeout : Z }.
Definition set_dm_heap d h := mkDm (dm_age d) h (dm_links d) (dm_retries d) (dm_timeout d).
Definition set_dm_links d s := mkDm (dm_age d) (dm_heap d) s (dm_retries d) (dm_timeout d).
(** The link database of PlmLinkdb.v that the memory holds. *)
Definition db_of (d : dbmem) : plmdb := mkPdb (dm_age d) (sl_view (dm_heap d) (dm_links d)) (dm_retries d) (dm_timeout d).
(** A nil slice; array 0 is empty. *)
Definition nil_slice : slice := mkSl 0 0 0 0.

(** A goroutine inside a method: what it does next and how it goes on. *)
Inductive client (A : Type) : Type :=
| CDone (o : outcome A)
| CSend (buf : list Z) (k : option error -> client A)     (* plm.writer.Write(buf) *)
| CRecv (q : which) (k : received -> client A)            (* a select over a channel and time.After(plm.timeout) *)
| CGetTimeout (k : Z -> client A)                         (* reading plm.timeout *)
| CSetTimeout (t : Z) (k : client A)                      (* assigning plm.timeout *)
| CGetAddr (k : Z -> client A)                            (* reading plm.address *)
| CSetAddr (a : Z) (k : client A)                         (* assigning plm.address *)
| CDb (f : dbmem -> dbmem) (k : dbmem -> client A).       (* one access to the link database; it goes on with what it found *)
Arguments CDone {A}. Arguments CSend {A}. Arguments CRecv {A}. Arguments CGetTimeout {A}. Arguments CSetTimeout {A}.
Arguments CGetAddr {A}. Arguments CSetAddr {A}. Arguments CDb {A}.

(** Go on with the result; a panic ends the goroutine. *)
Fixpoint cbind {A B} (c : client A) (f : A -> client B) : client B :=
  match c with
  | CDone (Ret a) => f a
  | CDone Panic => CDone Panic
  | CDone NoFuel => CDone NoFuel
  | CSend b k => CSend b (fun e => cbind (k e) f)
  | CRecv q k => CRecv q (fun r => cbind (k r) f)
  | CGetTimeout k => CGetTimeout (fun t => cbind (k t) f)
  | CSetTimeout t k => CSetTimeout t (cbind k f)
  | CGetAddr k => CGetAddr (fun a => cbind (k a) f)
  | CSetAddr a k => CSetAddr a (cbind k f)
  | CDb g k => CDb g (fun d => cbind (k d) f)
  end.

(** plm/plm.go:183-190 [ReadPacket]. *)
Definition cl_read_packet : client pw_result :=
  CRecv QPkt (fun r => CDone (Ret match r with
                                  | RPacket p => (Some p, None)
                                  | RNil => (None, None)
                                  | RTimeout => (None, Some (EWrap EPlmReadTimeout))
                                  end)).
(** plm/plm.go:192-205 [Read]. *)
Definition cl_read : client (option message * option error) :=
  CRecv QMsg (fun r => CDone match r with
                             | RPacket p => match msg_unmarshal msg_zero (p_payload p) with (m, e) => Ret (Some m, e) end
                             | RNil => Panic
                             | RTimeout => Ret (None, Some (EWrap EInsteonReadTimeout))
                             end).
(** plm/plm.go:148-181 [WritePacket]. *)
Definition cl_write_packet (pkt : packet) : client pw_result :=
  CSend (pkt_marshal pkt) (fun e =>
    match e with
    | Some _ => CDone (Ret (None, e))
    | None => cbind cl_read_packet (fun '(ack, e) => match e with Some _ => CDone (Ret (ack, e)) | None => CDone (judge_ack pkt ack) end)
    end).
(** plm/port.go:85-99 [retryWriter.WritePacket] around it; [n] is the number of transmissions still allowed. *)
Fixpoint cl_retry_loop (n : nat) (retry_nak : bool) (pkt : packet) (last : pw_result) : client pw_result :=
  match n with
  | O => CDone (Ret last)
  | S k => cbind (cl_write_packet pkt) (fun '(ack, err) =>
      if (err_is err EPlmNak && retry_nak) || err_is err EPlmReadTimeout then cl_retry_loop k retry_nak pkt (ack, err) else CDone (Ret (ack, err)))
  end.
(** plm/port.go:101-103 [retry]; [retries] is plm.retries, which nothing assigns after New. *)
Definition cl_retry (retries : Z) (pkt : packet) : client pw_result := cl_retry_loop (Z.to_nat (retries + 1)) true pkt (None, None).
(** plm/plm.go:133-141. *)
Fixpoint cl_await (fuel : nat) (dst : Z) : client (option message * option error) :=
  match fuel with
  | O => CDone NoFuel
  | S k => cbind cl_read (fun '(m, e) =>
      match e, m with
      | Some _, _ => CDone (Ret (m, e))
      | None, None => CDone Panic
      | None, Some x =>
          if (m_src x =? dst) && (fl_ack (m_flags x) || fl_nak (m_flags x))
          then CDone (Ret (Some x, if fl_nak (m_flags x) then Some EDevNak else None))
          else cl_await k dst
      end)
  end.
(** plm/plm.go:123-146 [Write]. *)
Definition cl_write (fuel : nat) (retries : Z) (msg : message) : client (option message * option error) :=
  cbind (cl_retry retries (mkPkt pc_SendInsteonMsg (skipn 3 (msg_marshal msg)) 0)) (fun '(_, e) =>
    match e with Some _ => CDone (Ret (None, e)) | None => cl_await fuel (m_dst msg) end).
(** plm/plm.go:207-214 [Info]. *)
Definition cl_info (retries : Z) : client (option info * option error) :=
  cbind (cl_retry retries (mkPkt pc_GetInfo [] 0)) (fun '(ack, e) =>
    match e, ack with
    | Some _, _ => CDone (Ret (None, e))
    | None, Some a => CDone (let! i := info_unmarshal (p_payload a) in Ret (Some i, None))
    | None, None => CDone Panic
    end).
(** plm/plm.go:216-224 [Reset]. *)
Definition cl_reset (retries : Z) : client (option error) :=
  CGetTimeout (fun t => CSetTimeout reset_timeout (cbind (cl_retry retries (mkPkt pc_Reset [] 0)) (fun '(_, e) => CSetTimeout t (CDone (Ret e))))).

(** plm/plm.go:226-232 [Config]. *)
Definition cl_config (retries : Z) : client (Z * option error) :=
  cbind (cl_retry retries (mkPkt pc_GetConfig [] 0)) (fun '(ack, e) =>
    match e, ack with
    | Some _, _ => CDone (Ret (0, e))
    | None, Some a => CDone (Ret (cfg_unmarshal 0 (p_payload a)))
    | None, None => CDone Panic
    end).
(** plm/plm.go:234-238 [SetConfig]. *)
Definition cl_set_config (retries : Z) (c : Z) : client (option error) :=
  cbind (cl_retry retries (mkPkt pc_SetConfig (cfg_marshal c) 0)) (fun '(_, e) => CDone (Ret e)).
(** plm/plm.go:250-259 [Address]: the field is read again for the result. *)
Definition cl_address (retries : Z) : client Z :=
  CGetAddr (fun a =>
    if a =? 0 then
      cbind (cl_info retries) (fun '(i, e) =>
        match e, i with
        | Some _, _ => CGetAddr (fun r => CDone (Ret r))
        | None, Some x => CSetAddr (i_addr x) (CGetAddr (fun r => CDone (Ret r)))
        | None, None => CDone Panic
        end)
    else CGetAddr (fun r => CDone (Ret r))).
(** plm/linkdb.go:216-233: linking modes. *)
Definition cl_mode (pkt : packet) : client (option error) := cbind (cl_write_packet pkt) (fun '(_, e) => CDone (Ret e)).

(** ** The link database *)
Definition cl_retry_nak (retries : Z) (nak : bool) (pkt : packet) : client pw_result := cl_retry_loop (Z.to_nat (retries + 1)) nak pkt (None, None).
(** plm/linkdb.go:101-114: the loop of [refresh].  Its slice [links] is its own until it is stored, hence a list here. *)
Fixpoint cl_refresh_loop (fuel : nat) (retries : Z) (links : list link) (err : option error) : client (list link * option error) :=
  match err with
  | Some e => CDone (Ret (links, Some e))
  | None =>
      match fuel with
      | O => CDone NoFuel
      | S k => cbind cl_read_packet (fun '(pkt, err1) =>
          match err1, pkt with
          | Some e, _ => CDone (Ret (links, Some e))
          | None, None => CDone Panic
          | None, Some p =>
              if p_cmd p =? pc_AllLinkRecordResp then
                match link_unmarshal link_zero (p_payload p) with
                | (_, Some e) => CDone (Ret (links, Some e))
                | (l, None) => cbind (cl_retry_nak retries false (mkPkt pc_GetNextAllLink [] 0)) (fun '(_, err2) =>
                    cl_refresh_loop k retries (links ++ [l]) err2)
                end
              else cl_refresh_loop k retries links None
          end)
      end
  end.
(** plm/linkdb.go:116-119: [ldb.links = links]; the array of [links] has [spare] places more than records. *)
Definition db_store (spare : nat) (links : list link) (d : dbmem) : dbmem :=
  mkDm (dm_age d) (dm_heap d ++ [links ++ repeat link_zero spare])
    (mkSl (length (dm_heap d)) 0 (length links) (length links + spare)) (dm_retries d) (dm_timeout d).
(** plm/linkdb.go:95-121 [refresh].  [age], [retries] and [timeout] are never assigned after New. *)
Definition cl_refresh (fuel spare : nat) (now : Z) : client (option error) :=
  CDb (fun d => d) (fun d =>
    if negb (pdb_old now (db_of d)) then CDone (Ret None)
    else cbind (cl_retry_nak (dm_retries d) true (mkPkt pc_GetFirstAllLink [] 0)) (fun '(_, err) =>
      cbind (cl_refresh_loop fuel (dm_retries d) [] err) (fun '(links, err1) =>
        if err_is err1 EPlmNak then CDb (db_store spare links) (fun _ => CDone (Ret None)) else CDone (Ret err1)))).
(** [copy] into a new slice of [n] records: the rest of it stays zero. *)
Definition padded (n : nat) (l : list link) : list link := firstn n l ++ repeat link_zero (n - length l).
(** plm/linkdb.go:123-128 [Links]: the field is read for the length, then again for the copy. *)
Definition cl_links (fuel spare : nat) (now : Z) : client (list link * option error) :=
  cbind (cl_refresh fuel spare now) (fun err =>
    CDb (fun d => d) (fun d1 =>
      CDb (fun d => d) (fun d2 =>
        CDb (fun d => d) (fun d3 => CDone (Ret (padded (sl_len (dm_links d1)) (sl_view (dm_heap d3) (dm_links d2)), err)))))).
(** plm/linkdb.go:130-149 [deleteLink], [writeLink]. *)
Definition cl_delete_link (l : link) : client pw_result := cl_retry_nak 3 true (mkPkt pc_ManageAllLinkRecord (mrr_marshal lc_DeleteFirst l) 0).
Definition cl_write_link (l : link) : client pw_result :=
  cl_retry_nak 3 true (mkPkt pc_ManageAllLinkRecord (mrr_marshal (if rcf_controller (l_flags l) then lc_ModFirstCtrl else lc_ModFirstResp) l) 0).
(** plm/linkdb.go:156-158: the field is read for the length, again for [&ldb.links[i]], and the record is read when it is sent.
    Simplification: [fuel] bounds the turns; alone as many as there are records, but other goroutines may change the length. *)
Fixpoint cl_delete_all (fuel i : nat) : client (option error) :=
  match fuel with
  | O => CDone NoFuel
  | S k =>
      CDb (fun d => d) (fun d1 =>
        if (i <? sl_len (dm_links d1))%nat then
          CDb (fun d => d) (fun d2 =>
            if (i <? sl_len (dm_links d2))%nat then
              CDb (fun d => d) (fun d3 =>
                match sl_get (dm_heap d3) (dm_links d2) i with
                | Ret l => cbind (cl_delete_link l) (fun '(_, err) => match err with Some e => CDone (Ret (Some e)) | None => cl_delete_all k (S i) end)
                | _ => CDone Panic
                end)
            else CDone Panic)
        else CDone (Ret None))
  end.
(** plm/linkdb.go:165-186: as [write_one] of PlmLinkdb.v. *)
Definition cl_write_one (l : link) : client (option error) :=
  cbind (cl_write_link l) (fun '(ack, err) =>
    match err with
    | None => CDone (Ret None)
    | Some e =>
        if error_eqb e EPlmWrongPayload then
          match ack with
          | None => CDone Panic
          | Some a => cbind (cl_delete_link (fst (link_unmarshal link_zero (p_payload a)))) (fun '(_, err1) =>
              match err1 with
              | Some e1 => CDone (Ret (Some e1))
              | None => cbind (cl_write_link l) (fun '(_, err2) => CDone (Ret err2))
              end)
          end
        else CDone (Ret (Some e))
    end).
(** plm/linkdb.go:170 and 183 [ldb.links = append(ldb.links, link)]: the field is read, the memory changed, the field assigned. *)
Definition cl_append {A} (grow : nat -> nat) (l : link) (k : client A) : client A :=
  CDb (fun d => d) (fun d1 =>
    CDb (fun d => set_dm_heap d (fst (sl_append link_zero grow (dm_heap d) (dm_links d1) [l]))) (fun d2 =>
      CDb (fun d => set_dm_links d (snd (sl_append link_zero grow (dm_heap d2) (dm_links d1) [l]))) (fun _ => k))).
(** plm/linkdb.go:164-191. *)
Fixpoint cl_write_all (grow : nat -> nat) (ls : list link) : client (option error) :=
  match ls with
  | [] => CDone (Ret None)
  | l :: t => cbind (cl_write_one l) (fun err => match err with Some e => CDone (Ret (Some e)) | None => cl_append grow l (cl_write_all grow t) end)
  end.
(** plm/linkdb.go:151-195 [WriteLinks].  Simplification: the caller's records are values; nobody changes them during the call. *)
Definition cl_write_links (fuel : nat) (grow : nat -> nat) (ls : list link) : client (option error) :=
  cbind (cl_delete_all fuel 0) (fun err =>
    match err with
    | Some e => CDone (Ret (Some e))
    | None => CDb (fun d => set_dm_links d nil_slice) (fun _ => cl_write_all grow ls)
    end).

(** The calls a goroutine may make, and their results.  [now] is the time, [spare] and [grow] are what Go leaves open about arrays. *)
Inductive call : Type :=
| KReadPacket | KRead | KWritePacket (pkt : packet) | KRetry (pkt : packet) | KWrite (fuel : nat) (msg : message) | KInfo | KReset
| KConfig | KSetConfig (c : Z) | KAddress | KEnterLinking (group : Z) | KExitLinking | KEnterUnlinking (group : Z)
| KLinks (fuel spare : nat) (now : Z) | KWriteLinks (fuel : nat) (grow : nat -> nat) (ls : list link).
Inductive cresult : Type :=
| RsPacket (r : pw_result) | RsMessage (r : option message * option error) | RsInfo (r : option info * option error) | RsError (e : option error)
| RsConfig (r : Z * option error) | RsAddr (a : Z) | RsLinks (r : list link * option error).
Definition cmap {A B} (f : A -> B) (c : client A) : client B := cbind c (fun a => CDone (Ret (f a))).
Definition call_client (retries : Z) (k : call) : client cresult :=
  match k with
  | KReadPacket => cmap RsPacket cl_read_packet
  | KRead => cmap RsMessage cl_read
  | KWritePacket pkt => cmap RsPacket (cl_write_packet pkt)
  | KRetry pkt => cmap RsPacket (cl_retry retries pkt)
  | KWrite fuel msg => cmap RsMessage (cl_write fuel retries msg)
  | KInfo => cmap RsInfo (cl_info retries)
  | KReset => cmap RsError (cl_reset retries)
  | KConfig => cmap RsConfig (cl_config retries)
  | KSetConfig c => cmap RsError (cl_set_config retries c)
  | KAddress => cmap RsAddr (cl_address retries)
  | KEnterLinking group => cmap RsError (cl_mode (mkPkt pc_StartAllLink (alr_marshal 0x03 group) 0))
  | KExitLinking => cmap RsError (cl_mode (mkPkt pc_CancelAllLink [] 0))
  | KEnterUnlinking group => cmap RsError (cl_mode (mkPkt pc_StartAllLink (alr_marshal 0xff group) 0))
  | KLinks fuel spare now => cmap RsLinks (cl_links fuel spare now)
  | KWriteLinks fuel grow ls => cmap RsError (cl_write_links fuel grow ls)
  end.

(** ** Interleaving *)
(** A goroutine: whether it already waits in its select (the timer is started, plm/plm.go:186 and 200), and the rest of its call. *)
Record gor : Type := mkGor { g_waiting : bool; g_rest : client cresult }.
(** All goroutines over one PLM.  [y_got] and [y_put] write down who received which packet and who sent which bytes. *)
Record sys : Type := mkSys { y_plm : plm; y_db : dbmem; y_gors : list gor; y_got : list (nat * (which * packet)); y_put : list (nat * list Z) }.

(** What can happen next: the reader goroutine takes a turn (plm/plm.go:94-120), or goroutine [i] makes its next access. *)
Inductive action : Type :=
| AReader (e : event)
| ASend (i : nat) (werr : option error)     (* writes to the port; the write may fail *)
| AWait (i : nat)                           (* enters its select *)
| ARecv (i : nat)                           (* gets a packet, or nil from a closed channel *)
| ALate (i : nat)                           (* the timer fires *)
| AMem (i : nat).                           (* reads or assigns a field, or the memory of the link database *)

Definition set_gor (y : sys) (st : plm) (i : nat) (g : gor) : sys := mkSys st (y_db y) (list_set (y_gors y) i g) (y_got y) (y_put y).

(** One step; [None] when the action is not possible: the goroutine is elsewhere, or there is nothing to receive. *)
Definition act (y : sys) (a : action) : option sys :=
  let st := y_plm y in
  match a with
  | AReader e => Some (mkSys (reader_turn st e) (y_db y) (y_gors y) (y_got y) (y_put y))
  | ASend i werr =>
      match nth_error (y_gors y) i with
      | Some (mkGor false (CSend buf k)) =>
          Some (mkSys (log_sent (tick st) buf) (y_db y) (list_set (y_gors y) i (mkGor false (k werr))) (y_got y) (y_put y ++ [(i, buf)]))
      | _ => None
      end
  | AWait i =>
      match nth_error (y_gors y) i with
      | Some (mkGor false (CRecv q k)) => Some (set_gor y (log_wait (tick st)) i (mkGor true (CRecv q k)))
      | _ => None
      end
  | ARecv i =>
      match nth_error (y_gors y) i with
      | Some (mkGor true (CRecv q k)) =>
          match queue_of q st with
          | p :: rest =>
              Some (mkSys (set_queue q st rest) (y_db y) (list_set (y_gors y) i (mkGor false (k (RPacket p)))) (y_got y ++ [(i, (q, p))]) (y_put y))
          | [] => if p_closed st then Some (set_gor y st i (mkGor false (k RNil))) else None
          end
      | _ => None
      end
  | ALate i =>
      match nth_error (y_gors y) i with
      | Some (mkGor true (CRecv q k)) => Some (set_gor y st i (mkGor false (k RTimeout)))
      | _ => None
      end
  | AMem i =>
      match nth_error (y_gors y) i with
      | Some (mkGor false (CGetTimeout k)) => Some (set_gor y st i (mkGor false (k (p_timeout st))))
      | Some (mkGor false (CSetTimeout t k)) => Some (set_gor y (set_timeout st t) i (mkGor false k))
      | Some (mkGor false (CGetAddr k)) => Some (set_gor y st i (mkGor false (k (p_addr st))))
      | Some (mkGor false (CSetAddr a k)) => Some (set_gor y (set_addr st a) i (mkGor false k))
      | Some (mkGor false (CDb f k)) => Some (mkSys st (f (y_db y)) (list_set (y_gors y) i (mkGor false (k (y_db y)))) (y_got y) (y_put y))
      | _ => None
      end
  end.

(** An execution. *)
Fixpoint acts (y : sys) (l : list action) : option sys :=
  match l with [] => Some y | a :: t => match act y a with Some y1 => acts y1 t | None => None end end.
(** One goroutine for every call. *)
Definition started (st : plm) (d : dbmem) (calls : list call) : sys :=
  mkSys st d (map (fun k => mkGor false (call_client (p_retries st) k)) calls) [] [].
(** The result of goroutine [i], when its call has returned (or crashed). *)
Definition finished (y : sys) (i : nat) : option (outcome cresult) :=
  match nth_error (y_gors y) i with Some (mkGor _ (CDone o)) => Some o | _ => None end.

(** ** One goroutine alone *)
(** A tree run alone under a schedule of Plm.v. *)
Fixpoint solo {A} (sc : schedule) (c : client A) (d : dbmem) (st : plm) : outcome A * (dbmem * plm) :=
  match c with
  | CDone o => (o, (d, st))
  | CSend b k => match port_write sc st b with (e, st1) => solo sc (k e) d st1 end
  | CRecv q k => match receive sc q st with (r, st1) => solo sc (k r) d st1 end
  | CGetTimeout k => solo sc (k (p_timeout st)) d st
  | CSetTimeout t k => solo sc k d (set_timeout st t)
  | CGetAddr k => solo sc (k (p_addr st)) d st
  | CSetAddr a k => solo sc k d (set_addr st a)
  | CDb f k => solo sc (k d) (f d) st
  end.
