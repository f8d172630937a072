(** Model of plm/linkdb.go: the modem's All-Link database, over an arbitrary packet writer. *)
From Coq Require Import ZArith List Bool.
From Verif Require Import GoBase GoProg Address Link PlmPacket Plm.
Import ListNotations.
Open Scope Z_scope.

(** plm/linkdb.go:26-33. *)
Definition lc_FindFirst : Z := 0x00.
Definition lc_FindNext : Z := 0x01.
Definition lc_ModFirst : Z := 0x20.
Definition lc_ModFirstCtrl : Z := 0x40.
Definition lc_ModFirstResp : Z := 0x41.
Definition lc_DeleteFirst : Z := 0x80.

(** plm/linkdb.go:44-50 [manageRecordRequest.MarshalBinary]. *)
Definition mrr_marshal (cmd : Z) (l : link) : list Z := cmd :: link_marshal l.
(** plm/linkdb.go:52-56 [manageRecordRequest.UnmarshalBinary]: no length check before [buf[0]]. *)
Definition mrr_unmarshal (buf : list Z) : outcome (Z * link * option error) :=
  match buf with
  | [] => Panic
  | c :: t => match link_unmarshal link_zero t with (l, e) => Ret (c, l, e) end
  end.

(** plm/linkdb.go:65-77 [allLinkReq]: (mode, group). *)
Definition alr_marshal (mode group : Z) : list Z := [mode; group].
Definition alr_unmarshal (old : Z * Z) (buf : list Z) : (Z * Z) * option error :=
  match buf with
  | m :: g :: _ => ((m, g), None)
  | _ => (old, Some (EWrap EBufferTooShort))
  end.

(** plm/linkdb.go:83-89 [linkdb]; times are numbers of seconds.  The age is never assigned anywhere, so it is the zero time. *)
Record plmdb : Type := mkPdb { pd_age : Z; pd_links : list link; pd_retries : Z; pd_timeout : Z }.
Definition set_pd_links (db : plmdb) (l : list link) : plmdb := mkPdb (pd_age db) l (pd_retries db) (pd_timeout db).

(** plm/linkdb.go:91-93 [old]. *)
Definition pdb_old (now : Z) (db : plmdb) : bool := pd_age db + pd_timeout db <? now.

(** plm/linkdb.go:101-114: the loop of [refresh]; its state is the records so far and the error variable. *)
Fixpoint refresh_loop {W} (fuel : nat) (pw : packet_writer W) (retries : Z) (links : list link) (err : option error)
  : prog W (list link * option error) :=
  match err with
  | Some e => pret (links, Some e)
  | None =>
      match fuel with
      | O => pnofuel
      | S k =>
          do (pkt, err1) <- pw_read pw ;;
          match err1 with
          | Some e => pret (links, Some e)
          | None =>
              match pkt with
              | None => ppanic                                     (* pkt.Command on a nil packet *)
              | Some p =>
                  if p_cmd p =? pc_AllLinkRecordResp then
                    match link_unmarshal link_zero (p_payload p) with
                    | (_, Some e) => pret (links, Some e)
                    | (l, None) =>
                        do (_, err2) <- pw_write (retry pw retries false) (mkPkt pc_GetNextAllLink [] 0) ;;
                        refresh_loop k pw retries (links ++ [l]) err2
                    end
                  else refresh_loop k pw retries links None
              end
          end
      end
  end.

(** plm/linkdb.go:95-121 [refresh]. *)
Definition pdb_refresh {W} (fuel : nat) (pw : packet_writer W) (now : Z) : prog (plmdb * W) (option error) :=
  do db <- pfst pget ;;
  if negb (pdb_old now db) then pret None
  else
    do (_, err) <- psnd (pw_write (retry pw (pd_retries db) true) (mkPkt pc_GetFirstAllLink [] 0)) ;;
    do (links, err1) <- psnd (refresh_loop fuel pw (pd_retries db) [] err) ;;
    if err_is err1 EPlmNak then run pfst (pput (set_pd_links db links)) ;; pret None
    else pret err1.

(** plm/linkdb.go:123-128 [Links]. *)
Definition pdb_links {W} (fuel : nat) (pw : packet_writer W) (now : Z) : prog (plmdb * W) (list link * option error) :=
  do err <- pdb_refresh fuel pw now ;;
  do db <- pfst pget ;;
  pret (pd_links db, err).

(** plm/linkdb.go:130-137 [deleteLink]. *)
Definition pdb_delete_link {W} (pw : packet_writer W) (l : link) : prog W pw_result :=
  pw_write (retry pw 3 true) (mkPkt pc_ManageAllLinkRecord (mrr_marshal lc_DeleteFirst l) 0).

(** plm/linkdb.go:139-149 [writeLink]. *)
Definition pdb_write_link {W} (pw : packet_writer W) (l : link) : prog W pw_result :=
  let cmd := if rcf_controller (l_flags l) then lc_ModFirstCtrl else lc_ModFirstResp in
  pw_write (retry pw 3 true) (mkPkt pc_ManageAllLinkRecord (mrr_marshal cmd l) 0).

(** plm/linkdb.go:156-158: deleting the remembered links in order until one fails. *)
Fixpoint delete_all {W} (pw : packet_writer W) (ls : list link) : prog W (option error) :=
  match ls with
  | [] => pret None
  | l :: t =>
      do (_, err) <- pdb_delete_link pw l ;;
      match err with Some e => pret (Some e) | None => delete_all pw t end
  end.

(** plm/linkdb.go:165-186: writing one link, with the repair of a garbled record.  [UnmarshalBinary]'s error is ignored and a
    nil acknowledgement is dereferenced. *)
Definition write_one {W} (pw : packet_writer W) (l : link) : prog W (option error) :=
  do (ack, err) <- pdb_write_link pw l ;;
  match err with
  | None => pret None
  | Some e =>
      if error_eqb e EPlmWrongPayload then
        match ack with
        | None => ppanic
        | Some a =>
            do (_, err1) <- pdb_delete_link pw (fst (link_unmarshal link_zero (p_payload a))) ;;
            match err1 with
            | Some e1 => pret (Some e1)
            | None => do (_, err2) <- pdb_write_link pw l ;; pret err2
            end
        end
      else pret (Some e)
  end.

(** plm/linkdb.go:164-191: the loop over the new links; [done] is [ldb.links]. *)
Fixpoint write_all {W} (pw : packet_writer W) (ls : list link) : prog (plmdb * W) (option error) :=
  match ls with
  | [] => pret None
  | l :: t =>
      do err <- psnd (write_one pw l) ;;
      match err with
      | Some e => pret (Some e)
      | None =>
          do db <- pfst pget ;;
          run pfst (pput (set_pd_links db (pd_links db ++ [l]))) ;;
          write_all pw t
      end
  end.

(** plm/linkdb.go:151-195 [WriteLinks]. *)
Definition pdb_write_links {W} (pw : packet_writer W) (ls : list link) : prog (plmdb * W) (option error) :=
  do db <- pfst pget ;;
  do err <- psnd (delete_all pw (pd_links db)) ;;
  match err with
  | Some e => pret (Some e)
  | None =>
      run pfst (pput (set_pd_links db [])) ;;
      write_all pw ls
  end.

(** plm/linkdb.go:197-210 [IterateDevices]; the result lists the addresses the callback was called with.  [read] is the map. *)
Fixpoint iterate_addrs (read : list Z) (ls : list link) : list Z :=
  match ls with
  | [] => []
  | l :: t => if existsb (Z.eqb (l_addr l)) read then iterate_addrs read t
              else l_addr l :: iterate_addrs (l_addr l :: read) t
  end.
Definition pdb_iterate {W} (fuel : nat) (pw : packet_writer W) (now : Z) : prog (plmdb * W) (list Z * option error) :=
  do (links, err) <- pdb_links fuel pw now ;;
  match err with
  | Some e => pret ([], Some e)
  | None => pret (iterate_addrs [] links, None)
  end.

(** plm/linkdb.go:212-214 [UpdateLinks]. *)
Definition pdb_update_links {W} (ls : list link) : prog (plmdb * W) (option error) := pret (Some EInsteonNotImplemented).

(** plm/linkdb.go:216-233: linking modes. *)
Definition pdb_enter_linking {W} (pw : packet_writer W) (group : Z) : prog W (option error) :=
  do (_, err) <- pw_write pw (mkPkt pc_StartAllLink (alr_marshal 0x03 group) 0) ;; pret err.
Definition pdb_exit_linking {W} (pw : packet_writer W) : prog W (option error) :=
  do (_, err) <- pw_write pw (mkPkt pc_CancelAllLink [] 0) ;; pret err.
Definition pdb_enter_unlinking {W} (pw : packet_writer W) (group : Z) : prog W (option error) :=
  do (_, err) <- pw_write pw (mkPkt pc_StartAllLink (alr_marshal 0xff group) 0) ;; pret err.
