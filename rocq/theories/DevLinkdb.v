(** Model of devices/linkdb.go: a device's All-Link database. *)
From Coq Require Import ZArith List Bool.
From Verif Require Import GoBase GoProg Command Message Link MsgWriter BasicDevice.
Import ListNotations.
Open Scope Z_scope.

(** devices/linkdb.go:25-31. *)
Definition base_address : Z := 0x0fff.
Definition record_size : Z := 8.
(** devices/linkdb.go:33-37 [MaxLinkDbAge], in seconds. *)
Definition max_age : Z := 3600.

(** devices/linkdb.go:48-52. *)
Definition lt_readLink : Z := 0x00.
Definition lt_linkResponse : Z := 0x01.
Definition lt_writeLink : Z := 0x02.

(** devices/linkdb.go:72-77 [LinkRequest]. *)
Record linkreq : Type := mkLR { lr_type : Z; lr_mem : Z; lr_num : Z; lr_link : option link }.
Definition linkreq_zero : linkreq := mkLR 0 0 0 None.

(** devices/linkdb.go:87-113 [UnmarshalBinary] on receiver [old]. *)
Definition lr_unmarshal (old : linkreq) (buf : list Z) : linkreq * option error :=
  match buf with
  | _ :: t :: hi :: lo :: n :: rest =>
      let mem := Z.lor (Z.shiftl hi 8) lo in
      let finish (num : Z) (l : option link) :=
        match l with
        | None => (mkLR t mem num None, None)
        | Some l0 => match link_unmarshal l0 rest with (l1, e) => (mkLR t mem num (Some l1), e) end
        end in
      if t =? 0x00 then finish n (lr_link old)
      else if t =? 0x01 then finish (lr_num old) (Some link_zero)
      else if t =? 0x02 then finish n (Some link_zero)
      else (mkLR t mem (lr_num old) (lr_link old), Some EDevInvalidResponse)
  | _ => (old, Some (EWrap EBufferTooShort))
  end.

(** devices/linkdb.go:117-136 [MarshalBinary]; a nil link is dereferenced. *)
Definition lr_marshal (r : linkreq) : outcome (list Z) :=
  let head (n : Z) := [0; byte_of (lr_type r); byte_of (Z.shiftr (lr_mem r) 8); byte_of (Z.land (lr_mem r) 0xff); n] in
  let with_link (n : Z) :=
    match lr_link r with None => Panic | Some l => Ret (head n ++ go_copy (zeros 9) (link_marshal l)) end in
  if lr_type r =? lt_readLink then Ret (head (byte_of (lr_num r)) ++ zeros 9)
  else if lr_type r =? lt_linkResponse then with_link 0x00
  else if lr_type r =? lt_writeLink then with_link 0x08
  else Ret (head 0 ++ zeros 9).

(** devices/linkdb.go:142-147 [linkdb] without its message writer.  Times are seconds; the zero time is 0.  The map from link id
    to position is a list with the newest entry first. *)
Record linkdb : Type := mkLdb { ld_age : Z; ld_links : list link; ld_index : list (list Z * nat) }.
Definition linkdb_new : linkdb := mkLdb 0 [] [].
Definition set_ld_links (db : linkdb) (l : list link) : linkdb := mkLdb (ld_age db) l (ld_index db).
Definition set_ld_age (db : linkdb) (a : Z) : linkdb := mkLdb a (ld_links db) (ld_index db).

(** devices/linkdb.go:149-151 [old]. *)
Definition ld_old (now : Z) (db : linkdb) : bool := ld_age db + max_age <? now.

(** devices/linkdb.go:166-187: the loop of [refresh]; [last] is lastAddress.  A response without a link is dereferenced. *)
Fixpoint ld_refresh_loop {W} (fuel : nat) (mw : mwriter W) (last : Z) : prog (linkdb * W) (option error) :=
  match fuel with
  | O => pnofuel
  | S k =>
      do (msg, err) <- psnd (read_match k mw (cmd_matcher c_ReadWriteALDB)) ;;
      match err with
      | Some e => pret (Some e)
      | None =>
          match msg with
          | None => ppanic
          | Some m =>
              match lr_unmarshal linkreq_zero (m_payload m) with
              | (_, Some e) => pret (Some e)
              | (lr, None) =>
                  if lr_mem lr =? last then ld_refresh_loop k mw last
                  else
                    match lr_link lr with
                    | None => ppanic
                    | Some l =>
                        if rcf_last_record (l_flags l) then pret None
                        else
                          do db <- pfst pget ;;
                          run pfst (pput (mkLdb (ld_age db) (ld_links db ++ [l]) ((link_id l, length (ld_links db)) :: ld_index db))) ;;
                          ld_refresh_loop k mw (lr_mem lr)
                    end
              end
          end
      end
  end.

(** devices/linkdb.go:153-193 [refresh].  Simplification: the clock does not move during a call. *)
Definition ld_refresh {W} (fuel : nat) (mw : mwriter W) (now : Z) : prog (linkdb * W) (option error) :=
  do db <- pfst pget ;;
  if negb (ld_old now db) then pret None
  else
    run pfst (pput (mkLdb (ld_age db) [] [])) ;;
    do buf <- plift (lr_marshal (mkLR lt_readLink 0 0 None)) ;;
    do (_, err) <- psnd (mw_write mw (mkMsg 0 0 0 c_ReadWriteALDB buf)) ;;
    do err1 <- match err with Some e => pret (Some e) | None => ld_refresh_loop fuel mw 0 end ;;
    match err1 with
    | Some e => pret (Some e)
    | None => do db1 <- pfst pget ;; run pfst (pput (set_ld_age db1 now)) ;; pret None
    end.

(** devices/linkdb.go:197-204 [Links]. *)
Definition ld_get_links {W} (fuel : nat) (mw : mwriter W) (now : Z) : prog (linkdb * W) (list link * option error) :=
  do err <- ld_refresh fuel mw now ;;
  match err with
  | Some e => pret ([], Some e)
  | None => do db <- pfst pget ;; pret (ld_links db, None)
  end.

(** devices/linkdb.go:243-267 [WriteLink]; a negative index is not refused and crashes after the write. *)
Definition ld_write_link {W} (mw : mwriter W) (index : Z) (l : link) : prog (linkdb * W) (option error) :=
  do db <- pfst pget ;;
  if zlen (ld_links db) <? index then pret (Some EDevLinkIndexOutOfRange)
  else
    do buf <- plift (lr_marshal (mkLR lt_writeLink (base_address - index * record_size) 0 (Some l))) ;;
    do (_, err) <- psnd (mw_write mw (mkMsg 0 0 0 c_ReadWriteALDB buf)) ;;
    match err with
    | Some e => pret (Some e)
    | None =>
        if rcf_last_record (l_flags l) then
          if index <? zlen (ld_links db) then
            if index <? 0 then ppanic
            else run pfst (pput (set_ld_links db (firstn (Z.to_nat index) (ld_links db)))) ;; pret None
          else pret None
        else
          if index =? zlen (ld_links db) then run pfst (pput (set_ld_links db (ld_links db ++ [l]))) ;; pret None
          else if index <? 0 then ppanic
          else run pfst (pput (set_ld_links db (list_set (ld_links db) (Z.to_nat index) l))) ;; pret None
    end.

(** A link with its flags changed. *)
Definition with_flags (f : Z -> Z) (l : link) : link := mkLink (f (l_flags l)) (l_group l) (l_addr l) (l_d0 l) (l_d1 l) (l_d2 l).
(** devices/linkdb.go:281-282, 325-326: [LinkRecord{}] with SetLastRecord. *)
Definition terminator : link := with_flags rcf_set_last_record link_zero.

(** devices/linkdb.go:275-278: the loop of [writeLinks]; [i] counts up. *)
Fixpoint ld_write_loop {W} (mw : mwriter W) (i : Z) (ls : list link) : prog (linkdb * W) (option error) :=
  match ls with
  | [] => pret None
  | l :: t =>
      do err <- ld_write_link mw i (with_flags rcf_clear_last_record l) ;;
      match err with Some e => pret (Some e) | None => ld_write_loop mw (i + 1) t end
  end.
(** devices/linkdb.go:269-289 [WriteLinks], [writeLinks]. *)
Definition ld_write_links {W} (mw : mwriter W) (now : Z) (ls : list link) : prog (linkdb * W) (option error) :=
  do err <- ld_write_loop mw 0 ls ;;
  match err with
  | Some e => pret (Some e)
  | None =>
      do db <- pfst pget ;;
      do err1 <- ld_write_link mw (zlen (ld_links db)) terminator ;;
      match err1 with
      | Some e => pret (Some e)
      | None => do db1 <- pfst pget ;; run pfst (pput (set_ld_age db1 now)) ;; pret None
      end
  end.

(** devices/linkdb.go:213-229: the first loop of [AddLinks], over a snapshot [ls] of the cached links from position [i]. *)
Fixpoint ld_add_fill {W} (mw : mwriter W) (i : Z) (ls add : list link) : prog (linkdb * W) (list link * option error) :=
  match ls, add with
  | l :: t, a :: add' =>
      do err <-
        (if rcf_available (l_flags l) then
           do err <- ld_write_link mw i l ;;
           match err with
           | Some e => pret (Some e)
           | None =>
               do db <- pfst pget ;;
               (* ldb.links[i] = addLinks[0] *)
               if zlen (ld_links db) <=? i then ppanic
               else run pfst (pput (set_ld_links db (list_set (ld_links db) (Z.to_nat i) (with_flags (fun f => rcf_clear_last_record (rcf_set_in_use f)) a)))) ;; pret None
           end
         else pret None) ;;
      match err with
      | Some e => pret (a :: add', Some e)
      | None => match add' with [] => pret ([], None) | _ => ld_add_fill mw (i + 1) t add' end
      end
  | _, _ => pret (add, None)
  end.
(** devices/linkdb.go:231-238: the second loop of [AddLinks]. *)
Fixpoint ld_add_append {W} (mw : mwriter W) (add : list link) : prog (linkdb * W) (option error) :=
  match add with
  | [] => pret None
  | a :: t =>
      do db <- pfst pget ;;
      do err <- ld_write_link mw (zlen (ld_links db)) (with_flags rcf_clear_last_record a) ;;
      match err with Some e => pret (Some e) | None => ld_add_append mw t end
  end.
(** devices/linkdb.go:206-241 [AddLinks]. *)
Definition ld_add_links {W} (fuel : nat) (mw : mwriter W) (now : Z) (add : list link) : prog (linkdb * W) (option error) :=
  match add with
  | [] => pret None
  | _ =>
      do err <- ld_refresh fuel mw now ;;
      match err with
      | Some e => pret (Some e)
      | None =>
          do db <- pfst pget ;;
          do (rest, err1) <- ld_add_fill mw 0 (ld_links db) add ;;
          match err1 with
          | Some e => pret (Some e)
          | None => ld_add_append mw rest
          end
      end
  end.

(** The map lookup of devices/linkdb.go:297. *)
Fixpoint index_find (id : list Z) (ix : list (list Z * nat)) : option nat :=
  match ix with [] => None | (k, v) :: t => if bytes_eqb id k then Some v else index_find id t end.

(** devices/linkdb.go:296-304: the first loop of [UpdateLinks]: [i] is the position in the shrinking argument list, so every
    match is written at position [i]; [kept] are the links passed over (reversed), [i] their number. *)
Fixpoint ld_update_match {W} (mw : mwriter W) (kept todo : list link) : prog (linkdb * W) (list link * option error) :=
  match todo with
  | [] => pret (rev kept, None)
  | l :: t =>
      do db <- pfst pget ;;
      match index_find (link_id l) (ld_index db) with
      | None => ld_update_match mw (l :: kept) t
      | Some j =>
          match nth_error (ld_links db) j with
          | None => ppanic
          | Some old =>
              do err <- (if negb (l_flags old =? l_flags l) then ld_write_link mw (zlen kept) l else pret None) ;;
              match err with
              | Some e => pret (rev kept ++ t, Some e)
              | None => ld_update_match mw kept t
              end
          end
      end
  end.
(** devices/linkdb.go:306-314: the second loop; [i] runs over the positions of the cached links, [n] of them are left. *)
Fixpoint ld_update_fill {W} (mw : mwriter W) (n : nat) (i : Z) (links : list link) : prog (linkdb * W) (list link * option error) :=
  match n with
  | O => pret (links, None)
  | S n' =>
      do db <- pfst pget ;;
      do x <- plift (go_index (ld_links db) i) ;;
      match links with
      | [] => pret ([], None)                     (* nothing more is written *)
      | l :: t =>
          if rcf_available (l_flags x) then
            do err <- ld_write_link mw i (with_flags rcf_clear_last_record l) ;;
            match err with
            | Some e => pret (with_flags rcf_clear_last_record l :: t, Some e)
            | None => ld_update_fill mw n' (i + 1) t
            end
          else ld_update_fill mw n' (i + 1) links
      end
  end.
(** devices/linkdb.go:318-322: the third loop goes on after an error; the last result counts. *)
Fixpoint ld_update_append {W} (mw : mwriter W) (i : Z) (links : list link) (err : option error) : prog (linkdb * W) (Z * option error) :=
  match links with
  | [] => pret (i, err)
  | l :: t =>
      do err1 <- ld_write_link mw i (with_flags rcf_clear_last_record l) ;;
      ld_update_append mw (i + 1) t err1
  end.
(** devices/linkdb.go:291-332 [UpdateLinks]. *)
Definition ld_update_links {W} (fuel : nat) (mw : mwriter W) (now : Z) (links : list link) : prog (linkdb * W) (option error) :=
  do err <- ld_refresh fuel mw now ;;
  match err with
  | Some e => pret (Some e)
  | None =>
      do (links1, err1) <- ld_update_match mw [] links ;;
      match err1 with
      | Some e => pret (Some e)
      | None =>
          do db <- pfst pget ;;
          do (links2, err2) <- ld_update_fill mw (length (ld_links db)) 0 links1 ;;
          match err2 with
          | Some e => pret (Some e)
          | None =>
              match links2 with
              | [] => pret None
              | _ =>
                  do db1 <- pfst pget ;;
                  do (i, err3) <- ld_update_append mw (zlen (ld_links db1)) links2 None ;;
                  match err3 with
                  | Some e => pret (Some e)
                  | None => ld_write_link mw i terminator
                  end
              end
          end
      end
  end.
