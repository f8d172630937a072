(** Model of util/link.go: operations on link databases of devices.  The text form (67-98) is in LinkText.v;
    [DumpLinks] and [PrintLinks] (431-457) are in Display.v. *)
From Coq Require Import ZArith List Bool.
From Verif Require Import GoBase GoProg Address Link BasicDevice MsgWriter DevLinkdb.
Import ListNotations.
Open Scope Z_scope.

(** devices/device.go:104-151 [Linkable], with the optional [WriteLink]; [lk_id] stands for the identity of the interface value. *)
Record linkable (W : Type) : Type := mkLk {
  lk_id : Z;
  lk_address : prog W Z;
  lk_enter : Z -> prog W (option error);
  lk_unlink : Z -> prog W (option error);
  lk_exit : prog W (option error);
  lk_links : prog W (list link * option error);
  lk_update : list link -> prog W (option error);
  lk_write : list link -> prog W (option error);
  lk_write_one : option (Z -> link -> prog W (option error))
}.
Arguments lk_id {W}. Arguments lk_address {W}. Arguments lk_enter {W}. Arguments lk_unlink {W}. Arguments lk_exit {W}.
Arguments lk_links {W}. Arguments lk_update {W}. Arguments lk_write {W}. Arguments lk_write_one {W}. Arguments mkLk {W}.

(** A [BasicDevice] (devices/basic.go:40-54) as a [Linkable]: the methods of its link database are promoted. *)
Definition dev_linkable {W} (fuel : nat) (mw : mwriter W) (now id : Z) (info : dinfo) : linkable (linkdb * W) :=
  mkLk id (pret (di_addr info)) (fun g => psnd (bd_enter_linking info mw g)) (fun g => psnd (bd_enter_unlinking info mw g))
    (psnd (bd_exit_linking info mw)) (ld_get_links fuel (bd_mw info mw) now) (ld_update_links fuel (bd_mw info mw) now)
    (ld_write_links (bd_mw info mw) now) (Some (ld_write_link (bd_mw info mw))).

(** util/link.go:60-65 [Less]; string comparison is bytewise. *)
Fixpoint bytes_ltb (a b : list Z) : bool :=
  match a, b with
  | _, [] => false
  | [], _ :: _ => true
  | x :: a', y :: b' => if x =? y then bytes_ltb a' b' else x <? y
  end.
Definition links_less (a b : link) : bool :=
  if l_addr a =? l_addr b then l_group a <? l_group b else bytes_ltb (addr_string (l_addr a)) (addr_string (l_addr b)).

(** util/link.go:105-119 [FindDuplicateLinks]: the loops. *)
Fixpoint duplicates (equal : link -> link -> bool) (links : list link) : list link :=
  match links with
  | [] => []
  | l1 :: t => filter (equal l1) t ++ duplicates equal t
  end.
Definition find_duplicate_links {W} (lk : linkable W) (equal : link -> link -> bool) : prog W (list link * option error) :=
  do (links, err) <- lk_links lk ;;
  match err with Some e => pret ([], Some e) | None => pret (duplicates equal links, None) end.

(** util/link.go:124-137 [FindLinkRecord]. *)
Definition record_matches (controller : bool) (addr group : Z) (l : link) : bool :=
  negb (rcf_available (l_flags l)) && Bool.eqb (rcf_controller (l_flags l)) controller && (l_addr l =? addr) && (l_group l =? group).
Definition find_link_record {W} (lk : linkable W) (controller : bool) (addr group : Z) : prog W (link * option error) :=
  do (links, err) <- lk_links lk ;;
  match err with
  | Some e => pret (link_zero, Some e)
  | None =>
      match find (record_matches controller addr group) links with
      | Some l => pret (l, None)
      | None => pret (link_zero, Some EUtilLinkNotFound)
      end
  end.

(** util/link.go:147-165 [Anonymize]; [rnd] are the values rand.Int31 delivers.  [ix] is the map, newest first. *)
Definition with_addr (a : Z) (l : link) : link := mkLink (l_flags l) (l_group l) a (l_d0 l) (l_d1 l) (l_d2 l).
Fixpoint addr_find (a : Z) (ix : list (Z * Z)) : option Z :=
  match ix with [] => None | (k, v) :: t => if k =? a then Some v else addr_find a t end.
Fixpoint anonymize_loop (rnd : nat -> Z) (used : nat) (ix : list (Z * Z)) (repl : list Z) (links : list link) : list link :=
  match links with
  | [] => []
  | l :: t =>
      match addr_find (l_addr l) ix with
      | Some a => with_addr a l :: anonymize_loop rnd used ix repl t
      | None =>
          match repl with
          | a :: repl' => with_addr a l :: anonymize_loop rnd used ((l_addr l, a) :: ix) repl' t
          | [] => let a := Z.land 0x00ffffff (rnd used) in with_addr a l :: anonymize_loop rnd (S used) ((l_addr l, a) :: ix) [] t
          end
      end
  end.
Definition anonymize (rnd : nat -> Z) (links : list link) (repl : list Z) : list link := anonymize_loop rnd 0 [] repl links.

(** util/link.go:172-205 [MissingCrosslinks].  Only the first in-use record of an address is looked at (the map [processed]), so the
    inner loop is [missing_first]. *)
Definition flip_role (l : link) : link :=
  with_flags (fun f => if rcf_controller f then rcf_set_responder f else rcf_set_controller f) l.
Definition crosslink_of (addr : Z) (l1 l2 : link) : bool :=
  (l_addr l2 =? addr) && (l_group l1 =? l_group l2) && Bool.eqb (rcf_controller (l_flags l1)) (rcf_responder (l_flags l2)).
Fixpoint missing_first (addr : Z) (links : list link) : list link :=
  match links with
  | [] => []
  | l1 :: t =>
      if rcf_available (l_flags l1) || negb (l_addr l1 =? addr) then missing_first addr t
      else if existsb (crosslink_of addr l1) t then [] else [flip_role l1]
  end.
Definition missing_crosslinks (links : list link) (addrs : list Z) : list link := flat_map (fun a => missing_first a links) addrs.

(** util/link.go:245-262 [fixCrosslinks]: without an available record the result starts again from the original list. *)
Fixpoint fill_first (m : link) (links : list link) : option (list link) :=
  match links with
  | [] => None
  | l :: t => if rcf_available (l_flags l) then Some (m :: t) else match fill_first m t with Some t' => Some (l :: t') | None => None end
  end.
Definition fix_crosslinks (links : list link) (addrs : list Z) : list link :=
  fold_left (fun new m => match fill_first m new with Some new' => new' | None => links ++ [m] end) (missing_crosslinks links addrs) links.

(** util/link.go:210-226: the loop of [AddLinks] for a device that can write single records; returns what is left to add. *)
Fixpoint add_fill {W} (wr : Z -> link -> prog W (option error)) (i : Z) (existing add : list link) : prog W (list link * option error) :=
  match existing, add with
  | [], _ => pret (add, None)
  | _, [] => pret ([], None)
  | x :: t, a :: add' =>
      if rcf_available (l_flags x) then
        do err <- wr i a ;;
        match err with Some e => pret (add', Some e) | None => add_fill wr (i + 1) t add' end
      else add_fill wr (i + 1) t add
  end.
(** The same loop for other devices: the new list of links and what is left. *)
Fixpoint add_merge (existing add : list link) : list link * list link :=
  match existing, add with
  | [], _ => ([], add)
  | x :: t, [] => (let (n, r) := add_merge t [] in (x :: n, r))
  | x :: t, a :: add' =>
      if rcf_available (l_flags x) then let (n, r) := add_merge t add' in (a :: n, r)
      else let (n, r) := add_merge t add in (x :: n, r)
  end.
(** util/link.go:231-233: goes on after an error; the last result counts. *)
Fixpoint add_append {W} (wr : Z -> link -> prog W (option error)) (i : Z) (add : list link) (err : option error) : prog W (option error) :=
  match add with
  | [] => pret err
  | a :: t => do err1 <- wr i a ;; add_append wr (i + 1) t err1
  end.
(** util/link.go:207-243 [AddLinks]. *)
Definition add_links {W} (lk : linkable W) (add : list link) : prog W (option error) :=
  do (existing, err) <- lk_links lk ;;
  match err with
  | Some e => pret (Some e)
  | None =>
      match lk_write_one lk with
      | Some wr =>
          do (rest, err1) <- add_fill wr 0 existing add ;;
          match err1 with Some e => pret (Some e) | None => add_append wr (zlen existing) rest None end
      | None =>
          let (n, r) := add_merge existing add in
          match n ++ r with [] => pret None | new => lk_write lk new end
      end
  end.

(** util/link.go:298-326 [ForceLink]. *)
Definition force_link {W} (group : Z) (controller responder : linkable W) : prog W (option error) :=
  do err <- lk_enter controller group ;;
  match err with
  | Some e => pret (Some e)
  | None =>
      do err1 <- lk_enter responder group ;;
      run lk_exit controller ;;
      run lk_exit responder ;;
      pret err1
  end.

(** util/link.go:406-429 [RemoveLinks]: errors of single writes are dropped. *)
Definition removes (remove : list link) (l : link) : bool := existsb (link_equal l) remove.
Fixpoint remove_loop {W} (wr : option (Z -> link -> prog W (option error))) (i : Z) (links remove : list link) : prog W (list link) :=
  match links with
  | [] => pret []
  | l :: t =>
      if removes remove l then
        match wr with
        | Some w => run w i (with_flags rcf_set_available l) ;; remove_loop wr (i + 1) t remove
        | None => do rest <- remove_loop wr (i + 1) t remove ;; pret (with_flags rcf_set_available l :: rest)
        end
      else remove_loop wr (i + 1) t remove
  end.
Definition remove_links {W} (lk : linkable W) (remove : list link) : prog W (option error) :=
  do (links, err) <- lk_links lk ;;
  match err with
  | Some e => pret (Some e)
  | None =>
      do rl <- remove_loop (lk_write_one lk) 0 links remove ;;
      match rl with [] => pret None | _ => lk_update lk rl end
  end.

(** util/link.go:333-366 [Link]; [err == ErrLinkNotFound] compares identities. *)
Definition link_devices {W} (group : Z) (controller responder : linkable W) : prog W (option error) :=
  do raddr <- lk_address responder ;;
  do (clink, err) <- find_link_record controller true raddr group ;;
  match err with
  | Some e =>
      if error_eqb e EUtilLinkNotFound then
        do caddr <- lk_address controller ;;
        do (rlink, err1) <- find_link_record responder false caddr group ;;
        do err2 <- match err1 with None => remove_links responder [rlink] | Some _ => pret err1 end ;;
        match err2 with
        | None => force_link group controller responder
        | Some e2 => if error_eqb e2 EUtilLinkNotFound then force_link group controller responder else pret (Some e2)
        end
      else pret (Some e)
  | None =>
      do caddr <- lk_address controller ;;
      do (_, err1) <- find_link_record responder false caddr group ;;
      match err1 with
      | Some e =>
          if error_eqb e EUtilLinkNotFound then
            do err2 <- remove_links controller [clink] ;;
            match err2 with None => force_link group controller responder | Some e2 => pret (Some e2) end
          else pret (Some e)
      | None => pret None
      end
  end.

(** util/link.go:284-293 [CrossLink]. *)
Definition cross_link {W} (group : Z) (d1 d2 : linkable W) : prog W (option error) :=
  do err <- link_devices group d1 d2 ;;
  let second :=
    do err1 <- link_devices group d2 d1 ;;
    match err1 with
    | Some e => if errors_is e EUtilAlreadyLinked then pret None else pret (Some e)
    | None => pret None
    end in
  match err with
  | None => second
  | Some e => if errors_is e EUtilAlreadyLinked then second else pret (Some e)
  end.
(** util/link.go:266-278 [CrossLinkAll]. *)
Fixpoint cross_link_one {W} (group : Z) (d1 : linkable W) (ds : list (linkable W)) : prog W (option error) :=
  match ds with
  | [] => pret None
  | d2 :: t =>
      if lk_id d1 =? lk_id d2 then cross_link_one group d1 t
      else do err <- cross_link group d1 d2 ;; match err with Some e => pret (Some e) | None => cross_link_one group d1 t end
  end.
Fixpoint cross_link_all {W} (group : Z) (ds : list (linkable W)) : prog W (option error) :=
  match ds with
  | [] => pret None
  | d1 :: t => do err <- cross_link_one group d1 ds ;; match err with Some e => pret (Some e) | None => cross_link_all group t end
  end.

(** util/link.go:390-404 [Unlink]. *)
Definition unlink {W} (group : Z) (controller responder : linkable W) : prog W (option error) :=
  do err <- lk_unlink controller group ;;
  match err with
  | Some e => pret (Some e)
  | None =>
      do err1 <- lk_enter responder group ;;
      run lk_exit controller ;;
      run lk_exit responder ;;
      pret err1
  end.
(** util/link.go:370-384 [UnlinkAll]: only the last result counts. *)
Fixpoint unlink_loop {W} (controller responder : linkable W) (links : list link) (err : option error) : prog W (option error) :=
  match links with
  | [] => pret err
  | l :: t =>
      do raddr <- lk_address responder ;;
      if l_addr l =? raddr then
        do err1 <- (if rcf_controller (l_flags l) then unlink (l_group l) controller responder else unlink (l_group l) responder controller) ;;
        unlink_loop controller responder t err1
      else unlink_loop controller responder t err
  end.
Definition unlink_all {W} (controller responder : linkable W) : prog W (option error) :=
  do (links, err) <- lk_links controller ;;
  match err with Some e => pret (Some e) | None => unlink_loop controller responder links None end.
