(** The functions of devices/linkdb.go and util/link.go that take a list of links from their caller, with the memory of that list.
    [DevLinkdb.v] and [UtilLink.v] model the same functions on lists as values.  The cached links of a device are values here too:
    no other slice shares their array, because [Links] copies them (devices/linkdb.go:200-201), [refresh] starts from nil
    (160-187) and [WriteLink] takes one record by value. *)
From Coq Require Import ZArith List Bool Arith.
From Verif Require Import GoBase GoProg GoSlice Link MsgWriter DevLinkdb UtilLink.
Import ListNotations.
Open Scope Z_scope.

(** Access to the memory. *)
Definition mget {W} (s : slice) (i : nat) : prog (heap link * W) link :=
  do h <- pfst pget ;; plift (sl_get h s i).
Definition mset {W} (s : slice) (i : nat) (l : link) : prog (heap link * W) unit :=
  do h <- pfst pget ;; do h1 <- plift (sl_set h s i l) ;; pfst (pput h1).
Definition mview {W} (s : slice) : prog (heap link * W) (list link) :=
  do h <- pfst pget ;; pret (sl_view h s).
Definition mappend {W} (grow : nat -> nat) (s : slice) (xs : list link) : prog (heap link * W) slice :=
  do h <- pfst pget ;; let (h1, s1) := sl_append link_zero grow h s xs in run pfst (pput h1) ;; pret s1.

(** devices/linkdb.go:275-278; [n] iterations are left. *)
Fixpoint mem_write_loop {W} (mw : mwriter W) (n : nat) (i : nat) (s : slice) : prog (heap link * (linkdb * W)) (option error) :=
  match n with
  | O => pret None
  | S n' =>
      do l <- mget s i ;;
      run mset s i (with_flags rcf_clear_last_record l) ;;
      do l1 <- mget s i ;;
      do err <- psnd (ld_write_link mw (Z.of_nat i) l1) ;;
      match err with Some e => pret (Some e) | None => mem_write_loop mw n' (S i) s end
  end.
(** devices/linkdb.go:269-289 [WriteLinks], [writeLinks]. *)
Definition mem_write_links {W} (mw : mwriter W) (now : Z) (s : slice) : prog (heap link * (linkdb * W)) (option error) :=
  do err <- mem_write_loop mw (sl_len s) 0 s ;;
  match err with
  | Some e => pret (Some e)
  | None =>
      do db <- psnd (pfst pget) ;;
      do err1 <- psnd (ld_write_link mw (zlen (ld_links db)) terminator) ;;
      match err1 with
      | Some e => pret (Some e)
      | None => do db1 <- psnd (pfst pget) ;; run psnd (pfst (pput (set_ld_age db1 now))) ;; pret None
      end
  end.

(** devices/linkdb.go:213-229: as [ld_add_fill]; the flags of addLinks[0] are changed in place. *)
Fixpoint mem_add_fill {W} (mw : mwriter W) (i : Z) (ls : list link) (s : slice) : prog (heap link * (linkdb * W)) (slice * option error) :=
  match ls with
  | [] => pret (s, None)
  | l :: t =>
      do err <-
        (if rcf_available (l_flags l) then
           do err <- psnd (ld_write_link mw i l) ;;
           match err with
           | Some e => pret (Some e)
           | None =>
               do a <- mget s 0 ;;
               run mset s 0 (with_flags rcf_set_in_use a) ;;
               do a1 <- mget s 0 ;;
               run mset s 0 (with_flags rcf_clear_last_record a1) ;;
               do a2 <- mget s 0 ;;
               do db <- psnd (pfst pget) ;;
               if zlen (ld_links db) <=? i then ppanic
               else run psnd (pfst (pput (set_ld_links db (list_set (ld_links db) (Z.to_nat i) a2)))) ;; pret None
           end
         else pret None) ;;
      match err with
      | Some e => pret (s, Some e)
      | None =>
          do s1 <- plift (sl_cut s 1 (sl_len s)) ;;
          if (sl_len s1 =? 0)%nat then pret (s1, None) else mem_add_fill mw (i + 1) t s1
      end
  end.
(** devices/linkdb.go:206-241 [AddLinks]; the second loop (231-238) works on copies of the records. *)
Definition mem_add_links {W} (fuel : nat) (mw : mwriter W) (now : Z) (s : slice) : prog (heap link * (linkdb * W)) (option error) :=
  if (sl_len s =? 0)%nat then pret None
  else
    do err <- psnd (ld_refresh fuel mw now) ;;
    match err with
    | Some e => pret (Some e)
    | None =>
        do db <- psnd (pfst pget) ;;
        do (s1, err1) <- mem_add_fill mw 0 (ld_links db) s ;;
        match err1 with
        | Some e => pret (Some e)
        | None => do rest <- mview s1 ;; psnd (ld_add_append mw rest)
        end
    end.

(** devices/linkdb.go:296-304: links[i+1:] is moved down over links[i:] by append; [n] iterations are left. *)
Fixpoint mem_update_match {W} (grow : nat -> nat) (mw : mwriter W) (n : nat) (i : nat) (s : slice) : prog (heap link * (linkdb * W)) (slice * option error) :=
  match n with
  | O => pret (s, None)
  | S n' =>
      do l <- mget s i ;;
      do db <- psnd (pfst pget) ;;
      match index_find (link_id l) (ld_index db) with
      | None => mem_update_match grow mw n' (S i) s
      | Some j =>
          match nth_error (ld_links db) j with
          | None => ppanic
          | Some old =>
              do err <- (if negb (l_flags old =? l_flags l) then psnd (ld_write_link mw (Z.of_nat i) l) else pret None) ;;
              do front <- plift (sl_cut s 0 i) ;;
              do back <- plift (sl_cut s (i + 1) (sl_len s)) ;;
              do xs <- mview back ;;
              do s1 <- mappend grow front xs ;;
              match err with Some e => pret (s1, Some e) | None => mem_update_match grow mw n' i s1 end
          end
      end
  end.
(** devices/linkdb.go:306-314. *)
Fixpoint mem_update_fill {W} (mw : mwriter W) (n : nat) (i : Z) (s : slice) : prog (heap link * (linkdb * W)) (slice * option error) :=
  match n with
  | O => pret (s, None)
  | S n' =>
      do db <- psnd (pfst pget) ;;
      do x <- plift (go_index (ld_links db) i) ;;
      if rcf_available (l_flags x) && (0 <? sl_len s)%nat then
        do l <- mget s 0 ;;
        run mset s 0 (with_flags rcf_clear_last_record l) ;;
        do l1 <- mget s 0 ;;
        do err <- psnd (ld_write_link mw i l1) ;;
        match err with
        | Some e => pret (s, Some e)
        | None => do s1 <- plift (sl_cut s 1 (sl_len s)) ;; mem_update_fill mw n' (i + 1) s1
        end
      else mem_update_fill mw n' (i + 1) s
  end.
(** devices/linkdb.go:291-332 [UpdateLinks]; the third loop (318-322) works on copies of the records. *)
Definition mem_update_links {W} (grow : nat -> nat) (fuel : nat) (mw : mwriter W) (now : Z) (s : slice) : prog (heap link * (linkdb * W)) (option error) :=
  do err <- psnd (ld_refresh fuel mw now) ;;
  match err with
  | Some e => pret (Some e)
  | None =>
      do (s1, err1) <- mem_update_match grow mw (sl_len s) 0 s ;;
      match err1 with
      | Some e => pret (Some e)
      | None =>
          do db <- psnd (pfst pget) ;;
          do (s2, err2) <- mem_update_fill mw (length (ld_links db)) 0 s1 ;;
          match err2 with
          | Some e => pret (Some e)
          | None =>
              if (sl_len s2 =? 0)%nat then pret None
              else
                do db1 <- psnd (pfst pget) ;;
                do rest <- mview s2 ;;
                do (i, err3) <- psnd (ld_update_append mw (zlen (ld_links db1)) rest None) ;;
                match err3 with
                | Some e => pret (Some e)
                | None => psnd (ld_write_link mw i terminator)
                end
          end
      end
  end.

(** util/link.go:250-256: the position of the first available record; util/link.go:245-262 [fixCrosslinks].  The list the missing links
    are looked for in (248) is read before the loop. *)
Fixpoint first_available (ls : list link) (i : nat) : option nat :=
  match ls with [] => None | l :: t => if rcf_available (l_flags l) then Some i else first_available t (S i) end.
Fixpoint mem_fix_loop (grow : nat -> nat) (links new : slice) (ms : list link) (h : heap link) : outcome (heap link * slice) :=
  match ms with
  | [] => Ret (h, new)
  | m :: t =>
      match first_available (sl_view h new) 0 with
      | Some i => match sl_set h new i m with
                  | Ret h1 => mem_fix_loop grow links new t h1
                  | Panic => Panic
                  | NoFuel => NoFuel
                  end
      | None => let (h1, new1) := sl_append link_zero grow h links [m] in mem_fix_loop grow links new1 t h1
      end
  end.
Definition mem_fix_crosslinks (grow : nat -> nat) (links : slice) (addrs : list Z) (h : heap link) : outcome (heap link * slice) :=
  let new := mkSl (length h) 0 (sl_len links) (sl_len links) in
  mem_fix_loop grow links new (missing_crosslinks (sl_view h links) addrs) (h ++ [sl_view h links]).
