(** Model of devices/filters.go. *)
From Coq Require Import ZArith List Bool.
From Verif Require Import GoBase GoProg Message MsgWriter.
Import ListNotations.
Open Scope Z_scope.

(** ** CacheFilter *)
(** A cached *Message: the pointer is modelled by a number.  Simplifications: every message that passes is a new object (true of
    the modem, plm/plm.go:199), and messages are not changed after they passed (MemFilters.v and C80 do without this). *)
Notation cached := (Z * message)%type.
(** devices/filters.go:95-99 [CacheFilter]; [c_cap] is cap(Messages) and [c_next] numbers the objects. *)
Record cache : Type := mkCache { c_msgs : list cached; c_cap : Z; c_i : Z; c_next : Z }.

(** devices/filters.go:65-79 [NewCache]; making a slice with a negative capacity panics. *)
Definition new_cache (size : Z) (msgs : list message) : outcome cache :=
  let size1 := if size <? zlen msgs then zlen msgs else size in
  if size1 <? 0 then Panic
  else Ret (mkCache (combine (zrange_from 0 (length msgs)) msgs) size1 (if zlen msgs =? 0 then 0 else zlen msgs - 1) (zlen msgs)).

(** devices/filters.go:101-118 [push] of a non-nil message. *)
Definition cache_push (c : cache) (m : message) : outcome cache :=
  let x := (c_next c, m) in
  let i := if 0 <? zlen (c_msgs c) then c_i c + 1 else c_i c in
  if zlen (c_msgs c) <? c_cap c then Ret (mkCache (c_msgs c ++ [x]) (c_cap c) i (c_next c + 1))
  else
    let i1 := if i =? zlen (c_msgs c) then 0 else i in
    if (0 <=? i1) && (i1 <? zlen (c_msgs c))
    then Ret (mkCache (list_set (c_msgs c) (Z.to_nat i1) x) (c_cap c) i1 (c_next c + 1))
    else Panic.
(** devices/filters.go:102-104: a nil message is not stored. *)
Definition cache_push_opt (c : cache) (m : option message) : outcome cache :=
  match m with None => Ret c | Some x => cache_push c x end.

(** devices/filters.go:130-141: the loop of [Lookup]. *)
Fixpoint lookup_loop (fuel : nat) (p : cached -> bool) (msgs : list cached) (i j : Z) : outcome (option cached) :=
  match fuel with
  | O => NoFuel
  | S k =>
      let i1 := if i <? 0 then zlen msgs - 1 else i in
      let! x := go_index msgs i1 in
      if p x then Ret (Some x)
      else if i1 =? j then Ret None
      else lookup_loop k p msgs (i1 - 1) j
  end.
(** devices/filters.go:120-142 [Lookup].  Each index is visited at most once, so [length + 1] turns are enough. *)
Definition cache_lookup (p : cached -> bool) (c : cache) : outcome (option cached) :=
  match c_msgs c with
  | [] => Ret None
  | _ =>
      let j := if c_i c + 1 =? zlen (c_msgs c) then 0 else c_i c + 1 in
      lookup_loop (S (length (c_msgs c))) p (c_msgs c) (c_i c) j
  end.

(** devices/filters.go:81-93 [Filter]. *)
Definition cache_read {W} (next : mwriter W) : prog (cache * W) mresult :=
  do (msg, err) <- psnd (mw_read next) ;;
  do c <- pfst pget ;;
  do c1 <- plift (cache_push_opt c msg) ;;
  run pfst (pput c1) ;;
  pret (msg, err).
Definition cache_write {W} (next : mwriter W) (m : message) : prog (cache * W) mresult :=
  do c <- pfst pget ;;
  do c1 <- plift (cache_push c m) ;;
  run pfst (pput c1) ;;
  psnd (mw_write next m).
Definition cache_filter {W} (next : mwriter W) : mwriter (cache * W) := mkMW (cache_read next) (cache_write next).

(** ** FilterDuplicates *)
(** devices/matcher.go:38-48 [DuplicateMatcher] of the message just read: it is the object numbered last. *)
Definition duplicate_matcher (id : Z) (m : message) (x : cached) : bool :=
  if id =? fst x then false else msg_duplicate m (snd x).
(** devices/filters.go:32-42: the reading loop.  A nil message without an error is compared with whatever is cached, and crashes
    on the first comparison. *)
Fixpoint dup_read {W} (fuel : nat) (next : mwriter W) : prog (cache * W) mresult :=
  match fuel with
  | O => pnofuel
  | S k =>
      do (msg, err) <- cache_read next ;;
      match err with
      | Some e => pret (msg, Some e)
      | None =>
          do c <- pfst pget ;;
          match msg with
          | None => match c_msgs c with [] => pret (None, None) | _ => ppanic end
          | Some m =>
              do found <- plift (cache_lookup (duplicate_matcher (c_next c - 1) m) c) ;;
              match found with
              | Some _ => dup_read k next
              | None => pret (Some m, None)
              end
          end
      end
  end.
(** devices/filters.go:28-50 [FilterDuplicates]: with a cache of ten. *)
Definition dup_filter {W} (fuel : nat) (next : mwriter W) : mwriter (cache * W) := mkMW (dup_read fuel next) (cache_write next).
Definition dup_cache : cache := mkCache [] 10 0 0.

(** ** TTL *)
(** devices/filters.go:52-63 [TTL]; the caller's message is changed in place.  message.go:149-155 on the message's flags. *)
Definition ttl_message (ttl : Z) (m : message) : message :=
  mkMsg (m_src m) (m_dst m) (fl_set_ttl (fl_set_max_ttl (m_flags m) (byte_of ttl)) (byte_of ttl)) (m_cmd m) (m_payload m).
Definition ttl_filter {W} (ttl : Z) (next : mwriter W) : mwriter W :=
  mkMW (mw_read next) (fun m => mw_write next (ttl_message ttl m)).

(** ** RetryFilter *)
(** devices/filters.go:149-164: [t] is the number of tries left. *)
Fixpoint retry_writes {W} (fuel : nat) (next : mwriter W) (t : Z) (m : message) : prog W mresult :=
  match fuel with
  | O => pnofuel
  | S k =>
      do (ack, err) <- mw_write next m ;;
      if negb (err_is err EDevReadTimeout) then pret (ack, err)
      else if 1 <? t then retry_writes k next (t - 1) m
      else pret (ack, err)
  end.
(** devices/filters.go:144-168 [RetryFilter]; at most max(1, tries) turns. *)
Definition retry_filter {W} (tries : Z) (next : mwriter W) : mwriter W :=
  mkMW (mw_read next) (retry_writes (S (Z.to_nat tries)) next tries).
