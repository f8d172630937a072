(** Model of the filters of devices/filters.go and util/snoop.go with messages in memory: filters hand pointers on, caches keep
    pointers, and the TTL filter changes the caller's message in place.  Filters.v and UtilSnoop.v have messages as values. *)
From Coq Require Import ZArith List Bool.
From Verif Require Import GoBase GoProg Command Message MsgWriter Filters BasicDevice UtilSnoop.
Import ListNotations.
Open Scope Z_scope.

(** A pointer is the number of a message in memory; nothing is ever freed. *)
Notation mem := (list message).
Definition presult : Type := option nat * option error.
(** devices/connection.go:41-44 [MessageWriter] with its pointers. *)
Record pwriter (T : Type) : Type := mkPWr { pm_read : prog (mem * T) presult; pm_write : nat -> prog (mem * T) presult }.
Arguments mkPWr {T}. Arguments pm_read {T}. Arguments pm_write {T}.

Definition pload {T} (p : nat) : prog (mem * T) message := fun w => match nth_error (fst w) p with Some m => (Ret m, w) | None => (Panic, w) end.
Definition pstore {T} (p : nat) (m : message) : prog (mem * T) unit := fun w => (Ret tt, (list_set (fst w) p m, snd w)).
Definition palloc {T} (m : message) : prog (mem * T) nat := fun w => (Ret (length (fst w)), (fst w ++ [m], snd w)).
Definition palloc_opt {T} (m : option message) : prog (mem * T) (option nat) :=
  match m with None => pret None | Some x => do p <- palloc x ;; pret (Some p) end.
(** A program of the writer below, the state of the filter beside it. *)
Definition plow {C T A} (f : prog (mem * T) A) : prog (mem * (C * T)) A := fun w =>
  match f (fst w, snd (snd w)) with (r, w1) => (r, (fst w1, (fst (snd w), snd w1))) end.
Definition pstate {C T} : prog (mem * (C * T)) C := fun w => (Ret (fst (snd w)), w).
Definition pset {C T} (c : C) : prog (mem * (C * T)) unit := fun w => (Ret tt, (fst w, (c, snd (snd w)))).
Definition pmem {T} : prog (mem * T) mem := fun w => (Ret (fst w), w).

(** The writer at the bottom, any [mwriter]: it reads the message it is given and returns new ones (plm/plm.go:123-146, 192-205). *)
Definition base_pm {W} (next : mwriter W) : pwriter W :=
  mkPWr (do (m, e) <- psnd (mw_read next) ;; do p <- palloc_opt m ;; pret (p, e))
        (fun p => do m <- pload p ;; do (a, e) <- psnd (mw_write next m) ;; do q <- palloc_opt a ;; pret (q, e)).

(** devices/filters.go:95-99 [CacheFilter]. *)
Record pcache : Type := mkPC { pc_msgs : list nat; pc_cap : Z; pc_i : Z }.
(** devices/filters.go:101-118 [push]. *)
Definition pcache_push (c : pcache) (p : nat) : outcome pcache :=
  let i := if 0 <? zlen (pc_msgs c) then pc_i c + 1 else pc_i c in
  if zlen (pc_msgs c) <? pc_cap c then Ret (mkPC (pc_msgs c ++ [p]) (pc_cap c) i)
  else
    let i1 := if i =? zlen (pc_msgs c) then 0 else i in
    if (0 <=? i1) && (i1 <? zlen (pc_msgs c)) then Ret (mkPC (list_set (pc_msgs c) (Z.to_nat i1) p) (pc_cap c) i1) else Panic.
Definition pcache_push_opt (c : pcache) (p : option nat) : outcome pcache := match p with None => Ret c | Some x => pcache_push c x end.
(** devices/filters.go:120-142 [Lookup]; the matcher sees what the pointers point at now. *)
Fixpoint plookup_loop (fuel : nat) (f : nat -> bool) (msgs : list nat) (i j : Z) : outcome (option nat) :=
  match fuel with
  | O => NoFuel
  | S k =>
      let i1 := if i <? 0 then zlen msgs - 1 else i in
      let! x := go_index msgs i1 in
      if f x then Ret (Some x) else if i1 =? j then Ret None else plookup_loop k f msgs (i1 - 1) j
  end.
Definition pcache_lookup (f : nat -> bool) (c : pcache) : outcome (option nat) :=
  match pc_msgs c with
  | [] => Ret None
  | _ =>
      let j := if pc_i c + 1 =? zlen (pc_msgs c) then 0 else pc_i c + 1 in
      plookup_loop (S (length (pc_msgs c))) f (pc_msgs c) (pc_i c) j
  end.
(** devices/filters.go:81-93 [Filter]. *)
Definition pcache_read {T} (next : pwriter T) : prog (mem * (pcache * T)) presult :=
  do (p, err) <- plow (pm_read next) ;;
  do c <- pstate ;;
  do c1 <- plift (pcache_push_opt c p) ;;
  run pset c1 ;;
  pret (p, err).
Definition pcache_write {T} (next : pwriter T) (p : nat) : prog (mem * (pcache * T)) presult :=
  do c <- pstate ;;
  do c1 <- plift (pcache_push c p) ;;
  run pset c1 ;;
  plow (pm_write next p).
Definition pcache_filter {T} (next : pwriter T) : pwriter (pcache * T) := mkPWr (pcache_read next) (pcache_write next).

(** What a pointer of a cache points at; caches hold no other pointers. *)
Definition mat (M : mem) (q : nat) : message := nth q M msg_zero.
(** devices/matcher.go:38-48 [DuplicateMatcher]. *)
Definition pduplicate (M : mem) (p q : nat) : bool := if Nat.eqb p q then false else msg_duplicate (mat M p) (mat M q).
(** devices/filters.go:28-50 [FilterDuplicates]. *)
Fixpoint pdup_read {T} (fuel : nat) (next : pwriter T) : prog (mem * (pcache * T)) presult :=
  match fuel with
  | O => pnofuel
  | S k =>
      do (p, err) <- pcache_read next ;;
      match err with
      | Some e => pret (p, Some e)
      | None =>
          do c <- pstate ;;
          match p with
          | None => match pc_msgs c with [] => pret (None, None) | _ => ppanic end
          | Some x =>
              do M <- pmem ;;
              do found <- plift (pcache_lookup (pduplicate M x) c) ;;
              match found with
              | Some _ => pdup_read k next
              | None => pret (Some x, None)
              end
          end
      end
  end.
Definition pdup_filter {T} (fuel : nat) (next : pwriter T) : pwriter (pcache * T) := mkPWr (pdup_read fuel next) (pcache_write next).

(** devices/filters.go:52-63 [TTL]: the message itself is changed. *)
Definition pttl_filter {T} (ttl : Z) (next : pwriter T) : pwriter T :=
  mkPWr (pm_read next) (fun p => do m <- pload p ;; run pstore p (ttl_message ttl m) ;; pm_write next p).

(** devices/filters.go:144-168 [RetryFilter]: the same message again. *)
Fixpoint pretry_writes {T} (fuel : nat) (next : pwriter T) (t : Z) (p : nat) : prog (mem * T) presult :=
  match fuel with
  | O => pnofuel
  | S k =>
      do (ack, err) <- pm_write next p ;;
      if negb (err_is err EDevReadTimeout) then pret (ack, err)
      else if 1 <? t then pretry_writes k next (t - 1) p
      else pret (ack, err)
  end.
Definition pretry_filter {T} (tries : Z) (next : pwriter T) : pwriter T :=
  mkPWr (pm_read next) (pretry_writes (S (Z.to_nat tries)) next tries).

(** util/snoop.go:44-116 [print]. *)
Definition psnoop_print {T} (db : option (Z -> dinfo * bool)) (p : nat) : prog (mem * (list sn_line * (pcache * T))) unit :=
  do m <- pload p ;;
  do M <- pmem ;;
  do c <- plow pstate ;;
  do prev <- plift (if fl_ack (m_flags m) then pcache_lookup (fun q => match_ack m (mat M q)) c else Ret None) ;;
  do ls <- pstate ;;
  pset (ls ++ [mkLine (snoop_route m) (fl_max_ttl (m_flags m)) (fl_ttl (m_flags m))
                 (snoop_what (option_map (mat M) prev) m) (snoop_payload db m)]).
(** util/snoop.go:26-32 [Read], 34-42 [Write]. *)
Definition psnoop_read {T} (db : option (Z -> dinfo * bool)) (next : pwriter T) : prog (mem * (list sn_line * (pcache * T))) presult :=
  do (p, err) <- plow (pcache_read next) ;;
  match err with
  | Some e => pret (p, Some e)
  | None => match p with None => ppanic | Some x => run psnoop_print db x ;; pret (Some x, None) end
  end.
Definition psnoop_write {T} (db : option (Z -> dinfo * bool)) (next : pwriter T) (p : nat) : prog (mem * (list sn_line * (pcache * T))) presult :=
  run psnoop_print db p ;;
  do (ack, err) <- plow (pcache_write next p) ;;
  match ack with
  | None => pret (None, err)
  | Some a => run psnoop_print db a ;; pret (Some a, err)
  end.
Definition psnoop_filter {T} (db : option (Z -> dinfo * bool)) (next : pwriter T) : pwriter (list sn_line * (pcache * T)) :=
  mkPWr (psnoop_read db next) (psnoop_write db next).

(** ** Chains of filters *)
(** The outermost filter first; devices/device.go:168-170 makes the last filter of its list the outermost. *)
Inductive fkind : Type := FTtl (ttl : Z) | FDup | FRetry (tries : Z) | FSnoop (db : option (Z -> dinfo * bool)).
Fixpoint vstate (W : Type) (ch : list fkind) : Type :=
  match ch with
  | [] => W
  | FTtl _ :: r | FRetry _ :: r => vstate W r
  | FDup :: r => cache * vstate W r
  | FSnoop _ :: r => list sn_line * (cache * vstate W r)
  end%type.
Fixpoint vchain {W} (fuel : nat) (base : mwriter W) (ch : list fkind) : mwriter (vstate W ch) :=
  match ch return mwriter (vstate W ch) with
  | [] => base
  | FTtl t :: r => ttl_filter t (vchain fuel base r)
  | FDup :: r => dup_filter fuel (vchain fuel base r)
  | FRetry n :: r => retry_filter n (vchain fuel base r)
  | FSnoop db :: r => snoop_filter db (vchain fuel base r)
  end.
Fixpoint vinit {W} (w : W) (ch : list fkind) : vstate W ch :=
  match ch return vstate W ch with
  | [] => w
  | FTtl _ :: r => vinit w r
  | FDup :: r => (dup_cache, vinit w r)
  | FRetry _ :: r => vinit w r
  | FSnoop _ :: r => ([], (snoop_cache, vinit w r))
  end.
Fixpoint pmstate (W : Type) (ch : list fkind) : Type :=
  match ch with
  | [] => W
  | FTtl _ :: r | FRetry _ :: r => pmstate W r
  | FDup :: r => pcache * pmstate W r
  | FSnoop _ :: r => list sn_line * (pcache * pmstate W r)
  end%type.
Fixpoint pchain {W} (fuel : nat) (base : mwriter W) (ch : list fkind) : pwriter (pmstate W ch) :=
  match ch return pwriter (pmstate W ch) with
  | [] => base_pm base
  | FTtl t :: r => pttl_filter t (pchain fuel base r)
  | FDup :: r => pdup_filter fuel (pchain fuel base r)
  | FRetry n :: r => pretry_filter n (pchain fuel base r)
  | FSnoop db :: r => psnoop_filter db (pchain fuel base r)
  end.
Fixpoint pinit {W} (w : W) (ch : list fkind) : pmstate W ch :=
  match ch return pmstate W ch with
  | [] => w
  | FTtl _ :: r => pinit w r
  | FDup :: r => (mkPC [] 10 0, pinit w r)
  | FRetry _ :: r => pinit w r
  | FSnoop _ :: r => ([], (mkPC [] 10 0, pinit w r))
  end.
(** What was shown by the snoopers of a chain, the outermost first, and the world below. *)
Fixpoint vshown {W} (ch : list fkind) : vstate W ch -> list (list sn_line) * W :=
  match ch return vstate W ch -> list (list sn_line) * W with
  | [] => fun w => ([], w)
  | FTtl _ :: r => vshown r
  | FDup :: r => fun s => vshown r (snd s)
  | FRetry _ :: r => vshown r
  | FSnoop _ :: r => fun s => let (l, w) := vshown r (snd (snd s)) in (fst s :: l, w)
  end.
Fixpoint pshown {W} (ch : list fkind) : pmstate W ch -> list (list sn_line) * W :=
  match ch return pmstate W ch -> list (list sn_line) * W with
  | [] => fun w => ([], w)
  | FTtl _ :: r => pshown r
  | FDup :: r => fun s => pshown r (snd s)
  | FRetry _ :: r => pshown r
  | FSnoop _ :: r => fun s => let (l, w) := pshown r (snd (snd s)) in (fst s :: l, w)
  end.
