(** Specification for link management: what is done to devices, as a trace; ideal lists of records. *)
From Coq Require Import ZArith List Bool.
From Verif Require Import GoBase GoProg Link LinkSpec DevLinkdbSpec UtilLink.
Import ListNotations.
Open Scope Z_scope.

(** ** Traces: who was asked to do what, and what came back. *)
Inductive lkop : Type :=
| OAddress (a : Z) | OEnter (g : Z) (e : option error) | OUnlink (g : Z) (e : option error) | OExit
| OLinks (r : list link * option error) | OUpdate (ls : list link) (e : option error) | OWrite (ls : list link) (e : option error)
| OWriteOne (i : Z) (l : link) (e : option error) | OCrash | OOpen (e : option error).
Definition trace : Type := list (Z * lkop).
Definition logged {W A} (id : Z) (f : A -> lkop) (m : prog W A) : prog (W * trace) A :=
  fun wl => match m (fst wl) with
            | (Ret a, w1) => (Ret a, (w1, snd wl ++ [(id, f a)]))
            | (Panic, w1) => (Panic, (w1, snd wl ++ [(id, OCrash)]))
            | (NoFuel, w1) => (NoFuel, (w1, snd wl ++ [(id, OCrash)]))
            end.
Definition lk_logged {W} (lk : linkable W) : linkable (W * trace) :=
  mkLk (lk_id lk) (logged (lk_id lk) OAddress (lk_address lk)) (fun g => logged (lk_id lk) (OEnter g) (lk_enter lk g))
    (fun g => logged (lk_id lk) (OUnlink g) (lk_unlink lk g)) (logged (lk_id lk) (fun _ => OExit) (lk_exit lk))
    (logged (lk_id lk) OLinks (lk_links lk)) (fun ls => logged (lk_id lk) (OUpdate ls) (lk_update lk ls))
    (fun ls => logged (lk_id lk) (OWrite ls) (lk_write lk ls))
    (match lk_write_one lk with Some w => Some (fun i l => logged (lk_id lk) (OWriteOne i l) (w i l)) | None => None end).

(** The operation puts a device into linking or unlinking mode. *)
Definition entering (o : lkop) : Prop := match o with OEnter _ None | OUnlink _ None => True | _ => False end.
(** After that all of [ids] are told to leave the mode. *)
Definition closed (ids : list Z) (t : trace) : Prop :=
  forall t1 x o t2, t = t1 ++ (x, o) :: t2 -> entering o -> forall y, In y ids -> In (y, OExit) t2.
(** Every device that entered a mode is told to leave it. *)
Definition self_closed (t : trace) : Prop := forall t1 x o t2, t = t1 ++ (x, o) :: t2 -> entering o -> In (x, OExit) t2.
(** Nothing but reading. *)
Definition only_reads (t : trace) : Prop := Forall (fun e => match snd e with OAddress _ | OLinks _ => True | _ => False end) t.

(** The unlink requests of a trace. *)
Definition unlinks (t : trace) : list (Z * Z) := flat_map (fun e => match snd e with OUnlink g _ => [(fst e, g)] | _ => [] end) t.
(** What an unlink operation came to: the controller's refusal or the responder's answer. *)
Definition outcomes (t : trace) : list (option error) :=
  flat_map (fun e => match snd e with OUnlink _ (Some x) => [Some x] | OEnter _ r => [r] | _ => [] end) t.
(** For every record of the responder's address: who is to enter unlinking mode for which group. *)
Definition attempts (addr c r : Z) (links : list link) : list (Z * Z) :=
  flat_map (fun l => if l_addr l =? addr then [(if bit 6 (l_flags l) =? 1 then c else r, l_group l)] else []) links.
(** All single record writes and their results. *)
Definition writes (t : trace) : list (Z * link) := flat_map (fun e => match snd e with OWriteOne i l _ => [(i, l)] | _ => [] end) t.
Definition write_errors (t : trace) : list (option error) := flat_map (fun e => match snd e with OWriteOne _ _ r => [r] | _ => [] end) t.

(** ** Ideal lists of records *)
(** Writing single records; one past the end appends. *)
Fixpoint apply_writes (recs : list link) (ws : list (Z * link)) : list link :=
  match ws with
  | [] => recs
  | (i, l) :: t => apply_writes (if i =? zlen recs then recs ++ [l] else list_set recs (Z.to_nat i) l) t
  end.
(** New links go into free records in order; the second component is what found no place. *)
Fixpoint fill (recs new : list link) : list link * list link :=
  match recs, new with
  | [], _ => ([], new)
  | _, [] => (recs, [])
  | r :: t, n :: new' =>
      if is_free r then let (a, b) := fill t new' in (n :: a, b) else let (a, b) := fill t new in (r :: a, b)
  end.
(** The record with its in-use bit cleared. *)
Definition made_free (l : link) : link := mkLink (l_flags l - 128 * bit 7 (l_flags l)) (l_group l) (l_addr l) (l_d0 l) (l_d1 l) (l_d2 l).
Definition described (remove : list link) (l : link) : bool := existsb (same_linkb l) remove.
(** Positions counted from [i]. *)
Fixpoint numbered (i : Z) (ls : list link) : list (Z * link) := match ls with [] => [] | l :: t => (i, l) :: numbered (i + 1) t end.
(** The record with the opposite role. *)
Definition counterpart (l : link) : link :=
  mkLink (l_flags l + 64 - 128 * bit 6 (l_flags l)) (l_group l) (l_addr l) (l_d0 l) (l_d1 l) (l_d2 l).

(** An in-use record with this role, address and group. *)
Definition wanted (controller : bool) (addr group : Z) (l : link) : Prop :=
  bit 7 (l_flags l) = 1 /\ bit 6 (l_flags l) = (if controller then 1 else 0) /\ l_addr l = addr /\ l_group l = group.
(** The different addresses in order of first appearance. *)
Fixpoint appearances (l : list Z) : list Z := match l with [] => [] | a :: t => a :: filter (fun b => negb (b =? a)) (appearances t) end.
(** What a program adds to the trace, whatever was there before; [P] relates it to the value returned. *)
Definition adds {W A} (m : prog (W * trace) A) (P : A -> trace -> Prop) : Prop :=
  forall w log r w' log', m (w, log) = (r, (w', log')) -> exists t, log' = log ++ t /\ (forall a, r = Ret a -> P a t).
(** A single record write by [id]. *)
Definition one_write (id : Z) (e : Z * lkop) : Prop := fst e = id /\ match snd e with OWriteOne _ _ _ => True | _ => False end.
(** Records described by [remove] are made free. *)
Definition marked (remove : list link) (l : link) : link := if described remove l then made_free l else l.
(** The writes that make them free. *)
Definition freed (remove : list link) (i : Z) (links : list link) : list (Z * link) :=
  map (fun x => (fst x, made_free (snd x))) (filter (fun x => described remove (snd x)) (numbered i links)).
