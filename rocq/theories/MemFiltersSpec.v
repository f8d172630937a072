(** Specifications for filters whose messages are objects in memory. *)
From Coq Require Import ZArith List Bool.
From Verif Require Import GoBase GoProg Message MsgWriter FiltersSpec MemFilters.
Import ListNotations.
Open Scope Z_scope.

(** The same message but for its hop counts (message.go:147-158: the lower four bits of the flags). *)
Definition same_but_hops (m o : message) : Prop :=
  m_src m = m_src o /\ m_dst m = m_dst o /\ m_cmd m = m_cmd o /\ m_payload m = m_payload o /\
  forall n, 4 <= n < 8 -> Z.testbit (m_flags m) n = Z.testbit (m_flags o) n.

(** As long as [I] holds, and it keeps holding, every message received has the address of its sender. *)
Definition from_others {W} (I : W -> Prop) (mw : mwriter W) : Prop :=
  forall w, I w ->
    (forall r w1, mw_read mw w = (r, w1) -> I w1 /\ forall m e, r = Ret (Some m, e) -> m_src m <> 0) /\
    (forall x r w1, mw_write mw x w = (r, w1) -> I w1).
(** The messages written are the program's own and have none (devices/basic.go:106, 153, 165, devices/connection.go:47, 59 and so on set no Src). *)
Definition own_messages (ops : list mop) : Prop := forall m, In (DoWrite m) ops -> m_src m = 0.

(** No snooper between a filter that retries and a TTL filter below: every snooper below a retry that has a TTL filter below it
    has one above it as well. *)
Definition steady (ch : list fkind) : Prop :=
  forall a n b db c t d, ch = a ++ FRetry n :: b ++ FSnoop db :: c ++ FTtl t :: d -> exists t1, In (FTtl t1) b.

(** Using a writer of pointers: a new object for each message written; a result is looked at when it comes. *)
Definition look {T} (p : option nat) : prog (mem * T) (option message) :=
  match p with None => pret None | Some q => do m <- pload q ;; pret (Some m) end.
Definition do_mop {T} (pw : pwriter T) (o : mop) : prog (mem * T) mresult :=
  match o with
  | DoRead => do (p, e) <- pm_read pw ;; do m <- look p ;; pret (m, e)
  | DoWrite m => do q <- palloc m ;; do (p, e) <- pm_write pw q ;; do a <- look p ;; pret (a, e)
  end.
Fixpoint do_mops {T} (pw : pwriter T) (ops : list mop) : prog (mem * T) (list mresult) :=
  match ops with
  | [] => pret []
  | o :: t => do r <- do_mop pw o ;; do rs <- do_mops pw t ;; pret (r :: rs)
  end.
