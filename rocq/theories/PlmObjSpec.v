(** What is claimed of copied modem objects and of their options, said without the helpers of the model. *)
From Coq Require Import ZArith List Bool.
From Verif Require Import GoBase GoProg Plm PlmLinkdb PlmObj.
Import ListNotations.
Open Scope Z_scope.

(** The time-out chosen by options: the last one given, three seconds if none is. *)
Definition no_timeout (opts : list plm_option) : Prop := forall t, ~ In (OTimeout t) opts.
Definition chosen (opts : list plm_option) (t : Z) : Prop :=
  (no_timeout opts /\ t = 3) \/ exists a b, opts = a ++ OTimeout t :: b /\ no_timeout b.
(** Two option lists that differ in write delays only. *)
Fixpoint timeouts (opts : list plm_option) : list Z :=
  match opts with [] => [] | OTimeout t :: r => t :: timeouts r | OWriteDelay _ :: r => timeouts r end.
(** The object number 0 that holds modem [p] and link database [db]. *)
Definition obj_of (d : Z) (db : plmdb) (p : plm) : pobj := mkObj (p_timeout p) (p_retries p) (p_addr p) d db 0.
(** A modem that was never copied, as Plm.v and PlmLinkdb.v have it: its link database beside it, packets through itself. *)
Definition plain_op (sc : schedule) (fuel : nat) (op : mop) : prog (plmdb * plm) mres :=
  match op with
  | MWritePacket p => wrap RsPacket (psnd (plm_write_packet sc p))
  | MReadPacket => wrap RsPacket (psnd (plm_read_packet sc))
  | MWrite m => wrap RsMessage (psnd (plm_write fuel sc m))
  | MRead => wrap RsMessage (psnd (plm_read sc))
  | MInfo => wrap RsInfo (psnd (plm_info sc))
  | MReset => wrap RsErr (psnd (plm_reset sc))
  | MConfig => wrap RsConfig (psnd (plm_config sc))
  | MSetConfig c => wrap RsErr (psnd (plm_set_config sc c))
  | MAddress => wrap RsAddr (psnd (plm_address sc))
  | MLinks now => wrap RsLinks (pdb_links fuel (plm_pw sc) now)
  | MWriteLinks ls => wrap RsErr (pdb_write_links (plm_pw sc) ls)
  | MIterate now => wrap RsAddrs (pdb_iterate fuel (plm_pw sc) now)
  | MUpdateLinks ls => wrap RsErr (pdb_update_links ls)
  | MEnter g => wrap RsErr (psnd (pdb_enter_linking (plm_pw sc) g))
  | MExit => wrap RsErr (psnd (pdb_exit_linking (plm_pw sc)))
  | MUnlink g => wrap RsErr (psnd (pdb_enter_unlinking (plm_pw sc) g))
  end.
Fixpoint plain_ops (sc : schedule) (fuel : nat) (ops : list mop) : prog (plmdb * plm) (list mres) :=
  match ops with
  | [] => pret []
  | op :: t => do r <- plain_op sc fuel op ;; do rs <- plain_ops sc fuel t ;; pret (r :: rs)
  end.
