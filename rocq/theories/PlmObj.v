(** Model of making a modem object with options and of copying it, as cmd/ic does: plm/plm.go:56-69 [PLM], 71-97 [New],
    plm/options.go, cmd/ic/main.go:100.  A copy shares the port, the channels and the reader goroutine with the original, has its own
    fields, and its link database still writes packets through the original. *)
From Coq Require Import ZArith List Bool.
From Verif Require Import GoBase GoProg Address Message PlmPacket Plm Link PlmLinkdb.
Import ListNotations.
Open Scope Z_scope.

(** ** Modem objects *)
(** plm/plm.go:56-69 [PLM]: the fields that are values.  [o_ptr] is plm/linkdb.go:86 [linkdb.plm], the number of the object packets
    of the link database go through. *)
Record pobj : Type := mkObj { o_timeout : Z; o_retries : Z; o_addr : Z; o_delay : Z; o_db : plmdb; o_ptr : nat }.
Definition set_db (o : pobj) (db : plmdb) : pobj := mkObj (o_timeout o) (o_retries o) (o_addr o) (o_delay o) db (o_ptr o).
(** What all copies share: the port and the two channels, with the logs of Plm.v. *)
Record line : Type := mkLn { l_msgq : list packet; l_pktq : list packet; l_closed : bool; l_sent : list (list Z); l_waits : list Z; l_time : nat }.
Record heap : Type := mkHp { h_line : line; h_objs : list pobj }.

(** plm/options.go:22-35. *)
Inductive plm_option : Type := OTimeout (t : Z) | OWriteDelay (d : Z).
Definition apply_option (o : pobj) (x : plm_option) : pobj :=
  match x with
  | OTimeout t => mkObj t (o_retries o) (o_addr o) (o_delay o) (o_db o) (o_ptr o)
  | OWriteDelay d => mkObj (o_timeout o) (o_retries o) (o_addr o) d (o_db o) (o_ptr o)
  end.
(** plm/plm.go:71-97 [New], called when there are [n] objects: the options in order, then the link database gets its values. *)
Definition plm_new (n : nat) (opts : list plm_option) : pobj :=
  let o := fold_left apply_option opts (mkObj 3 3 0 0 (mkPdb 0 [] 0 0) n) in
  set_db o (mkPdb 0 [] (o_retries o) (o_timeout o)).

(** ** Methods of an object *)
(** The modem Plm.v speaks of: the shared part and the fields of one object. *)
Definition view (l : line) (o : pobj) : plm :=
  mkPlm (l_msgq l) (l_pktq l) (l_closed l) (l_sent l) (l_waits l) (l_time l) (o_timeout o) (o_retries o) (o_addr o).
Definition line_of (p : plm) : line := mkLn (p_msgq p) (p_pktq p) (p_closed p) (p_sent p) (p_waits p) (p_time p).
Definition put (p : plm) (o : pobj) : pobj := mkObj (p_timeout p) (p_retries p) (p_addr p) (o_delay o) (o_db o) (o_ptr o).
Fixpoint set_at {A} (i : nat) (x : A) (l : list A) : list A :=
  match l, i with
  | [], _ => []
  | _ :: t, O => x :: t
  | y :: t, S k => y :: set_at k x t
  end.
(** A method of [PLM] called on object [i]. *)
Definition on_obj {A} (i : nat) (f : prog plm A) : prog heap A := fun h =>
  match nth_error (h_objs h) i with
  | None => (Panic, h)
  | Some o => match f (view (h_line h) o) with (r, p) => (r, mkHp (line_of p) (set_at i (put p o) (h_objs h))) end
  end.
(** Object [i] as a [packetWriter] (plm/plm.go:92). *)
Definition obj_pw (sc : schedule) (i : nat) : packet_writer heap := mkPW (fun pkt => on_obj i (plm_write_packet sc pkt)) (on_obj i (plm_read_packet sc)).
(** A method of the embedded [linkdb] of object [i] (plm/plm.go:62): the database is that of [i], the packets go through the object
    its pointer names. *)
Definition on_db {A} (sc : schedule) (i : nat) (f : packet_writer heap -> prog (plmdb * heap) A) : prog heap A := fun h =>
  match nth_error (h_objs h) i with
  | None => (Panic, h)
  | Some o =>
      match f (obj_pw sc (o_ptr o)) (o_db o, h) with
      | (r, (db, h1)) =>
          (r, mkHp (h_line h1) (match nth_error (h_objs h1) i with Some o1 => set_at i (set_db o1 db) (h_objs h1) | None => h_objs h1 end))
      end
  end.

(** ** What a program does with a modem *)
Inductive mop : Type :=
| MWritePacket (p : packet) | MReadPacket | MWrite (m : message) | MRead | MInfo | MReset | MConfig | MSetConfig (c : Z) | MAddress
| MLinks (now : Z) | MWriteLinks (ls : list link) | MIterate (now : Z) | MUpdateLinks (ls : list link) | MEnter (g : Z) | MExit | MUnlink (g : Z).
Inductive mres : Type :=
| RsPacket (r : pw_result) | RsMessage (r : option message * option error) | RsInfo (r : option info * option error) | RsErr (e : option error)
| RsConfig (r : Z * option error) | RsAddr (a : Z) | RsLinks (r : list link * option error) | RsAddrs (r : list Z * option error).
Definition wrap {W A} (c : A -> mres) (m : prog W A) : prog W mres := do x <- m ;; pret (c x).
Definition run_op (sc : schedule) (fuel : nat) (i : nat) (op : mop) : prog heap mres :=
  match op with
  | MWritePacket p => wrap RsPacket (on_obj i (plm_write_packet sc p))
  | MReadPacket => wrap RsPacket (on_obj i (plm_read_packet sc))
  | MWrite m => wrap RsMessage (on_obj i (plm_write fuel sc m))
  | MRead => wrap RsMessage (on_obj i (plm_read sc))
  | MInfo => wrap RsInfo (on_obj i (plm_info sc))
  | MReset => wrap RsErr (on_obj i (plm_reset sc))
  | MConfig => wrap RsConfig (on_obj i (plm_config sc))
  | MSetConfig c => wrap RsErr (on_obj i (plm_set_config sc c))
  | MAddress => wrap RsAddr (on_obj i (plm_address sc))
  | MLinks now => wrap RsLinks (on_db sc i (fun pw => pdb_links fuel pw now))
  | MWriteLinks ls => wrap RsErr (on_db sc i (fun pw => pdb_write_links pw ls))
  | MIterate now => wrap RsAddrs (on_db sc i (fun pw => pdb_iterate fuel pw now))
  | MUpdateLinks ls => wrap RsErr (on_db sc i (fun _ => pdb_update_links ls))
  | MEnter g => wrap RsErr (on_db sc i (fun pw => psnd (pdb_enter_linking pw g)))
  | MExit => wrap RsErr (on_db sc i (fun pw => psnd (pdb_exit_linking pw)))
  | MUnlink g => wrap RsErr (on_db sc i (fun pw => psnd (pdb_enter_unlinking pw g)))
  end.
Fixpoint run_ops (sc : schedule) (fuel : nat) (i : nat) (ops : list mop) : prog heap (list mres) :=
  match ops with
  | [] => pret []
  | op :: t => do r <- run_op sc fuel i op ;; do rs <- run_ops sc fuel i t ;; pret (r :: rs)
  end.

(** cmd/ic/main.go:100: [*modem = *plm.New(...)]. *)
Definition line_new : line := mkLn [] [] false [] [] 0.
Definition heap_new (opts : list plm_option) : heap := mkHp line_new [plm_new 0 opts].
Definition copy_object (h : heap) (i : nat) : heap :=
  match nth_error (h_objs h) i with Some o => mkHp (h_line h) (h_objs h ++ [o]) | None => h end.
