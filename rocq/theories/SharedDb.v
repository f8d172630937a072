(** Several runs of the tools on the same device file at once.
    cmd/ic/main.go:94-97, cmd/iwalk/main.go:54-57 and cmd/isnoop/main.go:61-65 all open the one file db.json of the user's configuration
    directory with NewFileDB; nothing locks it. *)
From Coq Require Import ZArith List Bool.
From Verif Require Import GoBase GoProg MsgWriter BasicDevice Database.
Import ListNotations.
Open Scope Z_scope.

(** Where one run of a tool stands.  [RSaving db k] is inside SaveDB (util/database.go:185-198): the file has been opened and [k]
    bytes of the text have been written through it. *)
Inductive trun : Type :=
| ROff
| RRefused (e : error)
| RRun (db : memdb)
| RSaving (db : memdb) (k : nat)
| RPanicked.
(** The file and the runs, which are numbered. *)
Record shared : Type := mkSh { sh_file : fstate; sh_runs : nat -> trun }.
Definition set_run (s : nat -> trun) (i : nat) (r : trun) : nat -> trun := fun j => if Nat.eqb j i then r else s j.

(** What can happen next: a tool is started and loads the file, a run puts information, opens the file to save, gets the operating
    system to take the next [Some n] bytes (or all that remain), or ends - by itself or killed at any moment. *)
Inductive event : Type :=
| EvStart (i : nat)
| EvPut (i : nat) (info : dinfo)
| EvOpen (i : nat)
| EvWrite (i : nat) (n : option nat)
| EvEnd (i : nat).

(** write(2) at the writer's own offset [k]: a gap left by a truncation in between is filled with zero bytes, what lies behind the
    written bytes stays. *)
Definition write_at (c : list Z) (k : nat) (b : list Z) : list Z :=
  firstn k c ++ repeat 0 (k - length c)%nat ++ b ++ skipn (k + length b)%nat c.

(** cmd/ic/main.go:94-97: the tool exits when the file cannot be loaded.  The load is taken as one step. *)
Definition ev_start (f : fstate) : trun :=
  match new_filedb f with
  | (db, None) => RRun db
  | (_, Some e) => RRefused e
  end.
(** util/database.go:120-122 and :94-99 up to the call of SaveDB: the map changes and, being dirty, is about to be saved. *)
Definition ev_put (db : memdb) (info : dinfo) : trun :=
  match db_put db info with
  | Ret db1 => RRun db1
  | _ => RPanicked
  end.
(** util/database.go:150-152 [Save] after the last byte: the flag is cleared. *)
Definition ev_written (db : memdb) (k : nat) : trun :=
  if (length (db_marshal db) <=? k)%nat then RRun (mkDB (db_values db) false) else RSaving db k.

(** One event; an event that the run is not ready for does nothing.  A run with a dirty database is inside fileDB.save and does
    nothing but open the file (util/database.go:94-99, 187-190). *)
Definition shared_step (s : shared) (e : event) : shared :=
  match e with
  | EvStart i =>
      match sh_runs s i with
      | ROff => mkSh (sh_file s) (set_run (sh_runs s) i (ev_start (sh_file s)))
      | _ => s
      end
  | EvPut i info =>
      match sh_runs s i with
      | RRun db => if db_dirty db then s else mkSh (sh_file s) (set_run (sh_runs s) i (ev_put db info))
      | _ => s
      end
  | EvOpen i =>
      match sh_runs s i with
      | RRun db => if db_dirty db then mkSh (Some []) (set_run (sh_runs s) i (RSaving db 0)) else s
      | _ => s
      end
  | EvWrite i n =>
      match sh_runs s i with
      | RSaving db k =>
          let rest := skipn k (db_marshal db) in
          let b := match n with Some n => firstn n rest | None => rest end in
          let c := match sh_file s with Some c => c | None => [] end in
          mkSh (Some (write_at c k b)) (set_run (sh_runs s) i (ev_written db (k + length b)%nat))
      | _ => s
      end
  | EvEnd i => mkSh (sh_file s) (set_run (sh_runs s) i ROff)
  end.
Definition shared_run (s : shared) (es : list event) : shared := fold_left shared_step es s.
(** The file [f] and no tool running. *)
Definition at_rest (f : fstate) : shared := mkSh f (fun _ => ROff).
