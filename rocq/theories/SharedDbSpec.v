(** What several runs of the tools should do to the device file they share, said without the code's data structures. *)
From Coq Require Import ZArith List Bool.
From Verif Require Import GoBase GoProg MsgWriter BasicDevice Database DatabaseSpec SharedDb.
Import ListNotations.
Open Scope Z_scope.

(** Every write goes to the file in one piece, as the operating system does it for a file on a disk with room. *)
Definition in_one_piece (e : event) : Prop := match e with EvWrite _ (Some _) => False | _ => True end.
(** Only well-formed information is put. *)
Definition put_fine (e : event) : Prop := match e with EvPut _ x => info_ok x | _ => True end.

(** The database the newest completed save wrote, [d] if none was completed; stated from the states the runs were in. *)
Fixpoint newest_saved (s : shared) (es : list event) (d : memdb) : memdb :=
  match es with
  | [] => d
  | e :: t =>
      newest_saved (shared_step s e) t
        match e with
        | EvWrite i None => match sh_runs s i with RSaving db _ => db | _ => d end
        | _ => d
        end
  end.

(** Loading the file fails. *)
Definition unreadable (f : fstate) : Prop := exists db e, new_filedb f = (db, Some e).
(** For every address the database gives what was put last in the history, and nothing if nothing was put. *)
Definition answers (db : memdb) (h : list dinfo) : Prop :=
  forall a, db_get db a = match last_put h a with Some i => (i, true) | None => (mkDI 0 0 0 0 0, false) end.
(** Loading the file gives a database that answers with the history. *)
Definition file_answers (f : fstate) (h : list dinfo) : Prop := exists db, new_filedb f = (db, None) /\ answers db h.

(** Whole calls: starting a tool, a put that saves before anything else happens to the file, the end of a run. *)
Inductive call : Type := CStart (i : nat) | CPut (i : nat) (x : dinfo) | CEnd (i : nat).
Definition call_events (c : call) : list event :=
  match c with
  | CStart i => [EvStart i]
  | CPut i x => [EvPut i x; EvOpen i; EvWrite i None]
  | CEnd i => [EvEnd i]
  end.
Definition call_fine (c : call) : Prop := match c with CPut _ x => info_ok x /\ x <> mkDI 0 0 0 0 0 | _ => True end.
Definition calls_puts (l : list call) : list dinfo := flat_map (fun c => match c with CPut _ x => [x] | _ => [] end) l.

(** What the file and each run know, as histories: a run knows what the file held when it started and what it put itself, and
    whoever saves makes the file know just that.  A put of what the run already knows is not saved. *)
Record known : Type := mkKn { kn_file : list dinfo; kn_run : nat -> option (list dinfo) }.
Definition knows_already (h : list dinfo) (x : dinfo) : bool :=
  match last_put h (di_addr x) with Some y => dinfo_eqb y x | None => false end.
Definition known_step (k : known) (c : call) : known :=
  match c with
  | CStart i => match kn_run k i with
                | None => mkKn (kn_file k) (fun j => if Nat.eqb j i then Some (kn_file k) else kn_run k j)
                | Some _ => k
                end
  | CPut i x => match kn_run k i with
                | None => k
                | Some h => if knows_already h x then k
                            else mkKn (h ++ [x]) (fun j => if Nat.eqb j i then Some (h ++ [x]) else kn_run k j)
                end
  | CEnd i => mkKn (kn_file k) (fun j => if Nat.eqb j i then None else kn_run k j)
  end.

(** No run puts anything after another one put since it started: [st i] says whether run [i] is running and, if so, whether
    nothing was put by others since it started. *)
Fixpoint up_to_date (st : nat -> option bool) (l : list call) : Prop :=
  match l with
  | [] => True
  | CStart i :: t => st i = None /\ up_to_date (fun j => if Nat.eqb j i then Some true else st j) t
  | CPut i _ :: t => st i = Some true /\ up_to_date (fun j => if Nat.eqb j i then Some true else match st j with Some _ => Some false | None => None end) t
  | CEnd i :: t => up_to_date (fun j => if Nat.eqb j i then None else st j) t
  end.
