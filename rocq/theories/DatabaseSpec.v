(** What the device database should do, said without the code's data structures. *)
From Coq Require Import ZArith List Bool.
From Verif Require Import GoBase GoProg MsgWriter BasicDevice Database.
Import ListNotations.
Open Scope Z_scope.

(** The newest information put under an address; the history is oldest first. *)
Definition last_put (h : list dinfo) (a : Z) : option dinfo := find (fun i => di_addr i =? a) (rev h).
(** Some information other than the zero value was put under the address. *)
Definition some_real_put (h : list dinfo) (a : Z) : Prop := exists i, In i h /\ di_addr i = a /\ i <> mkDI 0 0 0 0 0.

(** Calls on a database between which it is not loaded from elsewhere. *)
Inductive dbop : Type := OpPut (i : dinfo) | OpGet (a : Z) | OpFilter (domains : list Z) | OpSave (werr : option error).
Definition puts_of (h : list dbop) : list dinfo := flat_map (fun o => match o with OpPut i => [i] | _ => [] end) h.

(** Run a history, remembering the database as it was at the last successful save. *)
Fixpoint run_ops (db saved : memdb) (h : list dbop) : outcome (memdb * memdb) :=
  match h with
  | [] => Ret (db, saved)
  | OpPut i :: t => match db_put db i with Ret db1 => run_ops db1 saved t | Panic => Panic | NoFuel => NoFuel end
  | OpGet _ :: t => run_ops db saved t
  | OpFilter _ :: t => run_ops db saved t
  | OpSave w :: t =>
      match db_save db w with
      | (db1, None) => run_ops db1 db t
      | (db1, Some _) => run_ops db1 saved t
      end
  end.

(** Two databases answer every lookup alike. *)
Definition same_contents (x y : memdb) : Prop := forall a, db_get x a = db_get y a.

(** Information that fits the Go types, with three-byte addresses. *)
Definition info_ok (i : dinfo) : Prop :=
  0 <= di_addr i < 2 ^ 24 /\ is_byte (di_dc0 i) /\ is_byte (di_dc1 i) /\
  - 2 ^ 63 <= di_fw i < 2 ^ 63 /\ - 2 ^ 63 <= di_engine i < 2 ^ 63.
(** A non-nil database with distinct three-byte keys. *)
Definition db_ok (db : memdb) : Prop :=
  exists m, db_values db = Some m /\ NoDup (map fst m) /\ Forall (fun kv => 0 <= fst kv < 2 ^ 24 /\ info_ok (snd kv)) m.

(** File operations that all succeed. *)
Definition os_fine (os : osresp) : Prop := os_open os = None /\ snd (os_write os) = None.
(** The file holds the database: loading it gives the same answers. *)
Definition file_holds (f : fstate) (db : memdb) : Prop := exists db1, new_filedb f = (db1, None) /\ same_contents db1 db.

(** Two message writers behave alike. *)
Definition same_writer {W} (x y : mwriter W) : Prop :=
  (forall w, mw_read x w = mw_read y w) /\ (forall m w, mw_write x m w = mw_write y m w).

(** Two characters of a member name that package json takes for the same: the same up to the case of a letter, where the long s and the
    Kelvin sign count as letters s and k. *)
Definition same_letter (c d : Z) : Prop :=
  c = d \/ (97 <= c <= 122 /\ d = c - 32) \/ (97 <= d <= 122 /\ c = d - 32) \/
  (In c [83; 115; 0x17f] /\ In d [83; 115; 0x17f]) \/ (In c [75; 107; 0x212a] /\ In d [75; 107; 0x212a]).
