(** The device file loaded in several reads while other runs of the tools save it; extends [SharedDb], where loading is one step.
    util/database.go:203-215 [LoadDB] opens the file and [Load] (:132-138) gives it to ioutil.ReadAll, which reads until the operating
    system answers with no bytes. *)
From Coq Require Import ZArith List Bool.
From Verif Require Import GoBase GoProg MsgWriter BasicDevice Database SharedDb.
Import ListNotations.
Open Scope Z_scope.

(** [ls_got s i] are the bytes run [i] has read of the file it has open for loading, [None] when it has none open. *)
Record lshared : Type := mkLsh { ls_sh : shared; ls_got : nat -> option (list Z) }.
Definition set_got (g : nat -> option (list Z)) (i : nat) (x : option (list Z)) : nat -> option (list Z) :=
  fun j => if Nat.eqb j i then x else g j.

(** An event of [SharedDb], run [i] opening the file for loading, or run [i] reading at most [S n] bytes. *)
Inductive levent : Type :=
| LEv (e : event)
| LOpen (i : nat)
| LRead (i n : nat).

(** The contents of the file; it is there from the moment somebody could open it (nothing removes it). *)
Definition contents (s : lshared) : list Z := match sh_file (ls_sh s) with Some c => c | None => [] end.

(** util/database.go:206-207 os.Open: a file that is not there is an error. *)
Definition load_open (s : lshared) (i : nat) : lshared :=
  match ls_got s i, sh_runs (ls_sh s) i with
  | None, ROff =>
      match sh_file (ls_sh s) with
      | None => mkLsh (mkSh None (set_run (sh_runs (ls_sh s)) i (RRefused (EIO 2)))) (ls_got s)
      | Some _ => mkLsh (ls_sh s) (set_got (ls_got s) i (Some []))
      end
  | _, _ => s
  end.
(** util/database.go:133 ioutil.ReadAll: one read(2) at the reader's own offset.  No bytes mean the end of the file: what was read is
    decoded (:134-136) and the tool runs or exits (cmd/ic/main.go:94-97). *)
Definition load_read (s : lshared) (i n : nat) : lshared :=
  match ls_got s i with
  | None => s
  | Some g =>
      match firstn (S n) (skipn (length g) (contents s)) with
      | [] => mkLsh (mkSh (sh_file (ls_sh s)) (set_run (sh_runs (ls_sh s)) i (ev_start (Some g)))) (set_got (ls_got s) i None)
      | b => mkLsh (ls_sh s) (set_got (ls_got s) i (Some (g ++ b)))
      end
  end.
(** A run that is loading does nothing else, and can be killed. *)
Definition lstep (s : lshared) (e : levent) : lshared :=
  match e with
  | LOpen i => load_open s i
  | LRead i n => load_read s i n
  | LEv (EvStart i) => match ls_got s i with None => mkLsh (shared_step (ls_sh s) (EvStart i)) (ls_got s) | Some _ => s end
  | LEv (EvEnd i) => mkLsh (shared_step (ls_sh s) (EvEnd i)) (set_got (ls_got s) i None)
  | LEv e => mkLsh (shared_step (ls_sh s) e) (ls_got s)
  end.
Definition lrun (s : lshared) (es : list levent) : lshared := fold_left lstep es s.
(** The file [f], no tool running and none loading. *)
Definition l_at_rest (f : fstate) : lshared := mkLsh (at_rest f) (fun _ => None).
