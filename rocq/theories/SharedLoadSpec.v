(** What loading the device file in several reads should do, said of the events. *)
From Coq Require Import ZArith List Bool.
From Verif Require Import GoBase GoProg MsgWriter BasicDevice Database DatabaseSpec SharedDb SharedDbSpec SharedLoad.
Import ListNotations.
Open Scope Z_scope.

(** Nobody opens the file for saving or writes to it. *)
Definition leaves_file (e : levent) : Prop :=
  match e with LEv (EvOpen _) | LEv (EvWrite _ _) => False | _ => True end.
(** Of run [i] there are only reads. *)
Definition only_reads (i : nat) (e : levent) : Prop :=
  match e with
  | LEv (EvStart j) | LEv (EvPut j _) | LEv (EvOpen j) | LEv (EvWrite j _) | LEv (EvEnd j) | LOpen j => j <> i
  | LRead _ _ => True
  end.
(** The bytes all reads of run [i] ask for together, and after how many bytes asked for its last read begins. *)
Definition asked (i : nat) (es : list levent) : list nat :=
  flat_map (fun e => match e with LRead j n => if Nat.eqb j i then [S n] else [] | _ => [] end) es.

Definition lin_one_piece (e : levent) : Prop := match e with LEv e => in_one_piece e | _ => True end.
Definition lput_fine (e : levent) : Prop := match e with LEv e => put_fine e | _ => True end.
(** The databases saved by completed writes, in order. *)
Fixpoint all_saved (s : lshared) (es : list levent) : list memdb :=
  match es with
  | [] => []
  | e :: t =>
      match e with
      | LEv (EvWrite i None) => match sh_runs (ls_sh s) i with RSaving db _ => [db] | _ => [] end
      | _ => []
      end ++ all_saved (lstep s e) t
  end.
