(** Specification for C88: keeping a note of every failure beside a program, and what it means that the program reports it. *)
From Coq Require Import ZArith List Bool.
From Verif Require Import GoBase GoProg Message Link MsgWriter UtilLink MemFilters Plm.
Import ListNotations.

(** What may fail: reading or writing a message; a method of a [Linkable]; opening a device; the editor. *)
Inductive deed : Type := DRead | DWrite | DEnter | DUnlink | DExit | DLinks | DUpdate | DWriteAll | DWriteOne | DOpen | DEdit.
Definition failure : Type := deed * error.
(** The program with a note of its failure, if it fails, after the notes taken before. *)
Definition noting {W A} (d : deed) (err_of : A -> option error) (p : prog W A) : prog (list failure * W) A :=
  fun w => match p (snd w) with
           | (Ret x, w1) => (Ret x, (match err_of x with Some e => fst w ++ [(d, e)] | None => fst w end, w1))
           | (r, w1) => (r, (fst w, w1))
           end.
(** Any message writer and any device, with notes. *)
Definition noting_mw {W} (mw : mwriter W) : mwriter (list failure * W) :=
  mkMW (noting DRead snd (mw_read mw)) (fun m => noting DWrite snd (mw_write mw m)).
Definition same_error (x : option error) : option error := x.
Definition noting_lk {W} (lk : linkable W) : linkable (list failure * W) :=
  mkLk (lk_id lk) (psnd (lk_address lk)) (fun g => noting DEnter same_error (lk_enter lk g)) (fun g => noting DUnlink same_error (lk_unlink lk g))
    (noting DExit same_error (lk_exit lk)) (noting DLinks snd (lk_links lk)) (fun ls => noting DUpdate same_error (lk_update lk ls))
    (fun ls => noting DWriteAll same_error (lk_write lk ls))
    (match lk_write_one lk with Some wr => Some (fun i l => noting DWriteOne same_error (wr i l)) | None => None end).

(** Any packet writer, with notes. *)
Definition noting_pw {W} (pw : packet_writer W) : packet_writer (list failure * W) :=
  mkPW (fun p => noting DWrite snd (pw_write pw p)) (noting DRead snd (pw_read pw)).

(** A call reports its failures, but for those [kept] to itself: if it returns no error there were none, and if it returns an error there
    was none, or just one and the error [says] it. *)
Definition reports {W A} (notes : W -> list failure) (kept : failure -> Prop) (says : error -> error -> Prop) (err_of : A -> option error)
    (p : prog W A) : Prop :=
  forall w r w', p w = (Ret r, w') ->
    exists new, notes w' = notes w ++ new /\
      match err_of r with
      | None => Forall kept new
      | Some e => Forall kept new \/ exists before d e0 after, new = before ++ (d, e0) :: after /\ Forall kept (before ++ after) /\ says e0 e
      end.
Definition none_kept : failure -> Prop := fun _ => False.
(** The notes below a chain of filters. *)
Fixpoint notes_below {W} (notes : W -> list failure) (ch : list fkind) : vstate W ch -> list failure :=
  match ch return vstate W ch -> list failure with
  | [] => notes
  | FTtl _ :: r | FRetry _ :: r => notes_below notes r
  | FDup :: r => fun x => notes_below notes r (snd x)
  | FSnoop _ :: r => fun x => notes_below notes r (snd (snd x))
  end.
(** The program with the error it returned, if any, after those returned before. *)
Definition logging {W A} (err_of : A -> option error) (p : prog W A) : prog (list (option error) * W) A :=
  fun w => match p (snd w) with
           | (Ret x, w1) => (Ret x, (fst w ++ [err_of x], w1))
           | (r, w1) => (r, (fst w, w1))
           end.
(** It gives the result of its last try; those before were [tried] again after, and there are at most [n]. *)
Definition last_told {W A} (tried : error -> Prop) (n : Z) (err_of : A -> option error) (p : prog (list (option error) * W) A) : Prop :=
  forall w r w', p w = (Ret r, w') ->
    exists before : list error, fst w' = fst w ++ map Some before ++ [err_of r] /\ Forall tried before /\ (Z.of_nat (length before) <= n)%Z.
