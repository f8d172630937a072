(** Specifications for message writers and filters: logs, histories and what should be delivered. *)
From Coq Require Import ZArith List Bool.
From Verif Require Import GoBase GoProg Message MsgWriter.
Import ListNotations.
Open Scope Z_scope.

(** ** A message writer that writes down everything asked of it *)
Inductive mev : Type := MR (r : outcome mresult) | MW (m : message) (r : outcome mresult).
Definition mlogged {W} (mw : mwriter W) : mwriter (W * list mev) :=
  mkMW (fun wl => match mw_read mw (fst wl) with (r, w1) => (r, (w1, snd wl ++ [MR r])) end)
       (fun m wl => match mw_write mw m (fst wl) with (r, w1) => (r, (w1, snd wl ++ [MW m r])) end).
(** One that always returns. *)
Definition returns {W} (mw : mwriter W) : Prop :=
  (forall w, exists r w1, mw_read mw w = (Ret r, w1)) /\ (forall m w, exists r w1, mw_write mw m w = (Ret r, w1)).

(** ** Using a message writer *)
Inductive mop : Type := DoRead | DoWrite (m : message).
Definition do_op {W} (mw : mwriter W) (o : mop) : prog W mresult := match o with DoRead => mw_read mw | DoWrite m => mw_write mw m end.
Fixpoint do_ops {W} (mw : mwriter W) (ops : list mop) : prog W (list mresult) :=
  match ops with
  | [] => pret []
  | o :: t => do r <- do_op mw o ;; do rs <- do_ops mw t ;; pret (r :: rs)
  end.

(** Messages that went by, oldest first. *)
Definition went_by (e : mev) : list message :=
  match e with
  | MW m _ => [m]
  | MR (Ret (Some m, _)) => [m]
  | MR _ => []
  end.
Definition passed (log : list mev) : list message := flat_map went_by log.
Definition ev_result (e : mev) : outcome mresult := match e with MR r => r | MW _ r => r end.

(** The last [n] elements of a list. *)
Definition lastn {A} (n : nat) (l : list A) : list A := skipn (length l - n) l.

(** ** The duplicate filter *)
(** The same message again, perhaps with fewer hops left and perhaps of another kind (see C04). *)
Definition payload_dec : forall a b : list Z, {a = b} + {a <> b} := list_eq_dec Z.eq_dec.
Definition repetition (a b : message) : bool :=
  (m_src a =? m_src b) && (m_dst a =? m_dst b) && (m_cmd a =? m_cmd b) && (m_flags a mod 4 =? m_flags b mod 4) &&
  (if payload_dec (m_payload a) (m_payload b) then true else false).
(** What the users of the filter should get, given what went on below it, after history [h]. *)
Fixpoint deliveries (h : list message) (log : list mev) : list mresult :=
  match log with
  | [] => []
  | e :: t =>
      match e with
      | MW m (Ret r) => [r]
      | MR (Ret (Some m, None)) => if existsb (repetition m) (lastn 9 h) then [] else [(Some m, None)]
      | MR (Ret r) => [r]
      | _ => []
      end ++ deliveries (h ++ went_by e) t
  end.

(** A read never gives neither message nor error. *)
Definition informative {W} (mw : mwriter W) : Prop := forall w w1, mw_read mw w <> (Ret (None, None), w1).
(** A reader that hands out the messages of a list. *)
Definition list_mw (err : error) : mwriter (list message) :=
  mkMW (fun w => match w with [] => (Ret (None, Some err), []) | m :: t => (Ret (Some m, None), t) end)
       (fun _ w => (Ret (None, Some err), w)).
