(** Several devices and their modem, each with the link records it remembers, as the parties of the functions of util/link.go. *)
From Coq Require Import ZArith List Bool.
From Verif Require Import GoBase GoProg MsgWriter BasicDevice Plm PlmLinkdb DevLinkdb UtilLink.
Import ListNotations.
Open Scope Z_scope.

(** The link databases of the device objects (devices/linkdb.go:142-147), by a number for each object, and that of the modem
    (plm/linkdb.go:83-89). *)
Record memory : Type := mkMem { me_dev : nat -> linkdb; me_modem : plmdb }.
Definition on_dev {A} (k : nat) (p : prog (linkdb * plm) A) : prog (memory * plm) A := fun '(m, st) =>
  match p (me_dev m k, st) with (r, (db, st1)) => (r, (mkMem (fun j => if Nat.eqb j k then db else me_dev m j) (me_modem m), st1)) end.
Definition on_plm {A} (p : prog (plmdb * plm) A) : prog (memory * plm) A := fun '(m, st) =>
  match p (me_modem m, st) with (r, (db, st1)) => (r, (mkMem (me_dev m) db, st1)) end.

(** A device object with its number and description (devices/basic.go:40-54), or the modem object (plm/plm.go:57-69), as a [Linkable]. *)
Inductive member : Type := PDev (k : nat) (i : dinfo) | PModem.
Definition member_lk (fuel n : nat) (sc : schedule) (now : Z) (p : member) : linkable (memory * plm) :=
  match p with
  | PDev k i =>
      let mw := plm_mw fuel sc in
      mkLk (Z.of_nat k) (pret (di_addr i)) (fun g => psnd (bd_enter_linking i mw g)) (fun g => psnd (bd_enter_unlinking i mw g))
        (psnd (bd_exit_linking i mw)) (on_dev k (ld_get_links n (bd_mw i mw) now)) (fun ls => on_dev k (ld_update_links n (bd_mw i mw) now ls))
        (fun ls => on_dev k (ld_write_links (bd_mw i mw) now ls)) (Some (fun j l => on_dev k (ld_write_link (bd_mw i mw) j l)))
  | PModem =>
      mkLk (-1) (psnd (plm_address sc)) (fun g => psnd (pdb_enter_linking (plm_pw sc) g)) (fun g => psnd (pdb_enter_unlinking (plm_pw sc) g))
        (psnd (pdb_exit_linking (plm_pw sc))) (on_plm (pdb_links n (plm_pw sc) now)) (fun ls => on_plm (pdb_update_links ls))
        (fun ls => on_plm (pdb_write_links (plm_pw sc) ls)) None
  end.
