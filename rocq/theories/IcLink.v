(** Linking with the command-line tool over the real modem: cmd/ic/plm.go:127-157 and cmd/ic/main.go:103-119 put together with the
    database, the devices and the modem. *)
From Coq Require Import ZArith List Bool.
From Verif Require Import GoBase GoProg Message MsgWriter BasicDevice Plm PlmLinkdb Database Link DevLinkdb UtilLink IcCmd IcDev IcLine IcWalk.
Import ListNotations.
Open Scope Z_scope.

(** plm/plm.go:57-69: the modem is a [Linkable] through its embedded link database (plm/linkdb.go).  Simplification: that database is
    forgotten after each call; linking and unlinking never ask for it.  The identity is a number no address has. *)
Definition on_modem_db {S A} (p : prog (plmdb * plm) A) : prog (S * plm) A :=
  psnd (fun st => match p (modem_db st, st) with (r, (_, st1)) => (r, st1) end).
Definition modem_lk {S} (n : nat) (sc : schedule) (now : Z) : linkable (S * plm) :=
  mkLk (-1) (psnd (plm_address sc)) (fun g => psnd (pdb_enter_linking (plm_pw sc) g)) (fun g => psnd (pdb_enter_unlinking (plm_pw sc) g))
    (psnd (pdb_exit_linking (plm_pw sc))) (on_modem_db (pdb_links n (plm_pw sc) now)) (fun ls => on_modem_db (pdb_update_links ls))
    (fun ls => on_modem_db (pdb_write_links (plm_pw sc) ls)) None.
(** devices/basic.go:40-54: an opened device as a [Linkable], its link database new as in [device_links]. *)
Definition on_device_db {W A} (p : prog (linkdb * W) A) : prog W A := fun w => match p (linkdb_new, w) with (r, (_, w1)) => (r, w1) end.
Definition bdev_lk {W} (n : nat) (now : Z) (d : bdev W) : linkable W :=
  let i := bd_info d in let mw := bd_writer d in
  mkLk (di_addr i) (pret (di_addr i)) (bd_enter_linking i mw) (bd_enter_unlinking i mw) (bd_exit_linking i mw)
    (on_device_db (ld_get_links n (bd_mw i mw) now)) (fun ls => on_device_db (ld_update_links n (bd_mw i mw) now ls))
    (fun ls => on_device_db (ld_write_links (bd_mw i mw) now ls)) (Some (fun k l => on_device_db (ld_write_link (bd_mw i mw) k l))).
(** cmd/ic/main.go:103-109: [open] with [askLink] false, the device taken as a [Linkable]. *)
Definition open_lk {W} (n : nat) (now : Z) (raw : dev_opener W) : opener W :=
  fun a => do (d, err) <- raw a ;; pret (option_map (bdev_lk n now) d, err).
(** cmd/ic/plm.go:127-157 over the database of cmd/ic/main.go:94 and the modem. *)
Definition net_link (fuel n : nat) (os : osresp) (sc : schedule) (now : Z) filters (controller responder : bool) (group : Z) (addrs : list Z)
  : prog ((fstate * memdb) * plm) (option error) :=
  ic_link (open_lk n now (db_opener fuel os (plm_mw fuel sc) filters)) (modem_lk n sc now) controller responder group addrs.
(** cmd/ic/main.go:103-119 [open]; [yes] is the answer to the question. *)
Definition ic_open_net (fuel n : nat) (os : osresp) (sc : schedule) (now : Z) filters (ask : bool) (yes : prog ((fstate * memdb) * plm) bool) (a : Z) :=
  ic_open_dev (db_opener fuel os (plm_mw fuel sc) filters) (fun b => net_link fuel n os sc now filters true false 1 [b]) ask yes a.
