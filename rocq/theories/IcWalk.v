(** cmd/iwalk over the real modem: the modem's own link database says which devices there are. *)
From Coq Require Import ZArith List Bool.
From Verif Require Import GoBase GoProg PlmPacket Plm PlmLinkdb MsgWriter Database Link IcDev IcLine.
Import ListNotations.
Open Scope Z_scope.

(** plm/plm.go:87-89: the modem's link database, new: never refreshed, no links, retries and timeout as the modem's. *)
Definition modem_db (st : plm) : plmdb := mkPdb 0 [] (p_retries st) (p_timeout st).
(** cmd/iwalk/main.go:77 and plm/linkdb.go:197-210: the addresses of the callbacks.  The callbacks never touch the modem's link
    database, so it is forgotten after the list of addresses is made.  [now] is in the unit of the timeout. *)
Definition modem_devices {S} (fuel : nat) (sc : schedule) (now : Z) : prog (S * plm) (list Z * option error) :=
  psnd (fun st => match pdb_iterate fuel (plm_pw sc) now (modem_db st, st) with (r, (_, st1)) => (r, st1) end).
(** cmd/iwalk/main.go:76-95. *)
Definition walk_network (fuel n : nat) (os : osresp) (sc : schedule) (now : Z) filters
  : prog ((fstate * memdb) * plm) (list wline * option error) :=
  iwalk (modem_devices n sc now) (db_opener fuel os (plm_mw fuel sc) filters) (device_links n now).
