(** The device subcommands of cmd/ic over the real modem: the links of a device are read through the device's own writer. *)
From Coq Require Import ZArith List Bool.
From Verif Require Import GoBase GoProg Message MsgWriter BasicDevice Database Link DevLinkdb IcDev.
Import ListNotations.
Open Scope Z_scope.

(** devices/basic.go:40-54 and devices/linkdb.go:197-204 [Links]: the link database of a device that was just opened is empty
    and never refreshed.  Simplification: it is forgotten after the call; no subcommand asks for the links twice. *)
Definition device_links {W} (fuel : nat) (now : Z) (d : bdev W) : prog W (list link * option error) :=
  fun w => match ld_get_links fuel (bd_mw (bd_info d) (bd_writer d)) now (linkdb_new, w) with (r, (_, w1)) => (r, w1) end.
