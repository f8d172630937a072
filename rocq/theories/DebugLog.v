(** The debug log of util/link.go: [Printf] with a [Linkable] calls its [String] method, and the one of the modem asks the modem for its
    address.  What is written to the log is not modelled. *)
From Coq Require Import ZArith List Bool.
From Verif Require Import GoBase GoProg Message MsgWriter BasicDevice Plm PlmLinkdb Database Link DevLinkdb UtilLink IcCmd IcDev IcLine IcWalk IcLink.
Import ListNotations.
Open Scope Z_scope.

(** A [Linkable] together with what its [String] method does. *)
Record logged (W : Type) : Type := mkLg { lg_lk : linkable W; lg_text : prog W unit }.
Arguments lg_lk {W}. Arguments lg_text {W}. Arguments mkLg {W}.
(** Package fmt recovers from a panic in a [String] method and prints a note instead. *)
Definition swallow {W A} (p : prog W A) : prog W unit :=
  fun w => match p w with (NoFuel, w1) => (NoFuel, w1) | (_, w1) => (Ret tt, w1) end.
(** plm/plm.go:261-263 [String] calls [Address]. *)
Definition modem_lg {S} (n : nat) (sc : schedule) (now : Z) : logged (S * plm) :=
  mkLg (modem_lk n sc now) (psnd (swallow (plm_address sc))).
(** devices/basic.go:182-184 [String]: nothing is sent. *)
Definition bdev_lg {W} (n : nat) (now : Z) (d : bdev W) : logged W := mkLg (bdev_lk n now d) (pret tt).
(** A nil device: its [String] method panics, package fmt prints "<nil>". *)
Definition lg_nil {W} : logged W := mkLg lk_nil (pret tt).
Definition lg_or_nil {W} (d : option (logged W)) : logged W := match d with Some d => d | None => lg_nil end.
(** devices/logging.go:25 [LogDebug], cmd/ic/main.go:66-76: [on] if the arguments of [Printf] are put into text.  They are with the flag
    -debug; without it that is up to package log, some versions of which put into text even what they discard. *)
Definition log_debug {W} (on : bool) (x : logged W) : prog W unit := if on then lg_text x else pret tt.

(** util/link.go:298-326 [ForceLink] with line 308. *)
Definition force_link_logged {W} (on : bool) (group : Z) (controller responder : logged W) : prog W (option error) :=
  run log_debug on controller ;; force_link group (lg_lk controller) (lg_lk responder).
(** util/link.go:390-404 [Unlink] with lines 392 and 397. *)
Definition unlink_logged {W} (on : bool) (group : Z) (controller responder : logged W) : prog W (option error) :=
  run log_debug on controller ;;
  do err <- lk_unlink (lg_lk controller) group ;;
  match err with
  | Some e => pret (Some e)
  | None =>
      run log_debug on responder ;;
      do err1 <- lk_enter (lg_lk responder) group ;;
      run lk_exit (lg_lk controller) ;;
      run lk_exit (lg_lk responder) ;;
      pret err1
  end.

(** cmd/ic/plm.go:136-144 and 127-157, as in IcCmd.v. *)
Definition ic_link_one_logged {W} (on : bool) (modem : logged W) (controller responder : bool) (group : Z) (dev : logged W) : prog W (option error) :=
  do err <- (if controller then force_link_logged on group modem dev else pret None) ;;
  match err with
  | Some e => pret (Some e)
  | None => if responder then force_link_logged on group dev modem else pret None
  end.
Fixpoint ic_link_logged {W} (on : bool) (open : Z -> prog W (option (logged W) * option error)) (modem : logged W) (controller responder : bool)
  (group : Z) (addrs : list Z) : prog W (option error) :=
  match addrs with
  | [] => pret None
  | a :: rest =>
      do (dev, err) <- open a ;;
      match err with
      | None | Some EDevNotLinked => ic_link_one_logged on modem controller responder group (lg_or_nil dev)
      | Some _ => ic_link_logged on open modem controller responder group rest
      end
  end.
(** cmd/ic/main.go:103-109 and cmd/ic/plm.go:127-157 over the database and the modem, as in IcLink.v. *)
Definition open_lg {W} (n : nat) (now : Z) (raw : dev_opener W) (a : Z) : prog W (option (logged W) * option error) :=
  do (d, err) <- raw a ;; pret (option_map (bdev_lg n now) d, err).
Definition net_link_logged (on : bool) (fuel n : nat) (os : osresp) (sc : schedule) (now : Z) filters (controller responder : bool) (group : Z) (addrs : list Z)
  : prog ((fstate * memdb) * plm) (option error) :=
  ic_link_logged on (open_lg n now (db_opener fuel os (plm_mw fuel sc) filters)) (modem_lg n sc now) controller responder group addrs.
(** cmd/ic/main.go:103-119 [open], as in IcLink.v. *)
Definition ic_open_net_logged (on : bool) (fuel n : nat) (os : osresp) (sc : schedule) (now : Z) filters (ask : bool) (yes : prog ((fstate * memdb) * plm) bool) (a : Z) :=
  ic_open_dev (db_opener fuel os (plm_mw fuel sc) filters) (fun b => net_link_logged on fuel n os sc now filters true false 1 [b]) ask yes a.
