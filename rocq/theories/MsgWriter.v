(** Model of devices/connection.go (MessageWriter, Read) and devices/matcher.go. *)
From Coq Require Import ZArith List Bool.
From Verif Require Import GoBase GoProg Command Message Plm.
Import ListNotations.
Open Scope Z_scope.

(** devices/connection.go:41-44 [MessageWriter]: any implementation, over a world [W].  A nil message is [None]. *)
Definition mresult : Type := option message * option error.
Record mwriter (W : Type) : Type := mkMW { mw_read : prog W mresult; mw_write : message -> prog W mresult }.
Arguments mkMW {W}.
Arguments mw_read {W}.
Arguments mw_write {W}.

(** The modem as a message writer (plm/plm.go:123-146, 192-205). *)
Definition plm_mw (fuel : nat) (sc : schedule) : mwriter plm := mkMW (plm_read sc) (plm_write fuel sc).

(** ** devices/matcher.go *)
(** devices/matcher.go:22-24 [Matcher], on non-nil messages. *)
Definition matcher : Type := message -> bool.
(** devices/matcher.go:26-30 [CmdMatcher]. *)
Definition cmd_matcher (c : Z) : matcher := fun m => cmd_matches c (m_cmd m).
(** devices/matcher.go:50-54, 56-60 [SrcMatcher], [DstMatcher]. *)
Definition src_matcher (a : Z) : matcher := fun m => m_src m =? a.
Definition dst_matcher (a : Z) : matcher := fun m => m_dst m =? a.
(** devices/matcher.go:62-66 [AckMatcher]. *)
Definition ack_matcher : matcher := fun m => fl_ack (m_flags m) || fl_nak (m_flags m).
(** devices/matcher.go:68-72 [AllLinkMatcher]. *)
Definition alllink_matcher : matcher := fun m => mt_is_alllink (fl_type (m_flags m)).
(** devices/matcher.go:74-78 [Not]. *)
Definition not_matcher (x : matcher) : matcher := fun m => negb (x m).
(** devices/matcher.go:80-89 [And]. *)
Fixpoint and_matcher (l : list matcher) : matcher :=
  fun m => match l with [] => true | x :: t => if negb (x m) then false else and_matcher t m end.
(** devices/matcher.go:91-100 [Or]. *)
Fixpoint or_matcher (l : list matcher) : matcher :=
  fun m => match l with [] => false | x :: t => if x m then true else or_matcher t m end.
(** devices/matcher.go:102-106 [MatchAck]. *)
Definition match_ack (ack : message) : matcher := and_matcher [not_matcher ack_matcher; dst_matcher (m_src ack)].

(** devices/connection.go:77-85 [Read].  Simplification: every matcher looks at its message, so a nil message without an error
    is a crash. *)
Fixpoint read_match {W} (fuel : nat) (mw : mwriter W) (p : matcher) : prog W mresult :=
  match fuel with
  | O => pnofuel
  | S k =>
      do (msg, err) <- mw_read mw ;;
      match err with
      | Some e => pret (msg, Some e)
      | None =>
          match msg with
          | None => ppanic
          | Some m => if p m then pret (Some m, None) else read_match k mw p
          end
      end
  end.
