(** Model of util.go (delays and reading with a timeout) and of plm/port.go:30-77, the writer that pauses between packets.
    Times and durations are integers, in nanoseconds. *)
From Coq Require Import ZArith List Bool.
From Verif Require Import GoBase GoProg Message PlmPacket Plm.
Import ListNotations.
Open Scope Z_scope.

(** Arithmetic on time.Duration (int64): the result wraps. *)
Definition wrap64 (x : Z) : Z := (x + 2 ^ 63) mod 2 ^ 64 - 2 ^ 63.
Definition second : Z := 1000000000.

(** util.go:12-15 [PropagationDelay]: [ttl+1] is computed in a uint8; products wrap; division truncates. *)
Definition propagation_delay (ttl l : Z) : Z :=
  Z.quot (wrap64 (wrap64 (second * l) * byte_of (ttl + 1))) 60.

(** devices/basic.go:30 [LinkingModeWaitTime]. *)
Definition linking_mode_wait_time : Z := 500 * 1000000 + propagation_delay 3 14.

(** util.go:20-27 [ReadWithTimeout].  [ready] tells when the channel can be received from (relative to the call) and what is
    received then: a message ([None] for a nil one, also what a closed channel gives), or that it never is.  The results
    are those that select may give: when both cases are ready at the same time, either. *)
Definition read_with_timeout (ready : option (Z * option message)) (timeout : Z) : list (option message * option error) :=
  let timed_out := (None, Some EInsteonReadTimeout) in
  match ready with
  | None => [timed_out]
  | Some (t, m) =>
      if Z.max 0 t <? Z.max 0 timeout then [(m, None)]
      else if Z.max 0 t =? Z.max 0 timeout then [(m, None); timed_out]
      else [timed_out]
  end.

(** time.Now and time.Sleep over a world. *)
Record clock (W : Type) : Type := mkClock { ck_now : prog W Z; ck_sleep : Z -> prog W unit }.
Arguments mkClock {W}. Arguments ck_now {W}. Arguments ck_sleep {W}.

(** plm/port.go:30-37 [delayWriter], without the embedded writer. *)
Record dwriter : Type := mkDW { dw_ttl : Z; dw_len : Z; dw_min : Z; dw_read_at : Z; dw_last : option packet }.

(** plm/port.go:39-51 [ReadPacket].  A nil packet without an error, or a message of fewer than seven bytes, crashes. *)
Definition dw_read_packet {W} (ck : clock W) (pw : packet_writer W) : prog (dwriter * W) pw_result :=
  do (pkt, err) <- psnd (pw_read pw) ;;
  match err with
  | Some _ => pret (pkt, err)
  | None =>
      do now <- psnd (ck_now ck) ;;
      do (dw, _) <- pget ;;
      let dw1 := mkDW (dw_ttl dw) (dw_len dw) (dw_min dw) now (dw_last dw) in
      run pfst (pput dw1) ;;
      match pkt with
      | None => ppanic
      | Some p =>
          let dw2 := mkDW (dw_ttl dw) (zlen (p_payload p)) (dw_min dw) now (dw_last dw) in
          run pfst (pput dw2) ;;
          if (p_cmd p =? pc_StdMsgReceived) || (p_cmd p =? pc_ExtMsgReceived) then
            match nth_error (p_payload p) 6 with
            | None => ppanic
            | Some b => run pfst (pput (mkDW (Z.land b 0x03) (dw_len dw2) (dw_min dw) now (dw_last dw))) ;; pret (pkt, err)
            end
          else if p_cmd p =? pc_StartAllLink then
            run pfst (pput (mkDW 3 (dw_len dw2) (dw_min dw) now (dw_last dw))) ;; pret (pkt, err)
          else pret (pkt, err)
      end
  end.

(** plm/port.go:53-68 [writeDelay].  Simplification: Time.Sub and Time.Add do not overflow. *)
Definition dw_write_delay {W} (ck : clock W) : prog (dwriter * W) Z :=
  do (dw, _) <- pget ;;
  match dw_last dw with
  | None => pret 0
  | Some last =>
      if (p_cmd last =? pc_SendInsteonMsg) || (p_cmd last =? pc_StartAllLink) then
        let delay := propagation_delay (dw_ttl dw) (dw_len dw) in
        do now1 <- psnd (ck_now ck) ;;
        let delay := now1 - (dw_read_at dw + delay) in
        do now2 <- psnd (ck_now ck) ;;
        let delay := now2 - (dw_read_at dw + delay) in
        pret (if delay <? dw_min dw then dw_min dw else delay)
      else pret (if 0 <? dw_min dw then dw_min dw else 0)
  end.

(** plm/port.go:70-77 [Write]. *)
Definition dw_write {W} (ck : clock W) (pw : packet_writer W) (pkt : packet) : prog (dwriter * W) pw_result :=
  do delay <- dw_write_delay ck ;;
  run psnd (ck_sleep ck delay) ;;
  do (dw, _) <- pget ;;
  run pfst (pput (mkDW (dw_ttl dw) (dw_len dw) (dw_min dw) (dw_read_at dw) (Some pkt))) ;;
  psnd (pw_write pw pkt).

(** A delayWriter used as a packetWriter (plm/port.go:25-28): it has a ReadPacket of its own, but its WritePacket is the one
    promoted from the embedded writer, since line 70 defines Write. *)
Definition dw_as_packet_writer {W} (ck : clock W) (pw : packet_writer W) : packet_writer (dwriter * W) :=
  mkPW (fun pkt => psnd (pw_write pw pkt)) (dw_read_packet ck pw).
