(** Specifications for requests to lights and thermostats: what is sent, and what an answer means. *)
From Coq Require Import ZArith List Bool.
From Verif Require Import GoBase GoProg Message MessageSpec MsgWriter FiltersSpec BasicDevice DeviceSpec.
Import ListNotations.
Open Scope Z_scope.

(** [m] asks the device for command bytes [c1], [c2] with [data]: addressed to it, direct, extended exactly when there are data, to be
    repeated three times (twice if extended), data in front and zeros behind them up to the checksum, which devices that check it find
    right; other devices get the data and zeros only. *)
Definition is_request (info : dinfo) (c1 c2 : Z) (data : list Z) (m : message) : Prop :=
  m_dst m = di_addr info /\ (m_cmd m / 256) mod 256 = c1 /\ m_cmd m mod 256 = c2 /\
  (let (ext, h) := match data with [] => (false, 3) | _ => (true, 2) end in flags_layout (m_flags m) KDirect ext h h) /\
  (data = [] -> m_payload m = []) /\
  firstn 13 (padded 14 (m_payload m)) = firstn 13 (padded 14 data) /\
  (di_engine info = 2 -> data <> [] -> checksum_valid m /\ is_byte (nth 13 (m_payload m) 0)) /\
  (di_engine info <> 2 -> padded 14 (m_payload m) = padded 14 data).

(** The outcome of a command, given the outcome of the write. *)
Definition settled {W} (r : outcome mresult * W) : outcome (option error) * W :=
  match r with
  | (Ret (_, Some e), w) => (Ret (Some e), w)
  | (Ret (Some _, None), w) => (Ret None, w)
  | (Ret (None, None), w) => (Panic, w)
  | (Panic, w) => (Panic, w)
  | (NoFuel, w) => (NoFuel, w)
  end.
(** The outcome of a question answered in the second command byte of the acknowledgement. *)
Definition answered {W} (r : outcome mresult * W) : outcome (Z * option error) * W :=
  match r with
  | (Ret (_, Some e), w) => (Ret (0, Some e), w)
  | (Ret (Some a, None), w) => (Ret (m_cmd a mod 256, None), w)
  | (Ret (None, None), w) => (Panic, w)
  | (Panic, w) => (Panic, w)
  | (NoFuel, w) => (NoFuel, w)
  end.
(** [p] writes one request and does nothing else. *)
Definition sends {W} (mw : mwriter W) (info : dinfo) (c1 c2 : Z) (data : list Z) (p : prog W (option error)) : Prop :=
  exists m, is_request info c1 c2 data m /\ forall w, p w = settled (mw_write mw m w).
Definition asks_once {W} (mw : mwriter W) (info : dinfo) (c1 c2 : Z) (p : prog W (Z * option error)) : Prop :=
  exists m, is_request info c1 c2 [] m /\ forall w, p w = answered (mw_write mw m w).
(** [p] does nothing but report [e]. *)
Definition rejects {W} (e : error) (p : prog W (option error)) : Prop := forall w, p w = (Ret (Some e), w).

(** Requests [c1],[c2] for all [c2] of a list in turn, stopping at the first error, with the answers. *)
Inductive poll (info : dinfo) (c1 : Z) : list Z -> list mev -> list Z -> option error -> Prop :=
| poll_done : poll info c1 [] [] [] None
| poll_fail : forall c2 t m a e, is_request info c1 c2 [] m -> poll info c1 (c2 :: t) [MW m (Ret (a, Some e))] [] (Some e)
| poll_next : forall c2 t m a log vals err, is_request info c1 c2 [] m -> poll info c1 t log vals err ->
    poll info c1 (c2 :: t) (MW m (Ret (Some a, None)) :: log) (m_cmd a mod 256 :: vals) err.

(** An extended data request and the answer: the first message that comes in with the command byte of extended data. *)
Definition is_data_answer (m : message) : Prop := (m_cmd m / 256) mod 256 = 0x2e.
Definition skipped (r : mev) : Prop := exists m, r = MR (Ret (Some m, None)) /\ ~ is_data_answer m.
Definition data_exchange (info : dinfo) (data : list Z) (log : list mev) (answer : list Z) : Prop :=
  exists m a pre r, is_request info 0x2e 0 data m /\ is_data_answer r /\ m_payload r = answer /\
    log = MW m (Ret (a, None)) :: pre ++ [MR (Ret (Some r, None))] /\ Forall skipped pre.
