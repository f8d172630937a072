(** What the lines shown by util.Snoop should say, in terms of the flags layout and the messages that went by. *)
From Coq Require Import ZArith List Bool.
From Verif Require Import GoBase GoProg Message MessageSpec MsgWriter FiltersSpec Link DevLinkdb DevLinkdbSpec BasicDevice Lights PlmPacket UtilSnoop.
Import ListNotations.
Open Scope Z_scope.

(** Messages whose fields have their documented sizes. *)
Definition well (m : message) : Prop := msg_wf m /\ 0 <= m_cmd m < 2 ^ 24.
Definition ev_well (e : mev) : Prop :=
  match e with
  | MR (Ret (Some m, _)) => well m
  | MW m (Ret (Some a, _)) => well m /\ well a
  | MW m _ => well m
  | MR _ => True
  end.

(** The newest of the last ten messages that was sent to the acknowledging device and is itself no reply. *)
Definition no_reply (m : message) : bool := match (m_flags m / 32) mod 8 with 1 | 3 | 5 | 7 => false | _ => true end.
Definition acked (h : list message) (a : message) : option message :=
  find (fun p => (m_dst p =? m_src a) && no_reply p) (rev (lastn 10 h)).

(** Who talks to whom. *)
Definition route_shown (k : kind) (ext : bool) (m : message) (r : sn_route) : Prop :=
  match k with
  | KAllLink => r = RtAllLink (m_src m)
  | KBroadcast => exists c0 c1 fw, is_byte c0 /\ is_byte c1 /\ is_byte fw /\ m_dst m = c0 * 65536 + c1 * 256 + fw /\ r = RtBroadcast (m_src m) c0 c1 fw
  | KCleanup => r = RtCleanup (m_src m) (m_dst m)
  | _ => r = RtDirect ext (m_src m) (m_dst m)
  end.
(** What is said; [cls], [c1], [c2] are the three bytes of the command word and [d2], [d1], [d0] those of the destination. *)
Definition what_shown (h : list message) (k : kind) (m : message) (x : sn_what) : Prop :=
  exists cls c1 c2 d2 d1 d0, is_byte cls /\ is_byte c1 /\ is_byte c2 /\ is_byte d2 /\ is_byte d1 /\ is_byte d0 /\
  m_cmd m = cls * 65536 + c1 * 256 + c2 /\ m_dst m = d2 * 65536 + d1 * 256 + d0 /\
  match k with
  | KDirectAck | KCleanupAck => x = match acked h m with Some p => WhAck (m_cmd p) | None => WhUnknownAck c1 c2 end
  | KAllLink => x = if c1 =? 6 then WhReport (cls * 65536 + c1 * 256) (12 * 65536 + d2 * 256) d0 d1 c2 else WhGroup (cls * 65536 + c1 * 256) d0
  | KCleanup => x = WhGroup (cls * 65536 + c1 * 256) c2
  | _ => x = WhCommand (m_cmd m)
  end.
(** How the fourteen data bytes are shown. *)
Definition shown_or_raw (b : list Z) (ok : Prop) (good : sn_payload -> Prop) (p : sn_payload) : Prop :=
  (ok /\ good p) \/ (~ ok /\ exists e, p = PyError b e).
Definition link_readable (b : list Z) : Prop :=
  exists x t rest, b = x :: t :: rest /\ ((t = 0 /\ (3 <= length rest)%nat) \/ ((t = 1 \/ t = 2) /\ (11 <= length rest)%nat)).
Definition link_shown (b : list Z) (p : sn_payload) : Prop :=
  exists r x num rest, p = PyLink r /\ b = [x; lr_type r; lr_mem r / 256; lr_mem r mod 256; num] ++ rest /\
    ((lr_type r = 0 /\ lr_link r = None) \/ exists l tail, lr_link r = Some l /\ rest = record_bytes l ++ tail).
Definition domain_of (db : option (Z -> dinfo * bool)) (a : Z) : option Z :=
  match db with
  | Some get => if snd (get a) then Some (di_dc0 (fst (get a))) else None
  | None => None
  end.
Definition payload_shown (db : option (Z -> dinfo * bool)) (ext : bool) (m : message) (p : sn_payload) : Prop :=
  let b := m_payload m in
  let long := (14 <= length b)%nat in
  let at_ (i : nat) := nth i b 0 in
  if ext then
    match (m_cmd m / 256) mod 256 with
    | 0x03 => shown_or_raw b long (fun p => p = PyProduct ([at_ 1%nat; at_ 2%nat; at_ 3%nat], [at_ 4%nat; at_ 5%nat])) p
    | 0x2f => shown_or_raw b (link_readable b) (link_shown b) p
    | 0x2e => match domain_of db (m_src m) with
              | Some 1 => shown_or_raw b long (fun p => p = PyDimmer (mkDC (at_ 4%nat) (at_ 5%nat) (at_ 6%nat) (at_ 7%nat) (at_ 8%nat))) p
              | Some 2 => shown_or_raw b long (fun p => p = PySwitch (mkSC (at_ 4%nat) (at_ 5%nat))) p
              | _ => p = PyUnknown b
              end
    | _ => p = PyUnknown b
    end
  else p = PyNone.
(** A correct line for message [m], after history [h]. *)
Definition shows (db : option (Z -> dinfo * bool)) (h : list message) (m : message) (l : sn_line) : Prop :=
  exists k ext, flags_layout (m_flags m) k ext (sn_left l) (sn_max l) /\
    route_shown k ext m (sn_rt l) /\ what_shown h k m (sn_wh l) /\ payload_shown db ext m (sn_py l).

(** The lines that should be shown for what went on below the filter. *)
Inductive display (db : option (Z -> dinfo * bool)) : list message -> list mev -> list sn_line -> Prop :=
| dp_nil : forall h, display db h [] []
| dp_read : forall h m l log ls, shows db (h ++ [m]) m l -> display db (h ++ [m]) log ls ->
    display db h (MR (Ret (Some m, None)) :: log) (l :: ls)
| dp_read_error : forall h a e log ls, display db (h ++ match a with Some m => [m] | None => [] end) log ls ->
    display db h (MR (Ret (a, Some e)) :: log) ls
| dp_write : forall h m l e log ls, shows db h m l -> display db (h ++ [m]) log ls ->
    display db h (MW m (Ret (None, e)) :: log) (l :: ls)
| dp_write_ack : forall h m l a l2 e log ls, shows db h m l -> shows db (h ++ [m]) a l2 -> display db (h ++ [m]) log ls ->
    display db h (MW m (Ret (Some a, e)) :: log) (l :: l2 :: ls).

(** Results on which the monitor goes on: a message, or the modem's time-out (wrapped or not). *)
Definition goes_on (e : mev) : Prop :=
  exists a, e = MR (Ret (a, None)) \/ exists x, e = MR (Ret (a, Some x)) /\ errors_is x EInsteonReadTimeout = true.

(** Packets whose flags byte tells the truth about their length: a standard message (0x50) does not claim to be extended. *)
Definition honest (p : packet) : Prop := p_cmd p = 0x50 -> (nth 6 (p_payload p) 0 / 16) mod 2 = 0.
