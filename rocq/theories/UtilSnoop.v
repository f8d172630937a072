(** Model of util/snoop.go (a filter that shows the messages passing by) and of cmd/ic/monitor.go:35-53. *)
From Coq Require Import ZArith List Bool.
From Verif Require Import GoBase GoProg Command Message MsgWriter Filters BasicDevice DevLinkdb Lights Plm.
Import ListNotations.
Open Scope Z_scope.

(** util/snoop.go:44-116: what a line says.  A line is the tuple of things printed in it; [SnoopText.v] has their text. *)
Inductive sn_route : Type :=
| RtAllLink (src : Z)                            (* "SA %s -> ff.ff.ff" *)
| RtBroadcast (src dc0 dc1 fw : Z)               (* "SB %s -> ff.ff.ff DevCat %v Firmware %s" *)
| RtCleanup (src dst : Z)                        (* "SC %s -> %s" *)
| RtDirect (extended : bool) (src dst : Z).      (* "ED" or "SD %s -> %s" *)
Inductive sn_what : Type :=
| WhAck (cmd : Z)                                (* " %v ACK" *)
| WhUnknownAck (c1 c2 : Z)                       (* " %d.%d (unknown ACK)" *)
| WhReport (cmd of group cleanup failed : Z)     (* " %v: %v Group %d (cleanup %d, failed %d)" *)
| WhGroup (cmd group : Z)                        (* " %v Group %d" *)
| WhCommand (cmd : Z).                           (* " %v" *)
Inductive sn_payload : Type :=
| PyNone | PyProduct (pd : list Z * list Z) | PyLink (r : linkreq) | PyDimmer (c : dimcfg) | PySwitch (c : swcfg)
| PyError (bytes : list Z) (e : error) | PyUnknown (bytes : list Z).
Record sn_line : Type := mkLine { sn_rt : sn_route; sn_max : Z; sn_left : Z; sn_wh : sn_what; sn_py : sn_payload }.

(** util/snoop.go:45-60. *)
Definition snoop_route (m : message) : sn_route :=
  if fl_type (m_flags m) =? mt_AllLinkBroadcast then RtAllLink (m_src m)
  else if fl_type (m_flags m) =? mt_Broadcast then
    RtBroadcast (m_src m) (byte_of (Z.shiftr (m_dst m) 16)) (byte_of (Z.shiftr (m_dst m) 8)) (byte_of (m_dst m))
  else if fl_type (m_flags m) =? mt_AllLinkCleanup then RtCleanup (m_src m) (m_dst m)
  else RtDirect (fl_extended (m_flags m)) (m_src m) (m_dst m).
(** util/snoop.go:63-81; [prev] is the message found in the cache. *)
Definition snoop_what (prev : option message) (m : message) : sn_what :=
  if fl_ack (m_flags m) then
    match prev with
    | Some p => WhAck (m_cmd p)
    | None => WhUnknownAck (command1 (m_cmd m)) (command2 (m_cmd m))
    end
  else if fl_type (m_flags m) =? mt_AllLinkBroadcast then
    if cmd_matches c_AllLinkSuccessReport (m_cmd m) then
      WhReport (Z.land (m_cmd m) 0xffff00) (Z.lor 0x0c0000 (Z.shiftl (Z.shiftr (m_dst m) 16) 8)) (byte_of (m_dst m))
        (byte_of (Z.shiftr (m_dst m) 8)) (command2 (m_cmd m))
    else WhGroup (Z.land (m_cmd m) 0xffff00) (byte_of (m_dst m))
  else if fl_type (m_flags m) =? mt_AllLinkCleanup then WhGroup (Z.land (m_cmd m) 0xffff00) (command2 (m_cmd m))
  else WhCommand (m_cmd m).
(** util/snoop.go:83-114; [db] gives the information stored for an address, if there is a database. *)
Definition sn_decoded {A} (buf : list Z) (f : A -> sn_payload) (r : A * option error) : sn_payload :=
  match r with (a, None) => f a | (_, Some e) => PyError buf e end.
Definition snoop_payload (db : option (Z -> dinfo * bool)) (m : message) : sn_payload :=
  if fl_extended (m_flags m) then
    let buf := m_payload m in
    if cmd_matches (m_cmd m) c_ProductDataResp then sn_decoded buf PyProduct (pd_unmarshal (zeros 3, zeros 2) buf)
    else if cmd_matches (m_cmd m) c_ReadWriteALDB then sn_decoded buf PyLink (lr_unmarshal linkreq_zero buf)
    else if cmd_matches (m_cmd m) c_ExtendedGetSet then
      match db with
      | Some get =>
          match get (m_src m) with
          | (info, true) =>
              if di_dc0 info =? 0x01 then sn_decoded buf PyDimmer (dc_unmarshal (mkDC 0 0 0 0 0) buf)
              else if di_dc0 info =? 0x02 then sn_decoded buf PySwitch (sc_unmarshal (mkSC 0 0) buf)
              else PyUnknown buf
          | (_, false) => PyUnknown buf
          end
      | None => PyUnknown buf
      end
    else PyUnknown buf
  else PyNone.

(** util/snoop.go:44-116 [print] of a non-nil message; the database does not change meanwhile (simplification). *)
Definition snoop_print {W} (db : option (Z -> dinfo * bool)) (m : message) : prog (list sn_line * (cache * W)) unit :=
  do c <- psnd (pfst pget) ;;
  do prev <- plift (if fl_ack (m_flags m) then cache_lookup (fun x => match_ack m (snd x)) c else Ret None) ;;
  do ls <- pfst pget ;;
  pfst (pput (ls ++ [mkLine (snoop_route m) (fl_max_ttl (m_flags m)) (fl_ttl (m_flags m))
                       (snoop_what (option_map snd prev) m) (snoop_payload db m)])).
(** util/snoop.go:26-32 [Read]: printing a nil message panics. *)
Definition snoop_read {W} (db : option (Z -> dinfo * bool)) (next : mwriter W) : prog (list sn_line * (cache * W)) mresult :=
  do (msg, err) <- psnd (mw_read (cache_filter next)) ;;
  match err with
  | Some e => pret (msg, Some e)
  | None => match msg with
            | None => ppanic
            | Some m => run snoop_print db m ;; pret (Some m, None)
            end
  end.
(** util/snoop.go:34-42 [Write]. *)
Definition snoop_write {W} (db : option (Z -> dinfo * bool)) (next : mwriter W) (m : message) : prog (list sn_line * (cache * W)) mresult :=
  run snoop_print db m ;;
  do (ack, err) <- psnd (mw_write (cache_filter next) m) ;;
  match ack with
  | None => pret (None, err)
  | Some a => run snoop_print db a ;; pret (Some a, err)
  end.
(** util/snoop.go:21-24 and 129-135: [Snoop] with its cache of ten. *)
Definition snoop_filter {W} (db : option (Z -> dinfo * bool)) (next : mwriter W) : mwriter (list sn_line * (cache * W)) :=
  mkMW (snoop_read db next) (snoop_write db next).
Definition snoop_cache : cache := mkCache [] 10 0 0.

(** cmd/ic/monitor.go:50-51 (and cmd/isnoop/main.go:75-76): the loop. *)
Fixpoint monitor_loop {W} (fuel : nat) (mw : mwriter W) : prog W (option error) :=
  match fuel with
  | O => pnofuel
  | S k =>
      do (_, err) <- mw_read mw ;;
      match err with
      | None => monitor_loop k mw
      | Some e => if errors_is e EInsteonReadTimeout then monitor_loop k mw else pret (Some e)
      end
  end.
(** cmd/ic/monitor.go:35-53 [monCmd]. *)
Definition monitor {W} (fuel : nat) (db : option (Z -> dinfo * bool)) (config : prog W (Z * option error)) (set_config : Z -> prog W (option error))
  (modem : mwriter W) : prog (list sn_line * (cache * W)) (option error) :=
  do (c, err) <- psnd (psnd config) ;;
  match err with
  | Some e => pret (Some e)
  | None =>
      do err1 <- psnd (psnd (set_config (cfg_set_monitor c))) ;;
      match err1 with
      | Some e => pret (Some e)
      | None => monitor_loop fuel (snoop_filter db modem)
      end
  end.
