(** The text of the lines that util.Snoop writes: util/snoop.go:44-127.  [UtilSnoop.v] says which line is written when. *)
From Coq Require Import ZArith List Bool String.
From Verif Require Import GoBase GoText GoJson Message Address LinkText BasicDevice DevLinkdb Lights UtilSnoop Display Report.
Import ListNotations.
Open Scope Z_scope.

(** util/snoop.go:45-60. *)
Definition rt_text (r : sn_route) : list Z :=
  match r with
  | RtAllLink src => zs "SA " ++ addr_string src ++ zs " -> ff.ff.ff"
  | RtBroadcast src c0 c1 fw =>
      zs "SB " ++ addr_string src ++ zs " -> ff.ff.ff DevCat " ++ devcat_string c0 c1 ++ zs " Firmware " ++ fw_string fw
  | RtCleanup src dst => zs "SC " ++ addr_string src ++ zs " -> " ++ addr_string dst
  | RtDirect ext src dst => (if ext then zs "E" else zs "S") ++ zs "D " ++ addr_string src ++ zs " -> " ++ addr_string dst
  end.
(** util/snoop.go:63-81. *)
Definition wh_text (w : sn_what) : list Z :=
  match w with
  | WhAck c => zs " " ++ cmd_string c ++ zs " ACK"
  | WhUnknownAck c1 c2 => zs " " ++ fmt_d_byte c1 ++ zs "." ++ fmt_d_byte c2 ++ zs " (unknown ACK)"
  | WhReport c o g cl f =>
      zs " " ++ cmd_string c ++ zs ": " ++ cmd_string o ++ zs " Group " ++ fmt_d_byte g ++ zs " (cleanup " ++ fmt_d_byte cl ++
        zs ", failed " ++ fmt_d_byte f ++ zs ")"
  | WhGroup c g => zs " " ++ cmd_string c ++ zs " Group " ++ fmt_d_byte g
  | WhCommand c => zs " " ++ cmd_string c
  end.
(** util/snoop.go:102-114; the verb v of a pointer to a struct is & and its fields in braces, by their own [String] if they have one
    (insteon.go:59-61 and 93-95 for product data, plain numbers for the configurations).  [et] is the text of an error (a parameter). *)
Definition py_text (et : error -> list Z) (p : sn_payload) : list Z :=
  match p with
  | PyNone => []
  | PyProduct (k, d) => zs " &{" ++ pk_string (nth 0 k 0) (nth 1 k 0) (nth 2 k 0) ++ zs " " ++ devcat_string (nth 0 d 0) (nth 1 d 0) ++ zs "}"
  | PyLink r => zs " " ++ lr_string r
  | PyDimmer c => zs " &{" ++ fmt_int (dc_house c) ++ zs " " ++ fmt_int (dc_unit c) ++ zs " " ++ fmt_int (dc_ramp c) ++ zs " " ++
                    fmt_int (dc_level c) ++ zs " " ++ fmt_int (dc_snt c) ++ zs "}"
  | PySwitch c => zs " &{" ++ fmt_int (sc_house c) ++ zs " " ++ fmt_int (sc_unit c) ++ zs "}"
  | PyError b e => zs " payload error [" ++ payload_str b ++ zs "] " ++ et e
  | PyUnknown b => zs " unknown payload [" ++ payload_str b ++ zs "]"
  end.
(** util/snoop.go:44-116 [print]: one line; the hop counts are printed by line 61. *)
Definition sn_body (et : error -> list Z) (l : sn_line) : list Z :=
  rt_text (sn_rt l) ++ zs " " ++ fmt_d_byte (sn_max l) ++ zs ":" ++ fmt_d_byte (sn_left l) ++ wh_text (sn_wh l) ++ py_text et (sn_py l).
Definition sn_output (et : error -> list Z) (ls : list sn_line) : list Z := unlines (map (sn_body et) ls).
