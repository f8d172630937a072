(** What the text of the lines written by util.Snoop must tell. *)
From Coq Require Import ZArith List Bool String.
From Verif Require Import GoBase GoProg GoText Message MessageSpec MsgWriter FiltersSpec Link LinkText DevLinkdb BasicDevice Lights UtilSnoop UtilSnoopSpec DisplaySpec.
Import ListNotations.
Open Scope Z_scope.

(** Lines whose fields have the sizes of the values they show. *)
Definition route_ok (r : sn_route) : Prop :=
  match r with
  | RtAllLink s => word24 s
  | RtBroadcast s c0 c1 fw => word24 s /\ is_byte c0 /\ is_byte c1 /\ is_byte fw
  | RtCleanup s d | RtDirect _ s d => word24 s /\ word24 d
  end.
Definition what_ok (w : sn_what) : Prop :=
  match w with
  | WhAck c | WhCommand c => word24 c
  | WhUnknownAck a b => is_byte a /\ is_byte b
  | WhReport c o g cl f => word24 c /\ word24 o /\ is_byte g /\ is_byte cl /\ is_byte f
  | WhGroup c g => word24 c /\ is_byte g
  end.
Definition pay_ok (p : sn_payload) : Prop :=
  match p with
  | PyProduct (k, d) => List.length k = 3%nat /\ List.length d = 2%nat /\ bytes_ok k /\ bytes_ok d
  | PyLink r => request_ok r
  | PyError b _ | PyUnknown b => bytes_ok b
  | _ => True
  end.
Definition line_ok (l : sn_line) : Prop :=
  route_ok (sn_rt l) /\ is_byte (sn_max l) /\ is_byte (sn_left l) /\ what_ok (sn_wh l) /\ pay_ok (sn_py l).

(** Lines that say the same: everything agrees, but commands of equal name, requests and records as far as their texts go, and errors of
    equal text. *)
Definition what_alike (a b : sn_what) : Prop :=
  match a, b with
  | WhAck c, WhAck d | WhCommand c, WhCommand d => named_alike c d
  | WhUnknownAck a1 a2, WhUnknownAck b1 b2 => a1 = b1 /\ a2 = b2
  | WhReport c o g cl f, WhReport c' o' g' cl' f' => named_alike c c' /\ named_alike o o' /\ g = g' /\ cl = cl' /\ f = f'
  | WhGroup c g, WhGroup d h => named_alike c d /\ g = h
  | _, _ => False
  end.
Definition pay_alike (et : error -> list Z) (a b : sn_payload) : Prop :=
  match a, b with
  | PyLink r, PyLink s => request_alike r s
  | PyError b e, PyError b' e' => b = b' /\ et e = et e'
  | PyLink _, _ | _, PyLink _ | PyError _ _, _ | _, PyError _ _ => False
  | _, _ => a = b
  end.
Definition line_alike (et : error -> list Z) (a b : sn_line) : Prop :=
  sn_rt a = sn_rt b /\ sn_max a = sn_max b /\ sn_left a = sn_left b /\ what_alike (sn_wh a) (sn_wh b) /\ pay_alike et (sn_py a) (sn_py b).

(** The kinds a reader can tell: all-link broadcast, broadcast, cleanup, acknowledgement, anything else. *)
Definition told_kind (k : kind) : Z :=
  match k with KAllLink => 0 | KBroadcast => 1 | KCleanup => 2 | KDirectAck | KCleanupAck => 3 | KDirect | KDirectNak | KCleanupNak => 4 end.
(** What two messages with the same line have in common. *)
Definition told_alike (m o : message) : Prop :=
  exists k k' ext left max, flags_layout (m_flags m) k ext left max /\ flags_layout (m_flags o) k' ext left max /\ told_kind k = told_kind k' /\
    m_src m = m_src o /\ (k <> KAllLink -> m_dst m = m_dst o) /\
    match k with
    | KAllLink => m_dst m mod 256 = m_dst o mod 256 /\ named_alike (m_cmd m / 256 * 256) (m_cmd o / 256 * 256) /\
                  ((m_cmd m / 256) mod 256 = 6 -> named_alike (0x0c0000 + m_dst m / 65536 * 256) (0x0c0000 + m_dst o / 65536 * 256) /\
                     (m_dst m / 256) mod 256 = (m_dst o / 256) mod 256 /\ m_cmd m mod 256 = m_cmd o mod 256)
    | KCleanup => named_alike (m_cmd m / 256 * 256) (m_cmd o / 256 * 256) /\ m_cmd m mod 256 = m_cmd o mod 256
    | KDirectAck | KCleanupAck => True
    | _ => named_alike (m_cmd m) (m_cmd o)
    end.
(** The messages that went by, as the filter sees them: those read without error, those written, and the acknowledgements a write gives. *)
Fixpoint went_by (log : list mev) : list message :=
  match log with
  | [] => []
  | MR (Ret (Some m, None)) :: t => m :: went_by t
  | MW m (Ret (Some a, _)) :: t => m :: a :: went_by t
  | MW m _ :: t => m :: went_by t
  | _ :: t => went_by t
  end.
(** What two acknowledgements with the same line, seen after [h] and [h'], have in common besides. *)
Definition ack_alike (h h' : list message) (m o : message) : Prop :=
  match acked h m, acked h' o with
  | Some p, Some q => named_alike (m_cmd p) (m_cmd q)
  | None, None => m_cmd m mod 65536 = m_cmd o mod 65536
  | _, _ => False
  end.

(** ** The layout of a line *)
(** A number in digits. *)
Inductive digits (base : Z) : list Z -> Z -> Prop :=
| Dg0 : digits base [] 0
| Dg1 : forall t n d, digits base t n -> 0 <= d < base -> digits base (t ++ [nth (Z.to_nat d) (zs "0123456789abcdef") 0]) (base * n + d).
Definition decimal (t : list Z) (n : Z) : Prop := digits 10 t n /\ t <> [] /\ (nth 0 t 0 = 48 -> List.length t = 1%nat).
Definition hex2 (t : list Z) (n : Z) : Prop := digits 16 t n /\ List.length t = 2%nat.
(** An address: three bytes, most significant first. *)
Definition dotted (t : list Z) (a : Z) : Prop :=
  exists x y z i j k, t = x ++ zs "." ++ y ++ zs "." ++ z /\ hex2 x i /\ hex2 y j /\ hex2 z k /\ a = 65536 * i + 256 * j + k.
(** Bytes with commas between them. *)
Inductive listed : list Z -> list Z -> Prop :=
| Ls0 : listed [] []
| Ls1 : forall t b, hex2 t b -> listed t [b]
| Ls2 : forall t b u c l, hex2 t b -> listed u (c :: l) -> listed (t ++ zs ", " ++ u) (b :: c :: l).
Definition route_says (t : list Z) (r : sn_route) : Prop :=
  match r with
  | RtAllLink s => exists x, t = zs "SA " ++ x ++ zs " -> ff.ff.ff" /\ dotted x s
  | RtBroadcast s c0 c1 fw => exists x y z f, t = zs "SB " ++ x ++ zs " -> ff.ff.ff DevCat " ++ y ++ zs "." ++ z ++ zs " Firmware " ++ f /\
      dotted x s /\ hex2 y c0 /\ hex2 z c1 /\ decimal f fw
  | RtCleanup s d => exists x y, t = zs "SC " ++ x ++ zs " -> " ++ y /\ dotted x s /\ dotted y d
  | RtDirect ext s d => exists x y, t = (if ext then zs "ED " else zs "SD ") ++ x ++ zs " -> " ++ y /\ dotted x s /\ dotted y d
  end.
(** [name] gives the names of the commands, of which C52 speaks. *)
Definition what_says (name : Z -> list Z) (t : list Z) (w : sn_what) : Prop :=
  match w with
  | WhAck c => t = name c ++ zs " ACK"
  | WhUnknownAck a b => exists x y, t = x ++ zs "." ++ y ++ zs " (unknown ACK)" /\ decimal x a /\ decimal y b
  | WhReport c o g cl f => exists x y z, t = name c ++ zs ": " ++ name o ++ zs " Group " ++ x ++ zs " (cleanup " ++ y ++ zs ", failed " ++ z ++ zs ")" /\
      decimal x g /\ decimal y cl /\ decimal z f
  | WhGroup c g => exists x, t = name c ++ zs " Group " ++ x /\ decimal x g
  | WhCommand c => t = name c
  end.
(** [rec] gives the text of a link request, of which C52 speaks too. *)
Definition pay_says (et : error -> list Z) (rec : linkreq -> list Z) (t : list Z) (p : sn_payload) : Prop :=
  match p with
  | PyNone => t = []
  | PyProduct (k, d) => exists x y z u v, t = zs " &{0x" ++ x ++ y ++ z ++ zs " " ++ u ++ zs "." ++ v ++ zs "}" /\
      hex2 x (nth 0 k 0) /\ hex2 y (nth 1 k 0) /\ hex2 z (nth 2 k 0) /\ hex2 u (nth 0 d 0) /\ hex2 v (nth 1 d 0)
  | PyLink r => t = zs " " ++ rec r
  | PyDimmer c => is_byte (dc_house c) -> is_byte (dc_unit c) -> is_byte (dc_ramp c) -> is_byte (dc_level c) -> is_byte (dc_snt c) ->
      exists x y z u v, t = zs " &{" ++ x ++ zs " " ++ y ++ zs " " ++ z ++ zs " " ++ u ++ zs " " ++ v ++ zs "}" /\
      decimal x (dc_house c) /\ decimal y (dc_unit c) /\ decimal z (dc_ramp c) /\ decimal u (dc_level c) /\ decimal v (dc_snt c)
  | PySwitch c => is_byte (sc_house c) -> is_byte (sc_unit c) -> exists x y, t = zs " &{" ++ x ++ zs " " ++ y ++ zs "}" /\
      decimal x (sc_house c) /\ decimal y (sc_unit c)
  | PyError b e => exists x, t = zs " payload error [" ++ x ++ zs "] " ++ et e /\ listed x b
  | PyUnknown b => exists x, t = zs " unknown payload [" ++ x ++ zs "]" /\ listed x b
  end.
Definition line_says (et : error -> list Z) (name : Z -> list Z) (rec : linkreq -> list Z) (t : list Z) (l : sn_line) : Prop :=
  exists r x y w p, t = r ++ zs " " ++ x ++ zs ":" ++ y ++ zs " " ++ w ++ p /\
    route_says r (sn_rt l) /\ decimal x (sn_max l) /\ decimal y (sn_left l) /\ what_says name w (sn_wh l) /\ pay_says et rec p (sn_py l).
