(** Model of address.go: 3-byte Insteon addresses (Go type [Address uint32], a [Z] in [0, 2^32)). *)
From Coq Require Import ZArith List Bool.
From Verif Require Import GoBase GoText.
Import ListNotations.
Open Scope Z_scope.

(** address.go:70-74 [Bytes]: big-endian, low three bytes. *)
Definition addr_bytes (a : Z) : list Z := [byte_of (a / 65536); byte_of (a / 256); byte_of a].

(** address.go:64-68 [Put]: copy at most three bytes into b[1:4], read big-endian. *)
Definition addr_put (buf : list Z) : Z :=
  match go_copy [0; 0; 0] buf with
  | [x; y; z] => x * 65536 + y * 256 + z
  | _ => 0
  end.

(** address.go:32-34 [String], also [MarshalText] 78-80. *)
Definition addr_string (a : Z) : list Z :=
  fmt_02x (byte_of (a / 65536)) ++ [ch_dot] ++ fmt_02x (byte_of (a / 256)) ++ [ch_dot] ++ fmt_02x (byte_of a).

(** address.go:41-43: six bytes are taken as undotted and re-joined with dots.  Six bytes with a character beyond ASCII among them are
    refused by the scan whether they are re-joined or not, so only six ASCII characters are re-joined here. *)
Definition addr_rejoin (text : list Z) : list Z :=
  if Nat.eqb (length text) 6 && forallb (fun c => c <? 128) text
  then slice text 0 2 ++ [ch_dot] ++ slice text 2 4 ++ [ch_dot] ++ slice text 4 6
  else text.

(** address.go:46 Sscanf(text, "%2x.%2x.%2x"): the three scanned bytes, or an error. *)
Definition addr_scan (text : list Z) : option (Z * Z * Z) :=
  match scan_hex8 (Some 2%nat) text with
  | None => None
  | Some (x, r1) =>
    match scan_lit ch_dot r1 with
    | None => None
    | Some r2 =>
      match scan_hex8 (Some 2%nat) r2 with
      | None => None
      | Some (y, r3) =>
        match scan_lit ch_dot r3 with
        | None => None
        | Some r4 =>
          match scan_hex8 (Some 2%nat) r4 with
          | None => None
          | Some (z, _) => Some (x, y, z)
          end
        end
      end
    end
  end.

(** address.go:39-52 [UnmarshalText] (also [Set] 55-57): new value of the receiver and the error.
    [old] is the receiver before the call. *)
Definition addr_unmarshal_text (old : Z) (text : list Z) : Z * option error :=
  match addr_scan (addr_rejoin text) with
  | None => (old, Some EAddrFormat)
  | Some (x, y, z) => (x * 65536 + y * 256 + z, None)
  end.
