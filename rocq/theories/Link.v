(** Model of link.go: record control flags, groups and link records. *)
From Coq Require Import ZArith List Bool.
From Verif Require Import GoBase GoText Address.
Import ListNotations.
Open Scope Z_scope.

(** link.go:32-37 constants. *)
Definition rcf_AvailableController : Z := 0x40.
Definition rcf_UnavailableController : Z := 0xc0.
Definition rcf_AvailableResponder : Z := 0x00.
Definition rcf_UnavailableResponder : Z := 0x80.

(** link.go:39-45 [setBit], [clearBit] on a byte. *)
Definition rcf_set_bit (f pos : Z) : Z := Z.lor f (Z.shiftl 1 pos).
Definition rcf_clear_bit (f pos : Z) : Z := Z.land f (255 - Z.shiftl 1 pos).

(** link.go:48-88 accessors and setters. *)
Definition rcf_in_use (f : Z) : bool := Z.land f 0x80 =? 0x80.
Definition rcf_available (f : Z) : bool := Z.land f 0x80 =? 0x00.
Definition rcf_controller (f : Z) : bool := Z.land f 0x40 =? 0x40.
Definition rcf_responder (f : Z) : bool := Z.land f 0x40 =? 0x00.
Definition rcf_last_record (f : Z) : bool := Z.land f 0x02 =? 0x00.
Definition rcf_set_in_use (f : Z) : Z := rcf_set_bit f 7.
Definition rcf_set_available (f : Z) : Z := rcf_clear_bit f 7.
Definition rcf_set_controller (f : Z) : Z := rcf_set_bit f 6.
Definition rcf_set_responder (f : Z) : Z := rcf_clear_bit f 6.
Definition rcf_clear_last_record (f : Z) : Z := rcf_set_bit f 1.
Definition rcf_set_last_record (f : Z) : Z := rcf_clear_bit f 1.

Definition ch_A : Z := 65.
Definition ch_C : Z := 67.
Definition ch_R : Z := 82.
Definition ch_U : Z := 85.

(** link.go:93-105 [String] of the flags. *)
Definition rcf_string (f : Z) : list Z :=
  [if rcf_in_use f then ch_U else ch_A; if rcf_controller f then ch_C else ch_R].

(** link.go:111-133 [UnmarshalText] of the flags on receiver [f]. *)
Definition rcf_unmarshal_text (f : Z) (text : list Z) : Z * option error :=
  match text with
  | [a; b] =>
      let '(f1, e1) := if a =? ch_A then (rcf_set_available f, None)
                       else if a =? ch_U then (rcf_set_in_use f, None)
                       else (f, Some (EOther 122)) in
      if b =? ch_C then (rcf_set_controller f1, e1)
      else if b =? ch_R then (rcf_set_responder f1, e1)
      else (f1, Some (EOther 130))
  | _ => (f, Some (EOther 114))
  end.

(** link.go:153-165 [Group.UnmarshalText] on receiver [g]. *)
Definition group_unmarshal_text (g : Z) (text : list Z) : Z * option error :=
  match atoi text with
  | Some v => if (0 <=? v) && (v <=? 255) then (byte_of v, None) else (g, Some (EOther 159))
  | None => (g, Some (EOther 162))
  end.

(** link.go:141-144 [Group.Set]: Sscanf with %d. *)
Definition group_set (g : Z) (text : list Z) : Z * option error :=
  match scan_dec8 text with
  | Some (v, _) => (v, None)
  | None => (g, Some (EOther 142))
  end.

(** link.go:168-173 [LinkRecord]; [Data [3]byte] is three fields. *)
Record link : Type := mkLink {
  l_flags : Z; l_group : Z; l_addr : Z; l_d0 : Z; l_d1 : Z; l_d2 : Z
}.
Definition link_zero : link := mkLink 0 0 0 0 0 0.

(** link.go:177-185 [ControllerLink], [ResponderLink]. *)
Definition controller_link (group addr : Z) : link := mkLink (Z.lor rcf_UnavailableController 2) group addr 0 0 0.
Definition responder_link (group addr : Z) : link := mkLink (Z.lor rcf_UnavailableResponder 2) group addr 0 0 0.

(** link.go:204-209 [ID] of a non-nil record. *)
Definition link_id (l : link) : list Z :=
  [Z.land (l_flags l) 0x40; l_group l; byte_of (Z.shiftr (l_addr l) 16);
   byte_of (Z.shiftr (Z.land (l_addr l) 0xff00) 8); byte_of (Z.land (l_addr l) 0xff)].

(** link.go:196-198 [Equal]: comparison of the two [5]byte arrays. *)
Definition link_equal (a b : link) : bool := bytes_eqb (link_id a) (link_id b).

(** link.go:213-220 [MarshalBinary]. *)
Definition link_marshal (l : link) : list Z :=
  [l_flags l; l_group l] ++ addr_bytes (l_addr l) ++ [l_d0 l; l_d1 l; l_d2 l].

(** link.go:232-241 [UnmarshalBinary] on receiver [old]. *)
Definition link_unmarshal (old : link) (buf : list Z) : link * option error :=
  match buf with
  | f :: g :: a :: b :: c :: d0 :: d1 :: d2 :: _ => (mkLink f g (addr_put [a; b; c]) d0 d1 d2, None)
  | _ => (old, Some (EWrap EBufferTooShort))
  end.

(** link.go:225-228 [MarshalText]: "%-5s %5v %8s   %02x %02x %02x". *)
Definition link_marshal_text (l : link) : list Z :=
  pad_right 5 (rcf_string (l_flags l)) ++ [ch_space] ++
  pad_left 5 (fmt_d_byte (l_group l)) ++ [ch_space] ++
  pad_left 8 (addr_string (l_addr l)) ++ [ch_space; ch_space; ch_space] ++
  fmt_02x (l_d0 l) ++ [ch_space] ++ fmt_02x (l_d1 l) ++ [ch_space] ++ fmt_02x (l_d2 l).

(** link.go:272: Sscanf(field, "%x", &byte). *)
Definition scan_data (old : Z) (s : list Z) : Z * option error :=
  match scan_hex8 None s with Some (v, _) => (v, None) | None => (old, Some (EOther 272)) end.

(** link.go:250-275 [UnmarshalText] on receiver [l]; fields are assigned as far as parsing got. *)
Definition link_unmarshal_text (l : link) (buf : list Z) : link * option error :=
  match fields buf with
  | [w0; w1; w2; w3; w4; w5] =>
      let '(f0, e0) := rcf_unmarshal_text (l_flags l) w0 in
      let f := rcf_clear_last_record f0 in
      let l1 := mkLink f (l_group l) (l_addr l) (l_d0 l) (l_d1 l) (l_d2 l) in
      match e0 with Some e => (l1, Some e) | None =>
      let '(g, e1) := group_unmarshal_text (l_group l) w1 in
      match e1 with Some e => (l1, Some e) | None =>
      let '(a, e2) := addr_unmarshal_text (l_addr l) w2 in
      match e2 with Some e => (mkLink f g (l_addr l) (l_d0 l) (l_d1 l) (l_d2 l), Some e) | None =>
      let '(x0, e3) := scan_data (l_d0 l) w3 in
      match e3 with Some e => (mkLink f g a (l_d0 l) (l_d1 l) (l_d2 l), Some e) | None =>
      let '(x1, e4) := scan_data (l_d1 l) w4 in
      match e4 with Some e => (mkLink f g a x0 (l_d1 l) (l_d2 l), Some e) | None =>
      let '(x2, e5) := scan_data (l_d2 l) w5 in
      match e5 with Some e => (mkLink f g a x0 x1 (l_d2 l), Some e) | None =>
      (mkLink f g a x0 x1 x2, None)
      end end end end end end
  | _ => (l, Some (EOther 253))
  end.
