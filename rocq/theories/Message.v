(** Model of message.go: message flags and the Insteon message codec. *)
From Coq Require Import ZArith List Bool.
From Verif Require Import GoBase GoText Address Command.
Import ListNotations.
Open Scope Z_scope.

(** message.go:48-57 message types. *)
Definition mt_Direct : Z := 0x00.
Definition mt_DirectAck : Z := 0x20.
Definition mt_DirectNak : Z := 0xa0.
Definition mt_AllLinkCleanup : Z := 0x40.
Definition mt_AllLinkCleanupAck : Z := 0x60.
Definition mt_AllLinkCleanupNak : Z := 0xe0.
Definition mt_Broadcast : Z := 0x80.
Definition mt_AllLinkBroadcast : Z := 0xc0.

(** message.go:95-97, 91-93, 86-88 [Broadcast], [AllLink], [Direct] of a message type. *)
Definition mt_is_broadcast (m : Z) : bool := (0 <? Z.land m 0x80) && (Z.land m 0x20 =? 0).
Definition mt_is_alllink (m : Z) : bool := 0 <? Z.land m 0x40.
Definition mt_is_direct (m : Z) : bool := negb (mt_is_broadcast m).

(** message.go:100-109 flag constants. *)
Definition fl_StandardBroadcast : Z := 0x8a.
Definition fl_StandardAllLinkBroadcast : Z := 0xca.
Definition fl_StandardDirectMessage : Z := 0x0a.
Definition fl_StandardDirectAck : Z := 0x2a.
Definition fl_StandardDirectNak : Z := 0xaa.
Definition fl_ExtendedDirectMessage : Z := 0x1a.
Definition fl_ExtendedDirectAck : Z := 0x3a.
Definition fl_ExtendedDirectNak : Z := 0xba.

(** message.go:131-147, 158 accessors of the flags byte. *)
Definition fl_ack (f : Z) : bool := (Z.land f 0x20 =? 0x20) && negb (Z.land f 0x80 =? 0x80).
Definition fl_nak (f : Z) : bool := (Z.land f 0x20 =? 0x20) && (Z.land f 0x80 =? 0x80).
Definition fl_type (f : Z) : Z := Z.land f 0xe0.
Definition fl_standard (f : Z) : bool := Z.land f 0x10 =? 0x00.
Definition fl_extended (f : Z) : bool := Z.land f 0x10 =? 0x10.
Definition fl_ttl (f : Z) : Z := Z.shiftr (Z.land f 0x0f) 2.
Definition fl_max_ttl (f : Z) : Z := Z.land f 0x03.

(** message.go:149-151 [SetTTL] ([0x03 & Flags(ttl) << 2] groups to the left in Go). *)
Definition fl_set_ttl (f ttl : Z) : Z := Z.lor (Z.land f 0xf3) (byte_of (Z.shiftl (Z.land 0x03 ttl) 2)).
(** message.go:153-155 [SetMaxTTL]. *)
Definition fl_set_max_ttl (f ttl : Z) : Z := Z.lor (Z.land f 0xfc) (Z.land ttl 0x03).

(** message.go:115-128 [Flag]. *)
Definition fl_make (mtype : Z) (extended : bool) (hops max : Z) : Z :=
  if (3 <? hops) || (3 <? max) then 0
  else
    let e := if extended then 1 else 0 in
    let f := Z.lor (byte_of mtype) (byte_of (Z.shiftl e 4)) in
    fl_set_max_ttl (fl_set_ttl f hops) max.

(** message.go:170-176 [Message]; the nil payload is the empty list. *)
Record message : Type := mkMsg {
  m_src : Z; m_dst : Z; m_flags : Z; m_cmd : Z; m_payload : list Z
}.

(** The zero value of the struct, [&insteon.Message{}]. *)
Definition msg_zero : message := mkMsg 0 0 0 0 [].

(** message.go:180-193 [MarshalBinary]: the error is always nil. *)
Definition msg_marshal (m : message) : list Z :=
  addr_bytes (m_src m) ++ addr_bytes (m_dst m) ++
  [m_flags m; byte_of (command1 (m_cmd m)); byte_of (command2 (m_cmd m))] ++
  (if fl_extended (m_flags m) then go_copy (zeros 14) (m_payload m) else []).

(** message.go:197-215 [UnmarshalBinary] on receiver [old]: new receiver and error. *)
Definition msg_unmarshal (old : message) (data : list Z) : message * option error :=
  match data with
  | s0 :: s1 :: s2 :: d0 :: d1 :: d2 :: f :: c1 :: c2 :: rest =>
      let m := mkMsg (addr_put [s0; s1; s2]) (addr_put [d0; d1; d2]) f (cmd_from f c1 c2) (m_payload old) in
      if fl_extended f then
        if zlen data <? 23 then (m, Some (EWrap EBufferTooShort))
        else (mkMsg (m_src m) (m_dst m) f (m_cmd m) (go_copy (zeros 14) rest), None)
      else (m, None)
  | _ => (old, Some (EWrap EBufferTooShort))
  end.

(** message.go:221-227 [Duplicate]. *)
Definition msg_duplicate (m o : message) : bool :=
  (m_src m =? m_src o) && (m_dst m =? m_dst o) && (m_cmd m =? m_cmd o) &&
  (fl_max_ttl (m_flags m) =? fl_max_ttl (m_flags o)) && bytes_eqb (m_payload m) (m_payload o).

(** message.go:229-235 [Equals]. *)
Definition msg_equals (m o : message) : bool :=
  (m_src m =? m_src o) && (m_dst m =? m_dst o) && (m_flags m =? m_flags o) &&
  (m_cmd m =? m_cmd o) && bytes_eqb (m_payload m) (m_payload o).
