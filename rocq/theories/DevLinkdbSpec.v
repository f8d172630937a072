(** Specification for a device's link database: an ideal device with link memory. *)
From Coq Require Import ZArith List Bool.
From Verif Require Import GoBase GoProg Message MsgWriter Link LinkSpec BasicDevice DevLinkdb DeviceSpec.
Import ListNotations.
Open Scope Z_scope.

(** The high-water mark: bit 1 of the flags is clear. *)
Definition is_last (l : link) : bool := bit 1 (l_flags l) =? 0.
(** What a memory holds below its high-water mark. *)
Fixpoint below (slots : list link) : list link :=
  match slots with [] => [] | l :: t => if is_last l then [] else l :: below t end.

(** ** An ideal device *)
(** Record slot [k] is at memory address 4095 - 8k.  [dv_fate n] decides the [n]-th message sent to the device: lost (with the error
    the sender sees), or received.  While the records are streamed, [dv_extra k] says what comes before the first response for
    slot [k] and how often it is repeated: the flags byte of every copy and what comes before it. *)
Record device : Type := mkDev {
  dv_addr : Z; dv_checks : bool; dv_slots : list link; dv_out : list message; dv_count : nat;
  dv_fate : nat -> option error; dv_noise : nat -> list message; dv_extra : nat -> list (list message * Z)
}.
(** A record as the eight bytes on the wire. *)
Definition record_bytes (l : link) : list Z :=
  [l_flags l; l_group l; l_addr l / 65536; (l_addr l / 256) mod 256; l_addr l mod 256; l_d0 l; l_d1 l; l_d2 l].
Definition slot_address (k : nat) : Z := 4095 - 8 * Z.of_nat k.
(** The response for slot [k]. *)
Definition response (addr : Z) (k : nat) (l : link) (flags : Z) : message :=
  mkMsg addr 0 flags 0x012f00 ([0; 1; slot_address k / 256; slot_address k mod 256; 0] ++ record_bytes l ++ [0]).
Definition responses (d : device) (k : nat) (l : link) : list message :=
  dv_noise d k ++ [response (dv_addr d) k l 0x1b] ++
  flat_map (fun c => fst c ++ [response (dv_addr d) k l (snd c)]) (dv_extra d k).
(** All responses from slot [k] on, through the high-water mark. *)
Fixpoint stream (d : device) (k : nat) (slots : list link) : list message :=
  match slots with
  | [] => []
  | l :: t => responses d k l ++ (if is_last l then [] else stream d (S k) t)
  end.
(** Is the message an all-link database request for this device, with a valid checksum if the device wants one? *)
Definition for_device (d : device) (m : message) : bool :=
  (m_dst m =? dv_addr d) && ((m_cmd m / 256) mod 256 =? 0x2f) && (length (checked_part m) =? 16)%nat &&
  (negb (dv_checks d) || (sum (checked_part m) mod 256 =? 0)).
Definition dev_ack (d : device) (m : message) : mresult := (Some (mkMsg (dv_addr d) 0 0x2f (m_cmd m) []), None).
Definition dev_nak (d : device) (m : message) : mresult := (Some (mkMsg (dv_addr d) 0 0xaf (m_cmd m) []), Some EDevNak).
Definition set_slots (d : device) (s : list link) : device :=
  mkDev (dv_addr d) (dv_checks d) s (dv_out d) (dv_count d) (dv_fate d) (dv_noise d) (dv_extra d).
Definition set_out (d : device) (o : list message) : device :=
  mkDev (dv_addr d) (dv_checks d) (dv_slots d) o (dv_count d) (dv_fate d) (dv_noise d) (dv_extra d).
Definition count_up (d : device) : device :=
  mkDev (dv_addr d) (dv_checks d) (dv_slots d) (dv_out d) (S (dv_count d)) (dv_fate d) (dv_noise d) (dv_extra d).
(** Waiting for the acknowledgement throws away what was still on its way (plm/plm.go:133-141). *)
Definition dev_write (m : message) (d : device) : outcome mresult * device :=
  let d1 := set_out (count_up d) [] in
  match dv_fate d (dv_count d) with
  | Some e => (Ret (None, Some e), d1)
  | None =>
      if for_device d m then
        match m_payload m with
        | [_; kind; hi; lo; n; f; g; a2; a1; a0; x0; x1; x2; _] =>
            if kind =? 2 then
              let k := (4095 - (hi * 256 + lo)) / 8 in
              if (0 <=? k) && ((4095 - (hi * 256 + lo)) mod 8 =? 0) && (k <? zlen (dv_slots d)) then
                (Ret (dev_ack d m), set_slots d1 (list_set (dv_slots d) (Z.to_nat k) (mkLink f g (a2 * 65536 + a1 * 256 + a0) x0 x1 x2)))
              else (Ret (dev_nak d m), d1)
            else if (kind =? 0) && (hi =? 0) && (lo =? 0) && (n =? 0) then (Ret (dev_ack d m), set_out d1 (stream d 0 (dv_slots d)))
            else (Ret (dev_nak d m), d1)
        | _ => (Ret (dev_nak d m), d1)
        end
      else (Ret (dev_nak d m), d1)
  end.
Definition dev_read (d : device) : outcome mresult * device :=
  match dv_out d with
  | [] => (Ret (None, Some EDevReadTimeout), d)
  | m :: t => (Ret (Some m, None), set_out d t)
  end.
Definition dev_mw : mwriter device := mkMW dev_read dev_write.
(** Nothing that is not an all-link database response looks like one. *)
Definition unrelated (m : message) : Prop := (m_cmd m / 256) mod 256 <> 0x2f.
Definition quiet_device (d : device) : Prop :=
  forall k, Forall unrelated (dv_noise d k) /\ Forall (fun c => Forall unrelated (fst c)) (dv_extra d k).
(** Memory that exists: at most 512 slots, all of them records. *)
Definition memory_ok (slots : list link) : Prop := (length slots <= 512)%nat /\ Forall link_wf slots.
(** The same link with the "not last" bit set. *)
Definition not_last (l : link) : link :=
  mkLink (l_flags l + 2 * (1 - bit 1 (l_flags l))) (l_group l) (l_addr l) (l_d0 l) (l_d1 l) (l_d2 l).
(** The record is free: bit 7 of the flags is clear. *)
Definition is_free (l : link) : bool := bit 7 (l_flags l) =? 0.
(** Putting new links into free records, in order; the second component is what found no place. *)
Fixpoint place (recs new : list link) : list link * list link :=
  match recs, new with
  | [], _ => ([], new)
  | _, [] => (recs, [])
  | r :: t, n :: new' =>
      if is_free r then let (a, b) := place t new' in (not_last n :: a, b)
      else let (a, b) := place t new in (r :: a, b)
  end.
(** Does the memory hold a record of this link already: same role, group and address? *)
Definition same_linkb (a b : link) : bool :=
  (bit 6 (l_flags a) =? bit 6 (l_flags b)) && (l_group a =? l_group b) && (l_addr a =? l_addr b).
Definition absent (recs : list link) (l : link) : bool := forallb (fun r => negb (same_linkb r l)) recs.

(** ** Histories of record writes *)
Fixpoint run_writes (info : dinfo) (h : list (Z * link)) (s : linkdb * device) : outcome (list (option error)) * (linkdb * device) :=
  match h with
  | [] => (Ret [], s)
  | (i, l) :: t =>
      match ld_write_link (bd_mw info dev_mw) i l s with
      | (Ret r, s1) => match run_writes info t s1 with (Ret rs, s2) => (Ret (r :: rs), s2) | other => other end
      | (Panic, s1) => (Panic, s1)
      | (NoFuel, s1) => (NoFuel, s1)
      end
  end.

(** The cache is a prefix of the records on the device. *)
Definition mirrored (db : linkdb) (d : device) : Prop :=
  exists rest, dv_slots d = ld_links db ++ rest /\ Forall (fun l => is_last l = false) (ld_links db).
(** The cache is what is on the device. *)
Definition mirror (db : linkdb) (d : device) : Prop := ld_links db = below (dv_slots d).

(** Memory right behind the record that an append writes. *)
Definition fresh_after (slots : list link) : Prop := below (skipn (S (length (below slots))) slots) = [].

(** No append in the history lands in front of an old record. *)
Fixpoint careful (info : dinfo) (h : list (Z * link)) (s : linkdb * device) : Prop :=
  match h with
  | [] => True
  | (i, l) :: t =>
      (is_last l = false -> i = zlen (below (dv_slots (snd s))) -> fresh_after (dv_slots (snd s))) /\
      careful info t (snd (ld_write_link (bd_mw info dev_mw) i l s))
  end.

(** Above the high-water mark there is nothing but blank memory. *)
Definition blank_above (slots : list link) : Prop := Forall (fun l => is_last l = true) (skipn (length (below slots)) slots).
