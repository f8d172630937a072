(** Specification for the modem's link database and its own address when several goroutines share the modem. *)
From Coq Require Import ZArith List Bool.
From Verif Require Import GoBase GoSlice Link PlmPacket Plm PlmSpec PlmLinkdb PlmLinkdbSpec Conc ConcSpec.
Import ListNotations.
Open Scope Z_scope.

(** The record a packet of the modem carries, and the records among what a goroutine received, in order. *)
Definition record_in (p : packet) : option link :=
  match p_payload p with
  | f :: g :: a :: b :: c :: d0 :: d1 :: d2 :: _ => if p_cmd p =? 0x57 then Some (mkLink f g (a * 65536 + b * 256 + c) d0 d1 d2) else None
  | _ => None
  end.
Definition walked (h : list (which * packet)) : list link :=
  flat_map (fun x => match fst x, record_in (snd x) with QPkt, Some l => [l] | _, _ => [] end) h.
(** What was received ends with a refusal: the modem's word for the end of its list. *)
Definition ends_refused (h : list (which * packet)) : Prop := exists h0 p, h = h0 ++ [(QPkt, p)] /\ nak_reply p.

Definition reads_links (k : call) : Prop := exists fuel spare now, k = KLinks fuel spare now.
Definition writes_links (k : call) (ls : list link) : Prop := exists fuel grow, k = KWriteLinks fuel grow ls.
(** The list that is remembered. *)
Definition remembered (d : dbmem) : list link := sl_view (dm_heap d) (dm_links d).

(** Where a record may come from: it is blank, was in memory at the beginning, was to be written by one of the calls, or came from the modem. *)
Definition genuine (d : dbmem) (calls : list call) (got : list (nat * (which * packet))) (x : link) : Prop :=
  x = mkLink 0 0 0 0 0 0 \/ (exists a, In a (dm_heap d) /\ In x a) \/ (exists k ls, In k calls /\ writes_links k ls /\ In x ls) \/
  exists j p, In (j, (QPkt, p)) got /\ record_in p = Some x.
(** Lists that may be remembered while nobody writes: the first one, and what a Links call received up to a refusal. *)
Definition known (d : dbmem) (calls : list call) (got : list (nat * (which * packet))) (ls : list link) : Prop :=
  ls = remembered d \/ exists j k h t, nth_error calls j = Some k /\ reads_links k /\ by_gor j got = h ++ t /\ ends_refused h /\ ls = walked h.
(** Where the modem's own address may come from: it was known, or a GetInfo acknowledgement carries it. *)
Definition told_addr (st : plm) (got : list (nat * (which * packet))) (a : Z) : Prop :=
  a = p_addr st \/ exists j p b5 b4 b3 t, In (j, (QPkt, p)) got /\ good_ack (mkPkt 0x60 [] 0) p /\ p_payload p = b5 :: b4 :: b3 :: t /\ a = b5 * 65536 + b4 * 256 + b3.

(** ** An ideal modem at the other end *)
(** The modem of PlmLinkdbSpec.v answers every frame at once, first the acknowledgement, then the record, and nothing is lost or late.
    [pending] is what it has sent and the reader goroutine has not read. *)
Definition answers (m : modem) (frame : list Z) : list packet * modem :=
  match frame with
  | _ :: cmd :: body =>
      match modem_write (mkPkt cmd body 0) (mkModem (md_links m) (md_next m) [] (md_noise m)) with
      | (Ret (Some a, _), m1) => (a :: md_out m1, mkModem (md_links m1) (md_next m1) [] (md_noise m1))
      | (_, m1) => ([], m1)
      end
  | _ => ([], m)
  end.
Fixpoint serves (m : modem) (pending : list packet) (frames : list (list Z)) (l : list action) (m' : modem) : Prop :=
  match l with
  | [] => m = m' /\ frames = []
  | ASend _ None :: t => match frames with
                         | f :: fs => match answers m f with (ps, m1) => serves m1 (pending ++ ps) fs t m' end
                         | [] => False
                         end
  | ASend _ (Some _) :: _ | ALate _ :: _ => False
  | AReader (EvPacket p) :: t => match pending with x :: rest => x = p /\ serves m rest frames t m' | [] => False end
  | AReader _ :: _ => False
  | _ :: t => serves m pending frames t m'
  end.
