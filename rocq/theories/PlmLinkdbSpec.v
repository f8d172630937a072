(** Specifications for the modem's link database: a log of everything asked of the modem, and an ideal modem. *)
From Coq Require Import ZArith List Bool.
From Verif Require Import GoBase Link LinkSpec PlmPacket Plm.
Import ListNotations.
Open Scope Z_scope.

(** ** Everything asked of a packet writer, with the answers *)
Inductive pop : Type := OpW (pkt : packet) (r : outcome pw_result) | OpR (r : outcome pw_result).
Definition plogged {W} (pw : packet_writer W) : packet_writer (W * list pop) :=
  mkPW (fun pkt wl => match pw_write pw pkt (fst wl) with (r, w1) => (r, (w1, snd wl ++ [OpW pkt r])) end)
       (fun wl => match pw_read pw (fst wl) with (r, w1) => (r, (w1, snd wl ++ [OpR r])) end).
Definition op_result (o : pop) : outcome pw_result := match o with OpW _ r => r | OpR r => r end.
(** Records delivered by the modem, in order. *)
Definition records (log : list pop) : list link :=
  flat_map (fun o => match o with
    | OpR (Ret (Some p, None)) => if p_cmd p =? 0x57 then [fst (link_unmarshal link_zero (p_payload p))] else []
    | _ => [] end) log.
(** Record writes the modem accepted: the eight record bytes of each. *)
Definition accepted (log : list pop) : list (list Z) :=
  flat_map (fun o => match o with
    | OpW p (Ret (_, None)) =>
        match p_payload p with
        | c :: rec => if (p_cmd p =? 0x6f) && ((c =? 0x40) || (c =? 0x41)) then [rec] else []
        | [] => []
        end
    | _ => [] end) log.
(** Requests transmitted. *)
Definition requests (log : list pop) : list (Z * list Z) :=
  flat_map (fun o => match o with OpW p _ => [(p_cmd p, p_payload p)] | OpR _ => [] end) log.

(** The last thing that happened was a failure with [e]. *)
Definition ends_in (log : list pop) (e : error) : Prop := exists l0 o a, log = l0 ++ [o] /\ op_result o = Ret (a, Some e).

(** ** An ideal modem *)
(** It holds a database; [md_out] are packets on their way to the host; unrelated packets [noise k] come before record [k]. *)
Record modem : Type := mkModem { md_links : list link; md_next : nat; md_out : list packet; md_noise : nat -> list packet }.
(** Two records for the same group of the same device, whatever the role. *)
Definition same_target (a b : link) : bool := (l_group a =? l_group b) && (l_addr a =? l_addr b).
Definition same_role (a b : link) : bool := Bool.eqb (bit 6 (l_flags a) =? 1) (bit 6 (l_flags b) =? 1).
Fixpoint remove_first (f : link -> bool) (ls : list link) : option (list link) :=
  match ls with
  | [] => None
  | l :: t => if f l then Some t else match remove_first f t with Some t' => Some (l :: t') | None => None end
  end.
(** Update the first record that satisfies [f], or add the new one at the end. *)
Fixpoint update_first (f : link -> bool) (new : link) (ls : list link) : list link :=
  match ls with
  | [] => [new]
  | l :: t => if f l then new :: t else l :: update_first f new t
  end.
Definition ack_of (p : packet) : pw_result := (Some (mkPkt (p_cmd p) (p_payload p) 0x06), None).
Definition nak_of (p : packet) : pw_result := (Some (mkPkt (p_cmd p) (p_payload p) 0x15), Some EPlmNak).
Definition send_record (k : nat) (m : modem) (p : packet) : outcome pw_result * modem :=
  match nth_error (md_links m) k with
  | None => (Ret (nak_of p), m)
  | Some l => (Ret (ack_of p), mkModem (md_links m) (S k) (md_out m ++ md_noise m k ++ [mkPkt 0x57 (link_marshal l) 0]) (md_noise m))
  end.
Definition modem_write (p : packet) (m : modem) : outcome pw_result * modem :=
  if p_cmd p =? 0x69 then send_record 0 m p
  else if p_cmd p =? 0x6a then send_record (md_next m) m p
  else if p_cmd p =? 0x6f then
    match p_payload p with
    | c :: rec =>
        let l := fst (link_unmarshal link_zero rec) in
        if c =? 0x80 then
          match remove_first (same_target l) (md_links m) with
          | Some ls => (Ret (ack_of p), mkModem ls (md_next m) (md_out m) (md_noise m))
          | None => (Ret (nak_of p), m)
          end
        else if c =? (if bit 6 (l_flags l) =? 1 then 0x40 else 0x41) then   (* update or add a controller / a responder *)
          (Ret (ack_of p), mkModem (update_first (fun x => same_target l x && same_role l x) l (md_links m)) (md_next m) (md_out m) (md_noise m))
        else (Ret (nak_of p), m)
    | [] => (Ret (nak_of p), m)
    end
  else (Ret (ack_of p), m).
Definition modem_read (m : modem) : outcome pw_result * modem :=
  match md_out m with
  | [] => (Ret (None, Some (EWrap EPlmReadTimeout)), m)
  | p :: t => (Ret (Some p, None), mkModem (md_links m) (md_next m) t (md_noise m))
  end.
Definition modem_pw : packet_writer modem := mkPW modem_write modem_read.
(** Nothing but record responses looks like a record response. *)
Definition quiet_noise (m : modem) : Prop := forall k, Forall (fun p => p_cmd p <> 0x57) (md_noise m k).

(** ** First appearances *)
Inductive firsts : list Z -> list Z -> Prop :=
| firsts_nil : firsts [] []
| firsts_new : forall l f a, firsts l f -> ~ In a l -> firsts (l ++ [a]) (f ++ [a])
| firsts_old : forall l f a, firsts l f -> In a l -> firsts (l ++ [a]) f.
