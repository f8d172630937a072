(** Specification for a walk over the network: the serial line and what the modem reported. *)
From Coq Require Import ZArith List Bool.
From Verif Require Import GoBase PlmPacket Plm LineSpec.
Import ListNotations.
Open Scope Z_scope.

(** A record of the modem's database (0x57: flags, group, address, three data bytes) about device [a]. *)
Definition record_about (a : Z) (p : packet) : Prop :=
  p_cmd p = 0x57 /\ exists fl g a2 a1 a0 d0 d1 d2 rest, p_payload p = [fl; g; a2; a1; a0; d0; d1; d2] ++ rest /\ addr3 a a2 a1 a0.
(** The line of a walk over [addrs]: the modem is asked for its first record, then for the next ones, and then the devices are spoken
    to, one after the other and in this order. *)
Definition walk_line (addrs : list Z) (sent sent' : list (list Z)) : Prop :=
  exists first rest blocks, sent' = sent ++ first ++ rest ++ concat blocks /\
    Forall (eq [0x02; 0x69]) first /\ Forall (eq [0x02; 0x6a]) rest /\ Forall2 (fun a b => Forall (frame_to a) b) addrs blocks.

(** From step [t] on the modem tells its records: asked with command [c] it echoes and sends the next record; when there is none
    left it refuses to go on. *)
Definition comes_at (sc : schedule) (t : nat) (ps : list packet) : Prop := sc t = mkStep [] (map EvPacket ps) false None.
Inductive tells (sc : schedule) : nat -> Z -> list packet -> Prop :=
| tells_end : forall t refusal, comes_at sc t [] -> comes_at sc (S t) [refusal] -> p_cmd refusal = 0x6a -> p_ack refusal = 0x15 -> tells sc t 0x6a []
| tells_more : forall t c echo rec rest, comes_at sc t [] -> comes_at sc (S t) [echo] -> p_cmd echo = c -> p_ack echo = 0x06 -> p_payload echo = [] ->
    comes_at sc (S (S t)) [rec] -> tells sc (S (S (S t))) 0x6a rest -> tells sc t c (rec :: rest).
