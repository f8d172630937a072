(** Specification for the subcommands of the command-line tool: what they do to the modem and the devices, as a trace. *)
From Coq Require Import ZArith List Bool.
From Verif Require Import GoBase GoProg PlmPacket Link LinkText UtilLink UtilLinkSpec IcCmd.
Import ListNotations.
Open Scope Z_scope.

(** Opening is part of the trace (under the address), and the devices it gives log what is done to them. *)
Definition open_logged {W} (open : opener W) : opener (W * trace) := fun a wl =>
  match logged a (fun r => OOpen (snd r)) (open a) wl with
  | (Ret (d, e), wl1) => (Ret (option_map lk_logged d, e), wl1)
  | (Panic, wl1) => (Panic, wl1)
  | (NoFuel, wl1) => (NoFuel, wl1)
  end.

(** One attempt to make [c] a controller and [r] a responder of the group. *)
Inductive one_way (g c r : Z) : option error -> trace -> Prop :=
| ow_refused : forall x, one_way g c r (Some x) [(c, OEnter g (Some x))]
| ow_done : forall e, one_way g c r e [(c, OEnter g None); (r, OEnter g e); (c, OExit); (r, OExit)].
(** The same for removing a link. *)
Inductive one_way_off (g c r : Z) : option error -> trace -> Prop :=
| owo_refused : forall x, one_way_off g c r (Some x) [(c, OUnlink g (Some x))]
| owo_done : forall e, one_way_off g c r e [(c, OUnlink g None); (r, OEnter g e); (c, OExit); (r, OExit)].
(** All wanted directions, until one fails. *)
Inductive linking (g modem dev : Z) : bool -> bool -> option error -> trace -> Prop :=
| lg_none : linking g modem dev false false None []
| lg_controller : forall e t, one_way g modem dev e t -> linking g modem dev true false e t
| lg_responder : forall e t, one_way g dev modem e t -> linking g modem dev false true e t
| lg_both : forall e t1 t2, one_way g modem dev None t1 -> one_way g dev modem e t2 -> linking g modem dev true true e (t1 ++ t2)
| lg_both_failed : forall x t, one_way g modem dev (Some x) t -> linking g modem dev true true (Some x) t.

(** The devices that could not be opened, in a trace. *)
Definition not_opened (failed : list (Z * error)) : trace := map (fun x => (fst x, OOpen (Some (snd x)))) failed.
Definition usable (e : option error) : Prop := e = None \/ e = Some EDevNotLinked.
(** Addresses opening was tried for. *)
Definition opened (t : trace) : list Z := flat_map (fun e => match snd e with OOpen _ => [fst e] | _ => [] end) t.

(** The bit of the configuration byte a flag letter stands for. *)
Inductive flag_bit : list Z -> Z -> Prop :=
| fb_L : flag_bit [76] 7 | fb_M : flag_bit [77] 6 | fb_A : flag_bit [65] 5 | fb_D : flag_bit [68] 4.
(** [c'] is [c] with bit [k] set or cleared, and nothing else changed among the bits 4 to 7. *)
Definition bit_changed (set : bool) (k c c' : Z) : Prop :=
  forall j, 4 <= j <= 7 -> (c' / 2 ^ j) mod 2 = if j =? k then (if set then 1 else 0) else (c / 2 ^ j) mod 2.

(** Packets of bytes. *)
Definition byte_packet (p : packet) : Prop := Forall is_byte (p_payload p).
