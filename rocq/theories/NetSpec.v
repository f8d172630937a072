(** A network of parties that link and unlink as Insteon devices do: what the operations of util/link.go are for.  This is the
    environment, not code: a party that is told to enter linking mode waits; when a second party is told the same, the first becomes
    controller and the second responder of the group, and both store a record; after unlinking mode both forget it. *)
From Coq Require Import ZArith List Bool.
From Verif Require Import GoBase GoProg Link LinkSpec UtilLink UtilLinkSpec.
Import ListNotations.
Open Scope Z_scope.

(** Who waits, for which group, to link (true) or to unlink. *)
Record net : Type := mkNet { n_recs : Z -> list link; n_wait : option (Z * Z * bool) }.
(** The records have one in use with this role, address and group. *)
Definition has (rs : list link) (role : bool) (a g : Z) : Prop := exists l, In l rs /\ wanted role a g l.

(** How the parties store and forget records is their own affair, within reason. *)
Record storing : Type := mkStoring {
  st_put : bool -> Z -> Z -> list link -> list link;
  st_del : bool -> Z -> Z -> list link -> list link }.
Definition stores_well (s : storing) : Prop :=
  (forall role a g rs, Forall link_wf rs -> 0 <= a < 2 ^ 24 -> is_byte g -> Forall link_wf (st_put s role a g rs)) /\
  (forall role a g rs, Forall link_wf rs -> Forall link_wf (st_del s role a g rs)) /\
  (forall role a g rs x b h, has (st_put s role a g rs) x b h <-> has rs x b h \/ (x = role /\ b = a /\ h = g)) /\
  (forall role a g rs x b h, has (st_del s role a g rs) x b h <-> has rs x b h /\ ~ (x = role /\ b = a /\ h = g)).

Section Net.
  Variable s : storing.
  (** The addresses of the parties. *)
  Variable addr : Z -> Z.

  Definition set_recs (w : net) (i : Z) (rs : list link) : net := mkNet (fun j => if j =? i then rs else n_recs w j) (n_wait w).
  Definition change (w : net) (i : Z) (f : list link -> list link) : net := set_recs w i (f (n_recs w i)).
  Definition waiting (w : net) (x : option (Z * Z * bool)) : net := mkNet (n_recs w) x.
  (** Party [i] is told to enter linking mode. *)
  Definition net_enter (i g : Z) : prog net (option error) := fun w =>
    match n_wait w with
    | Some (c, h, link) =>
        if c =? i then (Ret None, waiting w (Some (i, g, true)))
        else
          let f := if link then st_put s else st_del s in
          (Ret None, waiting (change (change w c (f true (addr i) h)) i (f false (addr c) h)) None)
    | None => (Ret None, waiting w (Some (i, g, true)))
    end.
  Definition net_unlink (i g : Z) : prog net (option error) := fun w => (Ret None, waiting w (Some (i, g, false))).
  Definition net_exit (i : Z) : prog net (option error) := fun w =>
    match n_wait w with
    | Some (c, _, _) => if c =? i then (Ret None, waiting w None) else (Ret None, w)
    | None => (Ret None, w)
    end.
  Definition net_write_one (i k : Z) (l : link) : prog net (option error) := fun w =>
    (Ret None, change w i (fun rs => list_set rs (Z.to_nat k) l)).
  (** A device of the network; [single] if it takes single records.  The modem does not, and it cannot update records either. *)
  Definition party (single : bool) (i : Z) : linkable net :=
    mkLk i (pret (addr i)) (net_enter i) (net_unlink i) (net_exit i) (fun w => (Ret (n_recs w i, None), w))
      (fun _ => pret (Some EInsteonNotImplemented)) (fun ls w => (Ret None, set_recs w i ls))
      (if single then Some (net_write_one i) else None).

  (** [c] controls [r] in group [g]: both have their record. *)
  Definition linked (w : net) (c r g : Z) : Prop := has (n_recs w c) true (addr r) g /\ has (n_recs w r) false (addr c) g.
  (** One of the two records of that link. *)
  Definition part_of (c r g i : Z) (role : bool) (a h : Z) : Prop :=
    h = g /\ ((i = c /\ role = true /\ a = addr r) \/ (i = r /\ role = false /\ a = addr c)).
  Definition well (w : net) : Prop := forall i, Forall link_wf (n_recs w i).
End Net.
