(** Specification of the anonymising program: lines of a text, independent of how it is split. *)
From Coq Require Import ZArith List Bool.
From Verif Require Import GoBase Link LinkSpec.
Import ListNotations.
Open Scope Z_scope.

(** [text] consists of these lines: each but the last is followed by a newline (10). *)
Inductive consists_of : list (list Z) -> list Z -> Prop :=
| co_last : forall l, ~ In 10 l -> consists_of [l] l
| co_line : forall l ls t, ~ In 10 l -> consists_of ls t -> consists_of (l :: ls) (l ++ 10 :: t).

(** A line that begins with a hash sign (35). *)
Definition comment_line (l : list Z) : Prop := exists t, l = 35 :: t.

(** [sel] are the elements of [l] with the property, in order. *)
Inductive selected {A} (P : A -> Prop) : list A -> list A -> Prop :=
| sel_nil : selected P [] []
| sel_take : forall x l s, P x -> selected P l s -> selected P (x :: l) (x :: s)
| sel_skip : forall x l s, ~ P x -> selected P l s -> selected P (x :: l) s.

(** The same records up to their addresses, which went through [f]. *)
Definition readdressed (f : Z -> Z) (a b : link) : Prop :=
  l_addr b = f (l_addr a) /\ l_flags b = l_flags a /\ l_group b = l_group a /\
  l_d0 b = l_d0 a /\ l_d1 b = l_d1 a /\ l_d2 b = l_d2 a.
