(** Independent specification of the lines of an edited link database. *)
From Coq Require Import ZArith List Bool.
From Verif Require Import GoBase AddressSpec IcVarsSpec Link.
Import ListNotations.
Open Scope Z_scope.

(** Any character that separates words: a blank or a newline. *)
Definition white (c : Z) : Prop := blank c \/ c = 10.

(** The words of a line. *)
Inductive words : list Z -> list (list Z) -> Prop :=
| ws_none : forall sp, Forall white sp -> words sp []
| ws_word : forall sp w rest ws, Forall white sp -> w <> [] -> Forall (fun c => ~ white c) w ->
    (rest = [] \/ exists c r, rest = c :: r /\ white c) -> words rest ws -> words (sp ++ w ++ rest) (w :: ws).

(** The flags word, and the flags byte it stands for: A or U for available or in use, C or R for controller or responder. *)
Inductive flags_word : list Z -> Z -> Prop :=
| fw_AC : flags_word [65; 67] 0x42
| fw_AR : flags_word [65; 82] 0x02
| fw_UC : flags_word [85; 67] 0xc2
| fw_UR : flags_word [85; 82] 0x82.

(** Decimal digits and their value. *)
Definition dec_digit (c v : Z) : Prop := 0 <= v <= 9 /\ c = 48 + v.
Fixpoint decimal_value (acc : Z) (vs : list Z) : Z :=
  match vs with [] => acc | v :: t => decimal_value (10 * acc + v) t end.

(** The group: digits, perhaps with leading zeros; a plus sign is allowed, and so is a minus sign before zero. *)
Definition group_word (w : list Z) (g : Z) : Prop :=
  exists sign ds vs, w = sign ++ ds /\ Forall2 dec_digit ds vs /\ ds <> [] /\ g = decimal_value 0 vs /\ g <= 255 /\
    (sign = [] \/ sign = [43] \/ (sign = [45] /\ g = 0)).

(** What is taken for a record: six words; of a data word only the leading hexadecimal digits count. *)
Definition record_line (line : list Z) (r : link) : Prop :=
  exists w0 w1 w2 w3 w4 w5, words line [w0; w1; w2; w3; w4; w5] /\ flags_word w0 (l_flags r) /\ group_word w1 (l_group r) /\
    addr_accepts w2 (l_addr r) /\ data_text w3 (l_d0 r) /\ data_text w4 (l_d1 r) /\ data_text w5 (l_d2 r).

(** What a person means to write: decimal group, the six digits of the address, two hexadecimal digits for each byte of data. *)
Definition meant_line (line : list Z) (r : link) : Prop :=
  exists w0 w1 w2 w3 w4 w5 vs, words line [w0; w1; w2; w3; w4; w5] /\ flags_word w0 (l_flags r) /\
    w1 <> [] /\ Forall2 dec_digit w1 vs /\ l_group r = decimal_value 0 vs /\ l_group r <= 255 /\
    addr_rendering (l_addr r) w2 /\ hex_byte w3 (l_d0 r) /\ hex_byte w4 (l_d1 r) /\ hex_byte w5 (l_d2 r).

(** The line has nothing but blanks, or its first other character is a hash sign (35). *)
Definition ignored_line (line : list Z) : Prop :=
  Forall white line \/ exists sp t, Forall white sp /\ line = sp ++ 35 :: t.

(** The records of the lines: none for an ignored line. *)
Inductive read_lines (reads : list Z -> link -> Prop) : list (list Z) -> list link -> Prop :=
| rl_nil : read_lines reads [] []
| rl_skip : forall l ls rs, ignored_line l -> read_lines reads ls rs -> read_lines reads (l :: ls) rs
| rl_rec : forall l ls r rs, ~ ignored_line l -> reads l r -> read_lines reads ls rs -> read_lines reads (l :: ls) (r :: rs).
