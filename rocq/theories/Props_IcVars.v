(** Properties C48 and C54: command-line arguments. *)
From Coq Require Import ZArith List Bool Lia ZifyBool ZifyNat.
From Verif Require Import GoBase GoLemmas GoText Address AddressSpec AddressProofs IcVars IcVarsSpec IcVarsProofs.
Import ListNotations.
Open Scope Z_scope.


(** * C48 command words.  Full statement: [forall old t a b, cmd_text t a b -> cmdvar_set old t = (256 * a + b, None)], and no
    other text is accepted.  Missing in the first theorem: bytes from 128 up. *)
Theorem C48_word_denotes_partial : forall old t a b, cmd_text t a b -> a < 128 -> b < 128 ->
  cmdvar_set old t = (256 * a + b, None).
Proof. exact cmdvar_low. Qed.
(** "1b.7F", and "1b8f" for the next. *)
Example C48_word_case : cmd_text [49; 98; 46; 55; 70] 0x1b 0x7f /\ cmdvar_set 7 [49; 98; 46; 55; 70] = (0x1b7f, None).
Proof.
  assert (H : cmd_text [49; 98; 46; 55; 70] 0x1b 0x7f).
  { exists [49; 98], [55; 70]. split; [|split; [|left; reflexivity]].
    - exists 49, 98, 1, 11. split; [reflexivity|]. split; [apply (hd_dec 1); lia|]. split; [apply (hd_low 11); lia|reflexivity].
    - exists 55, 70, 7, 15. split; [reflexivity|]. split; [apply (hd_dec 7); lia|]. split; [apply (hd_upp 15); lia|reflexivity]. }
  split; [exact H|]. apply (C48_word_denotes_partial 7 _ _ _ H); lia.
Qed.
(** Bytes are parsed as signed: half of all command bytes cannot be given. *)
Theorem C48_high_bytes_refuted : exists old t a b, cmd_text t a b /\ cmdvar_set old t = (old, Some err_range).
Proof.
  exists 7, [102; 48; 46; 48; 49], 0xf0, 1.
  assert (H : cmd_text [102; 48; 46; 48; 49] 0xf0 1).
  { exists [102; 48], [48; 49]. repeat apply conj; [..|left; reflexivity].
    - exists 102, 48, 15, 0. repeat split; [apply (hd_low 15)|apply (hd_dec 0)]; lia.
    - exists 48, 49, 0, 1. repeat split; [apply (hd_dec 0)|apply (hd_dec 1)]; lia. }
  split; [exact H|]. apply (cmdvar_high _ _ _ _ H). lia.
Qed.
Theorem C48_high_bytes_always_refused : forall old t a b, cmd_text t a b -> 128 <= a \/ 128 <= b ->
  cmdvar_set old t = (old, Some err_range).
Proof. exact cmdvar_high. Qed.
Example C48_high_bytes_case : cmdvar_set 7 [49; 98; 56; 102] = (7, Some err_range).
Proof.
  apply (C48_high_bytes_always_refused 7 _ 0x1b 0x8f); [|right; lia]. exists [49; 98], [56; 102]. split; [|split; [|right; reflexivity]].
  - exists 49, 98, 1, 11. split; [reflexivity|]. split; [apply (hd_dec 1); lia|]. split; [apply (hd_low 11); lia|reflexivity].
  - exists 56, 102, 8, 15. split; [reflexivity|]. split; [apply (hd_dec 8); lia|]. split; [apply (hd_low 15); lia|reflexivity].
Qed.
(** The texts accepted, and what they denote: the first dot may be anywhere, and a half may be a sign and a digit. *)
Theorem C48_accepted_exactly : forall old t v, cmdvar_set old t = (v, None) <->
  exists p q a b, without_first_dot t (p ++ q) /\ length p = 2%nat /\ length q = 2%nat /\
    half_accepted p a /\ half_accepted q b /\ v = 256 * a + b.
Proof. exact cmdvar_accepts. Qed.
(** "+1-1" is accepted as command 01.ff, and "1.234" as 12.34. *)
Theorem C48_other_texts_refuted : exists t1 t2 old, cmdvar_set old t1 = (0x01ff, None) /\ cmdvar_set old t2 = (0x1234, None) /\
  (~ exists a b, cmd_text t1 a b) /\ (~ exists a b, cmd_text t2 a b).
Proof.
  exists [43; 49; 45; 49], [49; 46; 50; 51; 52], 0. repeat split; try (vm_compute; reflexivity).
  - intros (a & b & p & q & (c1 & c0 & n1 & n0 & -> & H1 & H0 & _) & (d1 & d0 & m1 & m0 & -> & _) & [H|H]).
    + discriminate H.
    + injection H as <- _ _ _. apply hex_val_digit in H1. discriminate H1.
  - intros (a & b & p & q & (c1 & c0 & n1 & n0 & -> & H1 & H0 & _) & (d1 & d0 & m1 & m0 & -> & _) & [H|H]).
    + injection H as _ <- Hx _ _. apply hex_val_digit in H0. discriminate H0.
    + discriminate H.
Qed.
Theorem C48_rejected_untouched : forall old t v e, cmdvar_set old t = (v, Some e) ->
  v = old /\ (e = err_syntax \/ e = err_range).
Proof. exact cmdvar_rejected. Qed.
Example C48_ex : cmdvar_set 7 [49; 98; 46; 55; 70] = (0x1b7f, None) /\ cmdvar_set 7 [49; 98; 55; 70] = (0x1b7f, None) /\
  cmdvar_set 7 [49; 98; 46; 56; 70] = (7, Some err_range) /\ cmdvar_set 7 [49; 98; 46; 46; 70] = (7, Some err_syntax) /\
  cmdvar_set 7 [49; 98; 46; 55] = (7, Some err_syntax).
Proof. vm_compute. auto. Qed.
(** Characters beyond ASCII: four bytes are counted, not four characters. *)
Example C48_ex_wide : cmdvar_set 7 [102; 102; 0xe9] = (7, Some err_range) /\ cmdvar_set 7 [102; 102; 0xe9; 0xe9] = (7, Some err_syntax).
Proof. vm_compute. auto. Qed.
Print Assumptions C48_word_denotes_partial.
Print Assumptions C48_high_bytes_refuted.
Print Assumptions C48_high_bytes_always_refused.
Print Assumptions C48_accepted_exactly.
Print Assumptions C48_other_texts_refuted.
Print Assumptions C48_rejected_untouched.

(** * C54 lists of data bytes and addresses *)
Theorem C54_data_read_in_order : forall old str d,
  datavar_set old str = (d, None) <-> exists new, d = old ++ new /\ Forall2 data_text str new.
Proof. intros. apply datavar_all. Qed.
(** A bad element is never read over: it is reported, after the elements before it have been added. *)
Theorem C54_data_first_bad_stops : forall old str d e, datavar_set old str = (d, Some e) ->
  exists pre bad post new, str = pre ++ bad :: post /\ d = old ++ new /\ Forall2 data_text pre new /\
    ~ exists v, data_text bad v.
Proof. intros old str d e. apply datavar_error. Qed.
(** Garbage after the digits is accepted silently: "1z" counts as 1. *)
Theorem C54_data_garbage_refuted : exists old s, ~ Forall (fun c => exists v, hex_digit c v) s /\
  datavar_set old [s] = (old ++ [1], None).
Proof.
  exists [], [49; 122]. split; [|vm_compute; reflexivity].
  intro H. inversion H as [|x l Hx Hl]; subst. inversion Hl as [|y l' [v Hy] _]; subst. apply hex_val_digit in Hy. discriminate Hy.
Qed.
Theorem C54_addresses_read_in_order : forall old str d,
  addresses_set old str = (d, None) <-> exists new, d = old ++ new /\ Forall2 addr_accepts str new.
Proof. intros. apply addresses_all. Qed.
Theorem C54_addresses_first_bad_stops : forall old str d e, addresses_set old str = (d, Some e) ->
  e = EAddrFormat /\
  exists pre bad post new, str = pre ++ bad :: post /\ d = old ++ new /\ Forall2 addr_accepts pre new /\
    ~ exists a, addr_accepts bad a.
Proof. intros old str d e. apply addresses_error. Qed.
(** Printing a list and giving the words back as arguments restores it. *)
Theorem C54_addresses_print_parse : forall l, Forall (fun a => 0 <= a < 2 ^ 24) l -> l <> [] ->
  addresses_set [] (split_on 32 (addresses_string l)) = (l, None).
Proof. exact addresses_print_parse. Qed.
Example C54_print_parse_case : addresses_set [] (split_on 32 (addresses_string [0x0a0b0c; 0; 0xffffff])) = ([0x0a0b0c; 0; 0xffffff], None).
Proof. apply C54_addresses_print_parse; [repeat constructor; lia|discriminate]. Qed.
Example C54_ex : datavar_set [9] [[49; 48]; [32; 70; 102]; [55]] = ([9; 16; 255; 7], None) /\
  datavar_set [] [[49]; [50; 53; 54]; [51]] = ([1], Some (EOther 30)) /\
  addresses_set [1] [[48; 97; 46; 48; 98; 46; 48; 99]; [120]; [49; 49; 49; 49; 49; 49]] = ([1; 0x0a0b0c], Some EAddrFormat).
Proof. vm_compute. auto. Qed.
Print Assumptions C54_data_read_in_order.
Print Assumptions C54_data_first_bad_stops.
Print Assumptions C54_data_garbage_refuted.
Print Assumptions C54_addresses_read_in_order.
Print Assumptions C54_addresses_first_bad_stops.
Print Assumptions C54_addresses_print_parse.
