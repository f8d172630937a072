(** C78: the lines of an edited link database.  Full statement: a line is read as the record a person means by it, or refused.  It is
    false: of a word of data only the leading hexadecimal digits count, so that 0x1c is read as 0. *)
From Coq Require Import ZArith List Bool Lia ZifyBool ZifyNat String.
From Verif Require Import GoBase GoText Address AddressSpec Link LinkSpec LinkText IcVarsSpec AnonymizeSpec EditLineSpec EditLineProofs.
Import ListNotations.
Open Scope Z_scope.

Definition prefixed : list Z := zs "UC 1 01.02.03 0x1c 0x01 0xff".

Theorem C78_as_meant_refuted : exists t rs, text_to_links t = (rs, None) /\ rs <> [] /\
  ~ exists lines, consists_of lines t /\ read_lines meant_line lines rs.
Proof.
  exists prefixed, [mkLink 0xc2 1 0x010203 0 0 0]. split; [vm_compute; reflexivity|]. split; [discriminate|].
  intros (lines & Hc & Hr). apply AnonymizeProofs.consists_split in Hc. vm_compute in Hc. subst lines.
  inversion Hr as [|l ls rs Hi H|l ls r rs Hi Hm H]; subst.
  - inversion H.
  - destruct Hm as (w0 & w1 & w2 & w3 & w4 & w5 & vs & Hw & _ & _ & _ & _ & _ & _ & H3 & _).
    apply words_iff in Hw. vm_compute in Hw. injection Hw as <- <- <- <- <- <-.
    destruct H3 as (c1 & c0 & n1 & n0 & E & _). discriminate E.
Qed.

(** Missing for the full claim: lines that are accepted but not meant, such as the one above.  Texts of meant, empty and comment
    lines are read as meant, whatever blanks are around the words. *)
Theorem C78_read_as_meant_partial : forall t lines rs, consists_of lines t -> read_lines meant_line lines rs -> text_to_links t = (rs, None).
Proof. intros t lines rs Hc Hr. apply text_accepted_iff. exists lines. split; [exact Hc|apply meant_lines_read; exact Hr]. Qed.

(** A tab before the flags, two blanks and a no-break space between words, capital digits, an address without dots, a group with zeros
    in front, a carriage return at the end. *)
Example C78_meant_case : meant_line (9 :: zs "AR  007" ++ [160; 32] ++ zs "0A0b0C FF 1c 00" ++ [13]) (mkLink 0x02 7 0x0a0b0c 0xff 0x1c 0).
Proof.
  exists (zs "AR"), (zs "007"), (zs "0A0b0C"), (zs "FF"), (zs "1c"), (zs "00"), [0; 0; 7].
  split; [apply words_iff; vm_compute; reflexivity|]. split; [constructor|]. split; [discriminate|].
  split; [cbn; repeat (constructor; [unfold dec_digit; lia|]); constructor|].
  split; [vm_compute; reflexivity|]. split; [cbn; lia|].
  split. { exists 48, 65, 48, 98, 48, 67, 0, 10, 0, 11, 0, 12. split; [apply (hd_dec 0); lia|]. split; [apply (hd_upp 10); lia|]. split; [apply (hd_dec 0); lia|].
           split; [apply (hd_low 11); lia|]. split; [apply (hd_dec 0); lia|]. split; [apply (hd_upp 12); lia|]. split; [reflexivity|right; reflexivity]. }
  split. { exists 70, 70, 15, 15. repeat split; try (apply (hd_upp 15); lia). }
  split. { exists 49, 99, 1, 12. repeat split; [apply (hd_dec 1); lia|apply (hd_low 12); lia]. }
  exists 48, 48, 0, 0. repeat split; try (apply (hd_dec 0); lia).
Qed.

(** Every line the program prints is meant as the record it was printed from, as far as text can express it. *)
Theorem C78_printed_is_meant : forall l, link_wf l -> meant_line (link_marshal_text l) (expressible l).
Proof. exact printed_is_meant. Qed.

(** What exactly is accepted, and as what. *)
Theorem C78_accepted_exactly : forall t rs, text_to_links t = (rs, None) <-> exists lines, consists_of lines t /\ read_lines record_line lines rs.
Proof. exact text_accepted_iff. Qed.

(** A signed group, data of one digit, data followed by something else, a short address with dots. *)
Example C78_accepted_case : text_to_links (zs "UR -0 1.2.3 c 0x1c 1g") = ([mkLink 0x82 0 0x010203 0xc 0 1], None) /\
  record_line (zs "UR -0 1.2.3 c 0x1c 1g") (mkLink 0x82 0 0x010203 0xc 0 1).
Proof. split; [vm_compute; reflexivity|]. apply record_line_iff. vm_compute. reflexivity. Qed.

(** A refusal is due to a line that is neither ignored nor a record; the records of the lines before it are returned with the error. *)
Theorem C78_refused : forall t rs e, text_to_links t = (rs, Some e) -> exists before bad after, consists_of (before ++ bad :: after) t /\
  read_lines record_line before rs /\ ~ ignored_line bad /\ ~ exists r, record_line bad r.
Proof. exact text_refused. Qed.

Example C78_refused_case : text_to_links (zs "# one" ++ [10] ++ zs "UC 1 01.02.03 00 00 00" ++ [10] ++ zs "UC 256 01.02.03 00 00 00") =
  ([mkLink 0xc2 1 0x010203 0 0 0], Some (EOther 159)).
Proof. vm_compute. reflexivity. Qed.

Example C78_ex : text_to_links (zs "  # comment" ++ [10; 10] ++ zs "UC 1 01.02.03 0a 0b ff" ++ [13; 10] ++ zs " AR 255 a1b2c3 00 1c 01") =
  ([mkLink 0xc2 1 0x010203 0x0a 0x0b 0xff; mkLink 0x02 255 0xa1b2c3 0 0x1c 1], None).
Proof. vm_compute. reflexivity. Qed.

(** * C06, editing: comments and blank lines are skipped, the other lines are taken one by one, in order. *)
Theorem C06_edited_lines : forall t lines rs, consists_of lines t -> read_lines record_line lines rs -> text_to_links t = (rs, None).
Proof. intros t lines rs Hc Hr. apply text_accepted_iff. exists lines. auto. Qed.
Example C06_edited_lines_case : let lines := [zs "# A"; zs "UC 1 01.02.03 a 0 1"; []; zs "AR 2 040506 00 00 00"] in
  consists_of lines (zs "# A" ++ 10 :: zs "UC 1 01.02.03 a 0 1" ++ 10 :: 10 :: zs "AR 2 040506 00 00 00") /\
  read_lines record_line lines [mkLink 0xc2 1 0x010203 10 0 1; mkLink 0x02 2 0x040506 0 0 0].
Proof.
  cbv zeta. split; [apply AnonymizeProofs.consists_split; vm_compute; reflexivity|].
  apply rl_skip; [right; exists [], (zs " A"); split; [constructor|reflexivity]|].
  apply rl_rec; [intro H; apply ignored_iff in H; vm_compute in H; destruct H as [H|[t H]]; discriminate H|apply record_line_iff; vm_compute; reflexivity|].
  apply rl_skip; [left; constructor|].
  apply rl_rec; [intro H; apply ignored_iff in H; vm_compute in H; destruct H as [H|[t H]]; discriminate H|apply record_line_iff; vm_compute; reflexivity|]. constructor.
Qed.

Print Assumptions C06_edited_lines.
Print Assumptions C78_as_meant_refuted.
Print Assumptions C78_read_as_meant_partial.
Print Assumptions C78_printed_is_meant.
Print Assumptions C78_accepted_exactly.
Print Assumptions C78_refused.
