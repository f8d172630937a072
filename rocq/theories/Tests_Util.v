(** The tests of the package util, transcribed as cases of the model: link_test.go with the files of testdata, and database_test.go in
    /repo/util.  The texts of the files are copied as they are. *)
From Coq Require Import ZArith List Bool String Permutation Sorting.Sorted.
From Verif Require Import GoBase GoProg GoText IcVars Link LinkText Display BasicDevice UtilLink Database.
Import ListNotations.
Open Scope Z_scope.

(** util/testdata/addlinks_01.input *)
Definition f_addlinks_01_input : list Z := zs "# UC        1 62.9a.0f   00 1c 01
UR        1 65.82.21   00 1c 01
AR        0 62.9a.0f   00 00 00
UR        1 62.9a.0f   00 1c 01
AR        1 62.9a.0f   03 15 9e
UC        1 10.4d.c7   03 1c 01
UR        1 10.4d.c7   fe 1c 01
UC        1 07.04.bb   03 1c 01
UR        1 07.04.bb   fe 1c 01
UC        1 5a.85.81   03 1c 01
UR        1 5a.85.81   fe 1c 01
UR        1 e9.d1.86   fe 1c 01
UC        1 e9.d1.86   03 1c 01
".
(** util/testdata/addlinks_01.want *)
Definition f_addlinks_01_want : list Z := zs "UR        1 65.82.21   00 1c 01
UC        1 62.9a.0f   00 1c 01
UR        1 62.9a.0f   00 1c 01
AR        1 62.9a.0f   03 15 9e
UC        1 10.4d.c7   03 1c 01
UR        1 10.4d.c7   fe 1c 01
UC        1 07.04.bb   03 1c 01
UR        1 07.04.bb   fe 1c 01
UC        1 5a.85.81   03 1c 01
UR        1 5a.85.81   fe 1c 01
UR        1 e9.d1.86   fe 1c 01
UC        1 e9.d1.86   03 1c 01
".
(** util/testdata/addlinks_02.input *)
Definition f_addlinks_02_input : list Z := zs "# UR        1 65.82.21   00 1c 01
# UC        1 62.9a.0f   00 1c 01
UC        1 65.82.21   00 1c 01
AR        0 62.9a.0f   00 00 00
UR        1 62.9a.0f   00 1c 01
AR        1 62.9a.0f   03 15 9e
UC        1 10.4d.c7   03 1c 01
UR        1 10.4d.c7   fe 1c 01
UC        1 07.04.bb   03 1c 01
UR        1 07.04.bb   fe 1c 01
UC        1 5a.85.81   03 1c 01
UR        1 5a.85.81   fe 1c 01
UR        1 e9.d1.86   fe 1c 01
UC        1 e9.d1.86   03 1c 01
".
(** util/testdata/addlinks_02.want *)
Definition f_addlinks_02_want : list Z := zs "UC        1 65.82.21   00 1c 01
UR        1 65.82.21   00 1c 01
UR        1 62.9a.0f   00 1c 01
UC        1 62.9a.0f   00 1c 01
UC        1 10.4d.c7   03 1c 01
UR        1 10.4d.c7   fe 1c 01
UC        1 07.04.bb   03 1c 01
UR        1 07.04.bb   fe 1c 01
UC        1 5a.85.81   03 1c 01
UR        1 5a.85.81   fe 1c 01
UR        1 e9.d1.86   fe 1c 01
UC        1 e9.d1.86   03 1c 01
".
(** util/testdata/addlinks_03.input *)
Definition f_addlinks_03_input : list Z := zs "# UC        1 62.9a.0f   00 1c 01
UR        1 65.82.21   00 1c 01
UR        1 62.9a.0f   00 1c 01
UC        1 10.4d.c7   03 1c 01
UR        1 10.4d.c7   fe 1c 01
UC        1 07.04.bb   03 1c 01
UR        1 07.04.bb   fe 1c 01
UC        1 5a.85.81   03 1c 01
UR        1 5a.85.81   fe 1c 01
UR        1 e9.d1.86   fe 1c 01
UC        1 e9.d1.86   03 1c 01
".
(** util/testdata/addlinks_03.want *)
Definition f_addlinks_03_want : list Z := zs "UR        1 65.82.21   00 1c 01
UR        1 62.9a.0f   00 1c 01
UC        1 10.4d.c7   03 1c 01
UR        1 10.4d.c7   fe 1c 01
UC        1 07.04.bb   03 1c 01
UR        1 07.04.bb   fe 1c 01
UC        1 5a.85.81   03 1c 01
UR        1 5a.85.81   fe 1c 01
UR        1 e9.d1.86   fe 1c 01
UC        1 e9.d1.86   03 1c 01
UC        1 62.9a.0f   00 1c 01
".
(** util/testdata/anonymize_01.input *)
Definition f_anonymize_01_input : list Z := zs "# 00.00.01
# 00.00.02
# 00.00.03
# 00.00.04
# 00.00.05
# 00.00.06
UR        1 65.82.21   00 1c 01
AR        0 62.9a.0f   00 00 00
UR        1 62.9a.0f   00 1c 01
AR        1 62.9a.0f   03 15 9e
UC        1 10.4d.c7   03 1c 01
UR        1 10.4d.c7   fe 1c 01
UC        1 07.04.bb   03 1c 01
UR        1 07.04.bb   fe 1c 01
UC        1 5a.85.81   03 1c 01
UR        1 5a.85.81   fe 1c 01
UR        1 e9.d1.86   fe 1c 01
UC        1 e9.d1.86   03 1c 01
".
(** util/testdata/anonymize_01.want *)
Definition f_anonymize_01_want : list Z := zs "UR        1 00.00.01   00 1c 01
AR        0 00.00.02   00 00 00
UR        1 00.00.02   00 1c 01
AR        1 00.00.02   03 15 9e
UC        1 00.00.03   03 1c 01
UR        1 00.00.03   fe 1c 01
UC        1 00.00.04   03 1c 01
UR        1 00.00.04   fe 1c 01
UC        1 00.00.05   03 1c 01
UR        1 00.00.05   fe 1c 01
UR        1 00.00.06   fe 1c 01
UC        1 00.00.06   03 1c 01
".
(** util/testdata/dumplinks.input *)
Definition f_dumplinks_input : list Z := zs "UC        1 01.02.03   00 00 00
UR        1 01.02.03   00 00 00
UC        1 04.05.06   00 00 00
UR        1 04.05.06   00 00 00
".
(** util/testdata/dumplinks.want *)
Definition f_dumplinks_want : list Z := zs "links
- [0xc2, 0x01, 0x01, 0x02, 0x03, 0x00, 0x00, 0x00]
- [0x82, 0x01, 0x01, 0x02, 0x03, 0x00, 0x00, 0x00]
- [0xc2, 0x01, 0x04, 0x05, 0x06, 0x00, 0x00, 0x00]
- [0x82, 0x01, 0x04, 0x05, 0x06, 0x00, 0x00, 0x00]
".
(** util/testdata/dumplinks_nolinks.input *)
Definition f_dumplinks_nolinks_input : list Z := zs "".
(** util/testdata/dumplinks_nolinks.want *)
Definition f_dumplinks_nolinks_want : list Z := zs "no links
".
(** util/testdata/findlinkrecord.input *)
Definition f_findlinkrecord_input : list Z := zs "# found:UC        1 01.02.03   00 00 00
# not_found:UC        1 10.02.03   00 00 00
UC        1 01.02.03   00 00 00
UR        1 01.02.03   00 00 00
UC        1 04.05.06   00 00 00
UR        1 04.05.06   00 00 00
".
(** util/testdata/fixcrosslink_01.input *)
Definition f_fixcrosslink_01_input : list Z := zs "# 62.9a.0f
UR        1 65.82.21   00 1c 01
AR        0 62.9a.0f   00 00 00
UR        1 62.9a.0f   00 1c 01
AR        1 62.9a.0f   03 15 9e
UC        1 10.4d.c7   03 1c 01
UR        1 10.4d.c7   fe 1c 01
UC        1 07.04.bb   03 1c 01
UR        1 07.04.bb   fe 1c 01
UC        1 5a.85.81   03 1c 01
UR        1 5a.85.81   fe 1c 01
UR        1 e9.d1.86   fe 1c 01
UC        1 e9.d1.86   03 1c 01
".
(** util/testdata/fixcrosslink_01.want *)
Definition f_fixcrosslink_01_want : list Z := zs "UR        1 65.82.21   00 1c 01
UC        1 62.9a.0f   00 1c 01
UR        1 62.9a.0f   00 1c 01
AR        1 62.9a.0f   03 15 9e
UC        1 10.4d.c7   03 1c 01
UR        1 10.4d.c7   fe 1c 01
UC        1 07.04.bb   03 1c 01
UR        1 07.04.bb   fe 1c 01
UC        1 5a.85.81   03 1c 01
UR        1 5a.85.81   fe 1c 01
UR        1 e9.d1.86   fe 1c 01
UC        1 e9.d1.86   03 1c 01
".
(** util/testdata/fixcrosslink_02.input *)
Definition f_fixcrosslink_02_input : list Z := zs "# 65.82.21
# 62.9a.0f
UC        1 65.82.21   00 1c 01
AR        0 62.9a.0f   00 00 00
UR        1 62.9a.0f   00 1c 01
AR        1 62.9a.0f   03 15 9e
UC        1 10.4d.c7   03 1c 01
UR        1 10.4d.c7   fe 1c 01
UC        1 07.04.bb   03 1c 01
UR        1 07.04.bb   fe 1c 01
UC        1 5a.85.81   03 1c 01
UR        1 5a.85.81   fe 1c 01
UR        1 e9.d1.86   fe 1c 01
UC        1 e9.d1.86   03 1c 01
".
(** util/testdata/fixcrosslink_02.want *)
Definition f_fixcrosslink_02_want : list Z := zs "UC        1 65.82.21   00 1c 01
UR        1 65.82.21   00 1c 01
UR        1 62.9a.0f   00 1c 01
UC        1 62.9a.0f   00 1c 01
UC        1 10.4d.c7   03 1c 01
UR        1 10.4d.c7   fe 1c 01
UC        1 07.04.bb   03 1c 01
UR        1 07.04.bb   fe 1c 01
UC        1 5a.85.81   03 1c 01
UR        1 5a.85.81   fe 1c 01
UR        1 e9.d1.86   fe 1c 01
UC        1 e9.d1.86   03 1c 01
".
(** util/testdata/fixcrosslink_03.input *)
Definition f_fixcrosslink_03_input : list Z := zs "# 62.9a.0f
UR        1 65.82.21   00 1c 01
AR        0 62.9a.0f   00 00 00
UR        1 62.9a.0f   00 1c 01
UC        1 62.9a.0f   03 15 9e
UC        1 10.4d.c7   03 1c 01
UR        1 10.4d.c7   fe 1c 01
UC        1 07.04.bb   03 1c 01
UR        1 07.04.bb   fe 1c 01
UC        1 5a.85.81   03 1c 01
UR        1 5a.85.81   fe 1c 01
UR        1 e9.d1.86   fe 1c 01
UC        1 e9.d1.86   03 1c 01
".
(** util/testdata/fixcrosslink_03.want *)
Definition f_fixcrosslink_03_want : list Z := zs "UR        1 65.82.21   00 1c 01
AR        0 62.9a.0f   00 00 00
UR        1 62.9a.0f   00 1c 01
UC        1 62.9a.0f   03 15 9e
UC        1 10.4d.c7   03 1c 01
UR        1 10.4d.c7   fe 1c 01
UC        1 07.04.bb   03 1c 01
UR        1 07.04.bb   fe 1c 01
UC        1 5a.85.81   03 1c 01
UR        1 5a.85.81   fe 1c 01
UR        1 e9.d1.86   fe 1c 01
UC        1 e9.d1.86   03 1c 01
".
(** util/testdata/fixcrosslink_04.input *)
Definition f_fixcrosslink_04_input : list Z := zs "# 62.9a.0f
UR        1 65.82.21   00 1c 01
UR        1 62.9a.0f   00 1c 01
UC        1 10.4d.c7   03 1c 01
UR        1 10.4d.c7   fe 1c 01
UC        1 07.04.bb   03 1c 01
UR        1 07.04.bb   fe 1c 01
UC        1 5a.85.81   03 1c 01
UR        1 5a.85.81   fe 1c 01
UR        1 e9.d1.86   fe 1c 01
UC        1 e9.d1.86   03 1c 01
".
(** util/testdata/fixcrosslink_04.want *)
Definition f_fixcrosslink_04_want : list Z := zs "UR        1 65.82.21   00 1c 01
UR        1 62.9a.0f   00 1c 01
UC        1 10.4d.c7   03 1c 01
UR        1 10.4d.c7   fe 1c 01
UC        1 07.04.bb   03 1c 01
UR        1 07.04.bb   fe 1c 01
UC        1 5a.85.81   03 1c 01
UR        1 5a.85.81   fe 1c 01
UR        1 e9.d1.86   fe 1c 01
UC        1 e9.d1.86   03 1c 01
UC        1 62.9a.0f   00 1c 01
".
(** util/testdata/link_01.input *)
Definition f_link_01_input : list Z := zs "# 1

".
(** util/testdata/link_01.want *)
Definition f_link_01_want : list Z := zs "controller EnterLinkingMode 1
responder EnterLinkingMode 1
controller ExitLinkingMode
responder ExitLinkingMode
".
(** util/testdata/link_02.input *)
Definition f_link_02_input : list Z := zs "# 1
AC 1 00.00.02 00 00 00
UR 1 00.00.01 00 00 00
".
(** util/testdata/link_02.want *)
Definition f_link_02_want : list Z := zs "responder WriteLink 0 AR 1 00.00.01 0x00 0x00 0x00
controller EnterLinkingMode 1
responder EnterLinkingMode 1
controller ExitLinkingMode
responder ExitLinkingMode
".
(** util/testdata/link_03.input *)
Definition f_link_03_input : list Z := zs "# 1
UC 1 00.00.02 00 00 00
AR 1 00.00.01 00 00 00
".
(** util/testdata/link_03.want *)
Definition f_link_03_want : list Z := zs "controller WriteLink 0 AC 1 00.00.02 0x00 0x00 0x00
controller EnterLinkingMode 1
responder EnterLinkingMode 1
controller ExitLinkingMode
responder ExitLinkingMode
".
(** util/testdata/printlinks.input *)
Definition f_printlinks_input : list Z := zs "UC        1 01.02.03   00 00 00
UR        1 01.02.03   00 00 00
UC        1 04.05.06   00 00 00
UR        1 04.05.06   00 00 00
".
(** util/testdata/printlinks.want *)
Definition f_printlinks_want : list Z := zs "Link Database:
    Flags Group Address    Data
    UC        1 01.02.03   00 00 00
    UR        1 01.02.03   00 00 00
    UC        1 04.05.06   00 00 00
    UR        1 04.05.06   00 00 00
".
(** util/testdata/printlinks_nolinks.input *)
Definition f_printlinks_nolinks_input : list Z := zs "".
(** util/testdata/printlinks_nolinks.want *)
Definition f_printlinks_nolinks_want : list Z := zs "Link Database:
    No links defined
".
(** util/testdata/unlinkall_01.input *)
Definition f_unlinkall_01_input : list Z := zs "UC        1 00.00.02   00 00 01
UR        1 00.00.02   00 00 01
UC        1 00.00.01   00 00 01
UR        1 00.00.01   00 00 01
".
(** util/testdata/unlinkall_01.want *)
Definition f_unlinkall_01_want : list Z := zs "controller EnterUnlinkingMode 1
responder EnterLinkingMode 1
controller ExitLinkingMode
responder ExitLinkingMode
responder EnterUnlinkingMode 1
controller EnterLinkingMode 1
responder ExitLinkingMode
controller ExitLinkingMode
".

(** ** link_test.go *)
(** util/link_test.go:308-318: the records of an input file and the rest of its lines that begin with #. *)
Definition input_of (file : list Z) : list link := fst (text_to_links file).
Definition meta_of (file : list Z) : list (list Z) :=
  flat_map (fun line => match line with c :: rest => if c =? ch_hash then [trim_space rest] else [] | [] => [] end) (split_on ch_nl file).
Definition addresses (meta : list (list Z)) : list Z := fst (addresses_set [] meta).
(** Every file is read without an error. *)
Example files_read :
  forallb (fun f => match snd (text_to_links f) with None => true | Some _ => false end)
    [f_addlinks_01_input; f_addlinks_01_want; f_addlinks_02_input; f_addlinks_02_want; f_addlinks_03_input; f_addlinks_03_want; f_anonymize_01_input; f_anonymize_01_want; f_dumplinks_input; f_dumplinks_nolinks_input; f_findlinkrecord_input; f_fixcrosslink_01_input; f_fixcrosslink_01_want; f_fixcrosslink_02_input; f_fixcrosslink_02_want; f_fixcrosslink_03_input; f_fixcrosslink_03_want; f_fixcrosslink_04_input; f_fixcrosslink_04_want; f_link_01_input; f_link_02_input; f_link_03_input; f_printlinks_input; f_printlinks_nolinks_input; f_unlinkall_01_input] = true.
Proof. vm_compute. reflexivity. Qed.

(** util/link_test.go:348-414: the devices of the tests.  The world has the commands and, for each of two devices, its records. *)
Record lworld : Type := mkLW { lw_log : list (list Z); lw_links : list link * list link }.
Definition log_cmd (cmd : list Z) (w : lworld) : lworld := mkLW (lw_log w ++ [cmd]) (lw_links w).
Definition links_of (first : bool) (w : lworld) : list link := if first then fst (lw_links w) else snd (lw_links w).
Definition set_links (first : bool) (ls : list link) (w : lworld) : lworld :=
  mkLW (lw_log w) (if first then (ls, snd (lw_links w)) else (fst (lw_links w), ls)).
Definition write_test (first : bool) (name : list Z) (i : Z) (l : link) : prog lworld (option error) := fun w0 =>
  let w := log_cmd (name ++ zs " WriteLink " ++ fmt_d_byte i ++ zs " " ++ link_string l) w0 in
  let ls := links_of first w in
  if i <? zlen ls then (Ret None, set_links first (firstn (Z.to_nat i) ls ++ [l] ++ skipn (S (Z.to_nat i)) ls) w)
  else if i =? zlen ls then (Ret None, set_links first (ls ++ [l]) w)
  else (Ret (Some (EOther 900)), w).
Definition test_linkable (first : bool) (name : list Z) (address : Z) (writable : bool) : linkable lworld :=
  mkLk address (pret address)
    (fun g w => (Ret None, log_cmd (name ++ zs " EnterLinkingMode " ++ fmt_d_byte g) w))
    (fun g w => (Ret None, log_cmd (name ++ zs " EnterUnlinkingMode " ++ fmt_d_byte g) w))
    (fun w => (Ret None, log_cmd (name ++ zs " ExitLinkingMode") w))
    (fun w => (Ret (links_of first w, None), w))
    (fun _ => pret None)
    (fun ls w => (Ret None, set_links first ls w))
    (if writable then Some (write_test first name) else None).

(** util/link_test.go:18-51, for both kinds of device. *)
Definition add_test (file : list Z) (writable : bool) : option (list link) :=
  let add := map (fun m => fst (link_unmarshal_text link_zero m)) (meta_of file) in
  match add_links (test_linkable true [] 0 writable) add (mkLW [] (input_of file, [])) with
  | (Ret None, w) => Some (links_of true w)
  | _ => None
  end.
Example TestAddLinks :
  add_test f_addlinks_01_input false = Some (input_of f_addlinks_01_want) /\ add_test f_addlinks_01_input true = Some (input_of f_addlinks_01_want) /\
  add_test f_addlinks_02_input false = Some (input_of f_addlinks_02_want) /\ add_test f_addlinks_02_input true = Some (input_of f_addlinks_02_want) /\
  add_test f_addlinks_03_input false = Some (input_of f_addlinks_03_want) /\ add_test f_addlinks_03_input true = Some (input_of f_addlinks_03_want).
Proof. vm_compute. repeat split. Qed.

(** util/link_test.go:53-65: whatever the random numbers. *)
Example TestAnonymize : forall rnd,
  anonymize rnd (input_of f_anonymize_01_input) (addresses (meta_of f_anonymize_01_input)) = input_of f_anonymize_01_want.
Proof. intro rnd. vm_compute. reflexivity. Qed.

(** util/link_test.go:67-79. *)
Example TestDumpLinks :
  dump_links (input_of f_dumplinks_input) = f_dumplinks_want /\ dump_links (input_of f_dumplinks_nolinks_input) = f_dumplinks_nolinks_want.
Proof. vm_compute. repeat split. Qed.

(** util/link_test.go:334-346: the records are in order already. *)
Example TestPrintLinks :
  print_links (input_of f_printlinks_input) f_printlinks_want /\ print_links (input_of f_printlinks_nolinks_input) f_printlinks_nolinks_want.
Proof.
  split.
  - exists (input_of f_printlinks_input). split; [apply Permutation_refl|]. split; [|vm_compute; reflexivity].
    change (input_of f_printlinks_input) with
      [mkLink 0xc2 1 0x010203 0 0 0; mkLink 0x82 1 0x010203 0 0 0; mkLink 0xc2 1 0x040506 0 0 0; mkLink 0x82 1 0x040506 0 0 0].
    repeat (constructor; [|repeat (constructor; [vm_compute; reflexivity|]); constructor]). constructor.
  - exists []. split; [apply Permutation_refl|]. split; [constructor|vm_compute; reflexivity].
Qed.

(** util/link_test.go:81-107 and 182-188. *)
Definition four_links : list link :=
  [mkLink rcf_UnavailableController 1 0x010203 0 0 0; mkLink rcf_UnavailableResponder 1 0x010203 0 0 0;
   mkLink rcf_UnavailableController 1 0x040506 0 0 0; mkLink rcf_UnavailableResponder 1 0x040506 0 0 0].
Definition duplicates_test (ls : list link) := fst (find_duplicate_links (test_linkable true [] 0 false) link_equal (mkLW [] (ls, []))).
Example TestFindDuplicateLinks :
  duplicates_test four_links = Ret ([], None) /\
  duplicates_test (four_links ++ [mkLink rcf_UnavailableController 1 0x010203 0 0 0]) = Ret ([mkLink rcf_UnavailableController 1 0x010203 0 0 0], None).
Proof. vm_compute. repeat split. Qed.

(** util/link_test.go:109-137. *)
Definition find_test (file record : list Z) : outcome (link * option error) :=
  let want := fst (link_unmarshal_text link_zero record) in
  fst (find_link_record (test_linkable true [] 0 false) (rcf_controller (l_flags want)) (l_addr want) (l_group want) (mkLW [] (input_of file, []))).
Example TestFindLinkRecord :
  meta_of f_findlinkrecord_input = [zs "found:UC        1 01.02.03   00 00 00"; zs "not_found:UC        1 10.02.03   00 00 00"] /\
  find_test f_findlinkrecord_input (zs "UC        1 01.02.03   00 00 00") =
    Ret (fst (link_unmarshal_text link_zero (zs "UC        1 01.02.03   00 00 00")), None) /\
  (exists l e, find_test f_findlinkrecord_input (zs "UC        1 10.02.03   00 00 00") = Ret (l, Some e)).
Proof. vm_compute. repeat split. do 2 eexists; reflexivity. Qed.

(** util/link_test.go:139-149. *)
Definition fix_test (file : list Z) : list link := fix_crosslinks (input_of file) (addresses (meta_of file)).
Example TestFixCrosslinks :
  fix_test f_fixcrosslink_01_input = input_of f_fixcrosslink_01_want /\ fix_test f_fixcrosslink_02_input = input_of f_fixcrosslink_02_want /\
  fix_test f_fixcrosslink_03_input = input_of f_fixcrosslink_03_want /\ fix_test f_fixcrosslink_04_input = input_of f_fixcrosslink_04_want.
Proof. vm_compute. repeat split. Qed.

(** util/link_test.go:151-180. *)
Example TestForceLinkUnlink :
  let controller := test_linkable true (zs "controller") 0 false in
  let responder := test_linkable false (zs "responder") 0 false in
  match force_link 2 controller responder (mkLW [] ([], [])) with
  | (Ret None, w) => match unlink 2 controller responder w with (Ret None, w1) => Some (lw_log w1) | _ => None end
  | _ => None
  end =
  Some [zs "controller EnterLinkingMode 2"; zs "responder EnterLinkingMode 2"; zs "controller ExitLinkingMode"; zs "responder ExitLinkingMode";
        zs "controller EnterUnlinkingMode 2"; zs "responder EnterLinkingMode 2"; zs "controller ExitLinkingMode"; zs "responder ExitLinkingMode"].
Proof. vm_compute. reflexivity. Qed.

(** util/link_test.go:182-233. *)
Definition text_plain : list Z := zs "UC        1 01.02.03   00 00 00
UR        1 01.02.03   00 00 00
UC        1 04.05.06   00 00 00
UR        1 04.05.06   00 00 00
".
Definition text_headed : list Z := zs "#
# Lines beginning with a # are ignored
# DO NOT delete lines, this will cause the entries to
# shift up and then the last entry will be in the database twice
# To delete a record simply mark it 'Available' by changing the
# first letter of the Flags to 'A'
#
# Flags Group Address    Data
UC        1 01.02.03   00 00 00
UR        1 01.02.03   00 00 00
UC        1 04.05.06   00 00 00
UR        1 04.05.06   00 00 00
".
Example TestLinksToText :
  links_to_text four_links false = text_plain /\ links_to_text four_links true = text_headed /\
  (exists ls, text_to_links text_headed = (ls, None) /\ List.length ls = 4%nat /\ forallb (fun '(a, b) => link_equal a b) (combine four_links ls) = true).
Proof. split; [|split]; [vm_compute; reflexivity..|]. eexists. split; [vm_compute; reflexivity|]. vm_compute. repeat split. Qed.

(** util/link_test.go:235-280; the lines of the file with the wanted commands. *)
Definition wanted (file : list Z) : list (list Z) := let ls := split_on ch_nl file in match last ls [] with [] => removelast ls | _ => ls end.
Definition controller_test : linkable lworld := test_linkable true (zs "controller") 1 true.
Definition responder_test : linkable lworld := test_linkable false (zs "responder") 2 true.
Definition halves (ls : list link) : list link * list link := let n := (List.length ls / 2)%nat in (firstn n ls, skipn n ls).
Example TestUnlinkAll :
  lw_log (snd (unlink_all controller_test responder_test (mkLW [] (halves (input_of f_unlinkall_01_input))))) = wanted f_unlinkall_01_want.
Proof. vm_compute. reflexivity. Qed.
Definition link_test (file : list Z) : list (list Z) :=
  lw_log (snd (link_devices (fst (group_set 0 (nth 0 (meta_of file) []))) controller_test responder_test (mkLW [] (halves (input_of file))))).
Example TestLink :
  link_test f_link_01_input = wanted f_link_01_want /\ link_test f_link_02_input = wanted f_link_02_want /\
  link_test f_link_03_input = wanted f_link_03_want.
Proof. vm_compute. repeat split. Qed.

(** ** database_test.go *)
(** util/database_test.go:13-72; the file operations succeed. *)
Definition info_test : dinfo := mkDI 0x050607 1 2 3 4.
Definition os_fine : osresp := mkOS None (0%nat, None).
Example TestDatabase :
  match new_filedb None with
  | (db, Some e) =>
      db_get db 0x050607 = (dinfo_zero, false) /\
      match filedb_put os_fine None db info_test with
      | Ret (file, db1, _) => db_get db1 0x050607 = (info_test, true) /\ snd (new_filedb file) = None /\ db_get (fst (new_filedb file)) 0x050607 = (info_test, true)
      | _ => False
      end
  | (_, None) => False
  end.
Proof. vm_compute. repeat split. Qed.
