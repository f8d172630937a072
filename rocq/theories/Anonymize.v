(** Model of cmd/anonymize/main.go: the program that replaces the addresses in a file of link records. *)
From Coq Require Import ZArith List Bool.
From Verif Require Import GoBase GoText Link LinkText UtilLink Database.
Import ListNotations.
Open Scope Z_scope.

(** strings.HasPrefix(line, "#"). *)
Definition has_hash (line : list Z) : bool := match line with c :: _ => c =? ch_hash | [] => false end.

(** cmd/anonymize/main.go:26-34: the lines beginning with a hash sign, and an empty one when there are any. *)
Definition anon_comments (input : list Z) : list (list Z) :=
  let comments := filter has_hash (split_on ch_nl input) in
  match comments with [] => [] | _ => comments ++ [[]] end.

(** cmd/anonymize/main.go:36-43: the text to be written, or the error of TextToLinks.  [rnd] is math/rand. *)
Definition anon_output (rnd : nat -> Z) (input : list Z) : list Z + error :=
  match text_to_links input with
  | (_, Some e) => inr e
  | (links, None) => inl (join [ch_nl] (anon_comments input) ++ links_to_text (anonymize rnd links []) false)
  end.

(** cmd/anonymize/main.go:13-50 with a file name given: what happens to the file (ioutil.WriteFile opens with O_TRUNC and
    writes) and the exit status, when no write fails.  The messages on standard error are not modelled. *)
Definition anon_steps (rnd : nat -> Z) (f : fstate) : list fstep * Z :=
  match f with
  | None => ([], 1)
  | Some input =>
      match anon_output rnd input with
      | inr _ => ([], 1)
      | inl output => (FTruncate :: map FAppend output, 0)
      end
  end.

(** The file after the program ran to its end, and after a crash once [n] of the steps were done. *)
Definition anon_file (rnd : nat -> Z) (f : fstate) : fstate := fold_left fstep_run (fst (anon_steps rnd f)) f.
Definition anon_crash (n : nat) (rnd : nat -> Z) (f : fstate) : fstate := fold_left fstep_run (firstn n (fst (anon_steps rnd f))) f.
