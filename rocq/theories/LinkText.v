(** Model of util/link.go:67-98 and util/textlinks.tmpl: link databases as editable text. *)
From Coq Require Import ZArith List Bool String Ascii.
From Verif Require Import GoBase GoText Address Link.
Import ListNotations.
Open Scope Z_scope.

(** Character codes of a string literal. *)
Fixpoint zs (s : string) : list Z :=
  match s with
  | EmptyString => []
  | String c t => Z.of_N (N_of_ascii c) :: zs t
  end.

(** util/textlinks.tmpl:2-9, the heading lines. *)
Definition text_heading : list (list Z) := map zs
  ["#";
   "# Lines beginning with a # are ignored";
   "# DO NOT delete lines, this will cause the entries to";
   "# shift up and then the last entry will be in the database twice";
   "# To delete a record simply mark it 'Available' by changing the";
   "# first letter of the Flags to 'A'";
   "#";
   "# Flags Group Address    Data"]%string.

(** Each line is followed by a newline. *)
Definition unlines (ls : list (list Z)) : list Z := flat_map (fun l => l ++ [ch_nl]) ls.

(** util/link.go:69-79 [LinksToText] with util/textlinks.tmpl. *)
Definition links_to_text (links : list link) (heading : bool) : list Z :=
  unlines ((if heading then text_heading else []) ++ map link_marshal_text links).

(** util/link.go:85-96, the loop over the lines. [acc] is the result so far. *)
Fixpoint text_lines (acc : list link) (lines : list (list Z)) : list link * option error :=
  match lines with
  | [] => (acc, None)
  | l :: ls =>
      let t := trim_space l in
      match t with
      | [] => text_lines acc ls
      | c :: _ =>
          if c =? ch_hash then text_lines acc ls
          else match link_unmarshal_text link_zero t with
               | (r, None) => text_lines (acc ++ [r]) ls
               | (_, Some e) => (acc, Some e)
               end
      end
  end.

(** util/link.go:83-98 [TextToLinks]. *)
Definition text_to_links (input : list Z) : list link * option error :=
  text_lines [] (split_on ch_nl input).
