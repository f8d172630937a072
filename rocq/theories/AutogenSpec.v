(** Specification of the generated tables: what a comma separated file says, what a generated text says, independent of how the
    program reads the one and writes the other. *)
From Coq Require Import ZArith List Bool String Permutation Sorting.Sorted.
From Verif Require Import GoBase LinkText EditLineSpec AnonymizeSpec.
Import ListNotations.
Open Scope Z_scope.

(** ** Comma separated files *)

(** How a field is written: as it is, or between quotes (34) with every quote doubled. *)
Inductive field_text : list Z -> list Z -> Prop :=
| ft_plain : forall f, Forall (fun c => c <> 34 /\ c <> 44 /\ c <> 10 /\ c <> 13) f -> field_text f f
| ft_quoted : forall f, Forall (fun c => c <> 13) f ->
    field_text f (34 :: flat_map (fun c => if c =? 34 then [34; 34] else [c]) f ++ [34]).

(** Fields separated by commas (44). *)
Inductive row_text : list (list Z) -> list Z -> Prop :=
| rt_one : forall f t, field_text f t -> row_text [f] t
| rt_more : forall f t r u, field_text f t -> row_text r u -> row_text (f :: r) (t ++ 44 :: u).

(** The end of a line. *)
Definition line_end (e : list Z) : Prop := e = [10] \/ e = [13; 10].

(** Rows on lines of their own; empty lines do not count, and the last line may lack its end. *)
Inductive table_text : list (list (list Z)) -> list Z -> Prop :=
| tt_none : table_text [] []
| tt_row : forall r t e rs u, row_text r t -> t <> [] -> line_end e -> table_text rs u -> table_text (r :: rs) (t ++ e ++ u)
| tt_last : forall r t, row_text r t -> t <> [] -> table_text [r] t
| tt_blank : forall e rs u, line_end e -> table_text rs u -> table_text rs (e ++ u).

(** ** What a row says *)

(** A hexadecimal digit and its value. *)
Definition hexd (c d : Z) : Prop := (0 <= d < 10 /\ c = 48 + d) \/ (10 <= d < 16 /\ (c = 87 + d \/ c = 55 + d)).
Inductive hex_value : list Z -> Z -> Prop :=
| hv_none : hex_value [] 0
| hv_digit : forall ds n c d, hex_value ds n -> hexd c d -> hex_value (ds ++ [c]) (16 * n + d).

(** "0x" and the digits of the number. *)
Definition number (s : list Z) (n : Z) : Prop :=
  exists ds, s = zs "0x" ++ ds /\ ds <> [] /\ hex_value ds n /\ n < 2 ^ 63.

(** A field without the byte order marks in it. *)
Definition unmarked (s : list Z) : list Z := filter (fun c => negb (c =? 0xfeff)) s.

(** [name] is [raw] without the white space around it. *)
Definition trimmed (raw name : list Z) : Prop :=
  exists l r, raw = l ++ name ++ r /\ Forall white l /\ Forall white r /\
    (forall c t, name = c :: t -> ~ white c) /\ (forall c t, name = t ++ [c] -> ~ white c).

(** The domains there are. *)
Definition known (d : Z) : Prop := 0 <= d <= 0x16 \/ d = 0xff.

(** An entry of the table: domain, category, name. *)
Definition entry : Type := Z * Z * list Z.
Definition e_domain (e : entry) : Z := fst (fst e).
Definition e_category (e : entry) : Z := snd (fst e).
Definition e_name (e : entry) : list Z := snd e.

(** A row says: domain, category, a field that does not matter, the name. *)
Definition row_says (r : list (list Z)) (e : entry) : Prop :=
  exists a b sku raw more, r = a :: b :: sku :: raw :: more /\ number (unmarked a) (e_domain e) /\ number (unmarked b) (e_category e) /\
    trimmed raw (e_name e).

(** A row that cannot be an entry: a field for the domain or the category in which there is a character no number has, or a domain
    that there is not. *)
Definition number_char (c : Z) : Prop :=
  c = 43 \/ c = 45 \/ c = 95 \/ 48 <= c <= 57 \/ 65 <= c <= 90 \/ 97 <= c <= 122.
Definition no_number (s : list Z) : Prop := s = [] \/ exists c, In c s /\ ~ number_char c.
Definition bad_row (r : list (list Z)) : Prop :=
  exists a b more, r = a :: b :: more /\
    (no_number (unmarked a) \/
     (exists d, number (unmarked a) d /\ (no_number (unmarked b) \/ exists c, number (unmarked b) c /\ ~ known d))).

(** [out] are the entries sorted by domain, those of one domain in the order they had. *)
Definition by_domain (es out : list entry) : Prop :=
  Permutation es out /\ StronglySorted (fun a b => e_domain a <= e_domain b) out /\
  forall d, filter (fun e => e_domain e =? d) out = filter (fun e => e_domain e =? d) es.

(** ** What a generated text says *)

(** The two lower case hexadecimal digits of a byte. *)
Definition low_digit (d c : Z) : Prop := (0 <= d < 10 /\ c = 48 + d) \/ (10 <= d < 16 /\ c = 87 + d).
Definition byte_text (b : Z) (t : list Z) : Prop := exists x y, t = [x; y] /\ low_digit (b / 16) x /\ low_digit (b mod 16) y.

(** Characters that stand for themselves between the quotes of a Go string: not the quote, the backslash, the newline, the null
    character and the byte order mark. *)
Definition literal (s : list Z) : Prop := Forall (fun c => c <> 34 /\ c <> 92 /\ c <> 10 /\ c <> 0 /\ c <> 0xfeff) s.

Definition starts (p l : list Z) : Prop := exists t, l = p ++ t.

(** A line of the map from categories to names. *)
Definition entry_line (e : entry) (line : list Z) : Prop :=
  exists td tc, byte_text (e_domain e) td /\ byte_text (e_category e) tc /\ literal (e_name e) /\
    line = zs "  {0x" ++ td ++ zs ", 0x" ++ tc ++ zs "}: """ ++ e_name e ++ zs """,".
(** The map in the text: the lines that begin with two blanks and a brace. *)
Definition devcat_table (text : list Z) (es : list entry) : Prop :=
  exists ls sel, consists_of ls text /\ selected (starts (zs "  {")) ls sel /\ Forall2 entry_line es sel.

(** The seven characters HTML writes in another way, and the others. *)
Inductive escaped_char : Z -> list Z -> Prop :=
| ec_null : escaped_char 0 [0xfffd]
| ec_quote : escaped_char 34 (zs "&#34;")
| ec_amp : escaped_char 38 (zs "&amp;")
| ec_apos : escaped_char 39 (zs "&#39;")
| ec_plus : escaped_char 43 (zs "&#43;")
| ec_less : escaped_char 60 (zs "&lt;")
| ec_greater : escaped_char 62 (zs "&gt;")
| ec_other : forall c, ~ In c [0; 34; 38; 39; 43; 60; 62] -> escaped_char c [c].
Inductive escaped : list Z -> list Z -> Prop :=
| es_none : escaped [] []
| es_char : forall c t s u, escaped_char c t -> escaped s u -> escaped (c :: s) (t ++ u).

(** A text HTML leaves as it is. *)
Definition unescaped (s : list Z) : Prop := Forall (fun c => ~ In c [0; 34; 38; 39; 43; 60; 62]) s.

(** ** The texts about commands *)

(** A Go name. *)
Definition ident (n : list Z) : Prop :=
  n <> [] /\ Forall (fun c => c = 95 \/ 48 <= c <= 57 \/ 65 <= c <= 90 \/ 97 <= c <= 122) n.

(** A line that defines a command. *)
Definition const_head (line : list Z) : Prop := exists n rest, ident n /\ line = n ++ zs " = Command(0x" ++ rest.
Definition const_line (d : list Z * Z) (line : list Z) : Prop :=
  exists b0 b1 b2 t0 t1 t2 note, byte_text b0 t0 /\ byte_text b1 t1 /\ byte_text b2 t2 /\ snd d = b0 * 65536 + b1 * 256 + b2 /\
    line = fst d ++ zs " = Command(0x" ++ t0 ++ t1 ++ t2 ++ zs ") // " ++ note.
Definition const_table (text : list Z) (ds : list (list Z * Z)) : Prop :=
  exists ls sel, consists_of ls text /\ selected const_head ls sel /\ Forall2 const_line ds sel.

(** A line of the map from commands to their names. *)
Definition name_line (d : list Z * list Z) (line : list Z) : Prop :=
  literal (snd d) /\ line = zs "  " ++ fst d ++ zs ": """ ++ snd d ++ zs """,".
Definition name_table (text : list Z) (ds : list (list Z * list Z)) : Prop :=
  exists ls sel, consists_of ls text /\ selected (starts (zs "  ")) ls sel /\ Forall2 name_line ds sel.

(** A line of the tables of commands for the reader: the two bytes, the name, the notes. *)
Definition doc_line (d : Z * Z * list Z * list Z) (line : list Z) : Prop :=
  let '(b1, b2, s, n) := d in
  exists t1 t2, byte_text b1 t1 /\ byte_text b2 t2 /\ ~ In 124 s /\
    line = zs "0x" ++ t1 ++ zs "|0x" ++ t2 ++ zs "|" ++ s ++ zs "|" ++ n.
Definition doc_table (text : list Z) (ds : list (Z * Z * list Z * list Z)) : Prop :=
  exists ls sel, consists_of ls text /\ selected (starts (zs "0x")) ls sel /\ Forall2 doc_line ds sel.
