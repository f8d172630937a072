(** The subset of Go's fmt / strconv / strings / bytes used by the code.
    A string is the list of its characters (Unicode code points); bytes that are not valid UTF-8 are not modelled.  Library
    behaviour transcribed from the Go standard library documentation and source (fmt/scan.go doScanf, advance, SkipSpace,
    scanUint, scanNumber; strconv.ParseInt; bytes.Fields; unicode.IsSpace). *)
From Coq Require Import ZArith List Bool.
From Verif Require Import GoBase.
Import ListNotations.
Open Scope Z_scope.

Definition is_ascii (s : list Z) : Prop := Forall (fun c => 0 <= c < 128) s.

(** Character codes used below. *)
Definition ch_nl : Z := 10.
Definition ch_cr : Z := 13.
Definition ch_space : Z := 32.
Definition ch_hash : Z := 35.
Definition ch_plus : Z := 43.
Definition ch_minus : Z := 45.
Definition ch_dot : Z := 46.

(** unicode.IsSpace, also isSpace of fmt/scan.go: \t \n \v \f \r, space and the spaces beyond ASCII. *)
Definition wide_space (c : Z) : bool :=
  (c =? 0x85) || (c =? 0xa0) || (c =? 0x1680) || ((0x2000 <=? c) && (c <=? 0x200a)) || (c =? 0x2028) || (c =? 0x2029) ||
  (c =? 0x202f) || (c =? 0x205f) || (c =? 0x3000).
Definition is_space (c : Z) : bool := ((9 <=? c) && (c <=? 13)) || (c =? 32) || wide_space c.

(** The bytes of a text: its UTF-8 encoding. *)
Definition utf8 (c : Z) : list Z :=
  if c <? 128 then [c]
  else if c <? 2048 then [192 + c / 64; 128 + c mod 64]
  else if c <? 65536 then [224 + c / 4096; 128 + (c / 64) mod 64; 128 + c mod 64]
  else [240 + c / 262144; 128 + (c / 4096) mod 64; 128 + (c / 64) mod 64; 128 + c mod 64].
Definition utf8_text (s : list Z) : list Z := flat_map utf8 s.

(** Lower-case hexadecimal digit for 0..15. *)
Definition hex_char (n : Z) : Z := if n <? 10 then 48 + n else 87 + n.

(** fmt verb %02x applied to a byte. *)
Definition fmt_02x (b : Z) : list Z := [hex_char (b / 16); hex_char (b mod 16)].

(** fmt verb %d (also %v) applied to a byte: no leading zeros. *)
Definition fmt_d_byte (b : Z) : list Z :=
  if b <? 10 then [48 + b]
  else if b <? 100 then [48 + b / 10; 48 + b mod 10]
  else [48 + b / 100; 48 + (b / 10) mod 10; 48 + b mod 10].

(** fmt width: pad on the left (%5v) or on the right (%-5s). *)
Definition pad_left (w : nat) (s : list Z) : list Z := repeat ch_space (w - length s) ++ s.
Definition pad_right (w : nat) (s : list Z) : list Z := s ++ repeat ch_space (w - length s).

(** Value of a hexadecimal / decimal digit character. *)
Definition hex_val (c : Z) : option Z :=
  if (48 <=? c) && (c <=? 57) then Some (c - 48)
  else if (97 <=? c) && (c <=? 102) then Some (c - 87)
  else if (65 <=? c) && (c <=? 70) then Some (c - 55)
  else None.
Definition dec_val (c : Z) : option Z :=
  if (48 <=? c) && (c <=? 57) then Some (c - 48) else None.

(** ss.SkipSpace in Sscanf mode (newline is not space): [None] is the "unexpected newline" error. *)
Fixpoint skip_space (s : list Z) : option (list Z) :=
  match s with
  | [] => Some []
  | c :: t => if c =? ch_nl then None else if is_space c then skip_space t else Some s
  end.

(** Longest prefix of at most [w] digits: accumulated value, number of digits, rest.  [None] width means none given. *)
Fixpoint take_digits (val : Z -> option Z) (base : Z) (w : option nat) (acc : Z) (n : nat) (s : list Z)
  : Z * nat * list Z :=
  match s with
  | [] => (acc, n, [])
  | c :: t =>
      match w with
      | Some O => (acc, n, s)
      | _ =>
          match val c with
          | None => (acc, n, s)
          | Some d => take_digits val base (match w with Some (S k) => Some k | _ => None end)
                        (acc * base + d) (S n) t
          end
      end
  end.

(** One %x / %Nx verb scanned into a byte (scanUint with bitSize 8): value and rest, [None] on any error. *)
Definition scan_hex8 (w : option nat) (s : list Z) : option (Z * list Z) :=
  match skip_space s with
  | None => None
  | Some s1 =>
      match take_digits hex_val 16 w 0 0 s1 with
      | (v, n, rest) => if Nat.eqb n 0 then None else if v <? 256 then Some (v, rest) else None
      end
  end.

(** One %d verb scanned into a byte-sized unsigned type. *)
Definition scan_dec8 (s : list Z) : option (Z * list Z) :=
  match skip_space s with
  | None => None
  | Some s1 =>
      match take_digits dec_val 10 None 0 0 s1 with
      | (v, n, rest) => if Nat.eqb n 0 then None else if v <? 256 then Some (v, rest) else None
      end
  end.

(** A literal character of the format. *)
Definition scan_lit (c : Z) (s : list Z) : option (list Z) :=
  match s with [] => None | x :: t => if x =? c then Some t else None end.

(** strconv.Atoi: optional sign, at least one decimal digit, nothing else, int64 range. *)
Definition all_digits_val (val : Z -> option Z) (base : Z) (s : list Z) : option Z :=
  match take_digits val base None 0 0 s with
  | (v, n, rest) => match rest with [] => if Nat.eqb n 0 then None else Some v | _ => None end
  end.
Definition parse_int (val : Z -> option Z) (base : Z) (bits : Z) (s : list Z) : option Z :=
  let '(neg, body) := match s with
                      | c :: t => if c =? ch_minus then (true, t) else if c =? ch_plus then (false, t) else (false, s)
                      | [] => (false, s) end in
  match all_digits_val val base body with
  | None => None
  | Some v =>
      if neg then (if v <=? 2 ^ (bits - 1) then Some (- v) else None)
      else (if v <? 2 ^ (bits - 1) then Some v else None)
  end.
Definition atoi (s : list Z) : option Z := parse_int dec_val 10 64 s.

(** bytes.Fields: maximal runs of non-space characters. *)
Fixpoint fields_go (cur : list Z) (s : list Z) : list (list Z) :=
  match s with
  | [] => match cur with [] => [] | _ => [rev cur] end
  | c :: t =>
      if is_space c then match cur with [] => fields_go [] t | _ => rev cur :: fields_go [] t end
      else fields_go (c :: cur) t
  end.
Definition fields (s : list Z) : list (list Z) := fields_go [] s.

(** strings.Split(s, sep) for a one-character separator: always at least one piece. *)
Fixpoint split_on (sep : Z) (s : list Z) : list (list Z) :=
  match s with
  | [] => [[]]
  | c :: t =>
      if c =? sep then [] :: split_on sep t
      else match split_on sep t with
           | [] => [[c]]
           | p :: ps => (c :: p) :: ps
           end
  end.

(** strings.TrimSpace / bytes.TrimSpace. *)
Fixpoint drop_space (s : list Z) : list Z :=
  match s with
  | [] => []
  | c :: t => if is_space c then drop_space t else s
  end.
Definition trim_space (s : list Z) : list Z := rev (drop_space (rev (drop_space s))).

(** strings.Join. *)
Fixpoint join (sep : list Z) (l : list (list Z)) : list Z :=
  match l with
  | [] => []
  | [x] => x
  | x :: t => x ++ sep ++ join sep t
  end.
