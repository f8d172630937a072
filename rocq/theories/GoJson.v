(** Go's encoding/json at the level of text: the documents it accepts (scanner.go), as trees, and the compact text it
    writes (encode.go) for trees made of objects, arrays, strings, integers, booleans and null.
    Text is a list of characters, as in GoText.v.  Simplified: there is no limit on nesting (Go refuses more than 10000 levels). *)
From Coq Require Import ZArith List Bool.
From Verif Require Import GoBase GoText.
Import ListNotations.
Open Scope Z_scope.

(** [JInt]: a number written without fraction and exponent; [JReal]: any other number. *)
Inductive json : Type :=
| JNull
| JBool (b : bool)
| JInt (n : Z)
| JReal
| JStr (s : list Z)
| JArr (l : list json)
| JObj (l : list (list Z * json)).

(** Result of a parser: value and rest, syntax error, or (never, see JsonProofs) too little fuel. *)
Inductive jres (A : Type) : Type := JOk (v : A) (rest : list Z) | JBad | JFuel.
Arguments JOk {A} v rest. Arguments JBad {A}. Arguments JFuel {A}.

Definition ch_quote : Z := 34.
Definition ch_comma : Z := 44.
Definition ch_colon : Z := 58.
Definition ch_lbracket : Z := 91.
Definition ch_bslash : Z := 92.
Definition ch_rbracket : Z := 93.
Definition ch_lbrace : Z := 123.
Definition ch_rbrace : Z := 125.

(** scanner.go isSpace: space, \t, \r, \n. *)
Definition jspace (c : Z) : bool := (c =? 32) || (c =? 9) || (c =? 13) || (c =? 10).
Fixpoint jws (s : list Z) : list Z :=
  match s with [] => [] | c :: t => if jspace c then jws t else s end.

(** Escapes of one character after the backslash (scanner.go stateInStringEsc, decode.go unquoteBytes). *)
Definition jescape (c : Z) : option Z :=
  if c =? 34 then Some 34 else if c =? 92 then Some 92 else if c =? 47 then Some 47
  else if c =? 98 then Some 8 else if c =? 102 then Some 12 else if c =? 110 then Some 10
  else if c =? 114 then Some 13 else if c =? 116 then Some 9 else None.
(** decode.go unquoteBytes, unicode/utf16: a code from the surrogate range; two that make one character. *)
Definition surrogate (u : Z) : bool := (0xd800 <=? u) && (u <? 0xe000).
Definition utf16_pair (u v : Z) : option Z :=
  if (0xd800 <=? u) && (u <? 0xdc00) && (0xdc00 <=? v) && (v <? 0xe000) then Some (0x10000 + (u - 0xd800) * 1024 + (v - 0xdc00)) else None.
Definition hex4 (a b c d : Z) : option Z :=
  match hex_val a, hex_val b, hex_val c, hex_val d with
  | Some x, Some y, Some z, Some w => Some (((x * 16 + y) * 16 + z) * 16 + w)
  | _, _, _, _ => None
  end.
(** The rest of a string literal after the opening quote. *)
Fixpoint jstring (s : list Z) : option (list Z * list Z) :=
  match s with
  | [] => None
  | c :: t =>
      if c =? ch_quote then Some ([], t)
      else if c =? ch_bslash then
        match t with
        | [] => None
        | e :: t1 =>
            if e =? 117 then
              match t1 with
              | h1 :: h2 :: h3 :: h4 :: t2 =>
                  match hex4 h1 h2 h3 h4 with
                  | None => None
                  | Some u =>
                      if surrogate u then
                        (* the other half must follow at once, otherwise U+FFFD stands for this one *)
                        match t2 with
                        | x :: y :: k1 :: k2 :: k3 :: k4 :: t3 =>
                            match (if (x =? ch_bslash) && (y =? 117) then match hex4 k1 k2 k3 k4 with Some u2 => utf16_pair u u2 | None => None end else None) with
                            | Some c2 => match jstring t3 with Some (v, r) => Some (c2 :: v, r) | None => None end
                            | None => match jstring t2 with Some (v, r) => Some (0xfffd :: v, r) | None => None end
                            end
                        | _ => match jstring t2 with Some (v, r) => Some (0xfffd :: v, r) | None => None end
                        end
                      else match jstring t2 with Some (v, r) => Some (u :: v, r) | None => None end
                  end
              | _ => None
              end
            else
              match jescape e with
              | None => None
              | Some x => match jstring t1 with Some (v, r) => Some (x :: v, r) | None => None end
              end
        end
      else if c <? 32 then None
      else match jstring t with Some (v, r) => Some (c :: v, r) | None => None end
  end.

(** Digits: value, count, rest. *)
Definition jdigits (s : list Z) : Z * nat * list Z := take_digits dec_val 10 None 0 0 s.
(** An optional exponent; the flag says whether there was one, [None] is a syntax error. *)
Definition jexp (s : list Z) : option (bool * list Z) :=
  match s with
  | c :: t =>
      if (c =? 101) || (c =? 69) then
        let t1 := match t with x :: y => if (x =? 43) || (x =? 45) then y else t | [] => t end in
        match jdigits t1 with (_, n, r) => if Nat.eqb n 0 then None else Some (true, r) end
      else Some (false, s)
  | [] => Some (false, s)
  end.
Definition jfrac (s : list Z) : option (bool * list Z) :=
  match s with
  | c :: t =>
      if c =? ch_dot then match jdigits t with (_, n, r) => if Nat.eqb n 0 then None else Some (true, r) end
      else Some (false, s)
  | [] => Some (false, s)
  end.
(** A number; a leading zero may not be followed by another digit. *)
Definition jnumber (s : list Z) : option (json * list Z) :=
  let '(neg, s1) := match s with c :: t => if c =? ch_minus then (true, t) else (false, s) | [] => (false, s) end in
  match jdigits s1 with
  | (v, n, r) =>
      if Nat.eqb n 0 then None
      else if (match s1 with c :: _ => c =? 48 | [] => false end) && negb (Nat.eqb n 1) then None
      else
        match jfrac r with
        | None => None
        | Some (f, r1) =>
            match jexp r1 with
            | None => None
            | Some (e, r2) => Some (if f || e then JReal else JInt (if neg then - v else v), r2)
            end
        end
  end.

(** The literals true, false and null. *)
Definition jliteral (s : list Z) : option (json * list Z) :=
  match s with
  | 116 :: 114 :: 117 :: 101 :: r => Some (JBool true, r)
  | 102 :: 97 :: 108 :: 115 :: 101 :: r => Some (JBool false, r)
  | 110 :: 117 :: 108 :: 108 :: r => Some (JNull, r)
  | _ => None
  end.

(** scanner.go: a value; the elements of an array; the members of an object.  White space is allowed before a value and
    around separators. *)
Fixpoint jvalue (fuel : nat) (s : list Z) : jres json :=
  match fuel with
  | O => JFuel
  | S f =>
      match jws s with
      | [] => JBad
      | c :: t =>
          if c =? ch_lbrace then
            match jws t with
            | [] => JBad
            | c1 :: t1 =>
                if c1 =? ch_rbrace then JOk (JObj []) t1
                else match jmembers f t with JOk l r => JOk (JObj l) r | JBad => JBad | JFuel => JFuel end
            end
          else if c =? ch_lbracket then
            match jws t with
            | [] => JBad
            | c1 :: t1 =>
                if c1 =? ch_rbracket then JOk (JArr []) t1
                else match jelements f t with JOk l r => JOk (JArr l) r | JBad => JBad | JFuel => JFuel end
            end
          else if c =? ch_quote then
            match jstring t with Some (v, r) => JOk (JStr v) r | None => JBad end
          else if (c =? ch_minus) || ((48 <=? c) && (c <=? 57)) then
            match jnumber (c :: t) with Some (v, r) => JOk v r | None => JBad end
          else match jliteral (c :: t) with Some (v, r) => JOk v r | None => JBad end
      end
  end
with jelements (fuel : nat) (s : list Z) : jres (list json) :=
  match fuel with
  | O => JFuel
  | S f =>
      match jvalue f s with
      | JBad => JBad
      | JFuel => JFuel
      | JOk v r =>
          match jws r with
          | [] => JBad
          | c :: t =>
              if c =? ch_comma then match jelements f t with JOk l r1 => JOk (v :: l) r1 | JBad => JBad | JFuel => JFuel end
              else if c =? ch_rbracket then JOk [v] t
              else JBad
          end
      end
  end
with jmembers (fuel : nat) (s : list Z) : jres (list (list Z * json)) :=
  match fuel with
  | O => JFuel
  | S f =>
      match jws s with
      | [] => JBad
      | q :: t0 =>
          if q =? ch_quote then
            match jstring t0 with
            | None => JBad
            | Some (k, r0) =>
                match jws r0 with
                | [] => JBad
                | d :: r1 =>
                    if d =? ch_colon then
                      match jvalue f r1 with
                      | JBad => JBad
                      | JFuel => JFuel
                      | JOk v r =>
                          match jws r with
                          | [] => JBad
                          | c :: t =>
                              if c =? ch_comma then
                                match jmembers f t with JOk l r2 => JOk ((k, v) :: l) r2 | JBad => JBad | JFuel => JFuel end
                              else if c =? ch_rbrace then JOk [(k, v)] t
                              else JBad
                          end
                      end
                    else JBad
                end
            end
          else JBad
      end
  end.

(** checkValid followed by decoding: the whole text is one value with optional white space around it. *)
Definition json_parse (s : list Z) : option json :=
  match jvalue (2 * length s + 2) s with
  | JOk v r => match jws r with [] => Some v | _ => None end
  | _ => None
  end.

(** fmt %d / strconv.AppendInt base 10. *)
Fixpoint dec_go (fuel : nat) (n : Z) (acc : list Z) : list Z :=
  match fuel with
  | O => acc
  | S f => if n <? 10 then (48 + n) :: acc else dec_go f (n / 10) ((48 + n mod 10) :: acc)
  end.
Definition fmt_nat (n : Z) : list Z := dec_go (S (Z.to_nat (Z.log2 n))) n [].
Definition fmt_int (n : Z) : list Z := if n <? 0 then ch_minus :: fmt_nat (- n) else fmt_nat n.

(** encode.go [string] with HTML escaping on (json.Marshal), for one ASCII character. *)
Definition jprint_char (c : Z) : list Z :=
  if (c =? ch_quote) || (c =? ch_bslash) then [ch_bslash; c]
  else if c =? 10 then [ch_bslash; 110]
  else if c =? 13 then [ch_bslash; 114]
  else if c =? 9 then [ch_bslash; 116]
  else if (c <? 32) || (c =? 60) || (c =? 62) || (c =? 38) then [ch_bslash; 117; 48; 48] ++ fmt_02x c
  else [c].
Definition jprint_string (s : list Z) : list Z := [ch_quote] ++ flat_map jprint_char s ++ [ch_quote].
(** encode.go: compact text of a tree ([JReal] has no text here: the code never writes one). *)
Fixpoint jprint (v : json) : list Z :=
  match v with
  | JNull => [110; 117; 108; 108]
  | JBool true => [116; 114; 117; 101]
  | JBool false => [102; 97; 108; 115; 101]
  | JInt n => fmt_int n
  | JReal => []
  | JStr s => jprint_string s
  | JArr l => [ch_lbracket] ++ join [ch_comma] (map jprint l) ++ [ch_rbracket]
  | JObj l => [ch_lbrace] ++ join [ch_comma] (map (fun kv => jprint_string (fst kv) ++ [ch_colon] ++ jprint (snd kv)) l) ++ [ch_rbrace]
  end.
