(** Model of cmd/ic/vars.go and util/vars.go: command-line arguments. *)
From Coq Require Import ZArith List Bool.
From Verif Require Import GoBase GoText Address.
Import ListNotations.
Open Scope Z_scope.

(** strconv.ErrSyntax and strconv.ErrRange (inside a *NumError). *)
Definition err_syntax : error := EOther 54.
Definition err_range : error := EOther 58.

(** strconv.ParseInt(s, 16, 8): value or error.  With an explicit base there are no prefixes and no underscores. *)
Definition parse_int8_hex (s : list Z) : Z + error :=
  let '(neg, body) := match s with
                      | c :: t => if c =? ch_minus then (true, t) else if c =? ch_plus then (false, t) else (false, s)
                      | [] => (false, s) end in
  match all_digits_val hex_val 16 body with
  | None => inr err_syntax
  | Some v =>
      if neg then (if v <=? 128 then inl (- v) else inr err_range)
      else (if v <? 128 then inl v else inr err_range)
  end.

(** cmd/ic/vars.go:49-52: the first dot, wherever it is, is taken out. *)
Fixpoint drop_dot (s : list Z) : list Z :=
  match s with
  | [] => []
  | c :: t => if c =? ch_dot then t else c :: drop_dot t
  end.

(** cmd/ic/vars.go:47-71 [cmdVar.Set] on receiver [old]: new command and error.  len and slicing count bytes. *)
Definition cmdvar_set (old : Z) (str : list Z) : Z * option error :=
  let s := utf8_text (drop_dot str) in
  if negb (zlen s =? 4) then (old, Some err_syntax)
  else
    match parse_int8_hex (slice s 0 2) with
    | inr e => (old, Some e)
    | inl c1 =>
        match parse_int8_hex (skipn 2 s) with
        | inr e => (old, Some e)
        | inl c2 => (Z.lor (Z.shiftl (Z.land c1 0xff) 8) (Z.land c2 0xff), None)
        end
    end.

(** cmd/ic/vars.go:27-38 [dataVar.Set] on receiver [old]: fmt.Sscanf(s, "%x", &b) of every argument, up to the first
    error (which error is not modelled). *)
Fixpoint datavar_set (old : list Z) (str : list (list Z)) : list Z * option error :=
  match str with
  | [] => (old, None)
  | s :: t =>
      match scan_hex8 None s with
      | Some (b, _) => datavar_set (old ++ [b]) t
      | None => (old, Some (EOther 30))
      end
  end.

(** util/vars.go:11-21 [Addresses.Set] on receiver [old]. *)
Fixpoint addresses_set (old : list Z) (str : list (list Z)) : list Z * option error :=
  match str with
  | [] => (old, None)
  | s :: t =>
      match addr_unmarshal_text 0 s with
      | (_, Some e) => (old, Some e)
      | (a, None) => addresses_set (old ++ [a]) t
      end
  end.

(** util/vars.go:27-33 [Addresses.String]. *)
Definition addresses_string (l : list Z) : list Z := join [ch_space] (map addr_string l).
