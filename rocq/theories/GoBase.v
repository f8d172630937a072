(** Basic Go notions shared by every model file: bytes, slices, errors, panics.
    No proofs live here. *)
From Coq Require Import ZArith List Bool.
Import ListNotations.
Open Scope Z_scope.

(** Go conversion [byte(x)] / [uint8(x)] (used throughout /repo, e.g. address.go:33). *)
Definition byte_of (x : Z) : Z := x mod 256.

(** A value that fits a Go [byte]. *)
Definition is_byte (b : Z) : Prop := 0 <= b < 256.

(** A byte slice: every element is a byte. *)
Definition bytes_ok (l : list Z) : Prop := Forall is_byte l.

(** Go's [len] of a slice as an [int]. *)
Definition zlen {A} (l : list A) : Z := Z.of_nat (length l).

(** bytes.Equal (used at message.go:226, plm/plm.go:168): element-wise equality; nil equals empty. *)
Fixpoint bytes_eqb (a b : list Z) : bool :=
  match a, b with
  | [], [] => true
  | x :: a', y :: b' => (x =? y) && bytes_eqb a' b'
  | _, _ => false
  end.

(** [make([]byte, n)]. *)
Definition zeros (n : nat) : list Z := repeat 0 n.

(** [copy(dst, src)] into a slice of [length dst] elements: copies min(len dst, len src) elements. *)
Fixpoint go_copy (dst src : list Z) : list Z :=
  match dst, src with
  | _ :: d, s :: ss => s :: go_copy d ss
  | d, _ => d
  end.

(** Slice expression [l[a:b]] for indexes already known to be in range. *)
Definition slice {A} (l : list A) (a b : nat) : list A := firstn (b - a) (skipn a l).

(** Replace element [i] of a list (slice assignment [l[i] = x] with [i] in range). *)
Fixpoint list_set {A} (l : list A) (i : nat) (x : A) : list A :=
  match l, i with
  | [], _ => []
  | _ :: t, O => x :: t
  | h :: t, S j => h :: list_set t j x
  end.

(** Error values.  One constructor per sentinel variable per package
    (error.go:24-69, devices/error.go:10-46, plm/plm.go:32-42, util/link.go:32-35,
    util/database.go:165-166, io.EOF, io.ErrUnexpectedEOF), [EWrap] for fmt.Errorf with a %w verb and
    [EOther] for every other anonymous error (the number tells different sites apart). *)
Inductive error : Type :=
| EBufferTooShort            (* insteon.ErrBufferTooShort *)
| EInsteonReadTimeout        (* insteon.ErrReadTimeout *)
| EInsteonNotSupported       (* insteon.ErrNotSupported *)
| EInsteonNotImplemented     (* insteon.ErrNotImplemented *)
| ENotLinkable               (* insteon.ErrNotLinkable *)
| EAddrFormat                (* insteon.ErrAddrFormat *)
| EInvalidMemAddress         (* insteon.ErrInvalidMemAddress *)
| EVersion                   (* insteon.ErrVersion *)
| EUnknownCommand            (* insteon.ErrUnknownCommand *)
| EUnknown                   (* insteon.ErrUnknown *)
| EPreNak                    (* insteon.ErrPreNak *)
| EDevReadTimeout            (* devices.ErrReadTimeout *)
| EDevNotLinked              (* devices.ErrNotLinked *)
| EDevUnexpectedResponse     (* devices.ErrUnexpectedResponse *)
| EDevNoLoadDetected         (* devices.ErrNoLoadDetected *)
| EDevIllegalValue           (* devices.ErrIllegalValue *)
| EDevIncorrectChecksum      (* devices.ErrIncorrectChecksum *)
| EDevLinkIndexOutOfRange    (* devices.ErrLinkIndexOutOfRange *)
| EDevInvalidThermostatMode  (* devices.ErrInvalidThermostatMode *)
| EDevInvalidUnit            (* devices.ErrInvalidUnit *)
| EDevInvalidFanSpeed        (* devices.ErrInvalidFanSpeed *)
| EDevInvalidResponse        (* devices.ErrInvalidResponse *)
| EDevNak                    (* devices.ErrNak *)
| EPlmReadTimeout            (* plm.ErrReadTimeout *)
| EPlmNoSync                 (* plm.ErrNoSync *)
| EPlmNotImplemented         (* plm.ErrNotImplemented *)
| EPlmAckTimeout             (* plm.ErrAckTimeout *)
| EPlmRetryCountExceeded     (* plm.ErrRetryCountExceeded *)
| EPlmNoAck                  (* plm.ErrNoAck *)
| EPlmWrongAck               (* plm.ErrWrongAck *)
| EPlmWrongPayload           (* plm.ErrWrongPayload *)
| EPlmNak                    (* plm.ErrNak *)
| EUtilAlreadyLinked         (* util.ErrAlreadyLinked *)
| EUtilLinkNotFound          (* util.ErrLinkNotFound *)
| EUtilNotSaveable           (* util.ErrNotSaveable *)
| EUtilNotLoadable           (* util.ErrNotLoadable *)
| EEOF                       (* io.EOF *)
| EUnexpectedEOF             (* io.ErrUnexpectedEOF *)
| EIO (k : Z)                (* an error of the operating system / serial port *)
| EOther (k : Z)             (* errors.New / fmt.Errorf without %w at a particular site *)
| EWrap (e : error).         (* fmt.Errorf("...%w...", e) *)

(** Go's [err == sentinel]: comparison of interface values, i.e. identity; a wrapped error is a different
    value from what it wraps. *)
Fixpoint error_eqb (a b : error) : bool :=
  match a, b with
  | EBufferTooShort, EBufferTooShort => true
  | EInsteonReadTimeout, EInsteonReadTimeout => true
  | EInsteonNotSupported, EInsteonNotSupported => true
  | EInsteonNotImplemented, EInsteonNotImplemented => true
  | ENotLinkable, ENotLinkable => true
  | EAddrFormat, EAddrFormat => true
  | EInvalidMemAddress, EInvalidMemAddress => true
  | EVersion, EVersion => true
  | EUnknownCommand, EUnknownCommand => true
  | EUnknown, EUnknown => true
  | EPreNak, EPreNak => true
  | EDevReadTimeout, EDevReadTimeout => true
  | EDevNotLinked, EDevNotLinked => true
  | EDevUnexpectedResponse, EDevUnexpectedResponse => true
  | EDevNoLoadDetected, EDevNoLoadDetected => true
  | EDevIllegalValue, EDevIllegalValue => true
  | EDevIncorrectChecksum, EDevIncorrectChecksum => true
  | EDevLinkIndexOutOfRange, EDevLinkIndexOutOfRange => true
  | EDevInvalidThermostatMode, EDevInvalidThermostatMode => true
  | EDevInvalidUnit, EDevInvalidUnit => true
  | EDevInvalidFanSpeed, EDevInvalidFanSpeed => true
  | EDevInvalidResponse, EDevInvalidResponse => true
  | EDevNak, EDevNak => true
  | EPlmReadTimeout, EPlmReadTimeout => true
  | EPlmNoSync, EPlmNoSync => true
  | EPlmNotImplemented, EPlmNotImplemented => true
  | EPlmAckTimeout, EPlmAckTimeout => true
  | EPlmRetryCountExceeded, EPlmRetryCountExceeded => true
  | EPlmNoAck, EPlmNoAck => true
  | EPlmWrongAck, EPlmWrongAck => true
  | EPlmWrongPayload, EPlmWrongPayload => true
  | EPlmNak, EPlmNak => true
  | EUtilAlreadyLinked, EUtilAlreadyLinked => true
  | EUtilLinkNotFound, EUtilLinkNotFound => true
  | EUtilNotSaveable, EUtilNotSaveable => true
  | EUtilNotLoadable, EUtilNotLoadable => true
  | EEOF, EEOF => true
  | EUnexpectedEOF, EUnexpectedEOF => true
  | EIO x, EIO y => x =? y
  | EOther x, EOther y => x =? y
  | EWrap x, EWrap y => error_eqb x y
  | _, _ => false
  end.

(** Go's [err == sentinel] on a possibly-nil error variable. *)
Definition err_is (e : option error) (s : error) : bool :=
  match e with Some x => error_eqb x s | None => false end.

(** errors.Is: looks through wrapping. *)
Fixpoint errors_is (e : error) (s : error) : bool :=
  error_eqb e s || match e with EWrap x => errors_is x s | _ => false end.

(** Result of a Go call: it returns, it panics, or (for loops run on fuel) it has not finished yet. *)
Inductive outcome (A : Type) : Type :=
| Ret (a : A)
| Panic
| NoFuel.
Arguments Ret {A} a.
Arguments Panic {A}.
Arguments NoFuel {A}.

Definition bindo {A B} (x : outcome A) (f : A -> outcome B) : outcome B :=
  match x with Ret a => f a | Panic => Panic | NoFuel => NoFuel end.

Notation "'let!' x := e 'in' k" := (bindo e (fun x => k))
  (at level 200, x pattern, e at level 100, k at level 200, right associativity).

(** Index expression [l[i]] with Go's bounds check. *)
Definition go_index {A} (l : list A) (i : Z) : outcome A :=
  if (i <? 0) || (zlen l <=? i) then Panic
  else match nth_error l (Z.to_nat i) with Some x => Ret x | None => Panic end.

(** List of the bytes 0..n-1, used for exhaustive sweeps. *)
Fixpoint zrange_from (a : Z) (n : nat) : list Z :=
  match n with O => [] | S k => a :: zrange_from (a + 1) k end.
Definition all_bytes : list Z := zrange_from 0 256.
