(** Base of the model: how Go values, slices, errors and panics are represented.

    Octets, septets, runes and ints are [Z]; a Go slice or string is a [list Z].
    The range of a Go [byte] is the predicate [is_byte]. *)
From Coq Require Export String.
From Coq Require Export List ZArith Lia Bool.
Export ListNotations.
Open Scope list_scope.
Open Scope Z_scope.

(** Go [byte] range: the elements of every []byte in the API, e.g.
    encoding/gsm7/7bit.go:19. *)
Definition is_byte (b : Z) : Prop := 0 <= b < 256.
(** Septet range: a byte with the top bit clear, encoding/gsm7/7bit.go:9-18. *)
Definition is_septet (b : Z) : Prop := 0 <= b < 128.

(** []byte and string, e.g. encoding/tpdu/tpdu.go:379 and 568. *)
Definition bytes := list Z.

(** Go conversion [byte(x)] of an int, e.g. encoding/tpdu/address.go:68. *)
Definition to_byte (x : Z) : Z := x mod 256.

(** Go [len], e.g. encoding/tpdu/tpdu.go:569. *)
Definition len {A} (l : list A) : Z := Z.of_nat (length l).

(** The errors returned by the library (encoding/tpdu/error.go, error.go and
    the codec packages).  Each constructor cites its origin.
    Error message formatting ([Error() string] methods) is not modelled. *)
Inductive gerr : Type :=
| ErrInvalid                      (* encoding/tpdu/error.go:74 *)
| ErrOddUCS2Length                (* encoding/tpdu/error.go:78 *)
| ErrOverlength                   (* encoding/tpdu/error.go:82 *)
| ErrMissing                      (* encoding/tpdu/error.go:85 *)
| ErrNonZero                      (* encoding/tpdu/error.go:89 *)
| ErrUnderflow                    (* encoding/tpdu/error.go:93 *)
| ErrUnsupportedSmsType (b : Z)   (* encoding/tpdu/error.go:66 *)
| EOF                             (* io.EOF *)
| DecodeErr (field : string) (offset : Z) (inner : gerr) (* encoding/tpdu/error.go:15-19 *)
| EncodeErr (field : string) (inner : gerr)              (* encoding/tpdu/error.go:39-42 *)
| BcdInvalidOctet (b : Z)         (* encoding/bcd/bcd.go:77 *)
| BcdInvalidInteger (i : Z)       (* encoding/bcd/bcd.go:85 *)
| SemiMissingFill                 (* encoding/semioctet/semioctet.go:99 *)
| SemiInvalidDigit (d : Z)        (* encoding/semioctet/semioctet.go:90 *)
| Gsm7InvalidSeptet (g : Z)       (* encoding/gsm7/gsm7.go:249 *)
| Gsm7InvalidUTF8 (r : Z)         (* encoding/gsm7/gsm7.go:256 *)
| Ucs2InvalidLength               (* encoding/ucs2/ucs2.go:69 *)
| Ucs2DanglingSurrogate (b : bytes) (* encoding/ucs2/ucs2.go:61 *)
| HexInvalidByte (b : Z)          (* encoding/hex InvalidByteError *)
| HexLength                       (* encoding/hex ErrLength *)
| ErrClosed                       (* error.go:14 *)
| ErrDcsConflict                  (* error.go:17 *)
| ErrDuplicateSegment             (* error.go:24 *)
| ErrReassemblyInconsistency.     (* error.go:28 *)

(** Outcome of a Go function call: the [(value, error)] results used throughout,
    e.g. encoding/tpdu/tpdu.go:379, with panic and non-termination as outcomes. *)
Inductive res (A : Type) : Type :=
| Ok (a : A)
| Err (e : gerr)
| Panic
| Diverge.
Arguments Ok {A} a.
Arguments Err {A} e.
Arguments Panic {A}.
Arguments Diverge {A}.

(** [if err != nil { return nil, err }], e.g. encoding/tpdu/tpdu.go:405-408. *)
Definition bind {A B} (r : res A) (f : A -> res B) : res B :=
  match r with
  | Ok a => f a
  | Err e => Err e
  | Panic => Panic
  | Diverge => Diverge
  end.

Notation "x <- m ;; k" := (bind m (fun x => k))
  (at level 60, m at next level, right associativity).
Notation "' p <- m ;; k" := (bind m (fun p => k))
  (at level 60, p pattern, m at next level, right associativity).

(** [if err != nil { return f(err) }]: rewrites the error of a result, e.g.
    encoding/tpdu/tpdu.go:406-408. *)
Definition on_err {A} (r : res A) (f : gerr -> gerr) : res A :=
  match r with
  | Err e => Err (f e)
  | _ => r
  end.

(** Go index expression [l[i]]: panics when out of range, e.g.
    encoding/tpdu/tpdu.go:572. *)
Definition idx {A} (l : list A) (i : Z) : res A :=
  if i <? 0 then Panic else
  match nth_error l (Z.to_nat i) with
  | Some x => Ok x
  | None => Panic
  end.

(** Go slice expression [l[lo:hi]], e.g. encoding/tpdu/tpdu.go:713, on a slice with cap = len: panics unless
    0 <= lo <= hi <= len l.  (Go allows hi up to cap; no caller in this code
    base relies on slicing beyond len, so the model is stricter.) *)
Definition slice {A} (l : list A) (lo hi : Z) : res (list A) :=
  if (0 <=? lo) && (lo <=? hi) && (hi <=? len l)
  then Ok (firstn (Z.to_nat (hi - lo)) (skipn (Z.to_nat lo) l))
  else Panic.

(** Go slice expression [l[lo:]], e.g. encoding/tpdu/tpdu.go:576. *)
Definition slice_from {A} (l : list A) (lo : Z) : res (list A) :=
  slice l lo (len l).

(** Go shifts on bytes, e.g. encoding/gsm7/7bit.go:33-35: [s << k] keeps 8 bits; [s >> k] with a [uint] count
    that underflowed (modelled as a negative [k]) is a huge count, giving 0. *)
Definition shl8 (s k : Z) : Z := Z.land (Z.shiftl s k) 255.
Definition ushr (s k : Z) : Z := if k <? 0 then 0 else Z.shiftr s k.

(** Go integer division panics on zero, e.g. encoding/tpdu/tpdu.go:1132. *)
Definition godiv (a b : Z) : res Z := if b =? 0 then Panic else Ok (Z.quot a b).

(** The test [err == nil], e.g. encoding/tpdu/userdata.go:373. *)
Definition is_ok {A} (r : res A) : bool :=
  match r with Ok _ => true | _ => false end.
