(** Model of encoding/semioctet/semioctet.go. *)
From Verif Require Import GoBase.

(** encoding/semioctet/semioctet.go:15 [decodeDigits] ("0123456789*#abcF"). *)
Definition decode_digits : list Z :=
  [48;49;50;51;52;53;54;55;56;57;42;35;97;98;99;70].

(** 'F', encoding/semioctet/semioctet.go:29-41. *)
Definition fillF : Z := 70.

(** encoding/semioctet/semioctet.go:24-45 [Decode].  [dlen] is len(dst), the
    only thing about the destination that matters; [out] is dst[:wi].  The
    result is the decoded digits and the number of octets read.  A write
    dst[wi] with wi = len(dst) is the Go panic. *)
Fixpoint semi_decode_loop (dlen : Z) (src : bytes) (out : list Z) (ri : Z)
  : res (list Z * Z) :=
  if negb (len out <? dlen) then Ok (out, ri) else
  match src with
  | [] => Ok (out, ri)
  | o :: src' =>
      d <- idx decode_digits (Z.land o 15) ;;
      let out := if negb (d =? fillF) then out ++ [d] else out in
      d <- idx decode_digits (Z.shiftr o 4) ;;
      let ri := ri + 1 in
      if (len out =? dlen) && negb (d =? fillF) then Err SemiMissingFill
      else if d =? fillF then semi_decode_loop dlen src' out ri
      else if len out <? dlen then semi_decode_loop dlen src' (out ++ [d]) ri
      else Panic
  end.

Definition semi_decode (dlen : Z) (src : bytes) : res (list Z * Z) :=
  semi_decode_loop dlen src [] 0.

(** encoding/semioctet/semioctet.go:47-50 [encodeDigits]. *)
Definition encode_digit (d : Z) : option Z :=
  if (48 <=? d) && (d <=? 57) then Some (d - 48)
  else if d =? 42 then Some 10
  else if d =? 35 then Some 11
  else if d =? 97 then Some 12
  else if d =? 98 then Some 13
  else if d =? 99 then Some 14
  else None.

(** encoding/semioctet/semioctet.go:57-86 [Encode].  The accumulator is the Go
    pair (hi, p): [None] is hi = false.  The output buffer is allocated with
    the exact length in Go; here it is built in order. *)
Fixpoint semi_encode_loop (src : list Z) (p : option Z) : res bytes :=
  match src with
  | [] => match p with
          | Some p => Ok [to_byte (Z.lor p 240)]
          | None => Ok []
          end
  | d :: src' =>
      match encode_digit d with
      | None => Err (SemiInvalidDigit d)
      | Some e =>
          match p with
          | Some p => rest <- semi_encode_loop src' None ;;
                      Ok (to_byte (Z.lor p (Z.shiftl e 4)) :: rest)
          | None => semi_encode_loop src' (Some e)
          end
      end
  end.

Definition semi_encode (src : list Z) : res bytes :=
  if len src =? 0 then Ok [] else semi_encode_loop src None.
