(** Model of encoding/bcd/bcd.go. *)
From Verif Require Import GoBase.

(** encoding/bcd/bcd.go:15-22 [Decode].  [msn*10 + lsn] is byte arithmetic in
    Go; it cannot wrap because both nibbles are at most 9 there. *)
Definition bcd_decode (b : Z) : res Z :=
  let msn := Z.land b 15 in
  let lsn := Z.shiftr b 4 in
  if (9 <? msn) || (9 <? lsn) then Err (BcdInvalidOctet b)
  else Ok (to_byte (msn * 10 + lsn)).

(** encoding/bcd/bcd.go:26-37 [DecodeSigned]. *)
Definition bcd_decode_signed (b : Z) : res Z :=
  let msn := Z.land b 7 in
  let lsn := Z.shiftr b 4 in
  if 9 <? lsn then Err (BcdInvalidOctet b)
  else
    let retval := to_byte (msn * 10 + lsn) in
    if negb (Z.land b 8 =? 0) then Ok (- retval) else Ok retval.

(** encoding/bcd/bcd.go:43-51 [Encode].  Go's [%] and [/] truncate towards
    zero ([Z.rem], [Z.quot]). *)
Definition bcd_encode (u : Z) : res Z :=
  if (u <? 0) || (99 <? u) then Err (BcdInvalidInteger u)
  else
    let msn := Z.rem u 10 in
    let lsn := Z.quot u 10 in
    Ok (to_byte (Z.lor (Z.shiftl msn 4) lsn)).

(** encoding/bcd/bcd.go:58-71 [EncodeSigned]. *)
Definition bcd_encode_signed (s : Z) : res Z :=
  if (s <? -79) || (79 <? s) then Err (BcdInvalidInteger s)
  else
    let b0 := if s <? 0 then 8 else 0 in
    let a := if s <? 0 then - s else s in
    let msn := Z.rem a 10 in
    let lsn := Z.quot a 10 in
    Ok (to_byte (Z.lor (Z.lor b0 (Z.shiftl msn 4)) lsn)).
