(** C04, C05: semi-octets and BCD. *)
From Verif Require Import GoBase GoLemmas Bcd Semioctet SpecDigits DigitsProofs.

(** C04.  Every digit string encodes to ceil(n/2) octets holding the digits two
    by two, and decodes back to itself, whatever follows. *)
Theorem C04_semioctet_roundtrip : forall ds, Forall is_semi_digit ds ->
  exists p, semi_encode ds = Ok p /\ len p = (len ds + 1) / 2 /\ Forall is_byte p /\
    semi_packed ds p /\
    forall rest, semi_decode (len ds) (p ++ rest) = Ok (ds, len p).
Proof. exact semi_roundtrip. Qed.
Print Assumptions C04_semioctet_roundtrip.

(** Any other character is rejected, naming the first one. *)
Theorem C04_semioctet_invalid : forall ds d rest,
  Forall is_semi_digit ds -> ~ is_semi_digit d ->
  semi_encode (ds ++ d :: rest) = Err (SemiInvalidDigit d).
Proof. exact semi_encode_err. Qed.
Print Assumptions C04_semioctet_invalid.

(** Decoding any octets into a destination of any length is safe: digits only,
    never more than fit, never reading past the source; the only error is the
    missing fill. *)
Theorem C04_semioctet_decode_safe : forall dlen src, 0 <= dlen -> Forall is_byte src ->
  (exists out n, semi_decode dlen src = Ok (out, n) /\
     len out <= dlen /\ 0 <= n <= len src /\ Forall is_semi_digit out)
  \/ semi_decode dlen src = Err SemiMissingFill.
Proof. exact semi_decode_safe. Qed.
Print Assumptions C04_semioctet_decode_safe.

Example C04_instance : (* "12*#a" *)
  Forall is_semi_digit [49; 50; 42; 35; 97] /\
  semi_encode [49; 50; 42; 35; 97] = Ok [33; 186; 252] /\
  semi_decode 5 [33; 186; 252; 99] = Ok ([49; 50; 42; 35; 97], 3) /\
  semi_decode 1 [33] = Err SemiMissingFill /\
  ~ is_semi_digit 100 /\ semi_encode [49; 100] = Err (SemiInvalidDigit 100).
Proof.
  split; [|repeat split; try reflexivity].
  - unfold is_semi_digit; repeat (constructor; [cbn; intuition|]). constructor.
  - unfold is_semi_digit; cbn; intuition discriminate.
Qed.

(** C05.  Encode succeeds exactly on 0..99, Decode inverts it. *)
Theorem C05_bcd_encode : forall u,
  bcd_encode u = if (0 <=? u) && (u <=? 99) then Ok (bcd_octet u) else Err (BcdInvalidInteger u).
Proof. exact bcd_encode_spec. Qed.
Print Assumptions C05_bcd_encode.

Theorem C05_bcd_decode_encode : forall u b, bcd_encode u = Ok b -> bcd_decode b = Ok u.
Proof. exact bcd_decode_encode. Qed.
Print Assumptions C05_bcd_decode_encode.

(** Decode succeeds exactly on octets of two decimal digits, and re-encoding
    gives the octet back. *)
Theorem C05_bcd_decode : forall b, is_byte b ->
  bcd_decode b = if (b mod 16 <=? 9) && (b / 16 <=? 9) then Ok (10 * (b mod 16) + b / 16)
                 else Err (BcdInvalidOctet b).
Proof. exact bcd_decode_spec. Qed.
Print Assumptions C05_bcd_decode.

Theorem C05_bcd_encode_decode : forall b u,
  is_byte b -> bcd_decode b = Ok u -> bcd_encode u = Ok b.
Proof. exact bcd_encode_decode. Qed.
Print Assumptions C05_bcd_encode_decode.

(** The signed variants: exactly -79..79; the sign is bit 3. *)
Theorem C05_bcd_encode_signed : forall s,
  bcd_encode_signed s =
    if (-79 <=? s) && (s <=? 79) then Ok (bcd_octet (Z.abs s) + (if s <? 0 then 8 else 0))
    else Err (BcdInvalidInteger s).
Proof. exact bcd_encode_signed_spec. Qed.
Print Assumptions C05_bcd_encode_signed.

Theorem C05_bcd_decode_encode_signed : forall s b,
  bcd_encode_signed s = Ok b -> bcd_decode_signed b = Ok s.
Proof. exact bcd_decode_signed_encode. Qed.
Print Assumptions C05_bcd_decode_encode_signed.

Theorem C05_bcd_decode_signed : forall b, is_byte b ->
  bcd_decode_signed b =
    if b / 16 <=? 9 then Ok ((if Z.testbit b 3 then -1 else 1) * (10 * (b mod 8) + b / 16))
    else Err (BcdInvalidOctet b).
Proof. exact bcd_decode_signed_spec. Qed.
Print Assumptions C05_bcd_decode_signed.

(** Re-encoding a decoded signed octet gives it back, except for minus zero. *)
Theorem C05_bcd_encode_decode_signed : forall b s, is_byte b -> b <> 8 ->
  bcd_decode_signed b = Ok s -> bcd_encode_signed s = Ok b.
Proof. exact bcd_encode_signed_decode. Qed.
Print Assumptions C05_bcd_encode_decode_signed.

Example C05_instance :
  bcd_encode 42 = Ok 36 /\ bcd_decode 36 = Ok 42 /\ bcd_encode_signed (-35) = Ok 91 /\
  bcd_decode_signed 91 = Ok (-35) /\ bcd_decode 26 = Err (BcdInvalidOctet 26).
Proof. repeat split; reflexivity. Qed.
