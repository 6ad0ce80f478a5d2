(** The errors that occur: field names are words and dots, octets are octets,
    characters are characters. *)
From Coq Require Import String Ascii.
From Verif Require Import GoBase SpecText.

(** A name of letters, digits and dots. *)
Definition name_char (c : ascii) : bool :=
  let n := Z.of_nat (nat_of_ascii c) in
  ((48 <=? n) && (n <=? 57)) || ((65 <=? n) && (n <=? 90)) || ((97 <=? n) && (n <=? 122)) || (n =? 46).
Fixpoint field_path (s : string) : bool :=
  match s with
  | EmptyString => true
  | String c s => name_char c && field_path s
  end.

Fixpoint proper_error (e : gerr) : Prop :=
  match e with
  | ErrUnsupportedSmsType b | BcdInvalidOctet b | SemiInvalidDigit b | Gsm7InvalidSeptet b | HexInvalidByte b => is_byte b
  | DecodeErr field offset inner => field_path field = true /\ proper_error inner
  | EncodeErr field inner => field_path field = true /\ proper_error inner
  | Gsm7InvalidUTF8 r => scalar r
  | Ucs2DanglingSurrogate b => len b = 2 /\ Forall is_byte b
  | _ => True
  end.

(** Why octets are refused: they end too soon or go on too long, a value is not
    defined, the type of message is not, fill is not zero or missing, half a
    UCS-2 character, an octet that is no pair of decimal digits, a septet the
    default alphabet does not have. *)
Inductive decode_cause : gerr -> Prop :=
| dc_underflow : decode_cause ErrUnderflow
| dc_overlength : decode_cause ErrOverlength
| dc_invalid : decode_cause ErrInvalid
| dc_type st : 6 <= st <= 7 -> decode_cause (ErrUnsupportedSmsType st)
| dc_nonzero : decode_cause ErrNonZero
| dc_fill : decode_cause SemiMissingFill
| dc_odd : decode_cause ErrOddUCS2Length
| dc_digits b : is_byte b -> decode_cause (BcdInvalidOctet b)
| dc_septet g : 0 <= g < 128 -> decode_cause (Gsm7InvalidSeptet g).

(** Why a TPDU cannot be written: an undefined value, an odd number of octets
    of UCS-2, a number with more than two digits, a digit or a character an
    address cannot hold. *)
Inductive encode_cause : gerr -> Prop :=
| ec_invalid : encode_cause ErrInvalid
| ec_odd : encode_cause ErrOddUCS2Length
| ec_integer i : encode_cause (BcdInvalidInteger i)
| ec_digit b : is_byte b -> encode_cause (SemiInvalidDigit b)
| ec_char r : scalar r -> encode_cause (Gsm7InvalidUTF8 r).
