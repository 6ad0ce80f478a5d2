(** Model of the Error methods: the text of every error of the library. *)
From Coq Require Import String Ascii.
From Verif Require Import GoBase Utf Collector Print.

(** The digit of a nibble in upper case, the verb %U of encoding/gsm7/gsm7.go:259. *)
Definition hex_digit_upper (n : Z) : Z := if n <? 10 then 48 + n else 55 + n.

(** A number in hexadecimal, without leading zeros, with the given digits: the
    verb %x, e.g. encoding/tpdu/error.go:69. *)
Fixpoint hex_loop (digit : Z -> Z) (fuel : nat) (n : Z) (acc : bytes) : bytes :=
  match fuel with
  | O => acc
  | S f => let acc := digit (n mod 16) :: acc in
           if n <? 16 then acc else hex_loop digit f (n / 16) acc
  end.
Definition fmt_x (n : Z) : bytes := hex_loop hex_digit (S (Z.to_nat (Z.log2 n))) n [].

(** The verb %U, encoding/gsm7/gsm7.go:259: at least four digits. *)
Definition fmt_U (n : Z) : bytes :=
  let d := hex_loop hex_digit_upper (S (Z.to_nat (Z.log2 n))) n [] in
  str "U+" ++ repeat 48 (4 - length d) ++ d.

(** The verb %#U of encoding/hex, for an octet, under
    encoding/pdumode/pdu.go:56: the character is added if it is printable
    (strconv.IsPrint). *)
Definition fmt_sharp_U (b : Z) : bytes :=
  fmt_U b ++
  (if in_range b 32 126 || in_range b 161 172 || in_range b 174 255
   then str " '" ++ encode_rune b ++ str "'" else []).

(** The verb %#v on a []byte, encoding/ucs2/ucs2.go:64. *)
Definition fmt_sharp_v (l : bytes) : bytes :=
  str "[]byte{" ++
  match l with
  | [] => []
  | b :: l' => str "0x" ++ fmt_x b ++ flat_map (fun x => str ", 0x" ++ fmt_x x) l'
  end ++ str "}".

(** [Error()] of each error: encoding/tpdu/error.go:56-95,
    encoding/bcd/bcd.go:79-89, encoding/semioctet/semioctet.go:92-100,
    encoding/gsm7/gsm7.go:251-260, encoding/ucs2/ucs2.go:63-70, error.go:11-29,
    and those of the packages io and encoding/hex. *)
Fixpoint error_text (e : gerr) : bytes :=
  match e with
  | ErrInvalid => str "invalid"
  | ErrOddUCS2Length => str "odd UCS2 length"
  | ErrOverlength => str "overlength"
  | ErrMissing => str "missing"
  | ErrNonZero => str "non-zero fill"
  | ErrUnderflow => str "underflow"
  | ErrUnsupportedSmsType b => str "unsupported SMS type: 0x" ++ fmt_x b
  | EOF => str "EOF"
  | DecodeErr field offset inner =>
      str "tpdu: error decoding " ++ str field ++ str " at octet " ++ fmt_int offset ++ str ": " ++
      error_text inner
  | EncodeErr field inner => str "tpdu: error encoding " ++ str field ++ str ": " ++ error_text inner
  | BcdInvalidOctet b => str "bcd: invalid octet: 0x" ++ fmt_02x b
  | BcdInvalidInteger i => str "bcd: invalid integer: " ++ fmt_int i
  | SemiMissingFill => str "semioctet: last src octet missing expected fill"
  | SemiInvalidDigit d => str "semioctet: invalid digit: '" ++ encode_rune d ++ str "' - 0x" ++ fmt_x d
  | Gsm7InvalidSeptet g => str "gsm7: invalid septet 0x" ++ fmt_02x g
  | Gsm7InvalidUTF8 r => str "gsm7: invalid utf8 '" ++ encode_rune r ++ str "' (" ++ fmt_U r ++ str ")"
  | Ucs2InvalidLength => str "ucs2: length must be even"
  | Ucs2DanglingSurrogate b => str "ucs2: dangling surrogate: " ++ fmt_sharp_v b
  | HexInvalidByte b => str "encoding/hex: invalid byte: " ++ fmt_sharp_U b
  | HexLength => str "encoding/hex: odd length hex string"
  | ErrClosed => str "closed"
  | ErrDcsConflict => str "DCS conflict"
  | ErrDuplicateSegment => str "duplicate segment"
  | ErrReassemblyInconsistency => str "reassembly inconsistency"
  end.
