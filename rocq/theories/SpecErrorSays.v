(** What the text of an error says: its words, the name of the field, and the
    numbers in it as a reader understands them. *)
From Coq Require Import String Ascii.
From Verif Require Import GoBase SpecText SpecShown.

(** [b] is the numeral of [n] with the digits of [alphabet], at least [w] of
    them, and no more zeros in front than that takes. *)
Definition numeral (alphabet : bytes) (w : nat) (n : Z) (b : bytes) : Prop :=
  exists ds : list nat,
    b = map (fun d => nth d alphabet 0) ds /\
    Forall (fun d => (d < length alphabet)%nat) ds /\
    fold_left (fun a d => len alphabet * a + Z.of_nat d) ds 0 = n /\
    ds <> [] /\ (w <= length ds)%nat /\ (hd O ds = O -> length ds = Nat.max w 1).
Definition decimal := numeral "0123456789"# 1.
Definition lower_hex := numeral "0123456789abcdef"#.
Definition upper_hex := numeral "0123456789ABCDEF"#.
(** An integer of either sign. *)
Definition integer (n : Z) (b : bytes) : Prop :=
  if n <? 0 then exists d, decimal (- n) d /\ b = "-"# ++ d else decimal n b.

Fixpoint says (e : gerr) (b : bytes) : Prop :=
  match e with
  | ErrInvalid => b = "invalid"#
  | ErrOddUCS2Length => b = "odd UCS2 length"#
  | ErrOverlength => b = "overlength"#
  | ErrMissing => b = "missing"#
  | ErrNonZero => b = "non-zero fill"#
  | ErrUnderflow => b = "underflow"#
  | ErrUnsupportedSmsType n => exists x, lower_hex 1 n x /\ b = "unsupported SMS type: 0x"# ++ x
  | EOF => b = "EOF"#
  | DecodeErr field offset cause => exists x y, integer offset x /\ says cause y /\
      b = "tpdu: error decoding "# ++ field# ++ " at octet "# ++ x ++ ": "# ++ y
  | EncodeErr field cause => exists y, says cause y /\
      b = "tpdu: error encoding "# ++ field# ++ ": "# ++ y
  | BcdInvalidOctet n => exists x, lower_hex 2 n x /\ b = "bcd: invalid octet: 0x"# ++ x
  | BcdInvalidInteger n => exists x, integer n x /\ b = "bcd: invalid integer: "# ++ x
  | SemiMissingFill => b = "semioctet: last src octet missing expected fill"#
  | SemiInvalidDigit d => exists c x, utf8_char d c /\ lower_hex 1 d x /\
      b = "semioctet: invalid digit: '"# ++ c ++ "' - 0x"# ++ x
  | Gsm7InvalidSeptet n => exists x, lower_hex 2 n x /\ b = "gsm7: invalid septet 0x"# ++ x
  | Gsm7InvalidUTF8 r => exists c x, utf8_char r c /\ upper_hex 4 r x /\
      b = "gsm7: invalid utf8 '"# ++ c ++ "' (U+"# ++ x ++ ")"#
  | Ucs2InvalidLength => b = "ucs2: length must be even"#
  | Ucs2DanglingSurrogate u => exists h l x y, u = [h; l] /\ lower_hex 1 h x /\ lower_hex 1 l y /\
      b = "ucs2: dangling surrogate: []byte{0x"# ++ x ++ ", 0x"# ++ y ++ "}"#
  | HexInvalidByte n => exists c x, utf8_char n c /\ upper_hex 4 n x /\
      b = "encoding/hex: invalid byte: U+"# ++ x ++
          (* the character itself unless it is a control, a no-break space or a soft hyphen *)
          (if (n <? 32) || ((127 <=? n) && (n <=? 160)) || (n =? 173) then [] else " '"# ++ c ++ "'"#)
  | HexLength => b = "encoding/hex: odd length hex string"#
  | ErrClosed => b = "closed"#
  | ErrDcsConflict => b = "DCS conflict"#
  | ErrDuplicateSegment => b = "duplicate segment"#
  | ErrReassemblyInconsistency => b = "reassembly inconsistency"#
  end.
