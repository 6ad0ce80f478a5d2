(** Independent specification of the text encodings: Unicode scalar values,
    UTF-8 (RFC 3629), UTF-16BE (RFC 2781), and the reading of GSM 7-bit
    septets as characters (3GPP TS 23.038 section 6.2). *)
From Coq Require Import List ZArith Bool.
Import ListNotations.
Open Scope Z_scope.

(** Unicode scalar values: code points that are not surrogates. *)
Definition scalar (r : Z) : Prop := 0 <= r <= 55295 \/ 57344 <= r <= 1114111.

(** The UTF-8 form of a scalar value, by groups of six bits. *)
Inductive utf8_char : Z -> list Z -> Prop :=
| u8_1 a : 0 <= a < 128 -> utf8_char a [a]
| u8_2 a b : 0 <= b < 64 -> 128 <= 64 * a + b < 2048 ->
    utf8_char (64 * a + b) [192 + a; 128 + b]
| u8_3 a b c : 0 <= b < 64 -> 0 <= c < 64 ->
    2048 <= 4096 * a + 64 * b + c < 65536 -> scalar (4096 * a + 64 * b + c) ->
    utf8_char (4096 * a + 64 * b + c) [224 + a; 128 + b; 128 + c]
| u8_4 a b c d : 0 <= b < 64 -> 0 <= c < 64 -> 0 <= d < 64 ->
    65536 <= 262144 * a + 4096 * b + 64 * c + d <= 1114111 ->
    utf8_char (262144 * a + 4096 * b + 64 * c + d)
              [240 + a; 128 + b; 128 + c; 128 + d].

(** [utf8_text rs s]: the octets [s] are the valid UTF-8 form of the
    characters [rs]. *)
Inductive utf8_text : list Z -> list Z -> Prop :=
| u8_nil : utf8_text [] []
| u8_cons r b rs s : utf8_char r b -> utf8_text rs s -> utf8_text (r :: rs) (b ++ s).

(** Valid UTF-8. *)
Definition valid_utf8 (s : list Z) : Prop := exists rs, utf8_text rs s.

(** The UTF-16 code units of a scalar value. *)
Inductive utf16_char : Z -> list Z -> Prop :=
| u16_1 r : scalar r -> r < 65536 -> utf16_char r [r]
| u16_2 hi lo : 0 <= hi < 1024 -> 0 <= lo < 1024 ->
    utf16_char (65536 + 1024 * hi + lo) [55296 + hi; 56320 + lo].
Inductive utf16_text : list Z -> list Z -> Prop :=
| u16_nil : utf16_text [] []
| u16_cons r u rs us : utf16_char r u -> utf16_text rs us -> utf16_text (r :: rs) (u ++ us).

(** Code units as octets, most significant first. *)
Inductive be_units : list Z -> list Z -> Prop :=
| be_nil : be_units [] []
| be_cons u us h l s : 0 <= h < 256 -> 0 <= l < 256 -> u = 256 * h + l ->
    be_units us s -> be_units (u :: us) (h :: l :: s).

(** [utf16be rs s]: the octets [s] are the well-formed UTF-16BE form of [rs]. *)
Definition utf16be (rs s : list Z) : Prop := exists us, utf16_text rs us /\ be_units us s.

(** How septets read as characters, given the lookups in the locking table
    [set] and the shift table [ext]: ESC selects the shift table for the next
    septet, falling back to the locking table; ESC ESC, a trailing ESC and
    unknown codes display as a space. *)
Definition or_else (a b : option Z) : option Z := match a with Some _ => a | None => b end.
Definition or_space (a : option Z) : Z := match a with Some r => r | None => 32 end.
Fixpoint gsm7_chars (set ext : Z -> option Z) (src : list Z) : list Z :=
  match src with
  | [] => []
  | g :: src1 =>
      if g =? 27 then
        match src1 with
        | [] => [32]
        | x :: src2 =>
            (if x =? 27 then 32 else or_space (or_else (ext x) (set x)))
            :: gsm7_chars set ext src2
        end
      else or_space (set g) :: gsm7_chars set ext src1
  end.

(** The first septet with no mapping in its own table, if any. *)
Fixpoint gsm7_fault (set ext : Z -> option Z) (src : list Z) : option Z :=
  match src with
  | [] => None
  | g :: src1 =>
      if g =? 27 then
        match src1 with
        | [] => None
        | x :: src2 =>
            if x =? 27 then gsm7_fault set ext src2
            else match ext x with
                 | None => Some x
                 | Some _ => gsm7_fault set ext src2
                 end
        end
      else match set g with
           | None => Some g
           | Some _ => gsm7_fault set ext src1
           end
  end.

(** The code of character [r] in a table of (code, character) pairs: the least
    one, or none. *)
Definition least_code (d : list (Z * Z)) (r : Z) (o : option Z) : Prop :=
  match o with
  | Some k => In (k, r) d /\ forall k', In (k', r) d -> k <= k'
  | None => forall k', ~ In (k', r) d
  end.
