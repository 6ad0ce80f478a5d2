(** Model of the parts of the Go language and standard library that handle
    UTF-8, UTF-16 and hex text.  These are trusted descriptions of
    unicode/utf8, unicode/utf16, encoding/hex and of [for range string],
    [string(rune)], [[]rune(string)] and [string([]rune)]. *)
From Verif Require Import GoBase.

(** unicode/utf8.RuneError, U+FFFD; the result of encoding/ucs2/ucs2.go:36 for
    an invalid pair. *)
Definition rune_error : Z := 65533.

(** [lo <= b <= hi]: used for the octet ranges of UTF-8 by
    encoding/gsm7/gsm7.go:220 and for surrogates by encoding/ucs2/ucs2.go:30. *)
Definition in_range (b lo hi : Z) : bool := (lo <=? b) && (b <=? hi).

(** unicode/utf8.DecodeRune on a non-empty string: the rune and the number of
    octets consumed; invalid encodings give U+FFFD and consume one octet.
    Used by [for range string(src)] in encoding/gsm7/gsm7.go:220 and by
    [[]rune(string(msg))] in encoding/tpdu/userdata.go. *)
Definition decode_rune (s : bytes) : Z * nat :=
  match s with
  | [] => (rune_error, O)
  | b0 :: s1 =>
      if b0 <? 128 then (b0, 1%nat)
      else if in_range b0 194 223 then
        match s1 with
        | b1 :: _ =>
            if in_range b1 128 191
            then ((b0 - 192) * 64 + (b1 - 128), 2%nat)
            else (rune_error, 1%nat)
        | _ => (rune_error, 1%nat)
        end
      else if in_range b0 224 239 then
        match s1 with
        | b1 :: b2 :: _ =>
            let lo := if b0 =? 224 then 160 else 128 in
            let hi := if b0 =? 237 then 159 else 191 in
            if in_range b1 lo hi && in_range b2 128 191
            then ((b0 - 224) * 4096 + (b1 - 128) * 64 + (b2 - 128), 3%nat)
            else (rune_error, 1%nat)
        | _ => (rune_error, 1%nat)
        end
      else if in_range b0 240 244 then
        match s1 with
        | b1 :: b2 :: b3 :: _ =>
            let lo := if b0 =? 240 then 144 else 128 in
            let hi := if b0 =? 244 then 143 else 191 in
            if in_range b1 lo hi && in_range b2 128 191 && in_range b3 128 191
            then ((b0 - 240) * 262144 + (b1 - 128) * 4096
                  + (b2 - 128) * 64 + (b3 - 128), 4%nat)
            else (rune_error, 1%nat)
        | _ => (rune_error, 1%nat)
        end
      else (rune_error, 1%nat)
  end.

(** [for _, u := range string(s)] (encoding/gsm7/gsm7.go:220) and
    [[]rune(string(s))] (encoding/tpdu/userdata.go:419): the runes of a string.  [skip] counts the
    octets still belonging to the previous rune. *)
Fixpoint runes_skip (skip : nat) (s : bytes) : list Z :=
  match s with
  | [] => []
  | b :: s' =>
      match skip with
      | S k => runes_skip k s'
      | O => let '(r, n) := decode_rune s in r :: runes_skip (Nat.pred n) s'
      end
  end.

Definition runes_of (s : bytes) : list Z := runes_skip 0 s.

(** unicode/utf8.EncodeRune, i.e. [[]byte(string(r))]
    (encoding/gsm7/gsm7.go:88-126): out-of-range runes and
    surrogates are encoded as U+FFFD. *)
Definition encode_rune (r : Z) : bytes :=
  let r := if (r <? 0) || (1114111 <? r) || in_range r 55296 57343
           then rune_error else r in
  if r <=? 127 then [r]
  else if r <=? 2047 then [192 + r / 64; 128 + r mod 64]
  else if r <=? 65535 then
    [224 + r / 4096; 128 + (r / 64) mod 64; 128 + r mod 64]
  else
    [240 + r / 262144; 128 + (r / 4096) mod 64; 128 + (r / 64) mod 64;
     128 + r mod 64].

(** [[]byte(string(rs))], encoding/tpdu/userdata.go:193. *)
Definition utf8_of (rs : list Z) : bytes := flat_map encode_rune rs.

(** unicode/utf16.IsSurrogate, encoding/ucs2/ucs2.go:30. *)
Definition is_surrogate (r : Z) : bool := in_range r 55296 57343.

(** unicode/utf16.DecodeRune, encoding/ucs2/ucs2.go:36. *)
Definition utf16_decode_rune (r1 r2 : Z) : Z :=
  if in_range r1 55296 56319 && in_range r2 56320 57343
  then (r1 - 55296) * 1024 + (r2 - 56320) + 65536
  else rune_error.

(** unicode/utf16.Encode, one rune, encoding/ucs2/ucs2.go:49. *)
Definition utf16_encode_rune (r : Z) : list Z :=
  if in_range r 0 55295 || in_range r 57344 65535 then [r]
  else if in_range r 65536 1114111 then
    let r' := r - 65536 in [55296 + (r' / 1024) mod 1024; 56320 + r' mod 1024]
  else [rune_error].

(** unicode/utf16.Encode, encoding/ucs2/ucs2.go:49. *)
Definition utf16_encode (rs : list Z) : list Z := flat_map utf16_encode_rune rs.

(** encoding/hex: the digit of a nibble, lower case; encoding/pdumode/pdu.go:79. *)
Definition hex_digit (n : Z) : Z := if n <? 10 then 48 + n else 87 + n.

(** encoding/hex.EncodeToString, encoding/pdumode/pdu.go:79. *)
Definition hex_encode (s : bytes) : bytes :=
  flat_map (fun b => [hex_digit (b / 16); hex_digit (b mod 16)]) s.

(** encoding/hex fromHexChar, encoding/pdumode/pdu.go:56. *)
Definition from_hex_char (c : Z) : option Z :=
  if in_range c 48 57 then Some (c - 48)
  else if in_range c 97 102 then Some (c - 87)
  else if in_range c 65 70 then Some (c - 55)
  else None.

(** encoding/hex.DecodeString, encoding/pdumode/pdu.go:56 (the partial result on error is dropped). *)
Fixpoint hex_decode (s : bytes) : res bytes :=
  match s with
  | [] => Ok []
  | [c] => match from_hex_char c with
           | None => Err (HexInvalidByte c)
           | Some _ => Err HexLength
           end
  | c1 :: c2 :: s' =>
      match from_hex_char c1 with
      | None => Err (HexInvalidByte c1)
      | Some a =>
          match from_hex_char c2 with
          | None => Err (HexInvalidByte c2)
          | Some b => rest <- hex_decode s' ;; Ok (a * 16 + b :: rest)
          end
      end
  end.
