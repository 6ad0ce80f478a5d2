(** C01-C03: 7-bit packing.

    [pack7bit], [unpack7bit] and the USSD variants model gsm7.Pack7Bit etc. *)
From Verif Require Import GoBase GoLemmas SevenBit SpecBits SpecUssd SevenBitProofs UssdProofs.

(** C01.  Unpacking a packed septet string gives it back, up to one trailing
    zero septet which appears exactly when seven bits of the last octet are
    spare (that is, fill + 7n = 1 mod 8). *)
Theorem C01_unpack_pack : forall u fill,
  Forall is_septet u -> 0 <= fill <= 6 ->
  unpack7bit (pack7bit u fill) fill =
    u ++ (if negb (len u =? 0) && ((fill + 7 * len u) mod 8 =? 1) then [0] else []).
Proof. exact unpack_pack. Qed.
Print Assumptions C01_unpack_pack.

Example C01_instance_plain :
  unpack7bit (pack7bit [104; 101; 108; 108; 111] 3) 3 = [104; 101; 108; 108; 111].
Proof. reflexivity. Qed.
Example C01_instance_extra_zero :
  unpack7bit (pack7bit [109; 101; 115; 115; 97; 103; 101] 0) 0
  = [109; 101; 115; 115; 97; 103; 101; 0].
Proof. reflexivity. Qed.

(** C02.  The packed octets are, as a bit stream, the fill bits, the septets and
    fewer than eight zero bits of padding; their number is ceil((fill+7n)/8). *)
Theorem C02_pack_bits : forall u fill,
  Forall is_septet u -> 0 <= fill <= 6 -> u <> [] ->
  Forall is_byte (pack7bit u fill) /\
  exists pad, (pad < 8)%nat /\
    octet_bits (pack7bit u fill) =
      repeat false (Z.to_nat fill) ++ septet_bits u ++ repeat false pad.
Proof. exact pack7bit_bits. Qed.
Print Assumptions C02_pack_bits.

Theorem C02_pack_length : forall u fill,
  Forall is_septet u -> 0 <= fill <= 6 -> u <> [] ->
  len (pack7bit u fill) = (fill + 7 * len u + 7) / 8.
Proof. exact pack7bit_len. Qed.
Print Assumptions C02_pack_length.

(** Nothing packs to nothing. *)
Theorem C02_pack_empty : forall fill, pack7bit [] fill = [].
Proof. reflexivity. Qed.
Print Assumptions C02_pack_empty.

(** Unpacking any octets drops the fill bits and cuts the rest into complete
    groups of seven bits. *)
Theorem C02_unpack_bits : forall p fill,
  Forall is_byte p -> 0 <= fill <= 6 ->
  unpack7bit p fill = cut7 (skipn (Z.to_nat fill) (octet_bits p)) /\
  Forall is_septet (unpack7bit p fill).
Proof. exact unpack7bit_spec. Qed.
Print Assumptions C02_unpack_bits.

Theorem C02_unpack_length : forall p fill,
  Forall is_byte p -> 0 <= fill <= 6 -> p <> [] ->
  len (unpack7bit p fill) = (8 * len p - fill) / 7.
Proof. exact unpack7bit_len. Qed.
Print Assumptions C02_unpack_length.

Example C02_instance :
  pack7bit [109; 101; 115; 115; 97; 103; 101; 0] 0 = [237; 242; 124; 30; 62; 151; 1] /\
  octet_bits (pack7bit [127] 1) = repeat false 1 ++ septet_bits [127] ++ repeat false 0.
Proof. split; reflexivity. Qed.

(** C03.  The full claim, for every non-empty septet string, is false: the
    common USSD string "04" loses its last digit, "*10#" style strings of six
    characters ending in # are corrupted. *)
Theorem C03_ussd_roundtrip_refuted : exists u,
  u <> [] /\ Forall is_septet u /\
  let v := unpack7bit_ussd (pack7bit_ussd u 0) 0 in ~ (v = u \/ v = u ++ [cr]).
Proof.
  exists [48; 52]. split; [discriminate|]. split.
  - repeat constructor; unfold is_septet; lia.
  - cbv. intros [E|E]; discriminate.
Qed.
Print Assumptions C03_ussd_roundtrip_refuted.

(** What holds: for every number of fill bits the strings that survive are
    exactly those not [ussd_spoiled] (SpecUssd.v), and they survive unchanged.
    Missing from the full claim: the spoiled strings. *)
Theorem C03_ussd_roundtrip_partial : forall u fill, u <> [] -> Forall is_septet u -> 0 <= fill <= 6 ->
  (ussd_spoiled fill u = false -> unpack7bit_ussd (pack7bit_ussd u fill) fill = u) /\
  (ussd_spoiled fill u = true ->
     let v := unpack7bit_ussd (pack7bit_ussd u fill) fill in ~ (v = u \/ v = u ++ [cr])).
Proof. exact ussd_exact. Qed.
Print Assumptions C03_ussd_roundtrip_partial.

Example C03_instance_good : (* "*101#" , and 7 and 8 characters ending in CR *)
  ussd_spoiled 0 [42; 49; 48; 49; 35] = false /\
  ussd_spoiled 0 [42; 49; 48; 49; 35; 35; 13] = false /\
  ussd_spoiled 0 [42; 49; 48; 49; 35; 35; 35; 13] = false.
Proof. repeat split; reflexivity. Qed.
Example C03_instance_spoiled : (* "*1001#" *)
  ussd_spoiled 0 [42; 49; 48; 48; 49; 35] = true /\
  unpack7bit_ussd (pack7bit_ussd [42; 49; 48; 48; 49; 35] 0) 0 = [42; 49; 48; 48; 49].
Proof. split; reflexivity. Qed.
Example C03_instance_fill : (* "*101#" with two fill bits, "*101#<CR>" and "*10101#<CR>" with six *)
  ussd_spoiled 2 [42; 49; 48; 49; 35] = false /\
  ussd_spoiled 6 [42; 49; 48; 49; 35; 13] = true /\
  unpack7bit_ussd (pack7bit_ussd [42; 49; 48; 49; 35; 13] 6) 6 = [42; 49; 48; 49; 35] /\
  ussd_spoiled 6 [42; 49; 48; 49; 48; 49; 35; 13] = true /\
  unpack7bit_ussd (pack7bit_ussd [42; 49; 48; 49; 48; 49; 35; 13] 6) 6 = [42; 49; 48; 49; 48; 49; 35; 13; 52].
Proof. repeat split; reflexivity. Qed.
