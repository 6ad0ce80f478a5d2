(** Frames of a modem in PDU mode (3GPP TS 27.005 section 4.3): the address of
    the service centre and a TPDU, in octets or in hexadecimal; and semi-octets
    as semioctet.Decode reads them. *)
From Verif Require Import GoBase SpecText SpecBits SpecDigits SpecTpdu SpecWire Address PduMode.

(** ** Semi-octets *)

(** What is read with room for [room] digits: octets until there is no more room
    or no more octets.  A filler may be anywhere and is dropped; if there is room
    for the first digit of an octet only, the second must be a filler. *)
Inductive semi_read (room : Z) (src : bytes) : res (list Z * Z) -> Prop :=
| sr_digits p rest : src = p ++ rest -> len (digits_of p) <= room -> (len (digits_of p) < room -> rest = []) ->
    (forall p' o, p = p' ++ [o] -> len (digits_of p') < room) -> semi_read room src (Ok (digits_of p, len p))
| sr_fill p o rest : src = p ++ o :: rest -> len (digits_of p) < room < len (digits_of (p ++ [o])) ->
    semi_read room src (Err SemiMissingFill).

(** ** Hexadecimal *)
Definition hex_char (v c : Z) : Prop :=
  (0 <= v <= 9 /\ c = 48 + v) \/ (10 <= v <= 15 /\ (c = 97 + (v - 10) \/ c = 65 + (v - 10))).
Inductive hex_text : bytes -> bytes -> Prop :=
| ht_nil : hex_text [] []
| ht_octet a b ca cb o s : hex_char a ca -> hex_char b cb -> hex_text o s -> hex_text (16 * a + b :: o) (ca :: cb :: s).
Definition no_hex (c : Z) : Prop := forall v, ~ hex_char v c.
(** The first character that is no digit is reported, and otherwise an odd length. *)
Inductive hex_refused (s : bytes) : gerr -> Prop :=
| hr_char ds c rest : s = ds ++ c :: rest -> Forall (fun d => ~ no_hex d) ds -> no_hex c -> hex_refused s (HexInvalidByte c)
| hr_odd : Forall (fun d => ~ no_hex d) s -> len s mod 2 = 1 -> hex_refused s HexLength.
Definition lower (c : Z) : Prop := ~ 65 <= c <= 90.

(** ** Frames *)

(** The length of the address counts its type; there is no type if the length is
    0.  Fillers are dropped, wherever they are. *)
Inductive smsc_octets : address -> bytes -> Prop :=
| so_none : smsc_octets {| a_toa := 0; a_addr := [] |} [0]
| so_number n toa p : 0 < n -> len p = n - 1 -> smsc_octets {| a_toa := toa; a_addr := digits_of p |} (n :: toa :: p).
Definition frame (p : pdu) (src : bytes) : Prop := exists q, smsc_octets (p_smsc p) q /\ src = q ++ p_tpdu p.
Inductive frame_refused : bytes -> gerr -> Prop :=
| fr_empty : frame_refused [] (DecodeErr "length" 0 ErrUnderflow)
| fr_type n : n <> 0 -> frame_refused [n] (DecodeErr "toa" 1 ErrUnderflow)
| fr_number n toa p : len p < n - 1 -> frame_refused (n :: toa :: p) (DecodeErr "addr" 2 ErrUnderflow).

(** Written: the length modulo 256; the type is left out if there are no digits. *)
Inductive frame_written (p : pdu) : res bytes -> Prop :=
| fw_none : a_addr (p_smsc p) = [] -> frame_written p (Ok (0 :: p_tpdu p))
| fw_number q : a_addr (p_smsc p) <> [] -> semi_packed (a_addr (p_smsc p)) q ->
    frame_written p (Ok ((len q + 1) mod 256 :: a_toa (p_smsc p) :: q ++ p_tpdu p))
| fw_digit ds d rest : a_addr (p_smsc p) = ds ++ d :: rest -> Forall is_semi_digit ds -> ~ is_semi_digit d ->
    frame_written p (Err (EncodeErr "addr" (SemiInvalidDigit d))).
