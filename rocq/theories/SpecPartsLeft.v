(** The numbers of octets reported by UnmarshalBinary of a part of a TPDU, and what
    it leaves of the value it is called on.  What it reads is [SpecWire], and how it
    fails [SpecRefuse] and [SpecPdu]. *)
From Verif Require Import GoBase Address GoTime ValidityPeriod SpecDigits SpecWire SpecRefuse.

(** Why, without the place. *)
Definition reason (e : gerr) : gerr := match e with DecodeErr _ _ why => why | _ => e end.

(** Of an address: none, if not even its type is there; all, if there are fewer
    octets than announced; only the length and the type, if the text is strange;
    and otherwise, for the wrong number of digits, those of the address. *)
Definition address_number (b : bytes) (why : gerr) : Z :=
  let whole := 2 + (hd 0 b + 1) / 2 in
  if len b <? 2 then 0
  else if len b <? whole then len b
  else match why with Gsm7InvalidSeptet _ => 2 | _ => whole end.

(** Of a validity period: 7 if it is absolute, however many there are. *)
Definition period_number (format : Z) (b : bytes) (why : gerr) : Z :=
  match format with
  | 3 => 7
  | 1 => match why with
         | ErrInvalid => 7
         | BcdInvalidOctet _ => 4
         | ErrNonZero => 1 + in_use (hd 0 b mod 8)
         | _ => 0
         end
  | _ => 0
  end.

(** A validity period that is not there, with what else [v] holds. *)
Definition absent (v l : validity) : Prop :=
  vp_format l = 0 /\ vp_time l = vp_time v /\ vp_duration l = vp_duration v /\ vp_efi l = vp_efi v.

(** [z] is read, and [v] keeps what its format does not use. *)
Definition renewed (v z l : validity) : Prop :=
  vp_format l = vp_format z /\
  vp_time l = (if vp_format z =? 3 then vp_time z else vp_time v) /\
  vp_duration l = (if (vp_format z =? 1) || (vp_format z =? 2) then vp_duration z else vp_duration v) /\
  vp_efi l = (if vp_format z =? 1 then vp_efi z else vp_efi v).

(** The address of a service centre; if its length is 0 none is read, and what is
    there is kept.  The length counts the type. *)
Inductive smsc_renewed (a : address) : address -> bytes -> Z -> Prop :=
| sn_kept rest : smsc_renewed a a (0 :: rest) 1
| sn_number n toa p rest : 0 < n -> len p = n - 1 ->
    smsc_renewed a {| a_toa := toa; a_addr := digits_of p |} ((n :: toa :: p) ++ rest) (1 + n).
