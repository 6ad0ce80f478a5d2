(** Specification of semi-octet digit strings (3GPP TS 23.040 section 9.1.2.3)
    and of BCD octets. *)
From Coq Require Import List ZArith Bool.
Import ListNotations.
Open Scope Z_scope.

(** The digits in the order of their codes 0..14: "0123456789*#abc". *)
Definition semi_alphabet : list Z := [48;49;50;51;52;53;54;55;56;57;42;35;97;98;99].
Definition is_semi_digit (d : Z) : Prop := In d semi_alphabet.

(** [semi_packed ds p]: the octets [p] carry the digits [ds] two by two, the
    first in the low nibble, an odd one out being completed with the fill 15. *)
Inductive semi_packed : list Z -> list Z -> Prop :=
| sp_nil : semi_packed [] []
| sp_one c : (c < 15)%nat -> semi_packed [nth c semi_alphabet 0] [Z.of_nat c + 16 * 15]
| sp_two c1 c2 ds p : (c1 < 15)%nat -> (c2 < 15)%nat -> semi_packed ds p ->
    semi_packed (nth c1 semi_alphabet 0 :: nth c2 semi_alphabet 0 :: ds)
                (Z.of_nat c1 + 16 * Z.of_nat c2 :: p).

(** The octet holding the two decimal digits of [u], tens in the low nibble. *)
Definition bcd_octet (u : Z) : Z := 16 * (u mod 10) + u / 10.
