(** Specification of the data coding scheme octet (3GPP TS 23.038 section 4)
    and of changes to bit fields. *)
From Coq Require Import ZArith Bool List.
Import ListNotations.
From Verif Require Import GoBase.
Open Scope Z_scope.

(** The coding groups, by the high four bits. *)
Inductive group := General (* 00xx, and 01xx marked for deletion *) | ReservedGroup (* 10xx *)
  | Waiting7Bit (* 110x *) | WaitingUcs2 (* 1110 *) | DataClass (* 1111 *).
Definition coding_group (d : Z) : group :=
  if d / 16 <? 8 then General else if d / 16 <? 12 then ReservedGroup
  else if d / 16 <? 14 then Waiting7Bit else if d / 16 =? 14 then WaitingUcs2 else DataClass.

(** Alphabets: 0 is the GSM 7-bit alphabet, 1 is 8-bit data, 2 is UCS-2.
    In the general group they are in bits 3 and 2, where the reserved value
    stands for 7-bit; in the data/class group in bit 2. *)
Definition alphabet_of (d : Z) : option Z :=
  match coding_group d with
  | General => Some (nth (Z.to_nat (d / 4 mod 4)) [0; 1; 2; 0] 0)
  | ReservedGroup => None
  | Waiting7Bit => Some 0
  | WaitingUcs2 => Some 2
  | DataClass => Some (d / 4 mod 2)
  end.
Definition alphabet_expressible (g : group) (a : Z) : bool :=
  match g with
  | General => true | ReservedGroup => false | Waiting7Bit => a =? 0
  | WaitingUcs2 => a =? 2 | DataClass => a <=? 1
  end.

(** Message classes 0 to 3: in bits 1 and 0, meaningful in the general group
    only if bit 4 is set. *)
Definition class_of (d : Z) : option Z :=
  match coding_group d with
  | General => if d / 16 mod 2 =? 1 then Some (d mod 4) else None
  | DataClass => Some (d mod 4)
  | _ => None
  end.
Definition class_expressible (g : group) : bool :=
  match g with General | DataClass => true | _ => false end.

(** Bit 5 of the general group. *)
Definition compressed (d : Z) : bool :=
  match coding_group d with General => d / 32 mod 2 =? 1 | _ => false end.

(** ** Bit fields: [y] is [x] except at the bits in [l]. *)
Definition same_bits_except (l : list Z) (x y : Z) : Prop :=
  forall n, ~ In n l -> Z.testbit y n = Z.testbit x n.
