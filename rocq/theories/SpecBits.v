(** Specification of 7-bit packing: septets and octets as streams of bits,
    least significant bit first (3GPP TS 23.038 section 6.1.2). *)
From Coq Require Import List ZArith Bool.
Import ListNotations.
Open Scope Z_scope.

(** The [n] low bits of [x], least significant first. *)
Definition bits (n : nat) (x : Z) : list bool :=
  map (fun i => Z.testbit x (Z.of_nat i)) (seq 0 n).

(** The number with the given bits. *)
Fixpoint of_bits (l : list bool) : Z :=
  match l with
  | [] => 0
  | b :: l' => Z.b2z b + 2 * of_bits l'
  end.

(** The bit streams of octets and of septets. *)
Definition octet_bits (p : list Z) : list bool := flat_map (bits 8) p.
Definition septet_bits (u : list Z) : list bool := flat_map (bits 7) u.

(** Cuts a bit stream into complete groups of seven, dropping the rest. *)
Fixpoint cut7 (l : list bool) : list Z :=
  match l with
  | a :: b :: c :: d :: e :: f :: g :: l' => of_bits [a;b;c;d;e;f;g] :: cut7 l'
  | _ => []
  end.
