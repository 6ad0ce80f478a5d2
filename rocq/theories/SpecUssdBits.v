(** 3GPP TS 23.038, 6.1.2.3.1: what follows the last septet of a USSD string.

    - With seven spare bits the last octet is filled with a carriage return, so
      that the receiver does not take seven zero bits for another "@".
    - When a wanted carriage return ends on an octet boundary another one is
      added, together with one zero bit.
    - In every other case the spare bits are zero. *)
From Coq Require Import ZArith List Bool.
Import ListNotations.
From Verif Require Import GoBase SpecBits.
Local Open Scope Z_scope.

(** The bits left in the last octet by [fill] leading bits and the septets [u]. *)
Definition spare (fill : Z) (u : list Z) : Z := (- (fill + 7 * Z.of_nat (length u))) mod 8.

Definition ussd_tail (fill : Z) (u : list Z) : list bool :=
  if spare fill u =? 7 then septet_bits [13]
  else if (spare fill u =? 0) && (last u 0 =? 13) then septet_bits [13] ++ [false]
  else repeat false (Z.to_nat (spare fill u)).

(** The octets [p] are the septets [u] as the standard puts them after [fill] zero bits. *)
Definition ussd_wire (fill : Z) (u : list Z) (p : list Z) : Prop :=
  Forall is_byte p /\
  octet_bits p = repeat false (Z.to_nat fill) ++ septet_bits u ++ ussd_tail fill u.

(** The strings that Pack7BitUSSD does not end as the standard says:
    seven spare bits after an "@" (left zero), one to six spare bits that hide
    a small last septet (taken for an unfilled octet), and, after fill bits,
    a carriage return that ends on an octet boundary (none added) or is the
    eighth, sixteenth, ... septet elsewhere (one added that is not wanted). *)
Definition ussd_misfilled (fill : Z) (u : list Z) : bool :=
  let m := spare fill u in
  let l := last u 0 in
  ((m =? 7) && (l =? 0))
  || ((0 <? m) && (m <? 7) && (0 <? l) && (l <? 2 ^ m))
  || ((0 <? fill) && (l =? 13) && ((m =? 0) || ((m <? 7) && (Z.of_nat (length u) mod 8 =? 0)))).

(** The strings that Unpack7BitUSSD does not give back from the octets of the
    standard: those whose last octet, or last two octets, happen to look as
    if they were filled. *)
Definition ussd_misread (fill : Z) (u : list Z) : bool :=
  let m := spare fill u in
  let l := last u 0 in
  let s := nth 1 (rev u) 0 in
  let r := nth 2 (rev u) 0 in
  if m =? 7 then false
  else if m =? 0 then (l =? 6) && (s =? 70) && (64 <=? r)
  else (8 <? fill + 7 * Z.of_nat (length u)) &&
       ((l / 2 ^ m =? 13) || ((l =? 13 * 2 ^ (m - 1)) && (s / 2 ^ (m - 1) =? 13))).
