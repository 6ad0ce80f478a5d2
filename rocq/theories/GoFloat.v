(** Go's float64, as far as Duration.Hours, Minutes and Seconds use it: dividing
    and adding non-negative numbers below 2^53, with the results rounded to the
    nearest of the numbers m * 2^-e with m < 2^53, and to an even m in the middle
    (IEEE 754 binary64; the quotients here are never small enough to be
    subnormal). *)
From Verif Require Import GoBase.

Definition round_even (n d : Z) : Z :=
  let q := n / d in
  let r := n mod d in
  if 2 * r <? d then q
  else if d <? 2 * r then q + 1
  else if Z.even q then q else q + 1.

(** The float64 nearest to n / d, as (m, e). *)
Definition double_of (n d : Z) : Z * Z :=
  let e := 52 - (Z.log2 n - Z.log2 d) in
  let e := if n * 2 ^ e <? d * 2 ^ 52 then e + 1 else e in
  (round_even (n * 2 ^ e) d, e).

(** [int(d.Hours())] (for [u] an hour), [int(d.Minutes())], [int(d.Seconds())]:
    the standard library computes float64(d / u) + float64(d % u) / u, and the
    conversion to int (encoding/tpdu/validityperiod.go:74) drops the fraction. *)
Definition in_units (u d : Z) : Z :=
  let whole := Z.abs d / u in
  let part := Z.abs d mod u in
  let '(m, e) := double_of part u in
  let '(m, e) := double_of (whole * 2 ^ e + m) (2 ^ e) in
  Z.sgn d * (m / 2 ^ e).
