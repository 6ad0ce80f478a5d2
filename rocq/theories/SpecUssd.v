(** The USSD strings that Pack7BitUSSD/Unpack7BitUSSD do not carry faithfully,
    as a condition on the number of fill bits, the length and the last three
    septets.

    The code decides whether the spare bits of the last octet hold a <CR>
    filler by the octet's value rather than by the number of spare bits, so
    - a string that leaves seven spare bits and ends in septet 0 gets no filler
      and comes back with an extra 0 septet;
    - a string whose last septet leaves the last octet looking empty is
      overwritten with a filler;
    - a string whose last octet happens to look like a filler is truncated.
    And it takes a string to end on an octet boundary when it has 8k septets,
    which is so only without fill bits, so
    - with fill bits, a string that ends in <CR> on an octet boundary gets no
      filler and loses its <CR>;
    - with five or six fill bits, one of 8k septets that ends in <CR> elsewhere
      gets a septet too many. *)
From Coq Require Import List ZArith Bool.
Import ListNotations.
Open Scope Z_scope.

Definition ussd_spoiled (fill : Z) (u : list Z) : bool :=
  let n := Z.of_nat (length u) in
  let m := (n - fill) mod 8 in      (* spare bits in the last octet *)
  match rev u with
  | [] => false
  | l :: before =>
      let s := nth 0 before 0 in    (* last but one *)
      let r := nth 1 before 0 in    (* last but two *)
      if m =? 7 then l =? 0
      else if m =? 0 then
        ((0 <? fill) && (1 <? n) && (l =? 13))
        || ((l =? 6) && (s =? 70) && (64 <=? r))
      else
        ((0 <? l) && (l <? 2 ^ m))
        || ((0 <? fill) && (n mod 8 =? 0) && (l =? 13))
        || ((8 <? fill + 7 * n) &&
            ((l / 2 ^ m =? 13)
             || ((l =? 13 * 2 ^ (m - 1)) && (s / 2 ^ (m - 1) =? 13))))
  end.
