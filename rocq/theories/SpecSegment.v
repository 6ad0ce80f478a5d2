(** Independent specification for segmentation: what may not be divided, and
    what a division of a message into blocks is. *)
From Coq Require Import List ZArith.
From Verif Require Import SpecText.
Import ListNotations.
Open Scope Z_scope.

(** The indivisible units of GSM 7-bit text: a septet that is not the escape, or
    the escape followed by the septet it applies to. *)
Definition gsm7_unit (u : list Z) : Prop := exists c, c <> 27 /\ (u = [c] \/ u = [27; c]).

(** Septets made of whole units: they neither end with a bare escape nor start
    in the middle of a pair. *)
Definition gsm7_whole (s : list Z) : Prop := exists us, Forall gsm7_unit us /\ concat us = s.

(** The same, but allowing the escape itself to be escaped, as it may be in
    septets that no encoder produces. *)
Definition gsm7_pairs (s : list Z) : Prop :=
  exists us, Forall (fun u => (exists c, c <> 27 /\ u = [c]) \/ (exists c, u = [27; c])) us /\
             concat us = s.

(** Octets made of whole UTF-16BE characters. *)
Definition utf16_whole (s : list Z) : Prop := exists rs, utf16be rs s.

(** A division of [msg] into blocks that are whole and hold at most [cap]
    octets or septets. *)
Definition division (whole : list Z -> Prop) (cap : Z) (msg : list Z)
           (blocks : list (list Z)) : Prop :=
  concat blocks = msg /\
  Forall (fun b => whole b /\ Z.of_nat (length b) <= cap) blocks.

(** The size of the largest indivisible unit of an alphabet (0: GSM 7-bit,
    1: 8-bit data, 2: UCS-2): an escaped septet, an octet, a surrogate pair. *)
Definition largest_unit (alpha : Z) : Z :=
  if alpha =? 2 then 4 else if alpha =? 1 then 1 else 2.

(** Division rounding up. *)
Definition cdiv (a b : Z) : Z := - ((- a) / b).
