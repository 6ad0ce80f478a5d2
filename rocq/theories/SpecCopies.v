(** Independent specification of what comes of a message whose segments arrive
    more than once. *)
From Verif Require Import GoBase Tpdu Collector SpecCollect SpecAlone.

(** Every number from 1 to [n] has come. *)
Definition covers (n : Z) (ps : list (Z * seg)) : Prop := forall i, 1 <= i <= n -> In i (map fst ps).

(** What arrives falls into rounds.  A round ends with the segment that makes it
    complete, and the first copy of each number in it is handed out; the segments
    behind the last round are not complete. *)
Inductive rounds (n : Z) : list (Z * seg) -> list (list (option seg)) -> Prop :=
| r_rest ps : ~ covers n ps -> rounds n ps []
| r_round ps p qs ds : ~ covers n ps -> covers n (ps ++ [p]) -> rounds n qs ds ->
    rounds n (ps ++ p :: qs) (in_order n (ps ++ [p]) :: ds).

(** What Collect hands out. *)
Definition handed (os : list output) : list (list (option seg)) :=
  flat_map (fun o => match o with OCollect (CReturn (Some d) _) => [d] | _ => [] end) os.

(** How often number [i] comes. *)
Definition copies (i : Z) (ps : list (Z * seg)) : nat := count_occ Z.eq_dec (map fst ps) i.
