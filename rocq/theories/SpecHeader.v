(** What a header is asked for: one element with an identifier, all of them, and
    the concatenation information (3GPP TS 23.040 sections 9.2.3.24, 9.2.3.24.1
    and 9.2.3.24.8). *)
From Verif Require Import GoBase UserData.

(** [i] is the last element of [l] with the identifier [id]. *)
Definition last_with (id : Z) (l : list ie) (i : ie) : Prop :=
  exists before after, l = before ++ i :: after /\ ie_id i = id /\ Forall (fun j => ie_id j <> id) after.

(** [r] has the elements of [l] with the identifier [id], in their order. *)
Inductive all_with (id : Z) : list ie -> list ie -> Prop :=
| aw_nil : all_with id [] []
| aw_take i l r : ie_id i = id -> all_with id l r -> all_with id (i :: l) (i :: r)
| aw_skip i l r : ie_id i <> id -> all_with id l r -> all_with id (i :: l) r.

(** The total, sequence number and reference of a part: from the last 8-bit
    reference element if that has three octets, else from the last 16-bit
    reference element if that has four. *)
Inductive says_part (l : list ie) : Z * Z * Z -> Prop :=
| sp_8 i ref total seq : last_with 0 l i -> ie_data i = [ref; total; seq] -> says_part l (total, seq, ref)
| sp_16 i hi lo total seq : (forall j, last_with 0 l j -> len (ie_data j) <> 3) ->
    last_with 8 l i -> ie_data i = [hi; lo; total; seq] -> says_part l (total, seq, 256 * hi + lo).
