(** What it means to leave memory alone (C58, C59). *)
From Verif Require Import GoBase Heap.

(** [s] includes element [i] of array [a]. *)
Definition covers (s : gslice) (a i : nat) : Prop := s_arr s = a /\ (s_off s <= i < s_off s + s_len s)%nat.

(** The element of the array just behind the end of the slice. *)
Definition just_behind (s : gslice) (a i : nat) : Prop := s_arr s = a /\ i = (s_off s + s_len s)%nat.

(** Memory [h'] is memory [h] after what the owner of slice [s] may do with it:
    assign to its elements or append to it. *)
Definition used {A} (grow : nat -> nat -> nat) (junk : A) (h : heap A) (s : gslice) (h' : heap A) : Prop :=
  (exists i x, (i < s_len s)%nat /\ h' = store h (s_arr s) (s_off s + i) [x]) \/
  (exists xs s', gappend grow junk h s xs = (h', s')).
Definition assigned {A} (h : heap A) (s : gslice) (h' : heap A) : Prop :=
  exists i x, (i < s_len s)%nat /\ h' = store h (s_arr s) (s_off s + i) [x].

(** The part of the array of [s] that belongs to its capacity but not to its
    elements, which an append to [s] may write. *)
Definition spare (s : gslice) (a i : nat) : Prop :=
  s_arr s = a /\ (s_off s + s_len s <= i < s_off s + s_cap s)%nat.
(** The elements of [s] and that part. *)
Definition reaches (s : gslice) (a i : nat) : Prop := s_arr s = a /\ (s_off s <= i < s_off s + s_cap s)%nat.
(** What may be written by appending to one is not a part of the other. *)
Definition unrelated (s t : gslice) : Prop := forall a i, ~ (spare s a i /\ reaches t a i) /\ ~ (reaches s a i /\ spare t a i).

(** [t] begins where [s] ends, and reaches as far: [s] and [t] are s[:n] and
    s[n:] of one slice. *)
Definition follows (s t : gslice) : Prop :=
  s_arr t = s_arr s /\ s_off t = (s_off s + s_len s)%nat /\ (s_off t + s_cap t = s_off s + s_cap s)%nat.
Fixpoint consecutive (l : list gslice) : Prop :=
  match l with
  | s :: ((t :: _) as l') => follows s t /\ consecutive l'
  | _ => True
  end.

(** Nothing that can be reached through the one, by assigning to its elements or
    appending to it, can be reached through the other. *)
Definition disjoint (s t : gslice) : Prop := forall a i, ~ (reaches s a i /\ reaches t a i).
