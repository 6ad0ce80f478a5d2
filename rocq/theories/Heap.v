(** Slices that share memory, for the parts of the code where sharing matters:
    the slice semantics of the Go language specification, restricted to what
    Segment and the Encoder use (index expressions, slice expressions, append).
    No file of /repo corresponds to this one; HeapSegment.v and HeapEncoder.v
    model encoding/tpdu/tpdu.go:189-229 and encode.go:89-114 on top of it. *)
From Verif Require Import GoBase.

(** The arrays allocated so far. *)
Definition heap (A : Type) := list (list A).

(** Go specification, "Slice types": a contiguous segment of an array. *)
Record gslice := { s_arr : nat; s_off : nat; s_len : nat; s_cap : nat }.

(** The nil slice, and any other slice without capacity, points nowhere. *)
Definition nil_slice : gslice := {| s_arr := 0; s_off := 0; s_len := 0; s_cap := 0 |}.

(** The array of a slice. *)
Definition array {A} (h : heap A) (n : nat) : list A := nth n h [].

(** The elements of a slice. *)
Definition view {A} (h : heap A) (s : gslice) : list A :=
  firstn (s_len s) (skipn (s_off s) (array h (s_arr s))).

(** Go specification, "Simple slice expressions": [s[lo:hi]] for
    [lo <= hi <= len s]; the capacity reaches to that of [s]. *)
Definition reslice (s : gslice) (lo hi : nat) : gslice :=
  {| s_arr := s_arr s; s_off := s_off s + lo; s_len := hi - lo; s_cap := s_cap s - lo |}.
(** Go specification, "Full slice expressions": [s[:0:0]]. *)
Definition reslice00 (s : gslice) : gslice :=
  {| s_arr := s_arr s; s_off := s_off s; s_len := 0; s_cap := 0 |}.

(** Overwrite the elements of [l] from position [n] on. *)
Definition splice {A} (l : list A) (n : nat) (xs : list A) : list A :=
  firstn n l ++ xs ++ skipn (n + length xs) l.

Fixpoint update {A} (l : list A) (n : nat) (x : A) : list A :=
  match l, n with
  | [], _ => []
  | _ :: l', O => x :: l'
  | y :: l', S n' => y :: update l' n' x
  end.

(** Assignments to the elements of array [a] from position [n] on. *)
Definition store {A} (h : heap A) (a n : nat) (xs : list A) : heap A :=
  update h a (splice (array h a) n xs).

(** Go specification, "Appending to and copying slices": in place if the
    capacity suffices, else in a new array.  How much larger than needed that
    array is, the specification leaves open: [grow old needed] is the slack.
    [junk] is what the unused part of a new array holds. *)
Definition gappend {A} (grow : nat -> nat -> nat) (junk : A) (h : heap A) (s : gslice) (xs : list A)
  : heap A * gslice :=
  let n := (s_len s + length xs)%nat in
  if (n <=? s_cap s)%nat then
    (store h (s_arr s) (s_off s + s_len s) xs,
     {| s_arr := s_arr s; s_off := s_off s; s_len := n; s_cap := s_cap s |})
  else
    let slack := grow (s_cap s) n in
    (h ++ [view h s ++ xs ++ repeat junk slack],
     {| s_arr := length h; s_off := 0; s_len := n; s_cap := n + slack |}).

(** A slice the program can hold: within an allocated array, if it has any
    capacity. *)
Definition ok_slice {A} (h : heap A) (s : gslice) : Prop :=
  (s_len s <= s_cap s)%nat /\
  (s_cap s = 0%nat \/ (s_arr s < length h)%nat /\ (s_off s + s_cap s <= length (array h (s_arr s)))%nat).
