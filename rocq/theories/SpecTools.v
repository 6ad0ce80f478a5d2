(** How charsets shows a character in five columns: a space instead of a
    character that is missing, LF, CR, FF, SP and ESC by name, the euro sign and
    the characters before U+0400 as they are, the others by number. *)
From Verif Require Import GoBase Utf SpecText ErrorText PrintTools.

Inductive shown_as : option Z -> bytes -> Prop :=
| sh_char v w : scalar w -> (w = 32 /\ v = None \/ w <> 32 /\ v = Some w /\ (w < 1024 \/ w = 8364)) ->
    shown_as v (32 :: 32 :: encode_rune w ++ [32; 32])
| sh_name v a b : In (v, a, b) [(10, 76, 70); (13, 67, 82); (12, 70, 70); (32, 83, 80)] -> shown_as (Some v) [32; a; b; 32; 32]
| sh_esc : shown_as (Some 27) [69; 83; 67; 32; 32]
| sh_code v : 1024 <= v -> scalar v -> shown_as (Some v) (fmt_04x v ++ [32]).
