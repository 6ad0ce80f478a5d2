(** What concurrent calls of Encode should see (C60). *)
From Verif Require Import GoBase UserData Tpdu Sms Heap HeapEncoder.

(** The character set options among the options of a call. *)
Definition charsets (opts : list encoder_opt) : list charset_opt :=
  concat (map (fun o => match o with EoCharset c => [c] | _ => [] end) opts).

(** What the call passes to Segment if it runs alone. *)
Definition alone (e : sms_encoder) (msg : bytes) (opts : list encoder_opt) : res (tpdu * bytes) :=
  encode_prepare (fold_left apply_encoder_opt opts e) msg.

(** The schedule that runs call [k], [k+1], ... each to its end. *)
Fixpoint in_turn (k : nat) (specs : list (bytes * list encoder_opt)) : list nat :=
  match specs with
  | [] => []
  | (_, o) :: r => repeat k (S (length o)) ++ in_turn (S k) r
  end.
