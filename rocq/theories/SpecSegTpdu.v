(** Vocabulary for the properties of segmentation that mention TPDU fields. *)
From Verif Require Import GoBase UserData Tpdu Segment.

(** The header has no concatenation element (identifiers 0 and 8), as Segment's
    documentation requires of a template. *)
Definition no_concat (l : list ie) : Prop := Forall (fun i => ie_id i <> 0 /\ ie_id i <> 8) l.

(** What the TPDU [s] at position [k] of Segment's result shares with the
    template [t].  [multi] is the concatenation reference and total of a
    multi-part message. *)
Definition inherits (t : tpdu) (cfg : seg_cfg) (multi : option (Z * Z)) (k : nat) (s : tpdu) : Prop :=
  Direction s = Direction t /\ OA s = OA t /\ FCS s = FCS t /\ CT s = CT t /\ MN s = MN t /\
  DA s = DA t /\ RA s = RA t /\ SCTS s = SCTS t /\ DT s = DT t /\ ST s = ST t /\
  PID s = PID t /\ DCS s = DCS t /\ VP s = VP t /\
  MR s = match sc_mr cfg with Some f => f k mod 256 | None => MR t end /\
  match multi with
  | None => FO s = FO t /\ PI s = PI t /\ UDH s = UDH t
  | Some (ref, n) =>
      FO s = Z.lor (FO t) 64 /\ PI s = Z.lor (PI t) 4 /\
      exists i, UDH s = Some (ies (UDH t) ++ [i]) /\
        if sc_wide cfg
        then ie_id i = 8 /\ ie_data i = [(ref / 256) mod 256; ref mod 256; n mod 256; (Z.of_nat k + 1) mod 256]
        else ie_id i = 0 /\ ie_data i = [ref mod 256; n mod 256; (Z.of_nat k + 1) mod 256]
  end.

Definition submit_or_deliver (t : tpdu) : Prop := tpdu_type t = SmsSubmit \/ tpdu_type t = SmsDeliver.
