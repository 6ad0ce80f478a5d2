(** What the loops of the README are expected to do: the receiver handles the
    messages that were sent. *)
From Verif Require Import GoBase GoTime Tpdu UserData Segment Sms SpecCollect Collector SpecFlow.

(** A template whose fields can be expressed on the wire (SpecFlow.v), the time
    stamp in some other way, for instance the zero time, of which the year is
    written as 01. *)
Definition template_posted (t : tpdu) : Prop :=
  template_sent t \/ exists w, ts_marshal w = ts_marshal (SCTS t) /\ template_sent (set_SCTS t w).

(** Octets that Unmarshal reads as a TPDU which is not part of a report. *)
Definition plain_tpdu (mo : bool) (b : bytes) : Prop :=
  exists t, unmarshal b mo = Ok t /\ forall n, let g := {| sg_id := n; sg_pdu := t |} in is_part g = true -> supported g.
