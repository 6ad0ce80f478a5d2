(** What UnmarshalBinary leaves in a TPDU that was used before. *)
From Verif Require Import GoBase Dcs FirstOctet Address GoTime ValidityPeriod UserData Tpdu.

(** The fields each type assigns; [r0] is what a new TPDU would hold. *)
Definition assign_deliver (t r0 : tpdu) : tpdu :=
  set_SCTS (set_DCSf (set_PIDf (set_OA (set_FO t (FO r0)) (OA r0)) (PID r0)) (DCS r0)) (SCTS r0).
Definition assign_submit (t r0 : tpdu) : tpdu :=
  set_DCSf (set_PIDf (set_DA (set_MR (set_FO t (FO r0)) (MR r0)) (DA r0)) (PID r0)) (DCS r0).
Definition assign_command (t r0 : tpdu) : tpdu :=
  set_DCSf (set_DA (set_MN (set_CT (set_PIDf (set_MR (set_FO t (FO r0)) (MR r0)) (PID r0)) (CT r0))
    (MN r0)) (DA r0)) (DCS r0).
(** The fields of the reports that the parameter indicator announces. *)
Definition assign_optionals (t r0 : tpdu) : tpdu :=
  let t := set_PI t (PI r0) in
  let t := if pi_pid (PI r0) then set_PIDf t (PID r0) else t in
  if pi_dcs (PI r0) then set_DCSf t (DCS r0) else t.
Definition assign_deliver_report (t r0 : tpdu) : tpdu :=
  assign_optionals (set_FCS (set_FO t (FO r0)) (FCS r0)) r0.
Definition assign_submit_report (t r0 : tpdu) : tpdu :=
  assign_optionals (set_SCTS (set_FCS (set_FO t (FO r0)) (FCS r0)) (SCTS r0)) r0.
Definition assign_status_short (t r0 : tpdu) : tpdu :=
  set_ST (set_DT (set_SCTS (set_RA (set_MR (set_FO t (FO r0)) (MR r0)) (RA r0))
    (SCTS r0)) (DT r0)) (ST r0).
Definition assign_status_report (t r0 : tpdu) : tpdu := assign_optionals (assign_status_short t r0) r0.

(** [r] is [t] with new user data, or with its old user data where none was
    read. *)
Definition ud_assigned (t r0 r : tpdu) : Prop :=
  (UD r = UD r0 /\ UDH r = UDH r0) \/
  (UD r0 = [] /\ UD r = UD t /\ (UDH r = UDH r0 \/ (UDH r0 = None /\ UDH r = UDH t))).
(** [r] differs from [u] in the user data at most. *)
Definition but_ud (u r : tpdu) : Prop := r = set_UDHf (set_UDf u (UD r)) (UDH r).

(** Two validity periods that say the same and are written the same. *)
Definition same_period (v w : validity) : Prop :=
  vp_format v = vp_format w /\ vp_marshal v = vp_marshal w.

(** Two calls that end alike, their results standing in the relation [R]. *)
Definition alike {A} (R : A -> A -> Prop) (x y : res A) : Prop :=
  match x, y with
  | Ok a, Ok b => R a b
  | Err e, Err f => e = f
  | Panic, Panic => True
  | Diverge, Diverge => True
  | _, _ => False
  end.

(** The TPDU before its first use: all fields zero but for the direction. *)
Definition fresh (d : Z) : tpdu := set_Direction zero_tpdu d.
(** The type the octets announce to a TPDU that goes this direction. *)
Definition announced_type (d : Z) (src : bytes) : Z := tpdu_type (set_FO (fresh d) (nth 0 src 0)).
Definition report_type (st : Z) : bool :=
  (st =? SmsDeliverReport) || (st =? SmsSubmitReport) || (st =? SmsStatusReport).
Definition assign (st : Z) : tpdu -> tpdu -> tpdu :=
  if st =? SmsDeliverReport then assign_deliver_report
  else if st =? SmsSubmitReport then assign_submit_report else assign_status_report.
(** The octets bring user data of their own. *)
Definition brings_ud (st : Z) (r0 : tpdu) : Prop :=
  if report_type st then pi_udl (PI r0) = true -> UD r0 <> [] else UD r0 <> [].
(** A report that is read alike whatever the TPDU held: user data comes with
    its coding, and the parameter indicator of a status report is there. *)
Definition self_contained (st : Z) (r0 : tpdu) : Prop :=
  (pi_udl (PI r0) = true -> pi_dcs (PI r0) = true) /\ (st = SmsStatusReport -> PI r0 <> 0).

(** A new TPDU, but with the data coding and parameter indicator of [t]. *)
Definition fresh_keeping (t : tpdu) : tpdu := set_PI (set_DCSf (fresh (Direction t)) (DCS t)) (PI t).
