(** What the dump of cmd/smsdecode shows of a TPDU: the fields that two TPDUs
    with the same dump have in common. *)
From Verif Require Import GoBase Dcs FirstOctet Address GoTime ValidityPeriod UserData Tpdu.

(** [t] and [t'] have the same [f]. *)
Definition same {A} (f : tpdu -> A) (t t' : tpdu) : Prop := f t = f t'.

(** The parameter indicator: whether it is zero, and its three flags. *)
Definition same_pi (t t' : tpdu) : Prop :=
  (PI t = 0 <-> PI t' = 0) /\
  same (fun x => pi_pid (PI x)) t t' /\ same (fun x => pi_dcs (PI x)) t t' /\ same (fun x => pi_udl (PI x)) t t'.

(** PID and DCS, where the parameter indicator announces them. *)
Definition same_optionals (t t' : tpdu) : Prop :=
  (pi_pid (PI t) = true -> same PID t t') /\ (pi_dcs (PI t) = true -> same DCS t t').

(** The validity period: its format, and the time, or the duration and the
    enhanced format, that go with it. *)
Definition same_vp (t t' : tpdu) : Prop :=
  let v := VP t in
  let v' := VP t' in
  vp_format v = vp_format v' /\
  (vp_format v = VpfAbsolute -> vp_time v = vp_time v') /\
  (vp_format v = VpfRelative -> vp_duration v = vp_duration v') /\
  (vp_format v = VpfEnhanced -> vp_duration v = vp_duration v' /\ vp_efi v mod 8 = vp_efi v' mod 8).

Definition same_shown (t t' : tpdu) : Prop :=
  let st := tpdu_type t in
  same tpdu_type t t' /\ same (fun x => fo_udhi (FO x)) t t' /\ same UD t t' /\
  (st = SmsDeliver ->
     same (fun x => fo_mms (FO x)) t t' /\ same (fun x => fo_lp (FO x)) t t' /\
     same (fun x => fo_rp (FO x)) t t' /\ same (fun x => fo_sri (FO x)) t t' /\
     same (fun x => addr_number (OA x)) t t' /\ same PID t t' /\ same DCS t t' /\ same SCTS t t' /\
     same UDH t t') /\
  (st = SmsDeliverReport ->
     same FCS t t' /\ same_pi t t' /\ same_optionals t t' /\ same UDH t t') /\
  (st = SmsSubmitReport ->
     same FCS t t' /\ same_pi t t' /\ same SCTS t t' /\ same_optionals t t' /\ same UDH t t') /\
  (st = SmsSubmit ->
     same (fun x => fo_rd (FO x)) t t' /\ same (fun x => fo_vpf (FO x)) t t' /\
     same (fun x => fo_rp (FO x)) t t' /\ same (fun x => fo_srr (FO x)) t t' /\
     same MR t t' /\ same (fun x => addr_number (DA x)) t t' /\ same PID t t' /\ same DCS t t' /\
     same_vp t t' /\ same UDH t t') /\
  (st = SmsStatusReport ->
     same (fun x => fo_mms (FO x)) t t' /\ same (fun x => fo_lp (FO x)) t t' /\
     same (fun x => fo_srq (FO x)) t t' /\ same MR t t' /\ same (fun x => addr_number (RA x)) t t' /\
     same SCTS t t' /\ same DT t t' /\ same ST t t' /\ same_pi t t' /\ same_optionals t t' /\ same UDH t t') /\
  (st = SmsCommand ->
     same (fun x => fo_srr (FO x)) t t' /\ same MR t t' /\ same PID t t' /\ same CT t t' /\ same MN t t' /\
     same (fun x => addr_number (DA x)) t t').
