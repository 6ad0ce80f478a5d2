(** C64: UnmarshalBinary on a TPDU that was used before. *)
From Verif Require Import GoBase GoLemmas Dcs FirstOctet Address GoTime ValidityPeriod UserData Tpdu
  SpecReuse ReuseProofs.

(** Whatever the TPDU held before, a DELIVER is accepted or refused exactly as
    by a new TPDU, with the same error.  If it is accepted, the fields of a
    DELIVER are those a new TPDU would hold and the others stay.  The user data
    is the new one, except that user data of length zero leaves the old in
    place. *)
Theorem C64_deliver : forall t src, announced_type (Direction t) src = SmsDeliver ->
  alike (fun r r0 => but_ud (assign_deliver t r0) r /\ ud_assigned t r0 r)
    (tpdu_unmarshal t src) (tpdu_unmarshal (fresh (Direction t)) src).
Proof. exact unmarshal_deliver_alike. Qed.
Print Assumptions C64_deliver.

(** The same for a SUBMIT; its validity period says and is written the same. *)
Theorem C64_submit : forall t src, announced_type (Direction t) src = SmsSubmit ->
  alike (fun r r0 => but_ud (set_VPf (assign_submit t r0) (VP r)) r /\ same_period (VP r) (VP r0) /\
           ud_assigned t r0 r)
    (tpdu_unmarshal t src) (tpdu_unmarshal (fresh (Direction t)) src).
Proof. exact unmarshal_submit_alike. Qed.
Print Assumptions C64_submit.

(** The same for a COMMAND. *)
Theorem C64_command : forall t src, announced_type (Direction t) src = SmsCommand ->
  alike (fun r r0 => but_ud (assign_command t r0) r /\ ud_assigned t r0 r)
    (tpdu_unmarshal t src) (tpdu_unmarshal (fresh (Direction t)) src).
Proof. exact unmarshal_command_alike. Qed.
Print Assumptions C64_command.

(** Reports, where user data comes with its coding and the parameter indicator
    of a status report is not left out.  Missing: the other reports (see the
    refutations). *)
Theorem C64_reports_partial : forall t src r0,
  tpdu_unmarshal (fresh (Direction t)) src = Ok r0 ->
  let st := announced_type (Direction t) src in
  report_type st = true -> self_contained st r0 ->
  exists r, tpdu_unmarshal t src = Ok r /\ but_ud (assign st t r0) r /\ ud_assigned t r0 r.
Proof. exact unmarshal_report_alike. Qed.
Print Assumptions C64_reports_partial.

(** For every report: of what the TPDU held, only the data coding and the
    parameter indicator decide whether it is accepted, with which error, and what
    is read.  In the last case, a status report without parameter indicator, the
    old user data stays. *)
Theorem C64_reports_influence : forall t src,
  let st := announced_type (Direction t) src in report_type st = true ->
  alike (fun r r0 => (but_ud (assign st t r0) r /\ ud_assigned t r0 r) \/
           (st = SmsStatusReport /\ PI r0 = PI t /\ r = assign_status_short t r0))
    (tpdu_unmarshal t src) (tpdu_unmarshal (fresh_keeping t) src).
Proof. exact unmarshal_report_keeping. Qed.
Print Assumptions C64_reports_influence.

(** So what was read into a used TPDU marshals to the same octets as what was
    read into a new one, if the octets bring user data.  Missing: TPDUs with
    empty user data (see the first refutation). *)
Theorem C64_marshal_partial : forall t src r0,
  tpdu_unmarshal (fresh (Direction t)) src = Ok r0 ->
  let st := announced_type (Direction t) src in
  brings_ud st r0 -> (report_type st = true -> self_contained st r0) ->
  exists r, tpdu_unmarshal t src = Ok r /\ (UD r0 <> [] -> UD r = UD r0 /\ UDH r = UDH r0) /\
    tpdu_marshal r = tpdu_marshal r0.
Proof. exact unmarshal_marshal_alike. Qed.
Print Assumptions C64_marshal_partial.

(** Cases. *)
Definition head_04 : bytes := [4; 4; 145; 54; 25; 0; 0; 81; 80; 113; 50; 32; 5; 35].
Definition deliver_hello : bytes := head_04 ++ [5; 232; 50; 155; 253; 6].
Definition deliver_empty : bytes := head_04 ++ [0].
Definition hello : bytes := [104; 101; 108; 108; 111].
(** The TPDU after reading the octets into it. *)
Definition after (t : tpdu) (src : bytes) : tpdu :=
  match tpdu_unmarshal t src with Ok r => r | _ => t end.

Example case_deliver : announced_type MT deliver_hello = SmsDeliver /\
  UD (after (fresh MT) deliver_hello) = hello.
Proof. split; vm_compute; reflexivity. Qed.
(** A used TPDU that goes through [C64_marshal_partial]. *)
Example case_marshal :
  let t := set_UDf (set_DCSf (fresh MT) 8) [1; 2] in
  tpdu_unmarshal (fresh MT) deliver_hello = Ok (after (fresh MT) deliver_hello) /\
  brings_ud SmsDeliver (after (fresh MT) deliver_hello) /\
  tpdu_marshal (after t deliver_hello) = Ok deliver_hello.
Proof.
  split; [vm_compute; reflexivity|]. split; [|vm_compute; reflexivity]. vm_compute. discriminate.
Qed.
(** A deliver report with coding and text. *)
Definition report_hello : bytes := [0; 210; 6; 0; 5; 232; 50; 155; 253; 6].
Example case_report :
  announced_type MO report_hello = SmsDeliverReport /\
  self_contained SmsDeliverReport (after (fresh MO) report_hello) /\
  UD (after (fresh MO) report_hello) = hello.
Proof.
  split; [vm_compute; reflexivity|]. split; [|vm_compute; reflexivity].
  split; [vm_compute; reflexivity|]. intros H. vm_compute in H. discriminate.
Qed.

(** "Reading replaces the message" is false: an empty DELIVER read after one
    that says hello leaves hello, where a new TPDU is empty. *)
Theorem C64_empty_refuted : exists t src r r0,
  tpdu_unmarshal t src = Ok r /\ tpdu_unmarshal (fresh (Direction t)) src = Ok r0 /\
  UD r0 = [] /\ UD r = hello /\ tpdu_marshal r = Ok deliver_hello /\ tpdu_marshal r0 = Ok deliver_empty.
Proof.
  exists (after (fresh MT) deliver_hello), deliver_empty,
    (after (after (fresh MT) deliver_hello) deliver_empty), (after (fresh MT) deliver_empty).
  repeat split; vm_compute; reflexivity.
Qed.
Print Assumptions C64_empty_refuted.

(** A report with user data but no data coding is read with the coding that an
    earlier message left: refused, or read as something else. *)
Theorem C64_coding_refuted : exists t src r r0,
  announced_type (Direction t) src = SmsDeliverReport /\
  tpdu_unmarshal t src = Ok r /\ tpdu_unmarshal (fresh (Direction t)) src = Ok r0 /\ UD r <> UD r0.
Proof.
  exists (set_DCSf (fresh MO) 4), [0; 210; 4; 1; 200],
    (after (set_DCSf (fresh MO) 4) [0; 210; 4; 1; 200]), (after (fresh MO) [0; 210; 4; 1; 200]).
  repeat split; vm_compute; congruence.
Qed.
Print Assumptions C64_coding_refuted.

(** A status report without parameter indicator keeps the one an earlier
    message left. *)
Theorem C64_indicator_refuted : exists t src r r0,
  announced_type (Direction t) src = SmsStatusReport /\
  tpdu_unmarshal t src = Ok r /\ tpdu_unmarshal (fresh (Direction t)) src = Ok r0 /\
  PI r = 1 /\ PI r0 = 0 /\ tpdu_marshal r <> tpdu_marshal r0.
Proof.
  set (src := [2; 66; 4; 145; 54; 25; 81; 80; 113; 50; 32; 5; 35; 81; 80; 113; 50; 32; 5; 35; 171]).
  exists (set_PI (fresh MT) 1), src, (after (set_PI (fresh MT) 1) src), (after (fresh MT) src).
  repeat split; vm_compute; congruence.
Qed.
Print Assumptions C64_indicator_refuted.
