(** C74: which octets Unmarshal accepts, and what it makes of them.  [unmarshal]
    models sms.Unmarshal, without and with the option AsMO; the grammar is
    SpecWire. *)
From Verif Require Import GoBase GoLemmas SafeLemmas Address GoTime ValidityPeriod UserData Tpdu Sms AddressProofs TimeProofs TpduProofs
  SpecText SpecBits SpecVP SpecTpdu SpecWire WireProofs.

(** Octets are read as a TPDU exactly if they are those of the TPDU. *)
Theorem C74_accepts : forall src mo t, Forall is_byte src ->
  (unmarshal src mo = Ok t <-> tpdu_octets mo t src).
Proof. exact wire_iff. Qed.
Print Assumptions C74_accepts.

(** No octets are those of two TPDUs. *)
Theorem C74_one_meaning : forall src mo t t', Forall is_byte src ->
  tpdu_octets mo t src -> tpdu_octets mo t' src -> t = t'.
Proof.
  intros src mo t t' HB H1 H2. apply (C74_accepts _ _ _ HB) in H1, H2. congruence.
Qed.
Print Assumptions C74_one_meaning.

(** Anything else is refused: there is an error. *)
Theorem C74_refuses : forall src mo, Forall is_byte src ->
  (forall t, ~ tpdu_octets mo t src) -> exists e, unmarshal src mo = Err e.
Proof.
  intros src mo HB H. destruct (unmarshal src mo) as [t|e| |] eqn:E.
  - apply (C74_accepts _ _ _ HB) in E. now apply H in E.
  - now exists e.
  - pose proof (TpduSafeProofs.tpdu_unmarshal_safe (set_Direction zero_tpdu (if mo then MO else MT)) src HB) as S. unfold unmarshal in E. rewrite E in S. destruct S.
  - pose proof (TpduSafeProofs.tpdu_unmarshal_safe (set_Direction zero_tpdu (if mo then MO else MT)) src HB) as S. unfold unmarshal in E. rewrite E in S. destruct S.
Qed.
Print Assumptions C74_refuses.

(** The parts that can be read on their own: UnmarshalBinary of an address, a
    timestamp, a validity period in a given format and a user data header.  They
    leave what follows, and say how many octets they took. *)
Theorem C74_address : forall b a n, Forall is_byte b ->
  (addr_unmarshal b = Ok (a, n) <-> exists q r, b = q ++ r /\ address_octets a q /\ n = len q).
Proof. exact address_iff. Qed.
Print Assumptions C74_address.
Theorem C74_timestamp : forall b t, Forall is_byte b ->
  (ts_unmarshal b = Ok t <-> exists q r, b = q ++ r /\ time_octets t q).
Proof. exact time_iff. Qed.
Print Assumptions C74_timestamp.
Theorem C74_validity : forall b v n f, Forall is_byte b -> 0 <= f < 4 ->
  (vp_unmarshal vp_zero b f = Ok (v, n) <-> exists q r, b = q ++ r /\ period_octets f v q /\ n = len q).
Proof. exact period_iff. Qed.
Print Assumptions C74_validity.
Theorem C74_header : forall b h n, Forall is_byte b -> (udh_unmarshal b = Ok (h, n) <-> header_at b h n).
Proof. exact header_iff. Qed.
Print Assumptions C74_header.

(** What MarshalBinary writes for the TPDUs of C28 and C29 is in the grammar. *)
Theorem C74_written : forall t,
  (submit_wf t -> exists b, tpdu_marshal t = Ok b /\ tpdu_octets true (submit_fields t) b) /\
  (deliver_wf t -> exists b, tpdu_marshal t = Ok b /\ tpdu_octets false (deliver_fields t) b) /\
  (command_wf t -> exists b, tpdu_marshal t = Ok b /\ tpdu_octets true (command_fields t) b) /\
  (deliver_report_wf t -> exists b, tpdu_marshal t = Ok b /\ tpdu_octets true (deliver_report_fields t) b) /\
  (submit_report_wf t -> exists b, tpdu_marshal t = Ok b /\ tpdu_octets false (submit_report_fields t) b) /\
  (status_report_wf t -> exists b, tpdu_marshal t = Ok b /\ tpdu_octets false (status_report_fields t) b).
Proof.
  intros t. repeat split; intros W.
  - destruct (submit_roundtrip t W) as (b & E & B & U). exists b. split; [exact E|]. now apply C74_accepts.
  - destruct (deliver_roundtrip t W) as (b & E & B & U). exists b. split; [exact E|]. now apply C74_accepts.
  - destruct (command_roundtrip t W) as (b & E & B & U). exists b. split; [exact E|]. now apply C74_accepts.
  - destruct (deliver_report_roundtrip t W) as (b & E & B & U). exists b. split; [exact E|]. now apply C74_accepts.
  - destruct (submit_report_roundtrip t W) as (b & E & B & U). exists b. split; [exact E|]. now apply C74_accepts.
  - destruct (status_report_roundtrip t W) as (b & E & B & U). exists b. split; [exact E|]. now apply C74_accepts.
Qed.
Print Assumptions C74_written.

(** A submit, put together from the grammar: to +6391, relative validity of a
    day, a header with one element and the septets of "Hi" behind it. *)
Definition C74_submit : tpdu :=
  {| Direction := MO; FO := 81; OA := none; FCS := 0; MR := 7; CT := 0; MN := 0; DA := {| a_toa := 145; a_addr := [54; 51; 57; 49] |};
     RA := none; PI := 0; SCTS := zero_time; DT := zero_time; ST := 0; PID := 0; DCS := 0; VP := vp_relative (hours 24);
     UDH := Some [{| ie_id := 4; ie_data := [170] |}]; UD := [72; 105] |}.
Example C74_instance :
  tpdu_octets true C74_submit [81; 7; 4; 145; 54; 25; 0; 0; 167; 7; 3; 4; 1; 170; 64; 166; 1] /\
  unmarshal [81; 7; 4; 145; 54; 25; 0; 0; 167; 7; 3; 4; 1; 170; 64; 166; 1] true = Ok C74_submit.
Proof.
  assert (G : tpdu_octets true C74_submit [81; 7; 4; 145; 54; 25; 0; 0; 167; 7; 3; 4; 1; 170; 64; 166; 1]).
  { apply (w_submit 81 7 {| a_toa := 145; a_addr := [54; 51; 57; 49] |} 0 0 (vp_relative (hours 24)) (Some [{| ie_id := 4; ie_data := [170] |}]) [72; 105]
             [4; 145; 54; 25] [167] [7; 3; 4; 1; 170; 64; 166; 1] eq_refl).
    - apply (ao_number 4 145 [54; 25]); [discriminate|reflexivity|reflexivity].
    - apply (po_relative 167). apply (rv_30min 167). lia.
    - apply (ud_some _ _ 7 [3; 4; 1; 170; 64; 166; 1] _ 4 [64; 166; 1] _ 0); [discriminate|reflexivity|reflexivity| |reflexivity|].
      + exists [64; 166; 1]. split; [reflexivity|]. split; [vm_compute; split; discriminate|]. split; [discriminate|]. vm_compute; split; discriminate.
      + split; [reflexivity|]. right. reflexivity. }
  split; [exact G|]. apply C74_accepts; [|exact G]. repeat (constructor; [unfold is_byte; lia|]). constructor.
Qed.

(** The same octets with one left over are those of no TPDU; nor are any with
    the type 3, or with a digit missing in the number. *)
Example C74_refused :
  (forall t, ~ tpdu_octets true t [81; 7; 4; 145; 54; 25; 0; 0; 167; 7; 3; 4; 1; 170; 64; 166; 1; 0]) /\
  (forall t, ~ tpdu_octets true t [3; 7]) /\
  (forall t, ~ tpdu_octets true t [17; 7; 4; 145; 54; 249; 0; 0; 167; 0]).
Proof.
  repeat split; intros t H; apply C74_accepts in H; try discriminate; repeat (constructor; [unfold is_byte; lia|]); constructor.
Qed.

(** The data of the last element may go on behind the header, and is then both
    in the header and in the message; the header is accepted although its
    elements are longer than it says. *)
Example C74_element_runs_over :
  udh_unmarshal [3; 4; 3; 170; 64; 166; 1] = Ok (Some [{| ie_id := 4; ie_data := [170; 64; 166] |}], 4) /\
  header_at [3; 4; 3; 170; 64; 166; 1] (Some [{| ie_id := 4; ie_data := [170; 64; 166] |}]) 4.
Proof.
  assert (E : udh_unmarshal [3; 4; 3; 170; 64; 166; 1] = Ok (Some [{| ie_id := 4; ie_data := [170; 64; 166] |}], 4)) by reflexivity.
  split; [exact E|]. apply C74_header; [|exact E]. repeat (constructor; [unfold is_byte; lia|]). constructor.
Qed.
