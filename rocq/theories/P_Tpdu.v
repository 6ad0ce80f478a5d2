(** C26-C31, C46: user data headers, the user data field and TPDUs. *)
From Verif Require Import GoBase GoLemmas SafeLemmas SpecText SpecDigits SpecTime SpecVP SpecSegment SpecBits
  Charset Dcs FirstOctet TpduError Address AddressProofs GoTime TimeProofs ValidityPeriod VPProofs UserData Tpdu
  SpecTpdu UdProofs TpduProofs TpduSafeProofs Sms.

(** ** C26 *)

(** A header that fits is written as its layout says. *)
Theorem C26_marshal_layout : forall l, header_fits l -> udh_marshal l = header_octets l.
Proof. exact udh_marshal_ok. Qed.
Print Assumptions C26_marshal_layout.

(** It is read back, with its length, whatever follows. *)
Theorem C26_roundtrip : forall l rest, header_fits l ->
  udh_unmarshal (udh_marshal l ++ rest) = Ok (Some l, len (udh_marshal l)).
Proof. intros l rest H. rewrite udh_marshal_ok by assumption. now apply udh_roundtrip. Qed.
Print Assumptions C26_roundtrip.

(** Reading is safe for every input. *)
Theorem C26_unmarshal_safe : forall src, Forall is_byte src -> safe_located (len src) (udh_unmarshal src).
Proof. exact udh_unmarshal_safe. Qed.
Print Assumptions C26_unmarshal_safe.

(** An accepted header need not account for exactly its declared length: the
    data of the last element may run past it. *)
Theorem C26_accepted_exact_refuted : exists src l n,
  Forall is_byte src /\ udh_unmarshal src = Ok (Some l, n) /\
  n < len (header_octets l).
Proof.
  exists [3; 0; 2; 1; 7], [{| ie_id := 0; ie_data := [1; 7] |}], 4.
  split; [repeat (constructor; [unfold is_byte; lia|]); constructor|]. split; [reflexivity|].
  vm_compute. reflexivity.
Qed.
Print Assumptions C26_accepted_exact_refuted.

(** What does hold: the declared length lies in the input, the input consists of
    the length, the elements returned and the rest, and only the data of the
    last element can run past the declared length.  Missing for the full claim:
    n - 1 = len (elements (ies h)). *)
Theorem C26_accepted_partial : forall src h n, Forall is_byte src -> udh_unmarshal src = Ok (h, n) ->
  1 <= n <= len src /\
  (exists tail, src = n - 1 :: elements (ies h) ++ tail) /\
  Forall ie_fits (ies h) /\ n - 1 <= len (elements (ies h)) /\
  match h with
  | Some l => l <> [] /\ len (elements (removelast l)) + 2 <= n - 1
  | None => n = 1
  end.
Proof. exact udh_accepted. Qed.
Print Assumptions C26_accepted_partial.

(** If the result re-encodes to the declared length, it re-encodes to the input. *)
Theorem C26_accepted_reencode : forall src l n, Forall is_byte src ->
  udh_unmarshal src = Ok (Some l, n) -> len (header_octets l) = n ->
  exists tail, src = udh_marshal l ++ tail.
Proof.
  intros src l n HB H E. destruct (udh_accepted _ _ _ HB H) as (_ & (tail & Es) & HF & _ & (NE & _)).
  exists tail. unfold header_octets in E. rewrite len_cons in E.
  pose proof HB as HB0. rewrite Es in HB0. apply Forall_inv in HB0. unfold is_byte in HB0.
  rewrite udh_marshal_ok.
  - rewrite Es. unfold header_octets. cbn [ies app]. f_equal. lia.
  - split; [assumption|]. split; [assumption|]. lia.
Qed.
Print Assumptions C26_accepted_reencode.

Example C26_instance :
  header_fits [{| ie_id := 0; ie_data := [35; 2; 1] |}; {| ie_id := 36; ie_data := [5] |}] /\
  udh_marshal [{| ie_id := 0; ie_data := [35; 2; 1] |}; {| ie_id := 36; ie_data := [5] |}] =
    [8; 0; 3; 35; 2; 1; 36; 1; 5] /\
  udh_unmarshal [8; 0; 3; 35; 2; 1; 36; 1; 5; 99; 98] =
    Ok (Some [{| ie_id := 0; ie_data := [35; 2; 1] |}; {| ie_id := 36; ie_data := [5] |}], 9).
Proof.
  split; [|split; reflexivity].
  split; [discriminate|]. split; [|vm_compute; discriminate].
  repeat (constructor; [split; [unfold is_byte; cbn; lia|split;
    [cbn; repeat (constructor; [unfold is_byte; lia|]); constructor|vm_compute; discriminate]]|]).
  constructor.
Qed.

(** ** C27 *)

(** The user data field follows its layout... *)
Theorem C27_layout : forall t, ud_wf t -> exists b, encode_ud t = Ok b /\ ud_layout t b.
Proof. exact encode_ud_layout. Qed.
Print Assumptions C27_layout.

(** ... and is read back by any TPDU with the same flags and coding. *)
Theorem C27_roundtrip : forall t, ud_wf t ->
  exists b, encode_ud t = Ok b /\ Forall is_byte b /\
    forall t0, FO t0 = FO t -> DCS t0 = DCS t -> UD t0 = [] -> UDH t0 = None ->
      exists t1, decode_ud t0 b = Ok t1 /\ UD t1 = UD t /\ UDH t1 = UDH t.
Proof.
  intros t H. destruct (ud_roundtrip t H) as (b & E & B & _ & R). exists b.
  split; [assumption|]. split; [assumption|]. intros t0 H1 H2 H3 H4. eexists.
  split; [now apply R|]. split; SegmentProofs.dtpdu t0; reflexivity.
Qed.
Print Assumptions C27_roundtrip.

(** A header indicator without a header does not survive (outside [ud_wf]). *)
Theorem C27_indicator_without_header : exists t t0,
  UDH t = None /\ fo_udhi (FO t) = true /\ UD t = [2; 65; 66] /\
  (FO t0, DCS t0, UD t0, UDH t0) = (FO t, DCS t, [], None) /\
  (b <- encode_ud t ;; decode_ud t0 b) <> (b <- encode_ud t ;; Ok (set_UDf t0 (UD t))).
Proof.
  exists (set_UDf (set_DCSf (set_FO zero_tpdu 64) 4) [2; 65; 66]), (set_DCSf (set_FO zero_tpdu 64) 4).
  repeat split; vm_compute; discriminate.
Qed.
Print Assumptions C27_indicator_without_header.

Definition C27_example : tpdu :=
  set_UDf (set_UDHf (set_DCSf (set_FO zero_tpdu 64) 0) (Some [{| ie_id := 0; ie_data := [35; 2; 1] |}]))
    [104; 101; 108; 108; 111; 111; 111; 111].
Example C27_instance : ud_wf C27_example /\
  encode_ud C27_example = Ok [15; 5; 0; 3; 35; 2; 1; 208; 101; 54; 251; 253; 126; 191; 1].
Proof.
  split; [|reflexivity]. split; [split; [reflexivity|]|].
  - split; [discriminate|]. split; [|vm_compute; discriminate].
    repeat (constructor; [split; [unfold is_byte; cbn; lia|split;
      [cbn; repeat (constructor; [unfold is_byte; lia|]); constructor|vm_compute; discriminate]]|]).
    constructor.
  - left. split; [reflexivity|]. split; [|vm_compute; discriminate].
    cbn. repeat (constructor; [unfold is_septet; lia|]). constructor.
Qed.

(** ** C28 *)

(** [submit_wf] leaves out one representable value, the relative validity period
    of five minutes, which is read back as ten (see C24, C25 and
    [C28_submit_roundtrip_refuted] below). *)
Theorem C28_submit_roundtrip_partial : forall t, submit_wf t ->
  exists b, tpdu_marshal t = Ok b /\ Forall is_byte b /\ unmarshal b true = Ok (submit_fields t).
Proof. exact submit_roundtrip. Qed.
Print Assumptions C28_submit_roundtrip_partial.

Theorem C28_deliver_roundtrip : forall t, deliver_wf t ->
  exists b, tpdu_marshal t = Ok b /\ Forall is_byte b /\ unmarshal b false = Ok (deliver_fields t).
Proof. exact deliver_roundtrip. Qed.
Print Assumptions C28_deliver_roundtrip.

(** The octets are the fields in the order of the standard. *)
Theorem C28_submit_layout : forall t da vp ud, submit_wf t ->
  addr_marshal (DA t) = Ok da -> vp_octets t vp -> encode_ud t = Ok ud ->
  tpdu_marshal t = Ok ([FO t; MR t] ++ da ++ [PID t; DCS t] ++ vp ++ ud).
Proof. exact submit_layout. Qed.
Print Assumptions C28_submit_layout.

Theorem C28_deliver_layout : forall t oa ts ud, deliver_wf t ->
  addr_marshal (OA t) = Ok oa -> ts_marshal (SCTS t) = Ok ts -> encode_ud t = Ok ud ->
  tpdu_marshal t = Ok ([FO t] ++ oa ++ [PID t; DCS t] ++ ts ++ ud).
Proof. exact deliver_layout. Qed.
Print Assumptions C28_deliver_layout.

Definition ex_addr : address := {| a_toa := 145; a_addr := [54; 51; 57; 49] |}. (* +6391 *)
Lemma ex_addr_value : addr_value ex_addr.
Proof.
  apply av_num; [unfold is_byte; lia|discriminate| |vm_compute; discriminate].
  repeat (constructor; [unfold is_semi_digit; cbn; tauto|]). constructor.
Qed.
Definition ex_time : gotime := {| t_unix := 1489064400; t_nsec := 0; t_off := 3600 |}.
Lemma ex_time_value : time_value ex_time.
Proof.
  split; [reflexivity|]. split; [vm_compute; split; [discriminate|reflexivity]|].
  exists 4. split; [reflexivity|lia].
Qed.
Definition ex_base : tpdu :=
  set_VPf (set_PIDf (set_MR (set_DA (set_OA (set_RA (set_SCTS (set_DT (set_ST C27_example 3) ex_time) ex_time)
    ex_addr) ex_addr) ex_addr) 66) 0) vp_zero.
Definition ex_submit : tpdu := set_VPf (set_Direction (set_FO ex_base (64 + 16 + 1)) MO) (vp_relative 600000000000).
Definition ex_deliver : tpdu := set_Direction (set_FO ex_base 64) MT.

Lemma C27_example_wf f : fo_udhi f = true -> forall t, FO t = f -> DCS t = 0 ->
  UDH t = UDH C27_example -> UD t = UD C27_example -> ud_wf t.
Proof.
  intros HF t E1 E2 E3 E4. destruct C27_instance as ((H1 & H2) & _).
  unfold ud_wf. rewrite E1, E3, E4. unfold tpdu_alphabet in *. rewrite E2. split.
  - destruct (UDH C27_example) eqn:E; [|discriminate E]. split; [assumption|tauto].
  - exact H2.
Qed.

Example C28_submit_instance : submit_wf ex_submit /\
  tpdu_marshal ex_submit = Ok [81; 66; 4; 145; 54; 25; 0; 0; 1; 15; 5; 0; 3; 35; 2; 1; 208; 101; 54; 251; 253; 126; 191; 1].
Proof.
  split; [|vm_compute; reflexivity].
  do 7 (split; [first [exact ex_addr_value | reflexivity | (unfold is_byte; cbn; lia)]|]).
  split; [|split; [reflexivity|]].
  - apply vv_rel with (o := 1); [|lia]. exact (rv_5min 1 ltac:(lia)).
  - now apply (C27_example_wf 81).
Qed.

(** The same TPDU with a validity period of five minutes comes back with zero. *)
Theorem C28_submit_roundtrip_refuted : exists t b t',
  submit_wf (set_VPf t (vp_relative (minutes 10))) /\
  relative_vp 0 (minutes 5) /\ VP t = vp_relative (minutes 5) /\
  tpdu_marshal t = Ok b /\ unmarshal b true = Ok t' /\ vp_duration (VP t') <> vp_duration (VP t).
Proof.
  exists (set_VPf ex_submit (vp_relative (minutes 5))).
  eexists. eexists. split; [exact (proj1 C28_submit_instance)|].
  split; [exact (rv_5min 0 ltac:(lia))|]. split; [reflexivity|].
  split; [vm_compute; reflexivity|]. split; [vm_compute; reflexivity|]. vm_compute. discriminate.
Qed.
Print Assumptions C28_submit_roundtrip_refuted.

Example C28_deliver_instance : deliver_wf ex_deliver /\
  (b <- tpdu_marshal ex_deliver ;; unmarshal b false) = Ok (deliver_fields ex_deliver).
Proof.
  split; [|vm_compute; reflexivity].
  do 7 (split; [first [exact ex_addr_value | exact ex_time_value | reflexivity | (unfold is_byte; cbn; lia)]|]).
  now apply (C27_example_wf 64).
Qed.

(** ** C29 *)

(** The delivery and submit reports must have a non-zero failure cause. *)
Theorem C29_deliver_report_partial : forall t, deliver_report_wf t ->
  exists b, tpdu_marshal t = Ok b /\ Forall is_byte b /\ unmarshal b true = Ok (deliver_report_fields t).
Proof. exact deliver_report_roundtrip. Qed.
Print Assumptions C29_deliver_report_partial.

Theorem C29_submit_report_partial : forall t, submit_report_wf t ->
  exists b, tpdu_marshal t = Ok b /\ Forall is_byte b /\ unmarshal b false = Ok (submit_report_fields t).
Proof. exact submit_report_roundtrip. Qed.
Print Assumptions C29_submit_report_partial.

Theorem C29_status_report : forall t, status_report_wf t ->
  exists b, tpdu_marshal t = Ok b /\ Forall is_byte b /\ unmarshal b false = Ok (status_report_fields t).
Proof. exact status_report_roundtrip. Qed.
Print Assumptions C29_status_report.

(** A command must have no header. *)
Theorem C29_command_partial : forall t, command_wf t ->
  exists b, tpdu_marshal t = Ok b /\ Forall is_byte b /\ unmarshal b true = Ok (command_fields t).
Proof. exact command_roundtrip. Qed.
Print Assumptions C29_command_partial.

(** Without a failure cause (a report that acknowledges), the octet is left out
    when writing but always read. *)
Definition ex_report : tpdu :=
  set_PI (set_FCS (set_PIDf (set_FO ex_base 64) 5) 211) 7.
Theorem C29_deliver_report_refuted : exists t b,
  deliver_report_wf (set_FCS t 1) /\ FCS t = 0 /\
  tpdu_marshal t = Ok b /\ unmarshal b true <> Ok (deliver_report_fields t).
Proof.
  exists (set_Direction (set_FCS ex_report 0) MO). eexists. split.
  - split; [repeat split; unfold is_byte; cbn; lia|]. split; [unfold is_byte; cbn; lia|].
    split; [discriminate|]. do 3 (split; [unfold is_byte; cbn; lia|]). split; [discriminate|].
    split; [discriminate|]. now apply (C27_example_wf 64).
  - split; [reflexivity|]. split; [vm_compute; reflexivity|]. vm_compute. discriminate.
Qed.
Print Assumptions C29_deliver_report_refuted.

Theorem C29_submit_report_refuted : exists t b,
  submit_report_wf (set_FCS t 1) /\ FCS t = 0 /\
  tpdu_marshal t = Ok b /\ unmarshal b false <> Ok (submit_report_fields t).
Proof.
  exists (set_FO (set_Direction (set_FCS ex_report 0) MT) 65). eexists. split.
  - split; [repeat split; unfold is_byte; cbn; lia|]. split; [unfold is_byte; cbn; lia|].
    split; [discriminate|]. split; [exact ex_time_value|].
    do 3 (split; [unfold is_byte; cbn; lia|]). split; [discriminate|].
    split; [discriminate|]. now apply (C27_example_wf 65).
  - split; [reflexivity|]. split; [vm_compute; reflexivity|]. vm_compute. discriminate.
Qed.
Print Assumptions C29_submit_report_refuted.

(** The header of a command is not written, though the indicator is. *)
Theorem C29_command_refuted : exists t b,
  tpdu_type t = SmsCommand /\ UDH t = UDH C27_example /\ UD t = [65; 66] /\ addr_value (DA t) /\
  fo_udhi (FO t) = true /\
  tpdu_marshal t = Ok b /\ forall t', unmarshal b true = Ok t' -> UDH t' <> UDH t.
Proof.
  exists (set_UDf (set_Direction (set_FO ex_base 66) MO) [65; 66]). eexists.
  do 3 (split; [reflexivity|]). split; [exact ex_addr_value|]. split; [reflexivity|].
  split; [vm_compute; reflexivity|]. intros t' H. vm_compute in H. discriminate.
Qed.
Print Assumptions C29_command_refuted.

(** The octets are the fields in the order of the standard; [ud] is the user
    data field, absent if the parameter indicator does not announce it. *)
Theorem C29_deliver_report_layout : forall t ud, deliver_report_wf t ->
  (if pi_udl (PI t) then encode_ud t = Ok ud else ud = []) ->
  tpdu_marshal t = Ok ([FO t; FCS t; PI t] ++ (if pi_pid (PI t) then [PID t] else []) ++
    (if pi_dcs (PI t) then [DCS t] else []) ++ ud).
Proof. intros t ud H E. rewrite (deliver_report_layout t ud H E). unfold marshal_opt. now rewrite <- app_assoc. Qed.
Print Assumptions C29_deliver_report_layout.

Theorem C29_submit_report_layout : forall t ts ud, submit_report_wf t -> ts_marshal (SCTS t) = Ok ts ->
  (if pi_udl (PI t) then encode_ud t = Ok ud else ud = []) ->
  tpdu_marshal t = Ok ([FO t; FCS t; PI t] ++ ts ++ (if pi_pid (PI t) then [PID t] else []) ++
    (if pi_dcs (PI t) then [DCS t] else []) ++ ud).
Proof.
  intros t ts ud H E1 E. rewrite (submit_report_layout t ts ud H E1 E). unfold marshal_opt.
  now rewrite <- app_assoc.
Qed.
Print Assumptions C29_submit_report_layout.

Theorem C29_status_report_layout : forall t ra ts dt ud, status_report_wf t ->
  addr_marshal (RA t) = Ok ra -> ts_marshal (SCTS t) = Ok ts -> ts_marshal (DT t) = Ok dt ->
  (if pi_udl (PI t) then encode_ud t = Ok ud else ud = []) ->
  tpdu_marshal t = Ok ([FO t; MR t] ++ ra ++ ts ++ dt ++ [ST t] ++
    (if PI t =? 0 then [] else [PI t] ++ (if pi_pid (PI t) then [PID t] else []) ++
      (if pi_dcs (PI t) then [DCS t] else []) ++ ud)).
Proof.
  intros t ra ts dt ud H E1 E2 E3 E. rewrite (status_report_layout t ra ts dt ud H E1 E2 E3 E).
  unfold marshal_opt. now rewrite <- (app_assoc (if pi_pid (PI t) then [PID t] else [])).
Qed.
Print Assumptions C29_status_report_layout.

Theorem C29_command_layout : forall t da, command_wf t -> addr_marshal (DA t) = Ok da ->
  tpdu_marshal t = Ok ([FO t; MR t; PID t; CT t; MN t] ++ da ++ [len (UD t)] ++ UD t).
Proof. exact command_layout. Qed.
Print Assumptions C29_command_layout.

Example C29_status_report_instance :
  let t := set_Direction (set_FO ex_report 66) MT in
  status_report_wf t /\ (b <- tpdu_marshal t ;; unmarshal b false) = Ok (status_report_fields t).
Proof.
  cbv zeta. split; [|vm_compute; reflexivity].
  split; [repeat split; unfold is_byte; cbn; lia|]. do 2 (split; [unfold is_byte; cbn; lia|]).
  split; [exact ex_addr_value|]. split; [exact ex_time_value|]. split; [exact ex_time_value|].
  do 3 (split; [unfold is_byte; cbn; lia|]). split; [discriminate|].
  split; [discriminate|]. now apply (C27_example_wf 66).
Qed.
Example C29_command_instance :
  let t := set_UDHf (set_UDf (set_Direction (set_FO ex_base 2) MO) [65; 66]) None in
  command_wf t /\ (b <- tpdu_marshal t ;; unmarshal b true) = Ok (command_fields t).
Proof.
  cbv zeta. split; [|vm_compute; reflexivity].
  do 8 (split; [first [reflexivity | (unfold is_byte; cbn; lia)]|]). split; [exact ex_addr_value|].
  split; [|vm_compute; discriminate].
  repeat (constructor; [unfold is_byte; lia|]). constructor.
Qed.

(** ** C30 and C46 *)

(** Unmarshalling, into any TPDU, returns a TPDU or an error. *)
Theorem C30_unmarshal_safe : forall t src, Forall is_byte src ->
  (exists t', tpdu_unmarshal t src = Ok t') \/ (exists e, tpdu_unmarshal t src = Err e).
Proof.
  intros t src H. pose proof (tpdu_unmarshal_safe t src H) as S.
  destruct (tpdu_unmarshal t src); cbn in S; eauto; contradiction.
Qed.
Print Assumptions C30_unmarshal_safe.

Theorem C30_sms_unmarshal_safe : forall src mo, Forall is_byte src ->
  (exists t, unmarshal src mo = Ok t) \/ (exists e, unmarshal src mo = Err e).
Proof. intros src mo H. apply C30_unmarshal_safe, H. Qed.
Print Assumptions C30_sms_unmarshal_safe.

(** The type and direction of the result are the ones announced. *)
Theorem C30_type_announced : forall t src t', tpdu_unmarshal t src = Ok t' ->
  Direction t' = Direction t /\ exists rest, src = FO t' :: rest.
Proof.
  intros t src t' H. apply tpdu_unmarshal_type in H as (H1 & H2). split; [assumption|].
  destruct src as [|x src]; [discriminate|]. exists src. f_equal. rewrite idx_0 in H2. congruence.
Qed.
Print Assumptions C30_type_announced.

Theorem C46_error_located : forall t src e, Forall is_byte src -> tpdu_unmarshal t src = Err e ->
  exists field off inner, e = DecodeErr field off inner /\ 0 <= off <= len src.
Proof.
  intros t src e H E. pose proof (tpdu_unmarshal_safe t src H) as S. rewrite E in S. exact S.
Qed.
Print Assumptions C46_error_located.

Example C30_C46_instance :
  unmarshal [] false = Err (DecodeErr "tpdu.firstOctet" 0 ErrUnderflow) /\
  unmarshal [1; 66; 4; 145; 54; 25; 0; 0; 5; 65] true = Err (DecodeErr "SmsSubmit.ud.sm" 9 ErrUnderflow).
Proof. split; vm_compute; reflexivity. Qed.

(** ** C31 *)

(** A non-zero length octet fixes the number of octets that follow. *)
Theorem C31_length : forall t udl s t1, decode_ud t (udl :: s) = Ok t1 -> udl <> 0 ->
  exists a, tpdu_alphabet t = Ok a /\ len s = if a =? Alpha7Bit then cdiv (7 * udl) 8 else udl.
Proof.
  intros t udl s t1 H NZ. destruct (decode_ud_length t udl s t1 H NZ) as (a & E & L). exists a.
  split; [assumption|]. rewrite L. destruct (a =? Alpha7Bit); [|reflexivity]. unfold cdiv. f_equal; lia.
Qed.
Print Assumptions C31_length.

Lemma unmarshal_ext p ext mo t1 t2 : Forall is_byte p ->
  unmarshal p mo = Ok t1 -> unmarshal (p ++ ext) mo = Ok t2 -> ext <> [] ->
  (t1 = t2 /\ UD t1 = [] /\ UDH t1 = None) \/
  (UD t1 = [] /\ UDH t1 = None /\ tpdu_type t2 = SmsStatusReport /\
   exists n, addr_unmarshal (skipn 2 p) = Ok (RA t1, n) /\ len p = n + 17).
Proof.
  intros HB H1 H2 NE. unfold unmarshal in *.
  pose proof (tpdu_unmarshal_type _ _ _ H1) as (D1 & F1).
  pose proof (tpdu_unmarshal_type _ _ _ H2) as (D2 & F2).
  destruct (tpdu_unmarshal_ext _ p ext t1 t2 HB H1 H2 NE) as [(A & B & C)|(A & B & C & n & E & L)].
  - left. now rewrite B, C.
  - right. split; [now rewrite B|]. split; [now rewrite C|]. split; [|now exists n].
    rewrite <- A. unfold tpdu_type. rewrite D1, D2. do 2 f_equal.
    pose proof (len_nonneg p). destruct p as [|x p]; [discriminate|]. cbn [app] in F2. rewrite idx_0 in F1, F2.
    congruence.
Qed.

(** No extension of an accepted TPDU with user data is accepted. *)
Theorem C31_no_extension : forall p ext mo t, Forall is_byte p ->
  unmarshal p mo = Ok t -> UD t <> [] \/ UDH t <> None -> ext <> [] ->
  forall t', unmarshal (p ++ ext) mo <> Ok t'.
Proof.
  intros p ext mo t HB H HU NE t' H'.
  destruct (unmarshal_ext p ext mo t t' HB H H' NE) as [(_ & A & B)|(A & B & _)]; tauto.
Qed.
Print Assumptions C31_no_extension.

(** A prefix of a status report with user data may be accepted, since all that
    follows the status octet is optional. *)
Theorem C31_no_prefix_refuted : exists p ext t t',
  Forall is_byte p /\ ext <> [] /\ unmarshal (p ++ ext) false = Ok t /\ UD t <> [] /\ unmarshal p false = Ok t'.
Proof.
  exists ([2; 66; 4; 145; 54; 25] ++ repeat 17 7 ++ repeat 17 7 ++ [0]), [4; 2; 65; 32].
  eexists. eexists. split; [repeat (constructor; [unfold is_byte; lia|]); constructor|].
  split; [discriminate|]. split; [vm_compute; reflexivity|]. split; [discriminate|].
  vm_compute. reflexivity.
Qed.
Print Assumptions C31_no_prefix_refuted.

(** No proper prefix of an accepted TPDU of any other type with user data is
    accepted.  Missing for the full claim: status reports, where the only
    accepted proper prefix ends with the status octet (next theorem). *)
Theorem C31_no_prefix_partial : forall p ext mo t, Forall is_byte p ->
  unmarshal (p ++ ext) mo = Ok t -> UD t <> [] \/ UDH t <> None -> ext <> [] ->
  tpdu_type t <> SmsStatusReport ->
  forall t', unmarshal p mo <> Ok t'.
Proof.
  intros p ext mo t HB H HU NE HT t' H'.
  destruct (unmarshal_ext p ext mo t' t HB H' H NE) as [(-> & A & B)|(_ & _ & C & _)]; tauto.
Qed.
Print Assumptions C31_no_prefix_partial.

Theorem C31_status_report_prefix : forall p ext mo t t', Forall is_byte p ->
  unmarshal (p ++ ext) mo = Ok t -> UD t <> [] \/ UDH t <> None -> ext <> [] ->
  unmarshal p mo = Ok t' ->
  exists n, addr_unmarshal (skipn 2 p) = Ok (RA t', n) /\ len p = 2 + n + 7 + 7 + 1.
Proof.
  intros p ext mo t t' HB H HU NE H'.
  destruct (unmarshal_ext p ext mo t' t HB H' H NE) as [(-> & A & B)|(_ & _ & _ & n & E & L)]; [tauto|].
  exists n. split; [assumption|lia].
Qed.
Print Assumptions C31_status_report_prefix.

Example C31_instance :
  exists b t, tpdu_marshal ex_submit = Ok b /\ Forall is_byte b /\ unmarshal b true = Ok t /\ UD t <> [] /\
    unmarshal (b ++ [0]) true = Err (DecodeErr "SmsSubmit.ud.ud" 10 ErrOverlength).
Proof.
  destruct (C28_submit_roundtrip_partial ex_submit (proj1 C28_submit_instance)) as (b & E & B & U).
  exists b, (submit_fields ex_submit). split; [assumption|]. split; [assumption|]. split; [assumption|].
  split; [discriminate|]. rewrite (proj2 C28_submit_instance) in E. apply ok_inj in E. subst b.
  vm_compute. reflexivity.
Qed.
