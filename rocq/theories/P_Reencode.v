(** C57: an accepted TPDU can be written again and is read back the same. *)
From Verif Require Import GoBase GoLemmas SafeLemmas SpecTime SpecVP SpecTpdu SpecSegTpdu Dcs FirstOctet GoTime ValidityPeriod
  UserData Tpdu Sms TpduProofs SpecReencode ReencodeProofs AgainProofs P_Time P_Tpdu.

(** C57, except for TPDUs with the oddities [again] lists. *)
Theorem C57_reencode_partial : forall src mo t,
  Forall is_byte src -> unmarshal src mo = Ok t -> again t ->
  exists b, tpdu_marshal t = Ok b /\ Forall is_byte b /\ unmarshal b mo = Ok t.
Proof. exact reencode. Qed.
Print Assumptions C57_reencode_partial.

(** Nothing else survives: a TPDU is marshalled and read back the same exactly
    if Unmarshal can return it and it has none of the oddities. *)
Theorem C57_exactly : forall mo t,
  (exists b, tpdu_marshal t = Ok b /\ Forall is_byte b /\ unmarshal b mo = Ok t) <->
  (exists src, Forall is_byte src /\ unmarshal src mo = Ok t) /\ again t.
Proof.
  intros mo t. split.
  - intros (b & H1 & H2 & H3). split; [now exists b|]. now apply (again_needed t b mo).
  - intros ((src & H1 & H2) & H3). now apply (reencode src).
Qed.
Print Assumptions C57_exactly.

(** ** C28 and C29, exactly

    The well-formed TPDUs of C28 and C29 are all that come back with the fields of
    their type, whatever the values of the fields. *)
Theorem C28_submit_exactly : forall t, Direction t = MO -> fo_mti (FO t) = 1 ->
  ((exists b, tpdu_marshal t = Ok b /\ Forall is_byte b /\ unmarshal b true = Ok (submit_fields t)) <-> submit_wf t).
Proof.
  intros t HD HM. split.
  - intros (b & H1 & H2 & H3). assert (E : tpdu_marshal t = tpdu_marshal (submit_fields t)) by (now apply submit_fields_marshal).
    rewrite E in H1. pose proof (again_needed _ _ _ H1 H2 H3) as A.
    pose proof (again_wf _ _ _ H2 H3 A) as (W1 & W2 & W3 & W4 & W5 & W6).
    assert (W : submit_wf (submit_fields t)) by auto. clear - W HD. destruct t. cbn in HD. subst. exact W.
  - apply submit_roundtrip.
Qed.
Print Assumptions C28_submit_exactly.

Theorem C28_deliver_exactly : forall t, Direction t = MT -> fo_mti (FO t) = 0 ->
  ((exists b, tpdu_marshal t = Ok b /\ Forall is_byte b /\ unmarshal b false = Ok (deliver_fields t)) <-> deliver_wf t).
Proof.
  intros t HD HM. split.
  - intros (b & H1 & H2 & H3). assert (E : tpdu_marshal t = tpdu_marshal (deliver_fields t)) by (now apply deliver_fields_marshal).
    rewrite E in H1. pose proof (again_needed _ _ _ H1 H2 H3) as A.
    pose proof (again_wf _ _ _ H2 H3 A) as (W1 & W2 & W3 & W4 & W5 & W6).
    assert (W : deliver_wf (deliver_fields t)) by auto. clear - W HD. destruct t. cbn in HD. subst. exact W.
  - apply deliver_roundtrip.
Qed.
Print Assumptions C28_deliver_exactly.

Theorem C29_deliver_report_exactly : forall t, Direction t = MO -> fo_mti (FO t) = 0 ->
  ((exists b, tpdu_marshal t = Ok b /\ Forall is_byte b /\ unmarshal b true = Ok (deliver_report_fields t)) <-> deliver_report_wf t).
Proof.
  intros t HD HM. split.
  - intros (b & H1 & H2 & H3). assert (E : tpdu_marshal t = tpdu_marshal (deliver_report_fields t)) by (now apply deliver_report_fields_marshal).
    rewrite E in H1. pose proof (again_needed _ _ _ H1 H2 H3) as A.
    pose proof (again_wf _ _ _ H2 H3 A) as (W1 & W2 & W3 & W4 & W5 & W6).
    assert (W : deliver_report_wf (deliver_report_fields t)) by auto. clear - W HD. destruct t. cbn in HD. subst. exact W.
  - apply deliver_report_roundtrip.
Qed.
Print Assumptions C29_deliver_report_exactly.

Theorem C29_submit_report_exactly : forall t, Direction t = MT -> fo_mti (FO t) = 1 ->
  ((exists b, tpdu_marshal t = Ok b /\ Forall is_byte b /\ unmarshal b false = Ok (submit_report_fields t)) <-> submit_report_wf t).
Proof.
  intros t HD HM. split.
  - intros (b & H1 & H2 & H3). assert (E : tpdu_marshal t = tpdu_marshal (submit_report_fields t)) by (now apply submit_report_fields_marshal).
    rewrite E in H1. pose proof (again_needed _ _ _ H1 H2 H3) as A.
    pose proof (again_wf _ _ _ H2 H3 A) as (W1 & W2 & W3 & W4 & W5 & W6).
    assert (W : submit_report_wf (submit_report_fields t)) by auto. clear - W HD. destruct t. cbn in HD. subst. exact W.
  - apply submit_report_roundtrip.
Qed.
Print Assumptions C29_submit_report_exactly.

Theorem C29_status_report_exactly : forall t, Direction t = MT -> fo_mti (FO t) = 2 ->
  ((exists b, tpdu_marshal t = Ok b /\ Forall is_byte b /\ unmarshal b false = Ok (status_report_fields t)) <-> status_report_wf t).
Proof.
  intros t HD HM. split.
  - intros (b & H1 & H2 & H3). assert (E : tpdu_marshal t = tpdu_marshal (status_report_fields t)) by (now apply status_report_fields_marshal).
    rewrite E in H1. pose proof (again_needed _ _ _ H1 H2 H3) as A.
    pose proof (again_wf _ _ _ H2 H3 A) as (W1 & W2 & W3 & W4 & W5 & W6).
    assert (W : status_report_wf (status_report_fields t)) by auto. clear - W HD. destruct t. cbn in HD. subst. exact W.
  - apply status_report_roundtrip.
Qed.
Print Assumptions C29_status_report_exactly.

(** The data of a command is read as 8-bit data and without a header. *)
Theorem C29_command_exactly : forall t, Direction t = MO -> fo_mti (FO t) = 2 ->
  ((exists b, tpdu_marshal t = Ok b /\ Forall is_byte b /\ unmarshal b true = Ok (command_fields t)) <-> command_wf t).
Proof.
  intros t HD HM. split.
  - intros (b & H1 & H2 & H3). assert (E : tpdu_marshal t = tpdu_marshal (command_fields t)) by (now apply command_fields_marshal).
    rewrite E in H1. pose proof (again_needed _ _ _ H1 H2 H3) as A.
    pose proof (again_wf _ _ _ H2 H3 A) as (W1 & W2 & W3 & W4 & W5 & W6).
    assert (W : command_wf (command_fields t)) by auto. clear - W HD. destruct t. cbn in HD. subst. exact W.
  - apply command_roundtrip.
Qed.
Print Assumptions C29_command_exactly.

Example C28_exactly_instance : Direction ex_submit = MO /\ fo_mti (FO ex_submit) = 1 /\ submit_wf ex_submit /\
  Direction (set_VPf ex_submit (vp_relative (minutes 5))) = MO /\ ~ submit_wf (set_VPf ex_submit (vp_relative (minutes 5))).
Proof.
  do 2 (split; [reflexivity|]). split; [exact (proj1 C28_submit_instance)|]. split; [reflexivity|].
  intros H. apply C28_submit_exactly in H as (b & H1 & _ & H3); [|reflexivity|reflexivity].
  vm_compute in H1. apply ok_inj in H1. subst b. vm_compute in H3. discriminate.
Qed.

(** ** The oddities do break it *)
Ltac octs := repeat constructor; unfold is_byte; lia.
Ltac lost := intros (t & b & E1 & E2 & E3); vm_compute in E1; apply ok_inj in E1; subst t;
  vm_compute in E2; try discriminate E2; apply ok_inj in E2; subst b; vm_compute in E3; discriminate E3.

(** A SUBMIT with relative validity period octet 0, five minutes. *)
Definition odd_vp : bytes := [17; 66; 4; 145; 54; 25; 0; 0; 0; 0].
Theorem C57_reencode_refuted : ~ forall src mo t, Forall is_byte src -> unmarshal src mo = Ok t -> survives src mo.
Proof.
  intros H. enough (survives odd_vp true) as S by (revert S; lost).
  destruct (unmarshal odd_vp true) eqn:E; [|vm_compute in E; discriminate E..].
  eapply H; [unfold odd_vp; octs|exact E].
Qed.
Print Assumptions C57_reencode_refuted.

(** hh:mm:ss of 99:99:99. *)
Example C57_odd_hms : ~ survives [9; 66; 4; 145; 54; 25; 0; 0; 3; 153; 153; 153; 0; 0; 0; 0] true.
Proof. lost. Qed.
(** A header announced but empty. *)
Example C57_odd_header : ~ survives [65; 66; 4; 145; 54; 25; 0; 4; 2; 0; 97] true.
Proof. lost. Qed.
(** A COMMAND with a header. *)
Example C57_odd_command : ~ survives [66; 66; 171; 137; 52; 4; 145; 54; 25; 4; 3; 8; 1; 1] true.
Proof. lost. Qed.
(** A report with failure cause 0. *)
Example C57_odd_fcs : ~ survives [0; 0; 0] true.
Proof. lost. Qed.
(** Day 1 of month 0 of 1970, which is read as 1 December 1969. *)
Example C57_odd_time : ~ survives [0; 4; 145; 54; 25; 0; 0; 7; 0; 16; 0; 0; 0; 0; 0] false.
Proof. lost. Qed.
(** A reserved data coding with no user data. *)
Example C57_odd_dcs : ~ survives [1; 66; 4; 145; 54; 25; 0; 128; 0] true.
Proof. lost. Qed.

(** ** Non-trivial TPDUs meet the hypotheses *)
(** A SUBMIT with a two day validity period, a concatenation header and a 7-bit
    message that follows it on a septet boundary. *)
Definition plain_submit : bytes :=
  [81; 66; 4; 145; 54; 25; 0; 0; 168; 9; 5; 0; 3; 7; 2; 1; 210; 104].
Example C57_instance : exists t, unmarshal plain_submit true = Ok t /\ Forall is_byte plain_submit /\ again t /\
  UDH t <> None /\ vp_duration (VP t) = 2 * hours 24 /\ UD t = [105; 104].
Proof.
  destruct (unmarshal plain_submit true) as [t| | |] eqn:E; vm_compute in E; try discriminate E.
  apply ok_inj in E. exists t. split; [reflexivity|]. split; [unfold plain_submit; octs|]. subst t. split.
  - unfold again. cbv zeta.
    split; [intros H; vm_compute in H; discriminate H|].
    split.
    { intros _. split.
      - unfold vp_again. split; [|split; [|split]]; intros H; try (vm_compute in H; discriminate H). vm_compute. discriminate.
      - split; [exists 0; reflexivity|]. split; [intros _; discriminate|]. intros l H. cbn in H. injection H as <-.
        split; vm_compute; discriminate. }
    split; [intros H; vm_compute in H; discriminate H|]. split; [intros H; vm_compute in H; discriminate H|].
    split; intros H; vm_compute in H; discriminate H.
  - split; [discriminate|]. split; reflexivity.
Qed.

(** A STATUS-REPORT with a parameter indicator announcing a data coding and
    user data. *)
Definition plain_status : bytes :=
  [2; 66; 4; 145; 54; 25; 17; 96; 35; 65; 97; 0; 0; 17; 96; 35; 65; 97; 2; 0; 0; 6; 4; 2; 104; 105].
Example C57_status_instance : exists t, unmarshal plain_status false = Ok t /\ Forall is_byte plain_status /\ again t /\
  UD t = [104; 105].
Proof.
  destruct (unmarshal plain_status false) as [t| | |] eqn:E; vm_compute in E; try discriminate E.
  apply ok_inj in E. exists t. split; [reflexivity|]. split; [unfold plain_status; octs|]. subst t. split; [|reflexivity].
  unfold again. cbv zeta.
  do 5 (split; [intros H; vm_compute in H; discriminate H|]). intros _.
  split; [vm_compute; split; [discriminate|reflexivity]|]. split; [vm_compute; split; [discriminate|reflexivity]|].
  intros _. split; [exists 1; reflexivity|]. split; [intros H; vm_compute in H; discriminate H|]. intros l H. discriminate H.
Qed.

(** A header announced in a TPDU without user data, and in such a COMMAND: both
    survive. *)
Example C57_empty_header : survives [65; 66; 4; 145; 54; 25; 0; 4; 0] true /\ survives [66; 66; 171; 137; 52; 4; 145; 54; 25; 0] true.
Proof. split; (do 2 eexists; split; [reflexivity|]; split; reflexivity). Qed.

(** C23 the other way round: these are all the times that come back. *)
Theorem C23_timestamp_exactly : forall t,
  (exists b, ts_marshal t = Ok b /\ Forall is_byte b /\ ts_unmarshal b = Ok t) <->
  t_nsec t = 0 /\ 0 <= t_unix t + t_off t < century /\ exists q, t_off t = 900 * q /\ -79 <= q <= 79.
Proof.
  intros t. split.
  - intros (b & M & HB & U). destruct (C23_timestamp_safe b HB) as [(_ & E)|[(_ & x & E & _)|(_ & t' & E & N & Q)]]; try congruence.
    rewrite U in E. apply ok_inj in E. subst t'. split; [exact N|]. split; [|exact Q].
    rewrite <- (app_nil_r b) in U. apply (ts_written_century _ _ _ _ M U).
  - intros (N & C & q & O & Q). destruct (C23_timestamp_roundtrip t q N C O Q) as (b & M & _ & HB & R).
    exists b. split; [exact M|]. split; [exact HB|]. specialize (R []). now rewrite app_nil_r in R.
Qed.
Print Assumptions C23_timestamp_exactly.
(** A time in seven minutes' zone, as some local mean times were, does not. *)
Example C23_exactly_instance :
  ~ exists b, ts_marshal {| t_unix := 951829198; t_nsec := 0; t_off := 420 |} = Ok b /\ Forall is_byte b /\
      ts_unmarshal b = Ok {| t_unix := 951829198; t_nsec := 0; t_off := 420 |}.
Proof. intros X. apply C23_timestamp_exactly in X as (_ & _ & q & X & _). cbn [t_off] in X. lia. Qed.
