(** C85: the command lines of the tools, and what they write and return.
    Specification in SpecCmdLine.v. *)
From Coq Require Import String.
From Verif Require Import GoBase GoLemmas SafeLemmas Utf Address UserData Tpdu Sms SpecSms Cmd SpecCmd SpecRefuse CountProofs Print PrintTools P_Print
  DeliverReport SpecDeliver P_Deliver CmdLine SpecCmdLine CmdLineProofs.

(** ** C85 *)

(** The flags are read by the grammar, and by no other reading of it. *)
Theorem C85_line : forall defs args st e, proper_flags defs ->
  (parse_flags defs args = (st, e) <-> line defs args st e).
Proof. intros defs args st e PF. now apply line_iff. Qed.
Print Assumptions C85_line.
Theorem C85_one_reading : forall defs args, proper_flags defs ->
  exists st e, line defs args st e /\ forall st' e', line defs args st' e' -> st' = st /\ e' = e.
Proof.
  intros defs args PF. destruct (parse_flags defs args) as [st e] eqn:E. exists st, e. split; [now apply line_iff|].
  intros st' e' L. apply line_parse in L; [|exact PF]. rewrite E in L. injection L as <- <-. auto.
Qed.
Print Assumptions C85_one_reading.
Theorem C85_flags_proper :
  proper_flags decode_has /\ proper_flags deliver_has /\ proper_flags submit_has /\ proper_flags counter_has.
Proof. repeat split; apply smsdecode_proper || apply smsdeliver_proper || apply smssubmit_proper || apply smscounter_proper. Qed.
Print Assumptions C85_flags_proper.
Theorem C85_values : forall k s v, set_value k s = Some v <-> value k s v.
Proof. exact value_iff. Qed.
Print Assumptions C85_values.

(** smsdecode: one argument, and the dump of it or status 1. *)
Theorem C85_smsdecode : forall args out status,
  smsdecode_main args = (out, status) <->
  exists st e, line decode_has args st e /\
    match e with
    | FHelp => out = [] /\ status = 0
    | FBad => out = [] /\ status = 2
    | FRest [a] => exists p o, chosen st (str "p") (VBool false) (VBool p) /\ chosen st (str "o") (VBool false) (VBool o) /\
        ((smsdecode_text a p o = Ok out /\ status = 0) \/ ((exists er, smsdecode_text a p o = Err er) /\ out = [] /\ status = 1))
    | FRest _ => out = [] /\ status = 1
    end.
Proof.
  intros args out status. unfold smsdecode_main. change decode_has with smsdecode_flags. destruct (parse_flags smsdecode_flags args) as [st e] eqn:E.
  pose proof (proj1 (line_iff _ smsdecode_proper _ _ _) E) as L.
  pose proof (bool_flag _ _ _ _ "p" smsdecode_proper L (or_introl eq_refl)) as FP.
  pose proof (bool_flag _ _ _ _ "o" smsdecode_proper L (or_intror (or_introl eq_refl))) as FO_.
  assert (ONE : forall st' e', line smsdecode_flags args st' e' -> st' = st /\ e' = e).
  { intros st' e' L'. apply line_parse in L'; [|exact smsdecode_proper]. rewrite E in L'. injection L' as <- <-. auto. }
  destruct e as [rest| |].
  2,3: split; [intros H; injection H as <- <-; exists st; eexists; split; [exact L|]; cbn; auto|
    intros (st' & e' & L' & H); destruct (ONE _ _ L') as (-> & ->); destruct H as (-> & ->); reflexivity].
  destruct rest as [|a [|a' rest]].
  1,3: split; [intros H; injection H as <- <-; exists st; eexists; split; [exact L|]; cbn; auto|
    intros (st' & e' & L' & H); destruct (ONE _ _ L') as (-> & ->); destruct H as (-> & ->); reflexivity].
  pose proof (C68_prints_or_fails a (final_bool "p" st) (final_bool "o" st)) as PF.
  split.
  - intros H. exists st, (FRest [a]). split; [exact L|]. exists (final_bool "p" st), (final_bool "o" st).
    split; [now apply FP|]. split; [now apply FO_|]. destruct PF as [(d & PF)|(er & PF)]; rewrite PF in H |- *; injection H as <- <-; eauto.
  - intros (st' & e' & L' & H). destruct (ONE _ _ L') as (-> & ->). destruct H as (p & o & HP & HO & H).
    apply FP in HP. apply FO_ in HO. rewrite HP, HO. destruct H as [(-> & ->)|((er & ->) & -> & ->)]; reflexivity.
Qed.
Print Assumptions C85_smsdecode.

(** smscounter: a message that is not empty, and the count of it; it never
    fails. *)
Theorem C85_smscounter : forall args out status, Forall (Forall is_byte) args ->
  (smscounter_main args = (out, status) <->
   exists st e, line counter_has args st e /\
    match e with
    | FHelp => out = [] /\ status = 0
    | FBad => out = [] /\ status = 2
    | FRest _ => exists msg nli,
        chosen st (str "message") (VString []) (VString msg) /\ chosen st (str "language") (VInt 0) (VInt nli) /\
        if (length msg =? 0)%nat then out = [] /\ status = 1
        else status = 0 /\ exists k, new_count msg nli = Ok k /\
          out = str "encoding: " ++ str (k_encoding k) ++ [10] ++ str "messages: " ++ fmt_int (k_messages k) ++ [10] ++
                str "total length: " ++ fmt_int (k_tlen k) ++ [10] ++ str "last PDU length: " ++ fmt_int (k_llen k) ++ [10] ++
                str "per_message: " ++ fmt_int (k_pdulen k) ++ [10] ++ str "remaining: " ++ fmt_int (k_remaining k) ++ [10]
    end).
Proof.
  intros args out status HB. unfold smscounter_main. change counter_has with smscounter_flags. destruct (parse_flags smscounter_flags args) as [st e] eqn:E.
  pose proof (proj1 (line_iff _ smscounter_proper _ _ _) E) as L.
  pose proof (string_flag _ _ _ _ "message" smscounter_proper L (or_introl eq_refl)) as FM.
  pose proof (int_flag _ _ _ _ "language" smscounter_proper L (or_intror (or_introl eq_refl))) as FL.
  assert (ONE : forall st' e', line smscounter_flags args st' e' -> st' = st /\ e' = e).
  { intros st' e' L'. apply line_parse in L'; [|exact smscounter_proper]. rewrite E in L'. injection L' as <- <-. auto. }
  destruct e as [rest| |].
  2,3: split; [intros H; injection H as <- <-; exists st; eexists; split; [exact L|]; cbn; auto|
    intros (st' & e' & L' & H); destruct (ONE _ _ L') as (-> & ->); destruct H as (-> & ->); reflexivity].
  assert (TXT : forall k, count_string k =
    str "encoding: " ++ str (k_encoding k) ++ [10] ++ str "messages: " ++ fmt_int (k_messages k) ++ [10] ++
    str "total length: " ++ fmt_int (k_tlen k) ++ [10] ++ str "last PDU length: " ++ fmt_int (k_llen k) ++ [10] ++
    str "per_message: " ++ fmt_int (k_pdulen k) ++ [10] ++ str "remaining: " ++ fmt_int (k_remaining k) ++ [10]).
  { intros k. unfold count_string, pline. rewrite <- !app_assoc. reflexivity. }
  set (msg := final_string "message" st) in *. set (nli := final_int "language" st) in *.
  assert (HM : Forall is_byte msg).
  { apply (final_bytes _ _ _ _ "message" (VString []) msg HB L eq_refl). now apply chosen_iff, FM. }
  assert (LE : (len msg =? 0) = (length msg =? 0)%nat) by (destruct msg; reflexivity).
  split.
  - intros H. exists st, (FRest rest). split; [exact L|]. exists msg, nli. split; [now apply FM|]. split; [now apply FL|].
    rewrite LE in H. destruct (length msg =? 0)%nat eqn:E0; [injection H as <- <-; auto|].
    destruct (new_count_spec msg nli HM ltac:(intros F; rewrite F in E0; discriminate)) as (_ & k & _ & K & _). rewrite K in H |- *.
    injection H as <- <-. split; [reflexivity|]. exists k. auto.
  - intros (st' & e' & L' & H). destruct (ONE _ _ L') as (-> & ->). destruct H as (m & l & H1 & H2 & H).
    apply FM in H1. apply FL in H2. subst m l. rewrite LE. destruct (length msg =? 0)%nat eqn:E0; [destruct H as (-> & ->); reflexivity|].
    destruct H as (-> & k & K & ->). rewrite K, TXT. reflexivity.
Qed.
Print Assumptions C85_smscounter.

(** smssubmit: a number and a message that are not empty.  Encode does not fail,
    and the status is 0. *)
Theorem C85_smssubmit : forall args out status, Forall (Forall is_byte) args ->
  (smssubmit_main args = (out, status) <->
   exists st e, line submit_has args st e /\
    match e with
    | FHelp => out = [] /\ status = 0
    | FBad => out = [] /\ status = 2
    | FRest _ => exists number msg nli,
        chosen st (str "number") (VString []) (VString number) /\ chosen st (str "message") (VString []) (VString msg) /\
        chosen st (str "language") (VInt 0) (VInt nli) /\
        if (length number =? 0)%nat || (length msg =? 0)%nat then out = [] /\ status = 1
        else status = 0 /\ exists pdus, encode msg (To number :: count_opts nli) = Ok pdus /\
          out = submitted (map (fun p => match tpdu_marshal p with Ok b => hex_encode b | _ => [] end) pdus)
    end).
Proof.
  intros args out status HB. unfold smssubmit_main. change submit_has with smssubmit_flags. destruct (parse_flags smssubmit_flags args) as [st e] eqn:E.
  pose proof (proj1 (line_iff _ smssubmit_proper _ _ _) E) as L.
  pose proof (string_flag _ _ _ _ "number" smssubmit_proper L (or_introl eq_refl)) as FN.
  pose proof (string_flag _ _ _ _ "message" smssubmit_proper L (or_intror (or_introl eq_refl))) as FM.
  pose proof (int_flag _ _ _ _ "language" smssubmit_proper L (or_intror (or_intror (or_introl eq_refl)))) as FL.
  assert (ONE : forall st' e', line smssubmit_flags args st' e' -> st' = st /\ e' = e).
  { intros st' e' L'. apply line_parse in L'; [|exact smssubmit_proper]. rewrite E in L'. injection L' as <- <-. auto. }
  destruct e as [rest| |].
  2,3: split; [intros H; injection H as <- <-; exists st; eexists; split; [exact L|]; cbn; auto|
    intros (st' & e' & L' & H); destruct (ONE _ _ L') as (-> & ->); destruct H as (-> & ->); reflexivity].
  set (number := final_string "number" st) in *. set (msg := final_string "message" st) in *. set (nli := final_int "language" st) in *.
  assert (HM : Forall is_byte msg).
  { apply (final_bytes _ _ _ _ "message" (VString []) msg HB L eq_refl). now apply chosen_iff, FM. }
  assert (LE : forall x : bytes, (len x =? 0) = (length x =? 0)%nat) by (intros []; reflexivity).
  destruct (smssubmit_total number msg nli HM) as (pdus & EP & ET).
  split.
  - intros H. exists st, (FRest rest). split; [exact L|]. exists number, msg, nli.
    split; [now apply FN|]. split; [now apply FM|]. split; [now apply FL|].
    rewrite !LE in H. destruct ((length number =? 0)%nat || (length msg =? 0)%nat); [injection H as <- <-; auto|].
    rewrite ET in H. injection H as <- <-. split; [reflexivity|]. exists pdus. auto.
  - intros (st' & e' & L' & H). destruct (ONE _ _ L') as (-> & ->). destruct H as (n & m & l & H0 & H1 & H2 & H).
    apply FN in H0. apply FM in H1. apply FL in H2. subst n m l. rewrite !LE.
    destruct ((length number =? 0)%nat || (length msg =? 0)%nat); [destruct H as (-> & ->); reflexivity|].
    destruct H as (-> & ps & K & ->). rewrite EP in K. injection K as <-. now rewrite ET.
Qed.
Print Assumptions C85_smssubmit.

(** A status of 0 does not mean that there is a TPDU: the error of MarshalBinary is
    dropped.  smssubmit -number x -message hi. *)
Theorem C85_submit_status_refuted :
  smssubmit_main [str "-number"; str "x"; str "-message"; str "hi"] = (str "Submit TPDU:" ++ [10; 10], 0).
Proof. vm_compute. reflexivity. Qed.
Print Assumptions C85_submit_status_refuted.

(** smsdeliver: the arguments behind the flags are those of C84. *)
Theorem C85_smsdeliver : forall args out status,
  smsdeliver_main args out status <->
  exists st e, line deliver_has args st e /\
    match e with
    | FHelp => out = [] /\ status = 0
    | FBad => out = [] /\ status = 2
    | FRest rest => exists p, chosen st (str "p") (VBool false) (VBool p) /\ deliver_run p rest out status /\
       if (length rest =? 0)%nat then out = [] /\ status = 1
       else exists ls z report, session p rest [] None ls z /\ ends z report status /\ out = written ls ++ report
    end.
Proof.
  intros args out status. unfold smsdeliver_main. change deliver_has with smsdeliver_flags. destruct (parse_flags smsdeliver_flags args) as [st e] eqn:E.
  pose proof (proj1 (line_iff _ smsdeliver_proper _ _ _) E) as L.
  pose proof (bool_flag _ _ _ _ "p" smsdeliver_proper L (or_introl eq_refl)) as FP.
  assert (ONE : forall st' e', line smsdeliver_flags args st' e' -> st' = st /\ e' = e).
  { intros st' e' L'. apply line_parse in L'; [|exact smsdeliver_proper]. rewrite E in L'. injection L' as <- <-. auto. }
  destruct e as [rest| |].
  2,3: split; [intros H; exists st; eexists; split; [exact L|]; exact H|
    intros (st' & e' & L' & H); destruct (ONE _ _ L') as (-> & ->); exact H].
  split.
  - intros H. exists st, (FRest rest). split; [exact L|]. exists (final_bool "p" st). split; [now apply FP|]. split; [exact H|].
    exact (C84_output _ _ _ _ H).
  - intros (st' & e' & L' & H). destruct (ONE _ _ L') as (-> & ->). destruct H as (p & HP & H & _). apply FP in HP. now rewrite HP.
Qed.
Print Assumptions C85_smsdeliver.

(** Some command lines: the last of two languages, underscores, what ends the
    flags, and what is refused. *)
Example C85_instance :
  smscounter_main [str "-language"; str "0x1"; str "--message=Hi"; str "-language=0_3"] =
    (str "encoding: 7BIT" ++ [10] ++ str "messages: 1" ++ [10] ++ str "total length: 2" ++ [10] ++ str "last PDU length: 2" ++ [10] ++
     str "per_message: 160" ++ [10] ++ str "remaining: 158" ++ [10], 0) /\
  smscounter_main [str "-message"] = ([], 2) /\ smscounter_main [str "-message="] = ([], 1) /\
  smscounter_main [str "-message=Hi"; str "-language=9223372036854775808"] = ([], 2) /\
  smscounter_main [str "Hi"; str "-message=Hi"] = ([], 1) /\
  smsdecode_main [str "-p=F"; str "--o"; str "010105912143f500000bc8329bfd06dddf723619"] =
    smsdecode_main [str "-o"; str "--"; str "010105912143f500000bc8329bfd06dddf723619"] /\
  snd (smsdecode_main [str "-o"; str "010105912143f500000bc8329bfd06dddf723619"]) = 0 /\
  smsdecode_main [str "-help"] = ([], 0) /\ smsdecode_main [str "-q"] = ([], 2) /\ smsdecode_main [str "---p"] = ([], 2) /\
  smsdecode_main [str "zz"] = ([], 1) /\ smsdecode_main [] = ([], 1) /\
  smssubmit_main [str "-number=12345"; str "-message"; str "Hello world"] =
    (str "Submit TPDU:" ++ [10] ++ str "010105912143f500000bc8329bfd06dddf723619" ++ [10], 0) /\
  smsdeliver_main (str "-p=false" :: part_args) part_out 0.
Proof.
  do 13 (split; [vm_compute; reflexivity|]). exact (proj2 C84_instance).
Qed.
