(** C71: what the dump of smsdecode says is so.  The specification, [shown_lines]
    and [made_of], is in SpecShown.v. *)
From Coq Require Import String Ascii.
From Verif Require Import GoBase GoLemmas SafeLemmas Utf Dcs FirstOctet Address GoTime ValidityPeriod UserData Tpdu
  Sms PduMode Collector Cmd SpecCmd CmdProofs Print PrintProofs SpecTime SpecDcs SpecShown SpecAccept DumpProofs ShownProofs P_Print.

(** The dump of a TPDU from the wire has the lines of its type, in order, and
    each says the value of its field. *)
Theorem C71_dump_says : forall src mo t d, Forall is_byte src -> unmarshal src mo = Ok t ->
  dump_text t = Ok d -> made_of (shown_lines t) d.
Proof. intros src mo t d HB E D. exact (dump_says t d (unmarshal_dumpable _ _ _ HB E) D). Qed.
Print Assumptions C71_dump_says.

(** So does the output of the program, behind a line with the number of the SMSC
    when there is one. *)
Theorem C71_output_says : forall a pm mo d, smsdecode_text a pm mo = Ok d ->
  exists t smsc, smsdecode a pm mo = Ok (t, smsc) /\
    made_of (match smsc with Some n => [("SMSC: "#, number n)] | None => [] end ++ shown_lines t) d.
Proof.
  intros a pm mo d H. unfold smsdecode_text in H. apply bind_ok in H as ([t smsc] & E & H).
  apply bind_ok in H as (b & D & H). apply ok_inj in H. subst d. exists t, smsc. split; [exact E|].
  destruct (smsdecode_parts _ _ _ _ _ E) as ((tb & HB & U) & _). apply made_app; [|now apply (C71_dump_says tb mo)].
  destruct smsc as [n|]; [|apply made_nil]. rewrite <- (app_nil_r (pline "SMSC: " _)). apply made_cons; [apply number_says|apply made_nil].
Qed.
Print Assumptions C71_output_says.

(** ** Examples *)

(** The output in the README, lines 222-310, is of this kind. *)
Example C71_readme_met : exists d, smsdecode_text readme_deliver true false = Ok d.
Proof. eexists. exact C68_readme_deliver. Qed.

(** What a reader takes from a line is fixed. *)
Example C71_flag_fixed : forall t b, SpecShown.flag 2 t b -> b = "true"# -> Z.testbit (FO t) 2 = true.
Proof. unfold SpecShown.flag, yes_no. intros t b H E. rewrite H in E. now destruct (Z.testbit (FO t) 2). Qed.
Example C71_dec_fixed : forall n m b, dec n b -> dec m b -> n = m.
Proof. intros n m b (_ & _ & <-) (_ & _ & <-). reflexivity. Qed.
Example C71_time_read : time_shown {| t_unix := 1523176297; t_nsec := 0; t_off := 28800 |} "2018-04-08 16:31:37 +0800"#.
Proof.
  refine (time_says {| t_unix := 1523176297; t_nsec := 0; t_off := 28800 |} _). split; [reflexivity|].
  split; [vm_compute; split; discriminate|]. exists 480. split; [reflexivity|lia].
Qed.
