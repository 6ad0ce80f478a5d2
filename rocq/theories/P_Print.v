(** C68: what smsdecode prints.  The specification, [same_shown], is in
    SpecPrint.v. *)
From Coq Require Import String Ascii.
From Verif Require Import GoBase GoLemmas SafeLemmas Utf UtfProofs SpecDigits Charset Dcs FirstOctet Address GoTime ValidityPeriod
  UserData Tpdu Sms PduMode PduModeProofs Collector Cmd SpecCmd CmdProofs Print SpecPrint PrintProofs DumpProofs.

(** ** The dump of a TPDU from the wire tells its fields *)
Theorem C68_dump_shows : forall src src' mo mo' t t' d, Forall is_byte src -> Forall is_byte src' ->
  unmarshal src mo = Ok t -> unmarshal src' mo' = Ok t' ->
  dump_text t = Ok d -> dump_text t' = Ok d -> same_shown t t'.
Proof.
  intros src src' mo mo' t t' d HB HB' E E' D D'.
  exact (dumps_alike t t' d (unmarshal_dumpable _ _ _ HB E) (unmarshal_dumpable _ _ _ HB' E') D D').
Qed.
Print Assumptions C68_dump_shows.

(** ** The program *)
Lemma smsdecode_parts s pm mo t smsc : smsdecode s pm mo = Ok (t, smsc) ->
  (exists tb, Forall is_byte tb /\ unmarshal tb mo = Ok t) /\
  match smsc with Some a => pm = true /\ one_line (addr_number a) | None => pm = false end.
Proof.
  unfold smsdecode. destruct (hex_decode_safe s) as [(b & E & HB & _)|[-> |(c & ->)]]; [|discriminate|discriminate].
  rewrite E. cbn [bind]. destruct pm.
  - unfold pdu_unmarshal_hex. rewrite E. cbn [bind]. intros H. apply bind_ok in H as ([tb a] & H1 & H).
    apply bind_ok in H as (t1 & H2 & H). apply ok_pair in H as [<- <-].
    apply bind_ok in H1 as (p & Hp & H1). apply ok_pair in H1 as [<- <-].
    split.
    + destruct (pdu_unmarshal_safe b HB) as [(p' & Ep & k & HK)|(f & o & Ep & _)]; rewrite Ep in Hp; [|discriminate].
      apply ok_inj in Hp. subst p'. exists (p_tpdu p). split; [|exact H2]. rewrite HK. now apply Forall_skipn'.
    + split; [reflexivity|]. unfold pdu_unmarshal, pdu_unmarshal_into in Hp. apply bind_ok in Hp as ([a n] & Ha & Hp).
      apply bind_ok in Hp as (r & _ & Hp). apply ok_inj in Hp. subst p. cbn [p_smsc].
      destruct (smsc_unmarshal_safe (p_smsc zero_pdu) b HB) as [(a' & n' & Ea & _ & S)|(f & o & Ea & _)]; rewrite Ea in Ha; [|discriminate].
      apply ok_pair in Ha as [-> _].
      assert (O : one_line (a_addr a)).
      { destruct S as [->|(S & _)]; [constructor|]. eapply Forall_impl; [|exact S]. intros c I ->. 
        unfold is_semi_digit in I. cbn in I. repeat destruct I as [I|I]; try discriminate I. exact I. }
      unfold addr_number. destruct (addr_ton a =? TonInternational); [|exact O]. constructor; [discriminate|exact O].
  - cbn [bind]. intros H. apply bind_ok in H as (t1 & H2 & H). apply ok_pair in H as [<- <-].
    split; [|reflexivity]. exists b. auto.
Qed.

(** It prints a dump or reports an error. *)
Theorem C68_prints_or_fails : forall a pm mo,
  (exists d, smsdecode_text a pm mo = Ok d) \/ exists e, smsdecode_text a pm mo = Err e.
Proof.
  intros a pm mo. pose proof (smsdecode_safe a pm mo) as S. unfold smsdecode_text.
  destruct (smsdecode a pm mo) as [[t smsc]|e| |] eqn:E; try contradiction; [left|right; now exists e].
  cbn [bind]. apply dump_text_ok in S as (d & ->). cbn [bind]. now eexists.
Qed.
Print Assumptions C68_prints_or_fails.

(** Two arguments with the same output carry TPDUs with the same fields, and
    the number of the same SMSC. *)
Theorem C68_output_shows : forall a a' pm pm' mo mo' d,
  smsdecode_text a pm mo = Ok d -> smsdecode_text a' pm' mo' = Ok d ->
  exists t t' smsc smsc', smsdecode a pm mo = Ok (t, smsc) /\ smsdecode a' pm' mo' = Ok (t', smsc') /\
    same_shown t t' /\ pm = pm' /\ option_map addr_number smsc = option_map addr_number smsc'.
Proof.
  intros a a' pm pm' mo mo' d H H'. unfold smsdecode_text in *.
  apply bind_ok in H as ([t smsc] & E & H). apply bind_ok in H as (b & D & H). apply ok_inj in H.
  apply bind_ok in H' as ([t' smsc'] & E' & H'). apply bind_ok in H' as (b' & D' & H'). apply ok_inj in H'.
  exists t, t', smsc, smsc'. split; [exact E|]. split; [exact E'|].
  destruct (smsdecode_parts _ _ _ _ _ E) as ((tb & TB & U) & S). destruct (smsdecode_parts _ _ _ _ _ E') as ((tb' & TB' & U') & S').
  assert (X : b = b' /\ pm = pm' /\ option_map addr_number smsc = option_map addr_number smsc').
  { rewrite <- H' in H. destruct (dump_text_body _ _ D) as (_ & x & _ & Ex). destruct (dump_text_body _ _ D') as (_ & x' & _ & Ex').
    destruct smsc as [m|], smsc' as [m'|].
    - destruct S as (-> & S), S' as (-> & S'). apply pline_inj in H as [H ->]; [|assumption..]. cbn. rewrite H. auto.
    - exfalso. rewrite Ex' in H. discriminate.
    - exfalso. rewrite Ex in H. discriminate.
    - cbn [app] in H. subst pm pm'. auto. }
  destruct X as (<- & <- & X). split; [|auto]. exact (C68_dump_shows tb tb' mo mo' t t' b TB TB' U U' D D').
Qed.
Print Assumptions C68_output_shows.

(** So the text of messages can be told from the dumps of their TPDUs. *)
Lemma decode_loop_same o : forall l l' dang,
  Forall2 (fun t t' => UDH t = UDH t' /\ DCS t = DCS t' /\ UD t = UD t') l l' ->
  decode_loop (map Some l) dang o = decode_loop (map Some l') dang o.
Proof.
  intros l l' dang H. revert dang. induction H as [|t t' l l' (A & B & C) H IH]; intros dang; [reflexivity|].
  cbn [map decode_loop]. rewrite A, B, C. destruct (dd_err _) as [e|]; [|now rewrite IH].
  destruct e; try reflexivity. now rewrite IH.
Qed.
Theorem C68_same_text : forall l l' opts,
  Forall2 (fun t t' => same_shown t t' /\ (tpdu_type t = SmsDeliver \/ tpdu_type t = SmsSubmit)) l l' ->
  decode (map Some l) opts = decode (map Some l') opts.
Proof.
  intros l l' opts H. unfold decode. apply decode_loop_same.
  induction H as [|t t' l l' ((_ & _ & U & D & _ & _ & S & _) & [K|K]) H IH]; constructor; auto.
  - destruct (D K) as (_ & _ & _ & _ & _ & _ & E & _ & E2). auto.
  - destruct (S K) as (_ & _ & _ & _ & _ & _ & _ & E & _ & E2). auto.
Qed.
Print Assumptions C68_same_text.

(** ** Examples: the output in the README, lines 222-310 *)
Definition lines_text (l : list string) : bytes := flat_map (fun s => str s ++ [10]) l.

Definition readme_submit : bytes := str "010105912143f500000bc8329bfd06dddf723619".
Example C68_readme_submit : smsdecode_text readme_submit false true = Ok (lines_text
 ["TPDU: SMS-SUBMIT";
  "TP-MTI: 0x01 Submit";
  "TP-RD: false";
  "TP-VPF: 0x00 Not Present";
  "TP-RP: false";
  "TP-UDHI: false";
  "TP-SRR: false";
  "TP-MR: 1";
  "TP-DA: +12345";
  "TP-PID: 0x00";
  "TP-DCS: 0x00 7bit";
  "TP-VP: Not Present";
  "TP-UD: 00000000  48 65 6c 6c 6f 20 77 6f  72 6c 64                 |Hello world|"]%string).
Proof. vm_compute. reflexivity. Qed.

Definition readme_deliver : bytes := str "07911614220991F1040B911605935713F200008140806113912304D7F79B0E".
Example C68_readme_deliver : smsdecode_text readme_deliver true false = Ok (lines_text
 ["SMSC: +61412290191";
  "TPDU: SMS-DELIVER";
  "TP-MTI: 0x00 Deliver";
  "TP-MMS: true";
  "TP-LP: false";
  "TP-RP: false";
  "TP-UDHI: false";
  "TP-SRI: false";
  "TP-OA: +61503975312";
  "TP-PID: 0x00";
  "TP-DCS: 0x00 7bit";
  "TP-SCTS: 2018-04-08 16:31:19 +0800";
  "TP-UD: 00000000  57 6f 6f 74                                       |Woot|"]%string).
Proof. vm_compute. reflexivity. Qed.

Definition readme_part : bytes := str "400B911605935713F20008814080611373238C050003C00301007400680069007300200069007300200061002000760065007200790020006C006F006E00670020006D0065007300730061006700650020007400680061007400200064006F006500730020006E006F0074002000660069007400200069006E00200061002000730069006E0067006C006500200053004D00530020006D0065007300730061".
Example C68_readme_part : smsdecode_text readme_part false false = Ok (lines_text
 ["TPDU: SMS-DELIVER";
  "TP-MTI: 0x00 Deliver";
  "TP-MMS: false";
  "TP-LP: false";
  "TP-RP: false";
  "TP-UDHI: true";
  "TP-SRI: false";
  "TP-OA: +61503975312";
  "TP-PID: 0x00";
  "TP-DCS: 0x08 UCS-2";
  "TP-SCTS: 2018-04-08 16:31:37 +0800";
  "TP-UDH: ID: 0  Data: [192 3 1]";
  "TP-UD: 00000000  00 74 00 68 00 69 00 73  00 20 00 69 00 73 00 20  |.t.h.i.s. .i.s. |";
  "       00000010  00 61 00 20 00 76 00 65  00 72 00 79 00 20 00 6c  |.a. .v.e.r.y. .l|";
  "       00000020  00 6f 00 6e 00 67 00 20  00 6d 00 65 00 73 00 73  |.o.n.g. .m.e.s.s|";
  "       00000030  00 61 00 67 00 65 00 20  00 74 00 68 00 61 00 74  |.a.g.e. .t.h.a.t|";
  "       00000040  00 20 00 64 00 6f 00 65  00 73 00 20 00 6e 00 6f  |. .d.o.e.s. .n.o|";
  "       00000050  00 74 00 20 00 66 00 69  00 74 00 20 00 69 00 6e  |.t. .f.i.t. .i.n|";
  "       00000060  00 20 00 61 00 20 00 73  00 69 00 6e 00 67 00 6c  |. .a. .s.i.n.g.l|";
  "       00000070  00 65 00 20 00 53 00 4d  00 53 00 20 00 6d 00 65  |.e. .S.M.S. .m.e|";
  "       00000080  00 73 00 73 00 61                                 |.s.s.a|"]%string).
Proof. vm_compute. reflexivity. Qed.

(** ** What the dump does not show *)

(** The type of an address is shown only in a leading plus sign: the dumps of
    these messages, from 12345 as a national and as an unknown number, are the
    same. *)
Definition from_12345 (toa : Z) : bytes := [0; 5; toa; 33; 67; 245; 0; 0; 129; 64; 128; 97; 19; 145; 35; 0].
Theorem C68_address_type_not_shown : exists t t' d,
  unmarshal (from_12345 161) false = Ok t /\ unmarshal (from_12345 129) false = Ok t' /\
  dump_text t = Ok d /\ dump_text t' = Ok d /\ OA t <> OA t'.
Proof.
  eexists _, _, _. split; [vm_compute; reflexivity|]. split; [vm_compute; reflexivity|].
  split; [vm_compute; reflexivity|]. split; [vm_compute; reflexivity|]. discriminate.
Qed.
Print Assumptions C68_address_type_not_shown.

(** The header of a COMMAND is left out: these two differ in it. *)
Definition command_with (ref : Z) : bytes := [66; 1; 0; 0; 7; 2; 145; 33; 6; 5; 0; 3; ref; 2; 1].
Theorem C68_command_header_not_shown : exists t t' d,
  unmarshal (command_with 1) true = Ok t /\ unmarshal (command_with 2) true = Ok t' /\
  dump_text t = Ok d /\ dump_text t' = Ok d /\ UDH t <> UDH t'.
Proof.
  eexists _, _, _. split; [vm_compute; reflexivity|]. split; [vm_compute; reflexivity|].
  split; [vm_compute; reflexivity|]. split; [vm_compute; reflexivity|]. discriminate.
Qed.
Print Assumptions C68_command_header_not_shown.

(** A line of the dump may be forged: the alphanumeric address of this message
    has a line feed, and the first TP-PID line of the dump is part of it.  The
    PID is 5. *)
Definition forged : bytes :=
  [0; 25; 208; 65; 5; 21; 218; 130; 38; 137; 58; 16; 12; 15; 131; 1; 5; 0; 16; 16; 16; 0; 0; 0; 0; 0].
Theorem C68_forged_line : exists t d pre post, unmarshal forged false = Ok t /\ dump_text t = Ok d /\ PID t = 5 /\
  d = pre ++ lines_text ["TP-PID: 0x00"; "TP-PID: 0x05"]%string ++ post.
Proof.
  eexists _, _, (lines_text ["TPDU: SMS-DELIVER"; "TP-MTI: 0x00 Deliver"; "TP-MMS: false"; "TP-LP: false"; "TP-RP: false"; "TP-UDHI: false";
    "TP-SRI: false"; "TP-OA: A"]%string), (lines_text ["TP-DCS: 0x00 7bit"; "TP-SCTS: 2001-01-01 00:00:00 +0000"; "TP-UD: "]%string).
  split; [vm_compute; reflexivity|]. split; [vm_compute; reflexivity|]. split; [reflexivity|]. vm_compute. reflexivity.
Qed.
Print Assumptions C68_forged_line.
