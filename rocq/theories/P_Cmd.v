(** C51 - C54, C56: the commands, and what Unmarshal returns.  Specifications in
    SpecCmd.v and SpecAccept.v. *)
From Coq Require Import Permutation.
From Verif Require Import GoBase GoLemmas SafeLemmas Utf UtfProofs SpecText SpecDigits Charset Dcs FirstOctet UserData Tpdu PduMode PduModeProofs Address
  Segment Sms SpecSelect SpecDcs SpecSms SpecTime SpecVP SpecTpdu P_Tpdu SpecFlow FlowProofs P_Flow TpduSafeProofs
  Collector SpecCollect CollectorProofs CollectorMsgProofs P_Collect SpecAccept AcceptProofs Cmd SpecCmd CmdProofs.

(** ** C56 *)
Theorem C56_unmarshal_sound : forall src mo t, Forall is_byte src -> unmarshal src mo = Ok t ->
  octet_fields t /\ addresses_sound t /\ ud_sound t /\ only_own_fields t.
Proof. intros src mo t HB H. destruct (unmarshal_sound src mo t HB H) as ((A & B) & C & D). auto. Qed.
Print Assumptions C56_unmarshal_sound.

(** A DELIVER TPDU with a header and a message. *)
Definition deliver_octets : bytes :=
  [64; 4; 145; 54; 25; 0; 0; 81; 80; 113; 50; 32; 5; 35; 8; 5; 0; 3; 1; 2; 1; 194].
Example C56_instance : exists t, unmarshal deliver_octets false = Ok t /\ UDH t <> None /\ UD t <> [] /\ Forall is_byte deliver_octets.
Proof. eexists. split; [vm_compute; reflexivity|]. repeat split; try discriminate. repeat constructor; unfold is_byte; lia. Qed.

(** ** C51 *)
Theorem C51_smsdecode_safe : forall a pm mo,
  (exists t smsc, smsdecode a pm mo = Ok (t, smsc) /\ dump_tpdu t = Ok tt) \/ exists e, smsdecode a pm mo = Err e.
Proof.
  intros a pm mo. pose proof (smsdecode_safe a pm mo) as H. destruct (smsdecode a pm mo) as [[t s]| | |]; try contradiction; eauto.
Qed.
Print Assumptions C51_smsdecode_safe.

Theorem C51_smsdecode_shows : forall a pm mo t, (exists smsc, smsdecode a pm mo = Ok (t, smsc)) <->
  exists tb, payload pm a tb /\ unmarshal tb mo = Ok t.
Proof.
  intros a pm mo t. unfold smsdecode, payload. split.
  - intros (smsc & H). apply bind_ok in H as (b & E & H). apply bind_ok in H as ([tb x] & E2 & H).
    apply bind_ok in H as (t' & E3 & H). apply ok_pair in H as [<- _]. exists tb. split; [|exact E3].
    exists b. split; [exact E|]. destruct pm; [|now apply ok_pair in E2 as [<- _]].
    apply bind_ok in E2 as (p & E2 & H). apply ok_pair in H as [<- _]. unfold pdu_unmarshal_hex in E2. rewrite E in E2.
    exists (p_smsc p). cbn [bind] in E2. rewrite E2. now destruct p.
  - intros (tb & (b & E & H) & HU). rewrite E. cbn [bind]. destruct pm.
    + destruct H as (smsc & H). unfold pdu_unmarshal_hex. rewrite E. cbn [bind]. rewrite H. cbn [bind p_tpdu]. rewrite HU. eexists. reflexivity.
    + subst b. cbn [bind]. rewrite HU. eexists. reflexivity.
Qed.
Print Assumptions C51_smsdecode_shows.

Example C51_instance : exists t smsc, smsdecode (hex_encode (4 :: 145 :: 33 :: 67 :: 245 :: deliver_octets)) true false = Ok (t, Some smsc) /\
  addr_number smsc = [43; 49; 50; 51; 52; 53] /\ UDH t <> None.
Proof. eexists _, _. split; [vm_compute; reflexivity|]. split; [reflexivity|discriminate]. Qed.

(** ** C53 *)

(** False: two parts of reports, which the Collector keeps in one pipe, crash
    the command.  These are SUBMIT-REPORT TPDUs with a header of one
    concatenation element: part 1 of 2, part 3 of 3. *)
Definition report_octets (n i : Z) : bytes :=
  [65; 1; 4; 81; 80; 113; 50; 32; 5; 35; 6; 5; 0; 3; 7; n; i].
Theorem C53_no_crash_refuted : exists args,
  snd (smsdeliver false args) = SdPanic /\
  Forall (fun a => exists t, shows false a t) args.
Proof.
  exists [hex_encode (report_octets 2 1); hex_encode (report_octets 3 3)]. split; [vm_compute; reflexivity|].
  repeat constructor; eexists; (eexists; split; [eexists; split; [vm_compute; reflexivity|reflexivity]|vm_compute; reflexivity]).
Qed.
Print Assumptions C53_no_crash_refuted.

(** Missing for the full claim: those arguments. *)
Theorem C53_no_crash_partial : forall pm args, Forall (fun a => ~ report_part pm a) args ->
  (exists s, snd (smsdeliver pm args) = SdDone s) \/ exists e, snd (smsdeliver pm args) = SdFatal e.
Proof.
  intros pm args HF. apply loop_no_crash; [|reflexivity|exact HF]. exists []. split; [constructor|reflexivity].
Qed.
Print Assumptions C53_no_crash_partial.

Example C53_instance : (* a part, an odd number of hex digits, something that is not hex *)
  Forall (fun a => ~ report_part false a) [hex_encode deliver_octets; [48]; [113; 113]] /\
  snd (smsdeliver false [hex_encode deliver_octets; [48]; [113; 113]]) = SdFatal HexLength.
Proof.
  split; [|vm_compute; reflexivity]. repeat constructor; intros (t & (tb & (b & HX & HP) & HU) & NT & _).
  - subst b. vm_compute in HX. injection HX as <-. vm_compute in HU. injection HU as <-. apply NT. vm_compute. reflexivity.
  - vm_compute in HX. discriminate.
  - vm_compute in HX. discriminate.
Qed.

(** ** C52 *)

Lemma Forall2_in_r {A B} (P : A -> B -> Prop) l l' y : Forall2 P l l' -> In y l' -> exists x, P x y.
Proof. induction 1 as [|a b l l' H _ IH]; intros []; [subst; eauto|auto]. Qed.
Lemma all_taken_length gs : forall os, length os = length gs ->
  Forall (fun o => exists d, o = OCollect (CReturn d None)) os -> length (all_taken (map EvCollect gs) os) = length gs.
Proof.
  induction gs as [|g gs IH]; intros [|o os] HL HF; try discriminate; [reflexivity|].
  apply Forall_cons_iff in HF as [(d & ->) HF]. cbn [map all_taken taken app length]. f_equal. apply IH; auto.
Qed.
Lemma somes_map_some {A} (l : list A) : somes (map Some l) = l.
Proof. induction l as [|x l IH]; [reflexivity|]. unfold somes in *. cbn [map flat_map app]. now rewrite IH. Qed.
Lemma map_repeat {A B} (f : A -> B) x n : map f (repeat x n) = repeat (f x) n.
Proof. induction n; cbn [repeat map]; congruence. Qed.

(** The TPDUs of a message for a mobile station, given in any order, make
    smsdeliver print the message once, with the originating number, and
    nothing else, and leave no reassembly open.  Left out: what
    C41_end_to_end_partial leaves out. *)
Theorem C52_smsdeliver_partial : forall e msg opts pdus e' text pm sent args,
  let tmpl := e_pdu (with_options e opts) in
  template_ok tmpl -> Direction tmpl = MT ->
  meant (DCS tmpl) (e_eopts (with_options e opts)) msg text ->
  encoder_encode e msg opts = Ok (pdus, e') -> 1 <= len pdus <= 255 ->
  Permutation pdus sent -> Forall2 (printed pm) sent args ->
  exists s, smsdeliver pm args = ([SdPrint (addr_number (OA tmpl)) text], SdDone s) /\ pipes s = [].
Proof.
  intros e msg opts pdus e' text pm sent args tmpl HT HDir HM HE HL HP HA. unfold tmpl in *. clear tmpl.
  destruct (C41_end_to_end_partial e msg opts pdus e' text [] (or_introl HT) HM HE (or_introl eq_refl))
    as (rcvd & HC & HDec & H1 & H2).
  pose proof (encode_oa _ _ _ _ _ HE) as HO.
  assert (LR : length rcvd = length pdus) by (clear - HC; induction HC; cbn [length]; congruence).
  destruct (Permutation_Forall2 HP HC) as (arr & HPr & HCr).
  assert (HS : Forall2 (shows pm) args arr).
  { assert (HDs : forall p, In p sent -> Direction p = MT).
    { intros p Hp. rewrite (proj2 (HO p (Permutation_in _ (Permutation_sym HP) Hp))). exact HDir. }
    clear - HA HCr HDs. revert args HA. induction HCr as [|p r sent arr (b & Hm & _ & Hu) _ IH]; intros args HA;
      inversion HA as [|? ? a args' (b' & Hm' & Hp) HA' E1 E2]; subst; constructor.
    - rewrite Hm in Hm'. apply ok_inj in Hm'. subst b'. exists b. split; [exact Hp|].
      rewrite (HDs p (or_introl eq_refl)) in Hu. exact Hu.
    - apply IH; [|exact HA']. intros q Hq. apply HDs. now right. }
  assert (HRO : forall r, In r rcvd -> OA r = OA (e_pdu (with_options e opts))).
  { assert (HW : forall p r, In p pdus -> carried p r -> OA r = OA p).
    { intros p r Hp Hc. destruct (encode_flow _ _ _ _ _ _ HE HT HM) as (HW & _). specialize (HW p Hp).
      pose proof (carried_ok p HW) as Hc'. rewrite (carried_fun _ _ _ Hc Hc').
      unfold received. rewrite (proj2 (HO p Hp)), HDir. reflexivity. }
    clear - HC HO HW. induction HC as [|p r pdus rcvd Hc _ IH]; intros x []; [subst x|].
    - rewrite (HW p r (or_introl eq_refl) Hc). apply HO. now left.
    - apply IH; auto. + intros s Hs. apply HO. now right. + intros q s Hq. apply HW. now right. }
  assert (NE : rcvd <> []) by (intros ->; unfold len in HL; cbn in LR; lia).
  assert (HRep : forall gs, map sg_pdu gs = rcvd -> sd_report (Some (map Some gs)) None =
            Some [SdPrint (addr_number (OA (e_pdu (with_options e opts)))) text]).
  { intros gs Hg. unfold sd_report. rewrite map_map. cbn [option_map]. rewrite <- map_map, Hg, HDec.
    destruct gs as [|g gs]; [cbn in Hg; congruence|]. cbn [map]. cbn [app]. rewrite HRO; [reflexivity|].
    rewrite <- Hg. now left. }
  unfold smsdeliver.
  destruct (Z.eq_dec (len rcvd) 1) as [E1|N1].
  - assert (arr = rcvd) as ->.
    { destruct rcvd as [|r [|? ?]]; [congruence| |unfold len in E1; cbn [length] in E1; lia].
      apply Permutation_length_1_inv in HPr. exact HPr. }
    set (gs := arrivals 0 rcvd) in *.
    assert (HG : map sg_pdu gs = rcvd) by apply arrivals_pdus.
    destruct gs as [|g [|? ?]] eqn:EG; try (rewrite <- HG in E1; unfold len in E1; cbn [length map] in E1; lia).
    rewrite (loop_run pm args rcvd 0 new_collector [[SdPrint (addr_number (OA (e_pdu (with_options e opts)))) text]] HS).
    + cbn [concat app]. eexists. split; [reflexivity|]. fold gs. rewrite EG. cbn [map]. rewrite run_cons. cbn [step].
      rewrite (H1 E1 sd_cfg new_collector g eq_refl HG). reflexivity.
    + fold gs. rewrite EG. cbn [map]. rewrite run_cons. cbn [step].
      rewrite (H1 E1 sd_cfg new_collector g eq_refl HG). cbn [fst snd map run lines]. f_equal.
      exact (HRep [g] HG).
  - assert (N2 : 1 < len rcvd) by (destruct rcvd; [congruence|]; rewrite len_cons in *; pose proof (len_nonneg rcvd); lia).
    destruct (H2 ltac:(unfold len in *; lia)) as (m & _ & HSeg & HRun).
    set (gs := arrivals 0 arr) in *. assert (HG : map sg_pdu gs = arr) by apply arrivals_pdus.
    assert (HIn : forall g, In g gs -> In (sg_pdu g) rcvd).
    { intros g Hg. apply (Permutation_in _ (Permutation_sym HPr)). rewrite <- HG. now apply in_map. }
    assert (HNo : forall g, In g gs -> exists i, seg_no m g = Some i).
    { intros g Hg. apply HIn, In_nth_error in Hg as (k & Hk). exists (Z.of_nat k + 1). apply seg_no_iff. now apply HSeg. }
    destruct (HRun sd_cfg new_collector (map EvCollect gs)) as (out & HRe & HOut).
    + exists []. split; [constructor|reflexivity].
    + reflexivity.
    + intros g [].
    + apply Forall_forall. intros ev Hev. apply in_map_iff in Hev as (g & <- & Hg). right. exists g. split; [reflexivity|auto].
    + apply Forall_forall. intros ev Hev. apply in_map_iff in Hev as (g & <- & Hg). discriminate.
    + apply no_timers.
    + rewrite <- map_map, parts_all by exact HNo. rewrite HG. now apply Permutation_sym.
    + rewrite replies_all in HRe; [|now rewrite run_length, map_length|exact HNo].
      rewrite (loop_run pm args arr 0 new_collector
        (repeat [] (length rcvd - 1) ++ [[SdPrint (addr_number (OA (e_pdu (with_options e opts)))) text]]) HS).
      2:{ fold gs. rewrite HRe. rewrite !map_app. cbn [map]. rewrite !map_repeat. cbn [lines]. f_equal.
          rewrite (HRep out HOut). reflexivity. }
      eexists. split; [f_equal|].
      * rewrite concat_app. cbn [concat]. rewrite app_nil_r.
        assert (concat (repeat (@nil sd_line) (length rcvd - 1)) = []) as -> by (clear; induction (length rcvd - 1)%nat as [|k IH]; cbn [repeat concat app]; auto).
        reflexivity.
      * fold gs. pose proof (run_drained gs) as HDr. destruct (run sd_cfg new_collector (map EvCollect gs)) as [s' os] eqn:ER.
        cbn [fst snd] in *. apply HDr.
        { apply Forall_forall. intros ev Hev. apply in_map_iff in Hev as (g & <- & Hg).
          assert (Ha : In (sg_pdu g) arr) by (rewrite <- HG; now apply in_map).
          destruct (Forall2_in_r _ _ _ _ HS Ha) as (a & tb & Hp & Hu). destruct g as [i t].
          apply (read_typed tb); [exact (payload_bytes _ _ _ Hp)|exact Hu]. }
        assert (LG : length gs = length rcvd).
        { rewrite <- (map_length sg_pdu gs), HG. symmetry. now apply Permutation_length. }
        assert (LO : length out = length rcvd) by (now rewrite <- HOut, map_length).
        rewrite HRe, flat_map_app, app_length. rewrite all_taken_length.
        { cbn [flat_map returned]. rewrite app_nil_r, somes_map_some.
          assert (flat_map returned (repeat (OCollect (CReturn None None)) (length rcvd - 1)) = []) as ->.
          { clear; induction (length rcvd - 1)%nat as [|k IH]; cbn [repeat flat_map returned app]; auto. }
          cbn [length]. lia. }
        { rewrite app_length, repeat_length. cbn [length]. rewrite LG. unfold len in N2. lia. }
        { apply Forall_app. split; [|repeat constructor; eauto]. apply Forall_forall. intros o Ho. apply repeat_spec in Ho.
          subst o. eauto. }
Qed.
Print Assumptions C52_smsdeliver_partial.

(** Such arguments are what marshalling and hex encoding give, with or without
    an SMSC address in front. *)
Theorem C52_arguments : forall p b, tpdu_marshal p = Ok b -> Forall is_byte b ->
  printed false p (hex_encode b) /\ printed true p (hex_encode (0 :: b)) /\
  forall toa ds, is_byte toa -> ds <> [] -> Forall is_semi_digit ds -> len ds <= 508 ->
    exists h, pdu_marshal_hex {| p_smsc := {| a_toa := toa; a_addr := ds |}; p_tpdu := b |} = Ok h /\ printed true p h.
Proof.
  intros p b HM HB. split; [|split].
  - exists b. split; [exact HM|]. exists b. split; [now apply hex_roundtrip|reflexivity].
  - exists b. split; [exact HM|]. exists (0 :: b). split; [apply hex_roundtrip; constructor; [unfold is_byte; lia|exact HB]|].
    eexists. unfold pdu_unmarshal, pdu_unmarshal_into, smsc_unmarshal. rewrite len_cons. pose proof (len_nonneg b).
    replace (1 + len b <? 1) with false by lia. rewrite idx_0. cbn [bind]. change (0 =? 0) with true. cbv iota. cbn [bind].
    rewrite (slice_from_app [0] b) by reflexivity. reflexivity.
  - intros toa ds HT H1 H2 H3. destruct (pdu_roundtrip zero_pdu toa ds b H1 H2 H3) as (x & E & B & D).
    exists (hex_encode x). unfold pdu_marshal_hex. rewrite E. cbn [bind]. split; [reflexivity|].
    exists b. split; [exact HM|]. exists x. split; [apply hex_roundtrip; auto|]. eexists. exact D.
Qed.
Print Assumptions C52_arguments.

(** 67 characters of UCS-2 behind a port header take two TPDUs; they are given
    in reverse order. *)
Definition deliver_text : bytes := flat_map (fun x => [0; x]) (repeat 97 67).
Definition deliver_pdus : list tpdu :=
  match encoder_encode (sms_new_encoder [EoTemplate flow_template]) deliver_text [] with Ok (l, _) => l | _ => [] end.
Definition hex_of (p : tpdu) : bytes := match tpdu_marshal p with Ok b => hex_encode b | _ => [] end.
Example C52_instance :
  len deliver_pdus = 2 /\
  fst (smsdeliver false (rev (map hex_of deliver_pdus))) = [SdPrint [43; 54; 51; 57; 49] (repeat 97 67)] /\
  template_ok (e_pdu (with_options (sms_new_encoder [EoTemplate flow_template]) [])).
Proof. split; [vm_compute; reflexivity|]. split; [vm_compute; reflexivity|]. exact (proj1 C41_template_instance). Qed.

(** Beyond that the claim is false: of "ESC e" the euro sign is printed. *)
Theorem C52_smsdeliver_refuted : exists msg pdus e' s,
  valid_utf8 msg /\
  encoder_encode (sms_new_encoder [EoTemplate (set_DCSf flow_template 0)]) msg [] = Ok (pdus, e') /\
  smsdeliver false (map hex_of pdus) = ([SdPrint [43; 54; 51; 57; 49] [226; 130; 172]], SdDone s) /\ msg <> [226; 130; 172].
Proof.
  exists [27; 101]. eexists _, _, _. split; [|split; [|split]].
  - exists [27; 101]. change [27; 101] with ([27] ++ [101] ++ []) at 2. repeat (constructor; try lia).
  - vm_compute. reflexivity.
  - vm_compute. reflexivity.
  - discriminate.
Qed.
Print Assumptions C52_smsdeliver_refuted.

(** ** C54 *)

(** The character set options smssubmit passes on for its language flag. *)
Definition submit_charsets (nli : Z) : list charset_opt := if negb (nli =? 0) then [OptCharset [nli]] else [].

(** What smssubmit prints are hex strings that smsdecode -o reads as SUBMIT TPDUs for
    the number which together hold the message, whatever the language
    identifier.  Left out: U+001B coded in septets. *)
Theorem C54_smssubmit_partial : forall number ds msg nli,
  valid_utf8 msg -> ~ In 27 msg \/ choose msg (submit_charsets nli) = ChUcs2 -> dialled number ds ->
  exists lines, smssubmit number msg nli = Ok lines /\
    exists rcvd,
       Forall2 (fun l r => smsdecode l false true = Ok (r, None) /\ tpdu_type r = SmsSubmit /\
                           addr_number (DA r) = 43 :: ds) lines rcvd /\
       decode (map Some rcvd) [] = Ok msg.
Proof.
  intros number ds msg nli HV HN HD.
  set (cs := submit_charsets nli) in *.
  destruct (C41_text_to_number_partial msg number ds cs HV HN HD) as (pdus & HE & HR).
  assert (HS : smssubmit number msg nli = Ok (map hex_of pdus)).
  { unfold smssubmit.
    assert (encode msg ([AsSubmit; To number] ++ (if negb (nli =? 0) then [EoCharset (OptCharset [nli])] else [])) =
            encode msg (To number :: map EoCharset cs)) as ->.
    { unfold cs, submit_charsets. destruct (negb (nli =? 0)); reflexivity. }
    rewrite HE. reflexivity. }
  exists (map hex_of pdus). split; [exact HS|].
  destruct HR as (rcvd & HC & HDec & _ & HF). exists rcvd. split; [|exact HDec].
  clear - HC HF. induction HC as [|p r ps rs (b & Hm & Hb & Hu) _ IH]; cbn [map]; constructor.
  - pose proof (Forall_inv HF) as [K1 K2]. split; [|split; assumption].
    assert ((Direction p =? MO) = true) as D.
    { destruct (Direction p =? MO); [reflexivity|]. destruct (P_Tpdu.C30_type_announced _ _ _ Hu) as (HT & _).
      unfold tpdu_type in K1. rewrite HT in K1. cbn [set_Direction Direction] in K1. unfold sms_type, MT, SmsSubmit in K1.
      change (to_byte 0) with 0 in K1. rewrite Z.lor_0_r in K1. unfold to_byte in K1. rewrite Z.shiftl_mul_pow2 in K1 by lia. lia. }
    rewrite D in Hu. unfold smsdecode, hex_of. rewrite Hm, (hex_roundtrip b Hb). cbn [bind]. now rewrite Hu.
  - apply IH. now inversion HF.
Qed.
Print Assumptions C54_smssubmit_partial.

(** "ESC e" is read as the euro sign. *)
Theorem C54_smssubmit_refuted : exists msg lines rcvd, valid_utf8 msg /\ smssubmit [54; 51; 57; 49] msg 0 = Ok lines /\
  Forall2 (fun l r => smsdecode l false true = Ok (r, None)) lines rcvd /\
  decode (map Some rcvd) [] = Ok [226; 130; 172] /\ msg <> [226; 130; 172].
Proof.
  exists [27; 101], [hex_encode [1; 1; 4; 145; 54; 25; 0; 0; 2; 155; 50]], [esc_pdu]. split; [|split; [|split; [|split]]].
  - exists [27; 101]. change [27; 101] with ([27] ++ [101] ++ []) at 2. repeat (constructor; try lia).
  - vm_compute. reflexivity.
  - constructor; [|constructor]. vm_compute. reflexivity.
  - vm_compute. reflexivity.
  - discriminate.
Qed.
Print Assumptions C54_smssubmit_refuted.

(** "Hello" in two scripts, for a number with a plus. *)
Example C54_instance :
  valid_utf8 [72; 105; 32; 206; 147] /\ ~ In 27 [72; 105; 32; 206; 147] /\ dialled [43; 54; 51; 57; 49] [54; 51; 57; 49] /\
  smssubmit [43; 54; 51; 57; 49] [72; 105; 32; 206; 147] 0 = Ok [hex_encode [1; 1; 4; 145; 54; 25; 0; 0; 4; 200; 52; 104; 2]].
Proof.
  split; [|split; [|split]].
  - exists [72; 105; 32; 915]. change [72; 105; 32; 206; 147] with ([72] ++ [105] ++ [32] ++ [206; 147] ++ []). 
    do 3 (constructor; [constructor; lia|]). constructor; [|constructor]. exact (u8_2 14 19 ltac:(lia) ltac:(lia)).
  - cbn. intuition discriminate.
  - split; [now right|]. split; [repeat constructor; cbn; tauto|cbn; lia].
  - vm_compute. reflexivity.
Qed.
