(** C90: the loops of the README.  Readme.v models them; SpecReadme.v and
    SpecFlow.v say which templates and messages are meant. *)
From Coq Require Import Permutation.
From Verif Require Import GoBase GoLemmas SafeLemmas Utf UtfProofs SpecText Charset Gsm7 Dcs FirstOctet SpecDigits TpduSafeProofs
  UserData Tpdu Segment Sms SpecSelect SpecDcs SpecSms SpecTime SpecVP SpecTpdu Address GoTime ValidityPeriod
  Collector SpecCollect CollectorProofs CollectorMsgProofs P_Collect SpecFlow SegmentProofs SegmentFitProofs SmsProofs FlowProofs
  P_Flow AcceptProofs CmdProofs Readme SpecReadme ReadmeProofs.

(** One message. *)
Lemma one_message e msg text sent e' arr rest s n :
  template_posted (e_pdu e) -> meant (DCS (e_pdu e)) (e_eopts e) msg text ->
  readme_send_one e msg = Ok (sent, e') -> 1 <= len sent <= 255 -> Permutation sent arr -> between s ->
  let mo := Direction (e_pdu e) =? MO in
  e_pdu e' = e_pdu e /\ e_eopts e' = e_eopts e /\
  exists s' n', between s' /\
    let go := readme_receive mo s' n' rest in readme_receive mo s n (arr ++ rest) = (text :: fst go, snd go).
Proof.
  intros HT HM HS LN PE BT mo. unfold readme_send_one in HS.
  destruct (encoder_encode e msg []) as [[pdus e1]|er| |] eqn:HE; try discriminate.
  2:{ apply ok_pair in HS as [<- <-]. cbn in LN. lia. }
  apply ok_pair in HS as [<- <-].
  pose proof (encoder_encode_ok _ _ _ _ _ HE) as (t0 & ud0 & _ & _ & ->). split; [reflexivity|]. split; [reflexivity|].
  destruct (posted_end_to_end e msg [] pdus _ text HT HM HE) as (DI & rcvd & CA & DE & ONE & SEV).
  cbn [with_options fold_left] in DI.
  set (oct := fun p => match tpdu_marshal p with Ok b => b | _ => [] end) in *.
  assert (LR : length rcvd = length pdus) by (clear - CA; induction CA; cbn [length]; congruence).
  (* what arrives *)
  set (rd := fun b => match unmarshal b mo with Ok r => r | _ => zero_tpdu end).
  assert (RD : Forall (fun b => Forall is_byte b /\ unmarshal b mo = Ok (rd b)) (map oct pdus) /\ map rd (map oct pdus) = rcvd).
  { clear - CA DI. induction CA as [|p r ps rs (b & A & B & C) _ IH]; [split; [constructor|reflexivity]|].
    apply Forall_cons_iff in DI as [DP DI]. destruct (IH DI) as [I1 I2]. rewrite DP in C. fold mo in C. cbn [map].
    assert (oct p = b) as -> by (unfold oct; now rewrite A).
    assert (rd b = r) as -> by (unfold rd; now rewrite C). split; [constructor; [split; [exact B|]|exact I1]|now rewrite I2].
    unfold rd. rewrite C. reflexivity. }
  destruct RD as [RD1 RD2]. set (rs := map rd arr).
  assert (PR : Permutation rs rcvd) by (rewrite <- RD2; apply Permutation_map; now apply Permutation_sym).
  assert (AR : Forall (fun b => Forall is_byte b /\ unmarshal b mo = Ok (rd b)) arr) by (now apply (Permutation_Forall PE)).
  assert (F2 : Forall2 (fun b r => unmarshal b mo = Ok r) arr rs).
  { unfold rs. clear - AR. induction AR as [|b l [_ H] _ IH]; cbn [map]; constructor; auto. }
  assert (TY : Forall (fun r => forall i, typed {| sg_id := i; sg_pdu := r |}) rs).
  { unfold rs. clear - AR. induction AR as [|b l [B H] _ IH]; cbn [map]; constructor; auto. intros i. now apply (read_typed_any mo b). }
  assert (LS : length rs = length rcvd) by (now apply Permutation_length).
  assert (LM : len (map oct pdus) = len pdus) by (now rewrite len_map). rewrite LM in LN.
  exists (fst (run readme_cfg s (calls n rs))), (n + length rs)%nat.
  assert (OUT : exists k gs, snd (run readme_cfg s (calls n rs)) = repeat nothing k ++ [whole gs] /\ map sg_pdu gs = rcvd).
  { destruct (Z.eq_dec (len pdus) 1) as [E1|N1].
    - assert (len rcvd = 1) as E2 by (unfold len in *; lia).
      destruct rcvd as [|r [|? ?]]; try (unfold len in E2; cbn in E2; lia). apply Permutation_sym, Permutation_length_1_inv in PR. rewrite PR.
      cbn [calls run step]. rewrite (ONE E2 readme_cfg s {| sg_id := n; sg_pdu := r |}) by (reflexivity || apply BT). cbn [snd].
      exists 0%nat, [{| sg_id := n; sg_pdu := r |}]. split; reflexivity.
    - destruct (SEV ltac:(unfold len in *; lia)) as (m & MT & HSeg & RUN).
      assert (NUM : forall r, In r rs -> forall i, exists q, seg_no m {| sg_id := i; sg_pdu := r |} = Some q).
      { intros r Hr i. apply (Permutation_in _ PR) in Hr. apply In_nth_error in Hr as (k & Hk).
        exists (Z.of_nat k + 1). apply seg_no_iff. now apply (HSeg k {| sg_id := i; sg_pdu := r |}). }
      assert (PA : forall rs' n', (forall r, In r rs' -> In r rs) -> map (fun p => sg_pdu (snd p)) (parts m (calls n' rs')) = rs').
      { induction rs' as [|r rs' IH]; intros n' IN; [reflexivity|]. cbn [calls parts flat_map].
        destruct (NUM r (IN r (or_introl eq_refl)) n') as (q & ->). cbn [app map snd sg_pdu]. f_equal. apply IH. intros x Hx. apply IN. now right. }
      assert (RE : forall rs' n' os, (forall r, In r rs' -> In r rs) -> length os = length rs' -> replies m (calls n' rs') os = os).
      { induction rs' as [|r rs' IH]; intros n' [|o os] IN L; try discriminate; [reflexivity|]. cbn [calls replies].
        destruct (NUM r (IN r (or_introl eq_refl)) n') as (q & ->). f_equal. apply IH; [|now injection L]. intros x Hx. apply IN. now right. }
      destruct (RUN readme_cfg s (calls n rs)) as (gs & G1 & G2).
      + destruct BT as (_ & es & T & E & _). exists es. split; [exact T|exact E].
      + apply BT.
      + rewrite (between_held s BT). intros g [].
      + clear - TY. revert n. induction TY as [|r rs H _ IH]; intros n; cbn [calls]; constructor; auto. left. apply H.
      + clear. revert n. induction rs as [|r rs IH]; intros n; cbn [calls]; constructor; auto. discriminate.
      + clear. revert n s. induction rs as [|r rs IH]; intros n s; cbn [calls no_timeout]; auto.
      + rewrite PA by auto. exact PR.
      + rewrite RE in G1 by (auto; now rewrite run_outputs, calls_length). exists (length rcvd - 1)%nat, gs. split; [exact G1|exact G2]. }
  destruct OUT as (k & gs & O1 & O2).
  assert (LG : length gs = length rcvd) by (rewrite <- O2; now rewrite map_length).
  split; [apply (between_calls s n rs gs k); auto; congruence|].
  apply (receive_calls mo rest gs text) with (k := k); auto.
  - intros ->. cbn in LG. unfold len in LN. lia.
  - rewrite O2. exact DE.
Qed.

(** The messages given to the sending loop are those the receiving loop handles,
    in their order and whatever the number of messages, if the TPDUs of each
    arrive in any order but before those of the next.
    Left out: what C41 leaves out; and empty messages, for which nothing is sent. *)
Theorem C90_stream_partial : forall e msgs texts sent arrived,
  template_posted (e_pdu e) -> Forall2 (meant (DCS (e_pdu e)) (e_eopts e)) msgs texts ->
  readme_send e msgs = Ok sent -> Forall (fun bs => 1 <= len bs <= 255) sent ->
  Forall2 (@Permutation bytes) sent arrived ->
  readme_receive (Direction (e_pdu e) =? MO) new_collector 0 (concat arrived) = (texts, Waits).
Proof.
  intros e msgs texts sent arrived HT HM. 
  enough (G : forall s n, between s -> readme_send e msgs = Ok sent -> Forall (fun bs => 1 <= len bs <= 255) sent ->
    Forall2 (@Permutation bytes) sent arrived -> readme_receive (Direction (e_pdu e) =? MO) s n (concat arrived) = (texts, Waits)).
  { apply G. apply between_new. }
  assert (Q : exists t0 c0, e_pdu e = t0 /\ e_eopts e = c0) by eauto. destruct Q as (t0 & c0 & Q1 & Q2). rewrite Q1 in *. rewrite Q2 in *.
  revert e Q1 Q2 sent arrived. induction HM as [|m x msgs texts M _ IH]; intros e Q1 Q2 sent arrived s n B H LN P; cbn [readme_send] in H.
  - apply ok_inj in H. subst sent. inversion P; subst. reflexivity.
  - apply bind_ok in H as ([bs e'] & H1 & H). apply bind_ok in H as (sent' & H2 & H). apply ok_inj in H. subst sent.
    apply Forall_cons_iff in LN as [L1 LN]. inversion P as [|? arr ? arrived' P1 P2]; subst. cbn [concat].
    destruct (one_message e m x bs e' arr (concat arrived') s n HT M H1 L1 P1 B) as (E1 & E2 & s' & n' & B' & ->).
    rewrite (IH e' E1 E2 sent' arrived' s' n' B' H2 LN P2). reflexivity.
Qed.
Print Assumptions C90_stream_partial.

(** ** The loop as the README has it, with NewEncoder() *)
Definition new_year_2001 : gotime := {| t_unix := 978307200; t_nsec := 0; t_off := 0 |}.
Lemma zero_posted : template_posted zero_tpdu /\ template_ok (set_SCTS zero_tpdu new_year_2001).
Proof.
  assert (T : template_ok (set_SCTS zero_tpdu new_year_2001)).
  { unfold template_ok, header_ok. cbn [set_SCTS zero_tpdu FO PID DCS UDH]. split; [unfold is_byte; lia|]. split; [unfold is_byte; lia|].
    split; [unfold is_byte; lia|]. split; [reflexivity|]. right. split; [reflexivity|]. split; [reflexivity|]. cbn [OA SCTS]. split.
    - apply av_num; [unfold is_byte; lia|discriminate|constructor|cbn; lia].
    - split; [reflexivity|]. cbn [new_year_2001 t_unix t_off]. split; [unfold century; lia|]. exists 0. lia. }
  split; [|exact T]. right. exists new_year_2001. split; [vm_compute; reflexivity|]. now left.
Qed.
Lemma default_encodes e msg : e_pdu e = zero_tpdu -> e_eopts e = [] -> exists pdus, encoder_encode e msg [] = Ok (pdus, advance e pdus).
Proof.
  intros HE1 HE2.
  assert (HP : exists t ud, encode_prepare e msg = Ok (t, ud) /\ udhl (ies (UDH t)) <= 119 /\ tpdu_type t = SmsDeliver).
  { pose proof (EncodeProofs.prepare_cases e msg) as HP. rewrite HE1 in HP.
    change (DCS zero_tpdu) with 0 in HP. specialize (HP ltac:(unfold is_byte; lia)).
    change (given_encoded 0) with false in HP. cbv iota in HP.
    destruct (encode_user_data msg (e_eopts e)) as [[ud h] a] eqn:EU. destruct HP as [HC HP].
    assert (alphabet_expressible (coding_group 0) (EncodeProofs.choice_alpha (choose msg (e_eopts e))) = true) as EX
      by (destruct (choose _ _); reflexivity).
    rewrite EX in HP. destruct HP as (t & ET & _ & _ & _ & HU & HF & _ & HTt). exists t, ud. split; [exact ET|].
    split.
    - rewrite HU. unfold EncodeProofs.prep_header. destruct h as [l|]; [|cbn; lia]. destruct HC as [HC _].
      cbn [ies] in *. rewrite (CountProofs.udhl_ids _ _ HC). pose proof (CountProofs.choice_header_small (choose msg (e_eopts e))). lia.
    - unfold tpdu_type. rewrite HTt. cbn [FO Direction]. rewrite HF. destruct h; reflexivity. }
  destruct HP as (t & ud & HP & HU & HTy).
  destruct (SegmentOptProofs.segment_total t ud (encoder_seg_cfg e)) as (pdus & HS).
  { left. pose proof (SegmentOptProofs.multi_size_room t (sc_wide (encoder_seg_cfg e))) as HR.
    rewrite HTy in HR. unfold SmsDeliver, SmsCommand in HR. specialize (HR ltac:(lia) ltac:(lia) HU).
    pose proof (SegmentOptProofs.largest_unit_4 (dcs_alpha (DCS t))). lia. }
  exists pdus. unfold encoder_encode. cbn [fold_left]. rewrite HP. cbn [bind]. rewrite HS. reflexivity.
Qed.

(** What the receiver of such a TPDU is told about it. *)
Definition from_nobody (b : bytes) : Prop :=
  exists r, unmarshal b false = Ok r /\ tpdu_type r = SmsDeliver /\ OA r = zero_address /\ SCTS r = new_year_2001.

(** With the README's own Encoder, NewEncoder() without options, every message is
    encoded.  The loops work together, for messages of up to 255 TPDUs.  But what
    is sent are DELIVERs, without an originator and with the time stamp of New
    Year 2001 (see [C90_type_refuted]). *)
Theorem C90_readme_partial : forall msgs,
  Forall (fun m => valid_utf8 m /\ m <> [] /\ (~ In 27 m \/ choose m [] = ChUcs2)) msgs ->
  exists sent, readme_send (sms_new_encoder []) msgs = Ok sent /\
    Forall (fun bs => bs <> [] /\ Forall from_nobody bs) sent /\
    (Forall (fun bs => len bs <= 255) sent -> forall arrived, Forall2 (@Permutation bytes) sent arrived ->
     readme_receive false new_collector 0 (concat arrived) = (msgs, Waits)).
Proof.
  intros msgs HM.
  assert (SD : forall e, e_pdu e = zero_tpdu -> e_eopts e = [] -> exists sent, readme_send e msgs = Ok sent /\
    Forall (fun bs => bs <> [] /\ Forall from_nobody bs) sent).
  { induction HM as [|m msgs (V & NE & ESC) _ IH]; intros e E1 E2; [exists []; split; [reflexivity|constructor]|].
    destruct (default_encodes e m E1 E2) as (pdus & HE). cbn [readme_send]. unfold readme_send_one. rewrite HE. cbn [bind].
    destruct (IH (advance e pdus) E1 E2) as (sent & -> & FS). cbn [bind]. eexists. split; [reflexivity|]. constructor; [|exact FS].
    assert (MN : meant (DCS (e_pdu (with_options e []))) (e_eopts (with_options e [])) m m).
    { cbn [with_options fold_left]. rewrite E1, E2. change (DCS zero_tpdu) with 0. unfold meant. change (alphabet_of 0) with (Some 0). cbv iota. auto. }
    assert (TP : template_posted (e_pdu (with_options e []))) by (cbn [with_options fold_left]; rewrite E1; apply zero_posted).
    destruct (posted_end_to_end e m [] pdus _ m TP MN HE) as (_ & rcvd & CA & DE & _). split.
    { destruct CA; [|discriminate]. cbn in DE. injection DE as <-. congruence. }
    destruct (encode_scts e m [] pdus _ new_year_2001 HE) as (e1 & e2 & HE1 & EP & EO & HV). cbv zeta in *.
    cbn [with_options fold_left] in HV, EP, EO. rewrite E1 in EP, HV. rewrite E2 in EO.
    pose proof (C41_fields_partial e1 m [] (map (fun p => set_SCTS p new_year_2001) pdus) e2 m) as K. cbn [with_options fold_left] in K. rewrite EP, EO in K.
    specialize (K (or_introl (proj2 zero_posted)) ltac:(cbn [with_options fold_left] in MN; rewrite E1, E2 in MN; exact MN) HE1).
    clear - CA HV K. rewrite Forall_map, Forall_forall. rewrite Forall_forall in HV. intros p Hp. destruct (HV p Hp) as [S D].
    assert (exists r, carried p r) as (r & b & A & B & C).
    { clear - CA Hp. induction CA as [|q r ps rs C _ IH]; [contradiction|]. destruct Hp as [->|Hp]; [now exists r|auto]. }
    rewrite A. rewrite D in C. change (Direction zero_tpdu =? MO) with false in C.
    assert (KP : SpecFlow.keeps (set_SCTS zero_tpdu new_year_2001) r).
    { apply (K (set_SCTS p new_year_2001)); [now apply (in_map (fun p => set_SCTS p new_year_2001))|]. exists b.
      rewrite marshal_scts by (rewrite S; vm_compute; reflexivity). split; [exact A|]. split; [exact B|]. 
      replace (Direction (set_SCTS p new_year_2001)) with (Direction p) by (now destruct p). rewrite D. exact C. }
    destruct KP as (_ & K2 & _ & _ & _ & K6). exists r. split; [exact C|]. split; [exact K2|]. exact (K6 eq_refl). }
  destruct (SD (sms_new_encoder []) eq_refl eq_refl) as (sent & HS & FS). exists sent. split; [exact HS|]. split; [exact FS|].
  intros LN arrived PE. change false with (Direction (e_pdu (sms_new_encoder [])) =? MO).
  apply (C90_stream_partial (sms_new_encoder []) msgs msgs sent arrived); auto.
  - apply zero_posted.
  - clear - HM. induction HM as [|m msgs (V & _ & E) _ IH]; constructor; auto.
    change (DCS _) with 0. unfold meant. change (alphabet_of 0) with (Some 0). cbv iota. auto.
  - clear - FS LN. induction FS as [|bs sent (NE & _) _ IH]; constructor.
    + apply Forall_inv in LN. split; [|exact LN]. destruct bs; [congruence|]. unfold len. cbn [length]. lia.
    + apply IH. now apply Forall_inv_tail in LN.
Qed.
Print Assumptions C90_readme_partial.

(** The README calls AsSubmit the default, and it is that of the function Encode.
    NewEncoder() has none: the same text becomes a SUBMIT by one and a DELIVER by
    the other. *)
Theorem C90_type_refuted : exists msg a b e,
  encode msg [] = Ok [a] /\ encoder_encode (sms_new_encoder []) msg [] = Ok ([b], e) /\
  tpdu_type a = SmsSubmit /\ tpdu_type b = SmsDeliver.
Proof. exists [104; 105]. eexists _, _, _. vm_compute. repeat split; reflexivity. Qed.
Print Assumptions C90_type_refuted.

(** ** Panics *)
Lemma decode_ends l opts : decode l opts <> Diverge.
Proof.
  unfold decode. generalize (match opts with [] => [OptAllCharsets] | _ => opts end). clear opts. intros opts.
  generalize (@None bytes). induction l as [|[t|] l IH]; intros d; cbn [decode_loop]; [destruct d; discriminate| |discriminate].
  destruct (dd_err _) as [e|]; [|specialize (IH None); destruct (decode_loop l None opts); cbn [bind]; congruence].
  destruct e; try discriminate. match goal with |- context [decode_loop l (Some ?b) opts] => specialize (IH (Some b)); destruct (decode_loop l (Some b) opts) end; cbn [bind]; congruence.
Qed.
Lemma unmarshal_ends mo b : Forall is_byte b -> match unmarshal b mo with Ok _ | Err _ => True | _ => False end.
Proof.
  intros B. pose proof (tpdu_unmarshal_safe (set_Direction zero_tpdu (if mo then MO else MT)) b B) as S. unfold unmarshal.
  destruct (tpdu_unmarshal _ b); try exact I; exact S.
Qed.

(** Octets that are no TPDU end the receiving loop, whatever came before. *)
Theorem C90_broken_panics : forall mo before b after,
  Forall (Forall is_byte) before -> (forall t, unmarshal b mo <> Ok t) -> Forall is_byte b ->
  snd (readme_receive mo new_collector 0 (before ++ b :: after)) = Panics.
Proof.
  intros mo before b after FB NB B. generalize 0%nat. generalize new_collector.
  induction FB as [|x before X _ IH]; intros s n; cbn [app readme_receive].
  - pose proof (unmarshal_ends mo b B) as U. destruct (unmarshal b mo) as [t|e| |]; try contradiction; [now destruct (NB t)|reflexivity].
  - pose proof (unmarshal_ends mo x X) as U. destruct (unmarshal x mo) as [t|e| |]; try contradiction; [|reflexivity].
    destruct (collect readme_cfg s _) as [s' [[[|d ds]|] err|]]; try apply IH; try reflexivity.
    match goal with |- context [decode ?l []] => pose proof (decode_ends l []) as D; destruct (decode l []) end; cbn [snd]; try apply IH; congruence.
Qed.
Print Assumptions C90_broken_panics.

(** So can TPDUs that Unmarshal reads: parts of reports, see C40. *)
Definition report_part_octets (n i : Z) : bytes := [65; 1; 4; 81; 80; 113; 50; 32; 5; 35; 6; 5; 0; 3; 7; n; i].
Theorem C90_no_panic_refuted : exists stream,
  Forall (fun b => Forall is_byte b /\ exists t, unmarshal b false = Ok t) stream /\
  snd (readme_receive false new_collector 0 stream) = Panics.
Proof.
  exists [report_part_octets 2 1; report_part_octets 3 3]. split; [|vm_compute; reflexivity].
  repeat apply Forall_cons; try apply Forall_nil;
    (split; [apply Forall_forall; intros x Hx; apply forallb_forall with (f := fun x => (0 <=? x) && (x <? 256)) (x := x) in Hx; [unfold is_byte; lia|vm_compute; reflexivity]|]);
    eexists; vm_compute; reflexivity.
Qed.
Print Assumptions C90_no_panic_refuted.

(** Nothing else does.  Missing for the full claim: octets that cannot be read,
    and parts of reports. *)
Theorem C90_no_panic_partial : forall mo stream,
  Forall (fun b => Forall is_byte b /\ plain_tpdu mo b) stream ->
  snd (readme_receive mo new_collector 0 stream) = Waits.
Proof.
  intros mo stream F.
  enough (G : forall s n, reachable Cmd.sd_cfg supported_event s -> c_closed s = false -> snd (readme_receive mo s n stream) = Waits).
  { apply G; [exists []; split; [constructor|reflexivity]|reflexivity]. }
  induction F as [|b stream (B & t & U & P) _ IH]; intros s n R O; [reflexivity|]. cbn [readme_receive]. rewrite U.
  destruct (supported_collect s {| sg_id := n; sg_pdu := t |} R O) as (s' & d & err & E & R' & O' & D).
  { split; [now apply (read_typed_any mo b)|]. apply (P n). }
  change readme_cfg with Cmd.sd_cfg. rewrite E. change Cmd.sd_cfg with readme_cfg. specialize (IH s' (S n) R' O').
  destruct D as [-> |(gs & NE & ->)]; [exact IH|]. destruct gs as [|g gs]; [congruence|]. cbn [map].
  pose proof (decode_total (map sg_pdu (g :: gs)) []) as T. rewrite !map_map in *. cbn [map option_map] in *.
  destruct (decode _ []); try contradiction; exact IH.
Qed.
Print Assumptions C90_no_panic_partial.

(** A message of three TPDUs, which arrive in another order, and a short one, with
    the README's Encoder and with one for SUBMITs to a number. *)
Definition ex_long : bytes := repeat 97 400.
Definition ex_short : bytes := [226; 130; 172; 53].
Definition ex_encoder : sms_encoder := sms_new_encoder [AsSubmit; To [54; 51; 57; 49]].
Example C90_stream_instance :
  Forall (fun e => exists a b c d, readme_send e [ex_long; ex_short] = Ok [[a; b; c]; [d]] /\
    readme_receive (Direction (e_pdu e) =? MO) new_collector 0 [c; a; b; d] = ([ex_long; ex_short], Waits))
  [sms_new_encoder []; ex_encoder].
Proof.
  repeat apply Forall_cons; try apply Forall_nil; eexists _, _, _, _; (split; [vm_compute; reflexivity|vm_compute; reflexivity]).
Qed.
Example C90_stream_hypotheses : template_posted (e_pdu ex_encoder) /\
  Forall2 (meant (DCS (e_pdu ex_encoder)) (e_eopts ex_encoder)) [ex_long; ex_short] [ex_long; ex_short].
Proof.
  split.
  - left. left. unfold template_ok, header_ok. change (FO (e_pdu ex_encoder)) with 1. change (PID (e_pdu ex_encoder)) with 0.
    change (DCS (e_pdu ex_encoder)) with 0. change (UDH (e_pdu ex_encoder)) with (@None (list ie)).
    split; [unfold is_byte; lia|]. split; [unfold is_byte; lia|]. split; [unfold is_byte; lia|]. split; [reflexivity|]. left.
    split; [reflexivity|]. split; [reflexivity|]. split; [|split; [exact vv_none|reflexivity]].
    apply (av_num 145 [54; 51; 57; 49]); [unfold is_byte; lia|discriminate| |cbn; lia]. repeat apply Forall_cons; try apply Forall_nil; vm_compute; auto 20.
  - assert (V : forall m, valid_utf8 m -> ~ In 27 m -> meant 0 [] m m).
    { intros m A B. unfold meant. change (alphabet_of 0) with (Some 0). cbv iota. auto. }
    change (DCS (e_pdu ex_encoder)) with 0. change (e_eopts ex_encoder) with (@nil charset_opt).
    apply Forall2_cons; [apply V|apply Forall2_cons; [apply V|apply Forall2_nil]].
    + exists (repeat 97 400). unfold ex_long. generalize 400%nat. induction n as [|n IH]; cbn [repeat]; [constructor|].
      apply (u8_cons 97 [97]); [|exact IH]. apply u8_1. lia.
    + intros H. apply repeat_spec in H. discriminate.
    + exists [8364; 53]. unfold ex_short. apply (u8_cons 8364 [226; 130; 172] [53] [53]); [apply (u8_3 2 2 44); unfold scalar; lia|].
      apply (u8_cons 53 [53] [] []); [apply u8_1; lia|constructor].
    + intros [H|[H|[H|[H|[]]]]]; discriminate.
Qed.
(** A part of a message, then one octet. *)
Example C90_broken_panics_instance :
  snd (readme_receive false new_collector 0 [report_part_octets 2 1]) = Waits /\ (forall t, unmarshal [0] false <> Ok t) /\
  snd (readme_receive false new_collector 0 [report_part_octets 2 1; [0]]) = Panics.
Proof. split; [vm_compute; reflexivity|]. split; [intros t; vm_compute; discriminate|vm_compute; reflexivity]. Qed.
