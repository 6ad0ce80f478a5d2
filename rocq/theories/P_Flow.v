(** C41: the whole path of a message.  Specification in SpecFlow.v. *)
From Coq Require Import Permutation.
From Verif Require Import GoBase GoLemmas SafeLemmas Utf UtfProofs SpecText Charset Gsm7 Dcs FirstOctet SpecDigits
  UserData Tpdu Segment Sms SpecSelect SpecDcs SpecSms SpecTime SpecVP SpecTpdu Address GoTime ValidityPeriod
  Collector SpecCollect CollectorProofs CollectorMsgProofs P_Collect SpecFlow FlowProofs SegmentFitProofs EscapeProofs P_Sms.

(** TPDUs numbered from 1 to their number are reassembled. *)
Lemma numbered_reassembled pdus : (forall s, In s pdus -> tpdu_wf s) -> (forall s, In s pdus -> Forall ie_fits (ies (UDH s))) ->
  1 < len pdus ->
  (exists da oa ref st, forall k s, nth_error pdus k = Some s ->
     tpdu_concat_info s = Some (len pdus, Z.of_nat k + 1, ref) /\ DA s = da /\ OA s = oa /\ tpdu_type s = st) ->
  let rcvd := map received pdus in
  exists m, m_total m = len pdus /\
     (forall k g, nth_error rcvd k = Some (sg_pdu g) -> is_segment m (Z.of_nat k + 1) g) /\
     forall cfg s es, reachable cfg typed_event s -> c_closed s = false ->
     (forall g, In g (held s) -> seg_no m g = None) ->
     Forall (fun ev => typed_event ev \/ exists g, ev = EvCollect g /\ In (sg_pdu g) rcvd) es ->
     Forall (fun ev => ev <> EvClose) es -> no_timeout cfg m s es ->
     Permutation (map (fun p => sg_pdu (snd p)) (parts m es)) rcvd ->
     exists gs,
       replies m es (snd (run cfg s es)) =
         repeat (OCollect (CReturn None None)) (length rcvd - 1) ++
         [OCollect (CReturn (Some (map Some gs)) None)] /\
       map sg_pdu gs = rcvd.
Proof.
  intros HW HF EL (da & oa & ref & st & HI). cbv zeta.
  set (m := {| m_type := st; m_toa := a_toa (if st =? SmsSubmit then da else oa);
               m_addr := a_addr (if st =? SmsSubmit then da else oa); m_ref := ref; m_total := len pdus |}).
  assert (HSeg : forall k g, nth_error (map received pdus) k = Some (sg_pdu g) -> is_segment m (Z.of_nat k + 1) g).
  { intros k g Hk. rewrite nth_error_map in Hk. destruct (nth_error pdus k) as [p|] eqn:EK; [|discriminate].
    cbn [option_map] in Hk. injection Hk as Hk. destruct (HI k p EK) as (C1 & C2 & C3 & C4).
    pose proof (HW p (nth_error_In _ _ EK)) as HWp. unfold is_segment. cbv zeta. rewrite <- Hk. split.
    - unfold tpdu_concat_info in *. rewrite (proj1 (proj2 (received_ud p))). exact C1.
    - rewrite (received_type _ HWp), C4. unfold m; cbn [m_type m_toa m_addr].
      unfold received. destruct HWp as [Hp|Hp].
      + left. assert (Direction p = MO /\ fo_mti (FO p) = 1) as [D1 D2] by (split; apply Hp).
        assert (st = SmsSubmit) as ->.
        { rewrite <- C4. unfold tpdu_type. now rewrite D1, D2. }
        rewrite D1. change (MO =? MO) with true. cbv iota. cbn [DA submit_fields]. rewrite C2.
        split; [reflexivity|]. split; [reflexivity|]. now destruct da.
      + right. assert (Direction p = MT /\ fo_mti (FO p) = 0) as [D1 D2] by (split; apply Hp).
        assert (st = SmsDeliver) as ->.
        { rewrite <- C4. unfold tpdu_type. now rewrite D1, D2. }
        rewrite D1. change (MT =? MO) with false. cbv iota. cbn [OA deliver_fields]. rewrite C3.
        split; [reflexivity|]. split; [reflexivity|]. now destruct oa. }
  assert (HSup : forall g, In (sg_pdu g) (map received pdus) -> typed g /\ supported g).
  { intros g Hg. apply in_map_iff in Hg as (p & Hp & Hg). pose proof (HW p Hg) as HWp. unfold typed, supported.
    rewrite <- Hp, (received_type _ HWp), (proj1 (proj2 (received_ud p))).
    assert (Forall (fun i => Forall is_byte (ie_data i)) (ies (UDH p))) as HB.
    { eapply Forall_impl; [|exact (HF p Hg)]. intros i Hi. apply Hi. }
    unfold received, tpdu_type. destruct HWp as [Hw|Hw].
    - assert (Direction p = MO /\ fo_mti (FO p) = 1) as [-> ->] by (split; apply Hw).
      change (MO =? MO) with true. cbv iota. split; [|left; reflexivity].
      cbn [DA OA submit_fields]. split; [|split; [unfold is_byte; cbn; lia|exact HB]].
      apply addr_value_toa, Hw.
    - assert (Direction p = MT /\ fo_mti (FO p) = 0) as [-> ->] by (split; apply Hw).
      change (MT =? MO) with false. cbv iota. split; [|right; reflexivity].
      cbn [DA OA deliver_fields]. split; [unfold is_byte; cbn; lia|split; [|exact HB]].
      apply addr_value_toa, Hw. }
  exists m. split; [reflexivity|]. split; [exact HSeg|]. intros cfg s es RE OP HH SE NC NT PE.
  set (rcvd := map received pdus) in *.
  assert (LR : length rcvd = length pdus) by apply map_length.
  assert (SE' : Forall typed_event es).
  { eapply Forall_impl; [|exact SE]. intros ev [Hev|(g & -> & Hg)]; [exact Hev|].
    exact (proj1 (HSup g Hg)). }
  assert (HP : forall i g, In (i, g) (parts m es) -> seg_no m g = Some i).
  { intros i g Hi. unfold parts in Hi. apply in_flat_map in Hi as (ev & _ & Hi).
    destruct ev as [g'| | |?|?|?]; try contradiction.
    destruct (seg_no m g') as [i'|] eqn:EN; [|contradiction]. destruct Hi as [Hi|[]]. now injection Hi as -> ->. }
  set (num := fun r => match tpdu_concat_info r with Some (_, i, _) => i | None => 0 end).
  assert (HN1 : map fst (parts m es) = map num (map (fun p => sg_pdu (snd p)) (parts m es))).
  { rewrite map_map. apply map_ext_in. intros [i g] Hi. cbn [fst snd]. apply HP, seg_no_iff in Hi as [Hi _].
    unfold num. now rewrite Hi. }
  assert (HN2 : forall k r, nth_error rcvd k = Some r -> num r = Z.of_nat k + 1).
  { intros k r Hk. pose proof (HSeg k {| sg_pdu := r; sg_id := 0 |} Hk) as [X _].
    cbn [sg_pdu] in X. unfold num. now rewrite X. }
  assert (HN3 : map num rcvd = map Z.of_nat (seq 1 (Z.to_nat (m_total m)))).
  { cbn [m m_total]. replace (Z.to_nat (len pdus)) with (length rcvd) by (unfold len; lia).
    apply nth_error_ext; [now rewrite !map_length, seq_length|]. intros k x Hx. rewrite nth_error_map in *.
    destruct (nth_error rcvd k) as [r|] eqn:ER; [|discriminate]. cbn [option_map] in Hx. injection Hx as <-.
    rewrite (HN2 _ _ ER). assert (k < length rcvd)%nat as Lk by (apply nth_error_Some; congruence).
    rewrite (nth_error_nth' _ 0%nat) by (rewrite seq_length; exact Lk). rewrite seq_nth by exact Lk.
    cbn [option_map]. f_equal. lia. }
  destruct (C34_any_order cfg m s es RE OP HH SE' NC NT) as (gs & G1 & G2 & G3).
  { cbn [m m_total]. lia. }
  { rewrite HN1, <- HN3. now apply Permutation_map. }
  cbn [m m_total] in G1, G2.
  replace (Z.to_nat (len pdus)) with (length rcvd) in * by (unfold len; lia).
  exists gs. split; [exact G1|]. symmetry. apply nth_error_ext; [now rewrite map_length|]. intros k r ER.
  pose proof (nth_error_In _ _ ER) as HIn. apply (Permutation_in _ (Permutation_sym PE)) in HIn.
  apply in_map_iff in HIn as ([i g] & Hg & HIn). cbn [snd] in Hg.
  pose proof (HP _ _ HIn) as Hi. apply seg_no_iff in Hi as [Hi _]. rewrite Hg in Hi.
  pose proof (HN2 _ _ ER) as HX. unfold num in HX. rewrite Hi in HX.
  pose proof (G3 _ _ HIn) as Y. rewrite HX in Y. replace (Z.to_nat (Z.of_nat k + 1 - 1)) with k in Y by lia.
  rewrite nth_error_map, Y. cbn [option_map]. now rewrite Hg.
Qed.

Lemma end_to_end_value : forall e msg opts pdus e' text dopts,
  let charsets := e_eopts (with_options e opts) in
  template_ok (e_pdu (with_options e opts)) ->
  meant (DCS (e_pdu (with_options e opts))) charsets msg text ->
  encoder_encode e msg opts = Ok (pdus, e') ->
  dopts = [] \/ decodes_with charsets dopts ->
  exists rcvd, Forall2 carried pdus rcvd /\
    decode (map Some rcvd) dopts = Ok text /\
    (len rcvd = 1 -> forall cfg s g, c_closed s = false -> [sg_pdu g] = rcvd ->
       collect cfg s g = (s, CReturn (Some [Some g]) None)) /\
    (1 < len rcvd <= 255 -> exists m, m_total m = len rcvd /\
       (forall k g, nth_error rcvd k = Some (sg_pdu g) -> is_segment m (Z.of_nat k + 1) g) /\
       forall cfg s es, reachable cfg typed_event s -> c_closed s = false ->
       (forall g, In g (held s) -> seg_no m g = None) ->
       Forall (fun ev => typed_event ev \/ exists g, ev = EvCollect g /\ In (sg_pdu g) rcvd) es ->
       Forall (fun ev => ev <> EvClose) es -> no_timeout cfg m s es ->
       Permutation (map (fun p => sg_pdu (snd p)) (parts m es)) rcvd ->
       exists gs,
         replies m es (snd (run cfg s es)) =
           repeat (OCollect (CReturn None None)) (length rcvd - 1) ++
           [OCollect (CReturn (Some (map Some gs)) None)] /\
         map sg_pdu gs = rcvd).
Proof.
  intros e msg opts pdus e' text dopts charsets HT HM HE HD. unfold charsets in *. clear charsets.
  destruct (encode_flow _ _ _ _ _ _ HE HT HM) as (HW & HDec & H1 & H2 & HF).
  exists (map received pdus). split; [|split; [|split]].
  - clear - HW. induction pdus as [|s pdus IH]; cbn [map]; constructor.
    + apply carried_ok, HW. now left.
    + apply IH. intros x Hx. apply HW. now right.
  - unfold decode. apply HDec. destruct HD as [-> |HD]; [right; now left|]. destruct dopts; [right; now left|exact HD].
  - rewrite len_map. intros EL cfg s g HO HR. unfold collect. rewrite HO.
    destruct pdus as [|p [|q pdus]]; try discriminate HR. cbn [map] in HR. injection HR as ->.
    assert (tpdu_concat_info (received p) = None) as ->; [|reflexivity].
    unfold tpdu_concat_info. rewrite (proj1 (proj2 (received_ud p))). apply (H1 EL p). now left.
  - rewrite len_map. intros EL. apply numbered_reassembled; [exact HW|exact HF|lia|].
    destruct (H2 (proj1 EL)) as (da & oa & ref & st & HI). exists da, oa, ref, st. intros k s Hk. destruct (HI k s Hk) as (C & R).
    split; [|exact R]. assert (Z.of_nat k < len pdus) by (unfold len; apply inj_lt, nth_error_Some; congruence).
    now rewrite !Z.mod_small in C by lia.
Qed.

(** A receiver gets a TPDU for each one sent; decoding these, in the order of
    the message, gives the text; a single TPDU is returned by Collect at once,
    and several are reassembled in the order of the message whatever the order
    of arrival and whatever else the Collector is given meanwhile, provided no
    reassembly timer of this message fires.

    Left out, beside U+001B coded in septets: reassembly of more than 255 TPDUs
    (see C16), and templates with concatenation or language elements in their
    header. *)
Theorem C41_end_to_end_partial : forall e msg opts pdus e' text dopts,
  let charsets := e_eopts (with_options e opts) in
  template_sent (e_pdu (with_options e opts)) ->
  meant (DCS (e_pdu (with_options e opts))) charsets msg text ->
  encoder_encode e msg opts = Ok (pdus, e') ->
  dopts = [] \/ decodes_with charsets dopts ->
  exists rcvd, Forall2 carried pdus rcvd /\
    decode (map Some rcvd) dopts = Ok text /\
    (len rcvd = 1 -> forall cfg s g, c_closed s = false -> [sg_pdu g] = rcvd ->
       collect cfg s g = (s, CReturn (Some [Some g]) None)) /\
    (1 < len rcvd <= 255 -> exists m, m_total m = len rcvd /\
       (forall k g, nth_error rcvd k = Some (sg_pdu g) -> is_segment m (Z.of_nat k + 1) g) /\
       forall cfg s es, reachable cfg typed_event s -> c_closed s = false ->
       (forall g, In g (held s) -> seg_no m g = None) ->
       Forall (fun ev => typed_event ev \/ exists g, ev = EvCollect g /\ In (sg_pdu g) rcvd) es ->
       Forall (fun ev => ev <> EvClose) es -> no_timeout cfg m s es ->
       Permutation (map (fun p => sg_pdu (snd p)) (parts m es)) rcvd ->
       exists gs,
         replies m es (snd (run cfg s es)) =
           repeat (OCollect (CReturn None None)) (length rcvd - 1) ++
           [OCollect (CReturn (Some (map Some gs)) None)] /\
         map sg_pdu gs = rcvd).
Proof.
  intros e msg opts pdus e' text dopts charsets [HT|(w & (W1 & W2 & W3) & HT)] HM HE HD.
  { now apply (end_to_end_value e msg opts pdus e' text dopts). }
  destruct (encode_vp _ _ _ _ _ w HE) as (e1 & e2 & HE1 & EP & EO & HV). cbv zeta in *.
  destruct (end_to_end_value e1 msg [] (map (fun p => set_VPf p w) pdus) e2 text dopts) as (rcvd & HC & R).
  - now rewrite EP.
  - rewrite EP, EO. now destruct (vp_fields (e_pdu (with_options e opts)) w) as (-> & _).
  - exact HE1.
  - now rewrite EO.
  - exists rcvd. split; [|exact R]. clear - HC HV W2 W3.
    revert rcvd HC. induction pdus as [|p pdus IH]; intros rcvd HC; cbn [map] in HC; inversion HC; subst; constructor.
    + apply Forall_inv in HV. apply (carried_vp p w); congruence.
    + apply IH; [now apply Forall_inv_tail in HV|assumption].
Qed.
Print Assumptions C41_end_to_end_partial.

Lemma fields_value : forall e msg opts pdus e' text,
  let tmpl := e_pdu (with_options e opts) in
  template_ok tmpl -> meant (DCS tmpl) (e_eopts (with_options e opts)) msg text ->
  encoder_encode e msg opts = Ok (pdus, e') ->
  forall p r, In p pdus -> carried p r -> keeps tmpl r.
Proof.
  intros e msg opts pdus e' text tmpl HT HM HE p r Hp Hc. unfold tmpl in *.
  destruct (encode_flow _ _ _ _ _ _ HE HT HM) as (HW & _).
  rewrite (carried_fun _ _ _ Hc (carried_ok p (HW p Hp))). eapply encode_keeps; eauto.
Qed.

(** Beside the text, the received TPDUs have the type, flags, addresses, times
    and protocol of the template. *)
Theorem C41_fields_partial : forall e msg opts pdus e' text,
  let tmpl := e_pdu (with_options e opts) in
  template_sent tmpl -> meant (DCS tmpl) (e_eopts (with_options e opts)) msg text ->
  encoder_encode e msg opts = Ok (pdus, e') ->
  forall p r, In p pdus -> carried p r -> keeps tmpl r.
Proof.
  intros e msg opts pdus e' text tmpl [HT|(w & HW & HT)] HM HE p r Hp Hc; unfold tmpl in *.
  { now apply (fields_value e msg opts pdus e' text HT HM HE p). }
  pose proof HW as (W1 & W2 & W3).
  destruct (encode_vp _ _ _ _ _ w HE) as (e1 & e2 & HE1 & EP & EO & HV). cbv zeta in *.
  assert (HK : keeps (set_VPf (e_pdu (with_options e opts)) w) r).
  { rewrite <- EP. apply (fields_value e1 msg [] (map (fun p => set_VPf p w) pdus) e2 text) with (p := set_VPf p w).
    - now rewrite EP.
    - rewrite EP, EO. now destruct (vp_fields (e_pdu (with_options e opts)) w) as (-> & _).
    - exact HE1.
    - now apply (in_map (fun p => set_VPf p w)).
    - destruct Hc as (b & A & B & C). rewrite Forall_forall in HV. specialize (HV p Hp). exists b.
      rewrite marshal_vp by congruence. split; [exact A|]. split; [exact B|]. now destruct p. }
  unfold keeps in *. destruct (e_pdu (with_options e opts)) as [dir0 fo0 oa0 fcs0 mr0 ct0 mn0 da0 ra0 pi0 scts0 dt0 st0 pid0 dcs0 vp0 udh0 ud0] eqn:ET.
  cbn [set_VPf Direction FO PID DA VP OA SCTS] in *. unfold tpdu_type in *. cbn [Direction FO] in *.
  destruct HK as (K1 & K2 & K3 & K4 & K5 & K6). split; [exact K1|]. split; [exact K2|]. split; [exact K3|]. split; [exact K4|].
  split; [|exact K6]. intros HS. destruct (K5 HS) as (D & K & KV). specialize (KV W1). rewrite KV in *.
  split; [exact D|]. split; [exact HW|]. intros HVV.
  (* a validity period of the standard: the template is as before *)
  assert (HT' : template_ok (e_pdu (with_options e opts))).
  { rewrite ET. unfold template_ok, header_ok, submit_template_ok, deliver_template_ok in *. cbn [Direction FO PID DCS UDH DA VP OA SCTS] in *.
    destruct HT as (T1 & T2 & T3 & T4 & T5). repeat match goal with |- _ /\ _ => split end; auto.
    destruct T5 as [(Q1 & Q2 & Q3 & Q4 & Q5)|T5]; [left|now right]. rewrite W2 in Q5. auto. }
  pose proof (fields_value e msg opts pdus e' text HT') as F. rewrite ET in F. specialize (F HM HE p r Hp Hc).
  unfold keeps in F. cbn [VP] in F. destruct F as (_ & _ & _ & _ & F & _). unfold tpdu_type in F. cbn [Direction FO] in F.
  destruct (F HS) as (_ & _ & F'). rewrite <- (F' HVV). exact (eq_sym KV).
Qed.
Print Assumptions C41_fields_partial.

(** The package function Encode, for a number of digits with or without a plus
    and any character set options: it always succeeds, and the text arrives in
    SUBMIT TPDUs for that number, however many they are. *)
Lemma charsets_only cs : forall e, let e' := with_options e (map EoCharset cs) in
  e_pdu e' = e_pdu e /\ e_eopts e' = e_eopts e ++ cs.
Proof.
  induction cs as [|c cs IH]; intros e; cbn [map with_options fold_left]; [now rewrite app_nil_r|].
  destruct (IH (apply_encoder_opt e (EoCharset c))) as [E1 E2]. unfold with_options in *. cbv zeta.
  rewrite E1, E2. cbn [apply_encoder_opt e_pdu e_eopts]. now rewrite <- app_assoc.
Qed.
Theorem C41_text_to_number_partial : forall msg number ds cs,
  valid_utf8 msg -> ~ In 27 msg \/ choose msg cs = ChUcs2 -> dialled number ds ->
  exists pdus, encode msg (To number :: map EoCharset cs) = Ok pdus /\
    exists rcvd, Forall2 carried pdus rcvd /\
       decode (map Some rcvd) [] = Ok msg /\ decode (map Some rcvd) cs = Ok msg /\
       Forall (fun r => tpdu_type r = SmsSubmit /\ addr_number (DA r) = 43 :: ds) rcvd.
Proof.
  intros msg number ds cs HV HN (HNum & HD & HL).
  assert (HA : a_toa (new_address_number number) = 145 /\ a_addr (new_address_number number) = ds).
  { unfold new_address_number, addr_set_number. cbn [a_addr]. split; [reflexivity|].
    destruct HNum as [-> | ->]; [|reflexivity]. destruct ds as [|c l]; [reflexivity|].
    unfold plus_char. destruct (c =? 43) eqn:E; [|reflexivity]. pose proof (Forall_inv HD) as X.
    assert (c = 43) as -> by lia. cbn in X. intuition discriminate. }
  set (e := sms_new_encoder (AsSubmit :: To number :: map EoCharset cs)).
  assert (HE : e_pdu e = set_DA (set_FO (set_Direction zero_tpdu 1) 1) (new_address_number number) /\ e_eopts e = cs).
  { unfold e, sms_new_encoder. cbn [fold_left].
    destruct (charsets_only cs (apply_encoder_opt (apply_encoder_opt zero_encoder AsSubmit) (To number))) as [E1 E2].
    unfold with_options in *. rewrite E1, E2. split; reflexivity. }
  destruct HE as [HE1 HE2].
  assert (HT : template_ok (e_pdu e)).
  { rewrite HE1. unfold template_ok, header_ok. cbn [set_DA set_FO set_Direction FO PID DCS UDH].
    split; [unfold is_byte; cbn; lia|]. split; [unfold is_byte; cbn; lia|]. split; [unfold is_byte; cbn; lia|].
    split; [reflexivity|]. left. unfold submit_template_ok. cbn [set_DA set_FO set_Direction FO Direction DA VP].
    split; [reflexivity|]. split; [reflexivity|]. split; [|split; [exact vv_none|reflexivity]].
    destruct (new_address_number number) as [toa ds'] eqn:EN. cbn [a_toa a_addr] in HA. destruct HA as [-> ->].
    apply av_num; [unfold is_byte; lia|discriminate|exact HD|exact HL]. }
  assert (HM : meant (DCS (e_pdu e)) (e_eopts e) msg msg).
  { rewrite HE1, HE2. change (DCS _) with 0. unfold meant. change (alphabet_of 0) with (Some 0). cbv iota. auto. }
  assert (HP : exists t ud, encode_prepare e msg = Ok (t, ud) /\ udhl (ies (UDH t)) <= 119 /\ tpdu_type t = SmsSubmit).
  { pose proof (EncodeProofs.prepare_cases e msg) as HP. rewrite HE1 in HP.
    change (DCS (set_DA _ _)) with 0 in HP. specialize (HP ltac:(unfold is_byte; lia)).
    change (given_encoded 0) with false in HP. cbv iota in HP.
    destruct (encode_user_data msg (e_eopts e)) as [[ud h] a] eqn:EU. destruct HP as [HC HP].
    assert (alphabet_expressible (coding_group 0) (EncodeProofs.choice_alpha (choose msg (e_eopts e))) = true) as EX
      by (destruct (choose _ _); reflexivity).
    rewrite EX in HP. destruct HP as (t & ET & _ & _ & _ & HU & HF & _ & HTt). exists t, ud. split; [exact ET|].
    split.
    - rewrite HU. unfold EncodeProofs.prep_header. destruct h as [l|]; [|cbn; lia]. destruct HC as [HC _].
      cbn [ies] in *. rewrite (CountProofs.udhl_ids _ _ HC). pose proof (CountProofs.choice_header_small (choose msg (e_eopts e))). lia.
    - unfold tpdu_type. rewrite HTt. cbn [FO Direction]. rewrite HF. destruct h; reflexivity. }
  destruct HP as (t & ud & HP & HU & HTy).
  destruct (SegmentOptProofs.segment_total t ud (encoder_seg_cfg e)) as (pdus & HS).
  { left. pose proof (SegmentOptProofs.multi_size_room t (sc_wide (encoder_seg_cfg e))) as HR.
    rewrite HTy in HR. unfold SmsSubmit, SmsCommand in HR. specialize (HR ltac:(lia) ltac:(lia) HU).
    pose proof (SegmentOptProofs.largest_unit_4 (dcs_alpha (DCS t))). lia. }
  exists pdus.
  assert (HEn : encoder_encode e msg [] = Ok (pdus, advance e pdus)).
  { unfold encoder_encode. cbn [fold_left]. rewrite HP. cbn [bind]. rewrite HS. reflexivity. }
  split; [unfold encode; fold e; rewrite HEn; reflexivity|].
  destruct (C41_end_to_end_partial e msg [] pdus _ msg [] (or_introl HT) HM HEn (or_introl eq_refl)) as (r & R1 & R2 & _).
  assert (HDw : cs = [] \/ decodes_with (e_eopts (with_options e [])) cs).
  { right. left. symmetry. exact HE2. }
  destruct (C41_end_to_end_partial e msg [] pdus _ msg cs (or_introl HT) HM HEn HDw) as (r' & R1' & R2' & _).
  exists r. split; [exact R1|]. split; [exact R2|].
  split.
  2:{ pose proof (C41_fields_partial e msg [] pdus _ msg (or_introl HT) HM HEn) as HK. cbn [with_options fold_left] in HK. rewrite HE1 in HK.
      clear - HK R1 HA. induction R1 as [|p r0 ps rs Hc _ IH]; constructor.
      - destruct (HK p r0 (or_introl eq_refl) Hc) as (_ & K1 & _ & _ & K2 & _).
        split; [exact K1|]. destruct (K2 eq_refl) as [-> _].
        destruct (new_address_number number) as [toa ds']. cbn [a_toa a_addr] in HA. destruct HA as [-> ->]. reflexivity.
      - apply IH. intros q r1 Hq. apply HK. now right. }
  assert (r' = r) as <-; [|exact R2'].
  clear - R1 R1'. revert r' R1'. induction R1; intros r' R1'; inversion R1'; subst; [reflexivity|].
  f_equal; [eapply carried_fun; eassumption|auto].
Qed.
Print Assumptions C41_text_to_number_partial.

(** U+001B is where the full claim fails: "ESC e" arrives as the euro sign. *)
Definition esc_pdu : tpdu := {|
  Direction := MO; FO := 1; OA := zero_address; FCS := 0; MR := 1; CT := 0; MN := 0;
  DA := {| a_toa := 145; a_addr := [54; 51; 57; 49] |}; RA := zero_address; PI := 0; SCTS := zero_time;
  DT := zero_time; ST := 0; PID := 0; DCS := 0; VP := vp_zero; UDH := None; UD := [27; 101] |}.
Theorem C41_end_to_end_refuted : exists msg pdus rcvd,
  valid_utf8 msg /\ encode msg [To [54; 51; 57; 49]] = Ok pdus /\ Forall2 carried pdus rcvd /\
  decode (map Some rcvd) [] = Ok [226; 130; 172] /\ msg <> [226; 130; 172].
Proof.
  exists [27; 101], [esc_pdu], [esc_pdu]. split; [|split; [|split; [|split]]].
  - exists [27; 101]. change [27; 101] with ([27] ++ [101] ++ []) at 2. repeat (constructor; try lia).
  - vm_compute. reflexivity.
  - constructor; [|constructor].
    exists [1; 1; 4; 145; 54; 25; 0; 0; 2; 155; 50]. split; [vm_compute; reflexivity|].
    split; [repeat constructor; unfold is_byte; lia|]. vm_compute. reflexivity.
  - vm_compute. reflexivity.
  - discriminate.
Qed.
Print Assumptions C41_end_to_end_refuted.

(** Nor does a message of more than 256 TPDUs reach the receiver whole: the
    Collector takes the first [len pdus mod 256] of them, in any order, for a
    complete message. *)
Theorem C41_long_cut : forall e msg opts pdus e' text,
  template_ok (e_pdu (with_options e opts)) ->
  meant (DCS (e_pdu (with_options e opts))) (e_eopts (with_options e opts)) msg text ->
  encoder_encode e msg opts = Ok (pdus, e') ->
  256 < len pdus -> 1 < len pdus mod 256 ->
  exists rcvd, Forall2 carried (firstn (Z.to_nat (len pdus mod 256)) pdus) rcvd /\
  len rcvd = len pdus mod 256 /\ exists m, m_total m = len rcvd /\
    (forall k g, nth_error rcvd k = Some (sg_pdu g) -> is_segment m (Z.of_nat k + 1) g) /\
    forall cfg s es, reachable cfg typed_event s -> c_closed s = false ->
    (forall g, In g (held s) -> seg_no m g = None) ->
    Forall (fun ev => typed_event ev \/ exists g, ev = EvCollect g /\ In (sg_pdu g) rcvd) es ->
    Forall (fun ev => ev <> EvClose) es -> no_timeout cfg m s es ->
    Permutation (map (fun p => sg_pdu (snd p)) (parts m es)) rcvd ->
    exists gs,
      replies m es (snd (run cfg s es)) =
        repeat (OCollect (CReturn None None)) (length rcvd - 1) ++
        [OCollect (CReturn (Some (map Some gs)) None)] /\
      map sg_pdu gs = rcvd.
Proof.
  intros e msg opts pdus e' text HT HM HE HL HR.
  destruct (encode_flow _ _ _ _ _ _ HE HT HM) as (HW & _ & _ & H2 & HF).
  set (n := Z.to_nat (len pdus mod 256)).
  assert (LN : len (firstn n pdus) = len pdus mod 256).
  { unfold len at 1. rewrite firstn_length. assert (len pdus mod 256 < 256) by lia. unfold n, len in *. lia. }
  assert (SUB : forall s, In s (firstn n pdus) -> In s pdus).
  { intros s Hs. rewrite <- (firstn_skipn n pdus). apply in_or_app. now left. }
  exists (map received (firstn n pdus)). split; [|split].
  - assert (HW' : forall s, In s (firstn n pdus) -> tpdu_wf s) by (intros s Hs; apply HW, SUB, Hs).
    clear - HW'. induction (firstn n pdus) as [|s l IH]; cbn [map]; constructor.
    + apply carried_ok, HW'. now left.
    + apply IH. intros x Hx. apply HW'. now right.
  - now rewrite len_map.
  - rewrite len_map. apply numbered_reassembled; [intros s Hs; apply HW, SUB, Hs|intros s Hs; apply HF, SUB, Hs|lia|].
    destruct (H2 ltac:(lia)) as (da & oa & ref & st & HI). exists da, oa, ref, st. intros k s Hk.
    assert (Z.of_nat k < len (firstn n pdus)) by (unfold len; apply inj_lt, nth_error_Some; congruence).
    assert (Hk' : nth_error pdus k = Some s).
    { rewrite <- (firstn_skipn n pdus), nth_error_app1; [exact Hk|]. apply nth_error_Some. congruence. }
    destruct (HI k s Hk') as (C & R). split; [|exact R]. rewrite C, LN. do 2 f_equal. f_equal. apply Z.mod_small. lia.
Qed.
Print Assumptions C41_long_cut.

(** For instance 258 TPDUs, of which the first two are taken for the message. *)
Definition long_octets : bytes := repeat 0 (Z.to_nat 34570).
Definition long_encoder : sms_encoder :=
  {| e_eopts := []; e_pdu := set_DCSf esc_pdu 4; e_msg_count := 0; e_concat_ref := 0 |}.
Example C41_long_instance :
  (match encoder_encode long_encoder long_octets [] with Ok (pdus, _) => len pdus =? 258 | _ => false end) = true /\
  template_ok (e_pdu long_encoder).
Proof.
  split; [vm_compute; reflexivity|]. unfold template_ok, header_ok, submit_template_ok, is_byte. cbn.
  repeat split; try lia; try discriminate. left. repeat split; try reflexivity; [|apply vv_none].
  apply av_num; [unfold is_byte; lia|discriminate|repeat constructor; cbn; tauto|cbn; lia].
Qed.

(** No text with U+001B that is coded in septets arrives, whatever becomes of the
    TPDUs on the way, as long as their DCS stays. *)
Theorem C41_escape_lost : forall e msg opts pdus e' rcvd dopts,
  let tmpl := e_pdu (with_options e opts) in
  is_byte (DCS tmpl) -> encoder_encode e msg opts = Ok (pdus, e') ->
  needed_alphabet (DCS tmpl) msg (e_eopts (with_options e opts)) = Alpha7Bit -> In 27 msg ->
  Forall2 (fun p r => DCS r = DCS p) pdus rcvd ->
  decode (map Some rcvd) dopts <> Ok msg.
Proof.
  intros e msg opts pdus e' rcvd dopts tmpl HB HE HA HI HF H. unfold tmpl in *.
  apply decode_loop_no_esc in H; [contradiction|].
  destruct (P_Sms.C45_honoured e msg opts pdus e' HB HE) as (HS & _).
  clear - HF HS HA. induction HF as [|p r pdus rcvd HD HF IH]; constructor.
  - rewrite HD. destruct (HS p (or_introl eq_refl)) as (X & _). rewrite HA in X. apply tpdu_alphabet_ok in X. rewrite X. split; discriminate.
  - apply IH. intros s Hs. apply HS. now right.
Qed.
Print Assumptions C41_escape_lost.

(** A message of two TPDUs, received in reverse order, and a DELIVER template
    with a header. *)
Definition flow_text : bytes := repeat 97 160 ++ [226; 130; 172]. (* a...a, euro *)
Definition flow_pdus : list tpdu :=
  match encode flow_text [To [54; 51; 57; 49]] with Ok l => l | _ => [] end.
Definition flow_rcvd : list tpdu := map received flow_pdus.
Definition flow_seg (k : nat) : seg := {| sg_id := k; sg_pdu := nth k flow_rcvd zero_tpdu |}.
Example C41_instance :
  valid_utf8 flow_text /\ ~ In 27 flow_text /\ len flow_pdus = 2 /\
  decode (map Some flow_rcvd) [] = Ok flow_text /\
  map (fun o => match o with OCollect (CReturn (Some d) None) => Some (map (option_map sg_id) d) | _ => None end)
    (snd (run {| cf_timeout := true; cf_handler := true |} new_collector [EvCollect (flow_seg 1); EvCollect (flow_seg 0)]))
  = [None; Some [Some 0%nat; Some 1%nat]].
Proof.
  split; [|split; [|split; [|split]]].
  - exists (repeat 97 160 ++ [8364]). unfold flow_text.
    assert (HX : forall n, utf8_text (repeat 97 n ++ [8364]) (repeat 97 n ++ [226; 130; 172])); [|apply HX].
    induction n as [|n IH]; cbn [repeat app].
    + change 8364 with (4096 * 2 + 64 * 2 + 44). change [226; 130; 172] with ([224 + 2; 128 + 2; 128 + 44] ++ []).
      constructor; [constructor; unfold scalar; lia|constructor].
    + apply (u8_cons 97 [97]); [constructor; lia|exact IH].
  - intros H. apply (in_map (Z.eqb 27)) in H. revert H. vm_compute. intuition discriminate.
  - vm_compute. reflexivity.
  - vm_compute. reflexivity.
  - vm_compute. reflexivity.
Qed.
Definition flow_template : tpdu := {|
  Direction := MT; FO := 64; OA := {| a_toa := 145; a_addr := [54; 51; 57; 49] |}; FCS := 0; MR := 0; CT := 0; MN := 0;
  DA := zero_address; RA := zero_address; PI := 0; SCTS := {| t_unix := 1489064400; t_nsec := 0; t_off := 3600 |};
  DT := zero_time; ST := 0; PID := 0; DCS := 8; VP := vp_zero;
  UDH := Some [{| ie_id := 5; ie_data := [11; 132; 35; 240] |}]; UD := [] |}.
Example C41_template_instance : template_ok flow_template /\
  meant (DCS flow_template) [] [216; 61; 222; 0] [240; 159; 152; 128].
Proof.
  split.
  - unfold template_ok. split; [unfold is_byte; cbn; lia|]. split; [unfold is_byte; cbn; lia|].
    split; [unfold is_byte; cbn; lia|]. split.
    + unfold header_ok. cbn [flow_template UDH FO]. split; [reflexivity|]. split; [discriminate|].
      constructor; [|constructor]. split; [|cbn; lia]. unfold ie_fits, is_byte. cbn [ie_id ie_data].
      split; [lia|]. split; [repeat constructor; lia|vm_compute; discriminate].
    + right. split; [reflexivity|]. split; [reflexivity|]. split.
      * apply av_num; [unfold is_byte; lia|discriminate| |vm_compute; discriminate].
        repeat (constructor; [unfold is_semi_digit; cbn; tauto|]). constructor.
      * split; [reflexivity|]. split; [vm_compute; split; [discriminate|reflexivity]|].
        exists 4. split; [reflexivity|lia].
  - unfold meant. change (alphabet_of (DCS flow_template)) with (Some 2). cbv iota.
    exists [128512]. split.
    + exists [55357; 56832]. split.
      * change 128512 with (65536 + 1024 * 61 + 512).
        change [55357; 56832] with ([55296 + 61; 56320 + 512] ++ []). constructor; [constructor; lia|constructor].
      * repeat (constructor; try lia).
    + change 128512 with (262144 * 0 + 4096 * 31 + 64 * 24 + 0).
      change [240; 159; 152; 128] with ([240 + 0; 128 + 31; 128 + 24; 128 + 0] ++ []).
      constructor; [constructor; lia|constructor].
Qed.

(** Seven minutes, which is no validity period of the standard, is written as
    ten minutes; the template of a SUBMIT with it is one of the above. *)
Definition seven_template : tpdu :=
  set_VPf (set_DA (set_FO (set_Direction zero_tpdu 1) 17) {| a_toa := 145; a_addr := [54; 51; 57; 49] |}) (vp_relative (minutes 7)).
Example C41_validity_instance : template_sent seven_template /\ ~ template_ok seven_template.
Proof.
  split.
  - right. exists (vp_relative (minutes 10)). split.
    + split; [exact (vv_rel 1 _ (rv_5min 1 ltac:(lia)) ltac:(lia))|]. split; reflexivity.
    + unfold template_ok, header_ok, submit_template_ok. cbn [seven_template set_VPf set_DA set_FO set_Direction zero_tpdu FO PID DCS UDH Direction DA VP].
      split; [unfold is_byte; lia|]. split; [unfold is_byte; lia|]. split; [unfold is_byte; lia|]. split; [reflexivity|].
      left. split; [reflexivity|]. split; [reflexivity|]. split.
      * apply av_num; [unfold is_byte; lia|discriminate| |vm_compute; discriminate]. repeat constructor; cbn; lia.
      * split; [exact (vv_rel 1 _ (rv_5min 1 ltac:(lia)) ltac:(lia))|reflexivity].
  - intros (_ & _ & _ & _ & [(_ & _ & _ & HV & _)|(HD & _)]); [|discriminate].
    change (VP seven_template) with (vp_relative (minutes 7)) in HV.
    assert (X : forall v, vp_value v -> vp_format v = VpfRelative -> exists o, relative_vp o (vp_duration v)).
    { intros v []; try discriminate. intros _. now exists o. }
    destruct (X _ HV eq_refl) as (o & HR). cbn [vp_relative vp_duration] in HR. remember (minutes 7) as d eqn:ED.
    inversion HR; unfold weeks in *; unfold days in *; unfold hours in *; unfold minutes in *; lia.
Qed.
