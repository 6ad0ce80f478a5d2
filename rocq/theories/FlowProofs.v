(** Lemmas for the whole path of a message (C41). *)
From Coq Require Import Permutation.
From Verif Require Import GoBase GoLemmas SafeLemmas Utf Ucs2 UtfProofs SpecText SpecBits Charset CharsetProofs Gsm7 Dcs FirstOctet
  UserData Tpdu Segment SegmentProofs SegmentOptProofs SegmentFitProofs SpecSegTpdu Sms SpecSelect SpecDcs UserDataProofs
  FlagsProofs SpecSms SmsProofs SpecSegment EncodeProofs CountProofs SpecTime SpecVP SpecTpdu UdProofs TpduProofs
  Address GoTime ValidityPeriod SpecFlow.

Lemma unit7_chars set ext us : Forall gsm7_unit us -> forall b,
  gsm7_chars set ext (concat us ++ b) = gsm7_chars set ext (concat us) ++ gsm7_chars set ext b.
Proof.
  induction 1 as [|u us (c & Hc & Hu) _ IH]; intros b; [reflexivity|].
  cbn [concat]. destruct Hu as [-> | ->]; cbn [app gsm7_chars].
  - bfalse (c =? 27). cbn [app]. now rewrite IH.
  - change (27 =? 27) with true. cbv iota. cbn [app]. now rewrite IH.
Qed.
Lemma whole_chars set ext a b : gsm7_whole a ->
  gsm7_chars set ext (a ++ b) = gsm7_chars set ext a ++ gsm7_chars set ext b.
Proof. intros (us & HF & <-). now apply unit7_chars. Qed.

(** Decoding the TPDUs of a message. *)
Lemma decode_loop_7 opts ol os : forall segs,
  (forall s, In s segs -> dcs_alpha (DCS s) = Alpha7Bit /\ gsm7_whole (UD s) /\
    select_nli (ies (UDH s)) lockingIEI (c_locking (fold_left apply_decode_option opts ud_cfg_empty)) = ol /\
    select_nli (ies (UDH s)) shiftIEI (c_shift (fold_left apply_decode_option opts ud_cfg_empty)) = os) ->
  decode_loop (map Some segs) None opts =
  gsm7_decode (gsm7_new_decoder ol os false) (concat (map UD segs)).
Proof.
  intros segs H. rewrite gsm7_decode_total by reflexivity.
  induction segs as [|s segs IH]; [reflexivity|]. cbn [map decode_loop concat].
  destruct (H s (or_introl eq_refl)) as (HA & HW & HL & HS).
  rewrite HA. unfold decode_user_data.
  change (Alpha7Bit =? AlphaUCS2) with false. change (Alpha7Bit =? Alpha8Bit) with false. cbv iota zeta.
  rewrite HL, HS, gsm7_decode_total by reflexivity. cbn [dd_err dd_text].
  rewrite IH by (intros s' Hs'; apply H; now right). cbn [bind].
  rewrite whole_chars by exact HW. now rewrite utf8_of_app.
Qed.
Lemma decode_loop_8 opts : forall segs, (forall s, In s segs -> dcs_alpha (DCS s) = Alpha8Bit) ->
  decode_loop (map Some segs) None opts = Ok (concat (map UD segs)).
Proof.
  induction segs as [|s segs IH]; intros H; [reflexivity|]. cbn [map decode_loop concat].
  rewrite (H s (or_introl eq_refl)). unfold decode_user_data.
  change (Alpha8Bit =? AlphaUCS2) with false. change (Alpha8Bit =? Alpha8Bit) with true.
  cbv iota. cbn [dd_err dd_text]. rewrite IH by (intros s' Hs'; apply H; now right). reflexivity.
Qed.

(** ** The segments are well formed *)
Definition units_ok (alpha : Z) (ud : bytes) : Prop :=
  (alpha = Alpha7Bit /\ Forall is_septet ud /\ gsm7_whole ud) \/
  (alpha = Alpha8Bit /\ Forall is_byte ud) \/
  (alpha = AlphaUCS2 /\ exists rs, utf16be rs ud).

Definition base_ok (t : tpdu) : Prop :=
  is_byte (FO t) /\ is_byte (PID t) /\ is_byte (DCS t) /\
  match UDH t with
  | Some l => fo_udhi (FO t) = true /\ l <> [] /\ Forall ie_fits l /\ no_concat l
  | None => fo_udhi (FO t) = false
  end /\
  (submit_template_ok t \/ deliver_template_ok t).

Definition lor_check (f : Z) : bool :=
  let g := Z.lor f 64 in
  (0 <=? g) && (g <? 256) && (fo_mti g =? fo_mti f) && (fo_vpf g =? fo_vpf f) && fo_udhi g.
Lemma lor64 f : is_byte f -> is_byte (Z.lor f 64) /\ fo_mti (Z.lor f 64) = fo_mti f /\
  fo_vpf (Z.lor f 64) = fo_vpf f /\ fo_udhi (Z.lor f 64) = true.
Proof.
  intros H. assert (C : lor_check f = true) by (apply (zrange_sweep 256); [vm_compute; reflexivity|exact H]).
  unfold lor_check in C. cbv zeta in C. rewrite !andb_true_iff in C. unfold is_byte.
  destruct C as ((((C1 & C2) & C3) & C4) & C5). repeat split; try lia; assumption.
Qed.

Lemma base_type t : base_ok t -> submit_or_deliver t.
Proof.
  intros (_ & _ & _ & _ & [(HD & HM & _)|(HD & HM & _)]); unfold submit_or_deliver, tpdu_type; rewrite HD, HM;
    [left|right]; reflexivity.
Qed.

Definition tpdu_wf (s : tpdu) : Prop := submit_wf s \/ deliver_wf s.

Lemma header_size_marshal u : match u with Some l => l <> [] | None => True end -> header_size u = len (udh_marshal (ies u)).
Proof.
  destruct u as [l|]; [|reflexivity]. intros NE. cbn [header_size ies]. rewrite udh_marshal_len.
  unfold header_octets. rewrite len_cons, elements_len.
  destruct (udhl l =? 0) eqn:E; [|lia]. exfalso. apply NE, udhl_0. lia.
Qed.

Lemma utf16be_bytes rs s : utf16be rs s -> Forall is_byte s.
Proof.
  intros (us & _ & HB). induction HB; [constructor|]. constructor; [assumption|]. constructor; assumption.
Qed.

Lemma flow_wf t ud cfg segs alpha : segment t ud cfg = Ok segs -> base_ok t ->
  tpdu_alphabet t = Ok alpha -> units_ok alpha ud -> sc_mr cfg <> None ->
  forall s, In s segs -> tpdu_wf s /\ units_ok alpha (UD s) /\ DCS s = DCS t /\
    Direction s = Direction t /\ DA s = DA t /\ OA s = OA t /\ tpdu_type s = tpdu_type t /\
    Forall ie_fits (ies (UDH s)) /\
    (len segs <= 1 /\ UDH s = UDH t \/
     exists i, (ie_id i = 0 \/ ie_id i = 8) /\ UDH s = Some (ies (UDH t) ++ [i])).
Proof.
  intros H HB HA HU HMR s Hs. pose proof (base_type _ HB) as HT.
  destruct HB as (BF & BP & BD & BH & BK).
  destruct (segment_lossless _ _ _ _ H) as (HL1 & HL2 & HL3). destruct (HL2 s Hs) as [NE Hb].
  pose proof (tpdu_alphabet_ok _ _ HA) as HA'.
  assert (HUs : units_ok alpha (UD s)).
  { assert (HSub : forall P : Z -> Prop, Forall P ud -> Forall P (UD s)).
    { intros P HP. rewrite <- HL1 in HP. rewrite Forall_forall in *. intros x Hx. apply HP.
      apply in_concat. exists (UD s). split; [now apply in_map|exact Hx]. }
    destruct HU as [(-> & H1 & H2)|[(-> & H1)|(-> & rs & H1)]].
    - left. split; [reflexivity|]. split; [now apply HSub|].
      apply (whole_7 _ _ HA'). eapply segment_whole; eauto. now apply (whole_7 _ _ HA').
    - right; left. split; [reflexivity|now apply HSub].
    - right; right. split; [reflexivity|]. fold (utf16_whole (UD s)). apply whole_U. rewrite <- HA'.
      eapply segment_whole; eauto. rewrite HA'. apply whole_U. now exists rs. }
  assert (HEV : alpha = AlphaUCS2 -> len ud mod 2 = 0).
  { intros ->. destruct HU as [(X & _)|[(X & _)|(_ & rs & HU)]]; try discriminate. eapply utf16be_len; exact HU. }
  destruct (segment_fits _ _ _ _ _ H HT HA HEV s Hs) as (udl & body & _ & HB140 & HUDL).
  pose proof (In_nth_error _ _ Hs) as (k & Hk). pose proof (segment_inherits _ _ _ _ H k s Hk) as HI.
  unfold inherits in HI.
  destruct HI as (ID & IOA & _ & _ & _ & IDA & _ & ISC & _ & _ & IP & IDC & IVP & IM & IX).
  destruct (sc_mr cfg) as [mr|]; [|congruence].
  assert (HFO : is_byte (FO s) /\ fo_mti (FO s) = fo_mti (FO t) /\ fo_vpf (FO s) = fo_vpf (FO t) /\
    match UDH s with
    | Some l => fo_udhi (FO s) = true /\ l <> [] /\ Forall ie_fits l
    | None => fo_udhi (FO s) = false
    end /\
    (len segs <= 1 /\ UDH s = UDH t \/
     exists i, (ie_id i = 0 \/ ie_id i = 8) /\ UDH s = Some (ies (UDH t) ++ [i]))).
  { destruct (len ud <=? ud_block_size t) eqn:EL.
    - destruct IX as (-> & _ & ->). split; [exact BF|]. split; [reflexivity|]. split; [reflexivity|].
      split; [destruct (UDH t); tauto|]. left. split; [|reflexivity].
      assert (length segs <= 1)%nat by (apply HL3; left; lia). unfold len. lia.
    - destruct IX as (EF & _ & i & EU & EI). destruct (lor64 _ BF) as (L1 & L2 & L3 & L4).
      rewrite EF, EU. split; [exact L1|]. split; [exact L2|]. split; [exact L3|].
      assert (HIe : (ie_id i = 0 \/ ie_id i = 8) /\ ie_fits i).
      { unfold ie_fits, is_byte. destruct (sc_wide cfg); destruct EI as [E1 E2]; rewrite E1, E2.
        - split; [right; reflexivity|]. split; [lia|]. split; [repeat constructor; lia|vm_compute; discriminate].
        - split; [left; reflexivity|]. split; [lia|]. split; [repeat constructor; lia|vm_compute; discriminate]. }
      split.
      + split; [exact L4|]. split; [destruct (ies (UDH t)); discriminate|].
        apply Forall_app. split; [destruct (UDH t); [tauto|constructor]|]. constructor; [tauto|constructor].
      + right. exists i. split; [tauto|reflexivity]. }
  destruct HFO as (F1 & F2 & F3 & F4 & F5).
  assert (HTs : tpdu_type s = tpdu_type t) by (unfold tpdu_type; now rewrite ID, F2).
  assert (HAs : tpdu_alphabet s = Ok alpha) by (unfold tpdu_alphabet; now rewrite IDC).
  assert (HHS : header_size (UDH s) = len (udh_marshal (ies (UDH s)))).
  { apply header_size_marshal. destruct (UDH s); tauto. }
  assert (HUW : ud_wf s).
  { split.
    - destruct (UDH s) as [l|] eqn:EUD; [|now left]. destruct F4 as (F4 & F6 & F7). split; [exact F4|].
      split; [exact F6|]. split; [exact F7|]. rewrite elements_len.
      cbn [ies] in *. rewrite udh_marshal_len in *.
      assert (1 <= len (UD s)).
      { pose proof (len_nonneg (UD s)). destruct (Z.eq_dec (len (UD s)) 0) as [E|]; [|lia]. now apply len_0_nil in E. }
      pose proof (udhl_nonneg l). unfold cdiv in *.
      destruct (udhl l =? 0) eqn:E0; [lia|]. destruct (alpha =? Alpha7Bit); lia.
    - rewrite HHS. pose proof (len_nonneg (UD s)). pose proof (len_nonneg (udh_marshal (ies (UDH s)))).
      unfold cdiv in *. destruct HUs as [(-> & HX1 & _)|[(-> & HX1)|(-> & rs & HX1)]].
      + left. split; [exact HAs|]. split; [exact HX1|]. change (Alpha7Bit =? Alpha7Bit) with true in HUDL.
        cbv iota in HUDL. lia.
      + right; left. split; [exact HAs|]. split; [exact HX1|]. change (Alpha8Bit =? Alpha7Bit) with false in HUDL.
        cbv iota in HUDL. lia.
      + right; right. split; [exact HAs|]. split; [|split].
        * eapply utf16be_bytes; exact HX1.
        * eapply utf16be_len; exact HX1.
        * change (AlphaUCS2 =? Alpha7Bit) with false in HUDL. cbv iota in HUDL. lia. }
  split.
  { destruct BK as [(K1 & K2 & K3 & K4 & K5)|(K1 & K2 & K3 & K4)]; [left|right].
    - unfold submit_wf. rewrite ID, F2, IM, IDA, IP, IDC, IVP, F3.
      do 3 (split; [assumption|]). split; [unfold is_byte; lia|]. auto 10.
    - unfold deliver_wf. rewrite ID, F2, IOA, IP, IDC, ISC. auto 10. }
  split; [exact HUs|]. do 5 (split; [assumption|]). split; [|exact F5].
  destruct (UDH s); [tauto|constructor].
Qed.

(** ** What Encode gives to Segment, and its decoding *)
Lemma template_base t : template_ok t -> base_ok t.
Proof.
  intros (H1 & H2 & H3 & H4 & H5). unfold base_ok. do 3 (split; [assumption|]). split; [|assumption].
  unfold header_ok in H4. destruct (UDH t) as [l|]; [|exact H4]. destruct H4 as (H4 & H6 & H7).
  split; [exact H4|]. split; [exact H6|]. unfold no_concat. split; eapply Forall_impl; try exact H7; cbn; intros i [A B].
  - exact A.
  - intuition lia.
Qed.
Lemma find_ie_app l i id : ie_id i <> id -> find_ie (l ++ [i]) id = find_ie l id.
Proof. intros H. unfold find_ie. rewrite rev_app_distr. cbn [rev app find]. now bfalse (ie_id i =? id). Qed.

Definition seg_like (t : tpdu) (alpha : Z) (s : tpdu) : Prop :=
  DCS s = DCS t /\ units_ok alpha (UD s) /\
  (UDH s = UDH t \/ exists i, (ie_id i = 0 \/ ie_id i = 8) /\ UDH s = Some (ies (UDH t) ++ [i])).
Lemma seg_like_find t alpha s id : seg_like t alpha s -> id <> 0 -> id <> 8 ->
  find_ie (ies (UDH s)) id = find_ie (ies (UDH t)) id.
Proof.
  intros (_ & _ & [->|(i & Hi & ->)]) H0 H8; [reflexivity|]. cbn [ies]. apply find_ie_app.
  destruct Hi as [-> | ->]; lia.
Qed.

Lemma choice_fits l c : map (fun i => (ie_id i, ie_data i)) l = choice_header c ->
  match c with ChLocking n | ChShift n | ChBoth n => 1 <= n <= 13 | _ => True end ->
  Forall ie_fits l /\ no_concat l.
Proof.
  unfold no_concat. intros H Hc.
  assert (HI : forall i, In i l -> In (ie_id i, ie_data i) (choice_header c)).
  { intros i Hi. rewrite <- H. apply (in_map (fun i => (ie_id i, ie_data i)) _ _ Hi). }
  assert (HE : forall i, In i l -> exists n, 1 <= n <= 13 /\ (ie_id i = 24 \/ ie_id i = 25) /\ ie_data i = [n]).
  { intros i Hi. apply HI in Hi.
    destruct c as [|n|n|n|]; cbn [choice_header In] in Hi; try contradiction; exists n; (split; [exact Hc|]).
    1-2: destruct Hi as [Hi|[]]; injection Hi as <- <-; split; auto.
    destruct Hi as [Hi|[Hi|[]]]; injection Hi as <- <-; split; auto. }
  split; rewrite Forall_forall; intros i Hi; destruct (HE i Hi) as (n & Hn & Hid & Hd).
  - unfold ie_fits, is_byte. rewrite Hd. split; [lia|]. split; [constructor; [lia|constructor]|].
    vm_compute. discriminate.
  - lia.
Qed.

Lemma prep_flow e msg text t ud : template_ok (e_pdu e) -> meant (DCS (e_pdu e)) (e_eopts e) msg text ->
  encode_prepare e msg = Ok (t, ud) ->
  base_ok t /\ exists alpha, tpdu_alphabet t = Ok alpha /\ units_ok alpha ud /\
    forall dopts segs, decodes_with (e_eopts e) dopts -> (forall s, In s segs -> seg_like t alpha s) ->
      concat (map UD segs) = ud -> decode_loop (map Some segs) None dopts = Ok text.
Proof.
  intros HT HM HP. pose proof (template_base _ HT) as HB0.
  assert (BD : is_byte (DCS (e_pdu e))) by (destruct HT; tauto).
  pose proof (prepare_cases e msg BD) as HC. unfold given_encoded in HC. unfold meant in HM.
  assert (HU2 : forall rs dopts t segs, utf16be rs ud -> utf8_text rs text -> tpdu_alphabet t = Ok AlphaUCS2 ->
    (forall s, In s segs -> seg_like t AlphaUCS2 s) ->
    concat (map UD segs) = ud -> decode_loop (map Some segs) None dopts = Ok text).
  { intros rs dopts t0 segs HR HX HA HS HE.
    destruct (decode_loop_ucs2 dopts segs) as [-> _].
    - rewrite Forall_forall. intros s Hs. destruct (HS s Hs) as (E & HU & _). unfold ucs2_tpdu, tpdu_alphabet.
      rewrite E. split; [exact HA|]. destruct HU as [(X & _)|[(X & _)|(_ & rs' & HU)]]; try discriminate.
      split; [eapply utf16be_bytes; exact HU|eapply utf16be_len; exact HU].
    - rewrite HE. rewrite <- ucs2_decode_loop by (eapply utf16be_len; exact HR).
      rewrite (ucs2_decode_text _ _ HR). unfold u2_outcome. cbn [u2_err u2_runes].
      now rewrite <- (utf8_text_fun _ _ HX). }
  assert (H7 : match alphabet_of (DCS (e_pdu e)) with
    | Some 1 => alphabet_of (DCS (e_pdu e)) = Some 1
    | Some 2 => alphabet_of (DCS (e_pdu e)) = Some 2
    | _ => match alphabet_of (DCS (e_pdu e)) with Some 1 | Some 2 => true | _ => false end = false
    end).
  { destruct (alphabet_of _) as [[|[p|p|]|p]|]; try reflexivity; destruct p; reflexivity. }
  destruct (match alphabet_of (DCS (e_pdu e)) with Some 1 | Some 2 => true | _ => false end) eqn:EG.
  - rewrite HC in HP. injection HP as <- <-. split; [exact HB0|].
    assert (alphabet_of (DCS (e_pdu e)) = Some 1 \/ alphabet_of (DCS (e_pdu e)) = Some 2) as [EA|EA].
    { destruct (alphabet_of _) as [[|[p|p|]|p]|]; try discriminate; auto; destruct p; try discriminate; auto. }
    + rewrite EA in HM. destruct HM as [HM ->]. exists Alpha8Bit. split.
      { unfold tpdu_alphabet. rewrite (alphabet_meaning _ BD), EA. reflexivity. }
      split; [right; left; split; [reflexivity|exact HM]|].
      intros dopts segs _ HS <-. apply decode_loop_8. intros s Hs. destruct (HS s Hs) as (-> & _).
      rewrite (dcs_alpha_spec _ BD), EA. reflexivity.
    + rewrite EA in HM. destruct HM as (rs & HM1 & HM2). exists AlphaUCS2.
      assert (HA : tpdu_alphabet (e_pdu e) = Ok AlphaUCS2).
      { unfold tpdu_alphabet. rewrite (alphabet_meaning _ BD), EA. reflexivity. }
      split; [exact HA|]. split; [right; right; split; [reflexivity|now exists rs]|].
      intros dopts segs _ HS HE. eapply HU2; eauto.
  - assert (HM' : valid_utf8 msg /\ text = msg /\ (~ In 27 msg \/ choose msg (e_eopts e) = ChUcs2)).
    { destruct (alphabet_of _) as [[|[p|p|]|p]|]; try discriminate EG; try exact HM; destruct p; try discriminate EG; exact HM. }
    clear HM H7 EG. destruct HM' as (HV & -> & HN).
    destruct (encode_user_data msg (e_eopts e)) as [[ud' h] a] eqn:EU. destruct HC as [HCh HC].
    destruct (alphabet_expressible _ _); [|rewrite HC in HP; discriminate].
    destruct HC as (t' & EP & HA & BDt & _ & EUDH & EFO & _ & ET). rewrite HP in EP. injection EP as <- <-.
    pose proof (ud_choice_alpha _ _ _ _ _ HCh) as Ea. pose proof (choice_registered msg (e_eopts e)) as HR.
    assert (HNn : h = None \/ exists l, h = Some l /\ l <> []).
    { destruct h as [[|i l]|]; [|right; eexists; split; [reflexivity|discriminate]|now left].
      left. apply (encode_header_nil _ _ _ _ _ EU). reflexivity. }
    assert (HBt : base_ok t).
    { rewrite ET. unfold base_ok, submit_template_ok, deliver_template_ok.
      cbn [FO PID DCS UDH Direction DA VP OA SCTS].
      destruct HB0 as (B1 & B2 & B3 & B4 & B5). destruct (lor64 _ B1) as (L1 & L2 & L3 & L4).
      unfold submit_template_ok, deliver_template_ok in B5.
      destruct HNn as [-> | (l & -> & NE)]; rewrite EUDH, EFO; cbn [prep_header].
      - auto 10.
      - split; [exact L1|]. split; [exact B2|]. split; [exact BDt|]. split.
        + split; [exact L4|]. split; [exact NE|]. destruct HCh as [HCh _]. cbn [ies] in HCh.
          eapply choice_fits; [exact HCh|]. destruct (choose msg (e_eopts e)); tauto.
        + rewrite L2, L3. exact B5. }
    split; [exact HBt|]. exists a.
    assert (HAt : tpdu_alphabet t = Ok a).
    { unfold tpdu_alphabet. rewrite (alphabet_meaning _ BDt), HA, Ea. reflexivity. }
    split; [exact HAt|].
    pose proof (valid_utf8_runes _ HV) as HTx. pose proof (utf8_text_bytes _ _ HTx) as HBy.
    destruct (choice_tables (choose msg (e_eopts e))) as [[l s]|] eqn:ECT.
    + assert (a = Alpha7Bit) as -> by (rewrite Ea; destruct (choose _ _); try reflexivity; discriminate).
      assert (HN' : ~ In 27 msg) by (destruct HN as [HN|HN]; [exact HN|rewrite HN in ECT; discriminate]).
      destruct HCh as [HCh1 HCh2]. rewrite ECT in HCh2. destruct HCh2 as [_ HG].
      split.
      { left. split; [reflexivity|]. split.
        - eapply encode_runes_septets; [apply (new_set_ok (Some l) (Some s) false)|apply (new_ext_ok (Some l) (Some s) false)|exact HG].
        - eapply gsm7_encode_whole; eauto. }
      intros dopts segs HD HS HE.
      pose proof (user_data_roundtrip _ _ _ _ _ _ HV HD EU (or_introl HN')) as HRT.
      assert (HF : forall s0 id, In s0 segs -> id = 24 \/ id = 25 -> find_ie (ies (UDH s0)) id = find_ie (ies h) id).
      { intros s0 id Hs Hid. rewrite (seg_like_find _ _ _ _ (HS s0 Hs)) by lia. rewrite EUDH.
        destruct h as [hl|]; [reflexivity|]. cbn [prep_header ies]. change (find_ie [] id) with (@None ie).
        apply find_ie_none. intros i Hi. destruct HT as (_ & _ & _ & HT & _). unfold header_ok in HT.
        destruct (UDH (e_pdu e)) as [tl|]; [|contradiction]. destruct HT as (_ & _ & HT).
        rewrite Forall_forall in HT. apply HT in Hi as [_ Hi]. cbn [In] in Hi. intuition lia. }
      unfold decode_user_data in HRT.
      change (Alpha7Bit =? AlphaUCS2) with false in HRT. change (Alpha7Bit =? Alpha8Bit) with false in HRT.
      cbv iota zeta in HRT.
      erewrite decode_loop_7.
      2:{ intros s0 Hs. destruct (HS s0 Hs) as (E1 & E2 & _). split.
          - rewrite E1. apply tpdu_alphabet_ok. exact HAt.
          - destruct E2 as [(_ & _ & E2)|[(X & _)|(X & _)]]; try discriminate. split; [exact E2|].
            unfold select_nli. unfold lockingIEI, shiftIEI. rewrite !(HF s0) by (assumption || lia). split; reflexivity. }
      rewrite HE. unfold select_nli, lockingIEI, shiftIEI in HRT. rewrite gsm7_decode_total in * by reflexivity.
      apply (f_equal dd_text) in HRT. cbn [dd_text] in HRT. now rewrite HRT.
    + assert (a = AlphaUCS2) as -> by (rewrite Ea; destruct (choose _ _); try reflexivity; discriminate).
      destruct HCh as [_ HCh2]. rewrite ECT in HCh2. destruct HCh2 as [_ EUd].
      assert (HRs : utf16be (runes_of msg) ud).
      { rewrite EUd. apply ucs2_encode_spec. eapply utf8_text_scalar; exact HTx. }
      split; [right; right; split; [reflexivity|]; now exists (runes_of msg)|].
      intros dopts segs _ HS HE. eapply HU2; eauto.
Qed.

(** ** Reception *)
Definition received (s : tpdu) : tpdu := if Direction s =? MO then submit_fields s else deliver_fields s.
Lemma carried_ok s : tpdu_wf s -> carried s (received s).
Proof.
  intros [H|H]; unfold carried, received.
  - assert (Direction s = MO) as -> by apply H. change (MO =? MO) with true. now apply submit_roundtrip.
  - assert (Direction s = MT) as -> by apply H. change (MT =? MO) with false. now apply deliver_roundtrip.
Qed.
Lemma received_ud s : UD (received s) = UD s /\ UDH (received s) = UDH s /\ DCS (received s) = DCS s.
Proof. unfold received. destruct (Direction s =? MO); auto. Qed.

Lemma carried_fun t r r' : carried t r -> carried t r' -> r = r'.
Proof. intros (b & H1 & _ & H2) (b' & H1' & _ & H2'). congruence. Qed.

Lemma received_type s : tpdu_wf s -> tpdu_type (received s) = tpdu_type s.
Proof.
  unfold received, tpdu_type. intros [H|H].
  - assert (Direction s = MO) as -> by apply H. reflexivity.
  - assert (Direction s = MT) as -> by apply H. reflexivity.
Qed.
Lemma addr_value_toa a : addr_value a -> is_byte (a_toa a).
Proof. intros H. destruct H; assumption. Qed.

Lemma segment_flow e msg opts t ud cfg pdus text : encode_prepare (with_options e opts) msg = Ok (t, ud) ->
  segment t ud cfg = Ok pdus -> sc_mr cfg <> None ->
  template_ok (e_pdu (with_options e opts)) ->
  meant (DCS (e_pdu (with_options e opts))) (e_eopts (with_options e opts)) msg text ->
  (forall s, In s pdus -> tpdu_wf s) /\
  (forall dopts, decodes_with (e_eopts (with_options e opts)) dopts ->
     decode_loop (map Some (map received pdus)) None dopts = Ok text) /\
  (len pdus = 1 -> forall s, In s pdus -> tpdu_concat_info s = None) /\
  (1 < len pdus -> exists da oa ref st, forall k s, nth_error pdus k = Some s ->
     tpdu_concat_info s = Some (len pdus mod 256, (Z.of_nat k + 1) mod 256, ref) /\ DA s = da /\ OA s = oa /\ tpdu_type s = st) /\
  (forall s, In s pdus -> Forall ie_fits (ies (UDH s))).
Proof.
  intros HP HS HMR HT HM.
  destruct (prep_flow _ _ _ _ _ HT HM HP) as (HB & alpha & HA & HU & HD).
  assert (HW := fun s => flow_wf _ _ _ _ _ HS HB HA HU HMR s).
  split; [intros s Hs; now apply HW|]. split; [|split; [|split]].
  - intros dopts Hd. apply HD; [exact Hd| |].
    + intros r Hr. apply in_map_iff in Hr as (s & <- & Hs). destruct (received_ud s) as (E1 & E2 & E3).
      unfold seg_like. rewrite E1, E2, E3.
      destruct (HW s Hs) as (_ & H1 & H2 & _ & _ & _ & _ & _ & [(_ & H3)|H3]); auto.
    + rewrite map_map. rewrite <- (proj1 (segment_lossless _ _ _ _ HS)). f_equal. apply map_ext.
      intros s. apply received_ud.
  - intros HL s Hs. unfold tpdu_concat_info.
    pose proof (In_nth_error _ _ Hs) as (k & Hk). pose proof (segment_inherits _ _ _ _ HS k s Hk) as HI.
    unfold inherits in HI.
    destruct HI as (_ & _ & _ & _ & _ & _ & _ & _ & _ & _ & _ & _ & _ & _ & IX).
    destruct (segment_lossless _ _ _ _ HS) as (HL1 & _ & HL3).
    assert (len ud <=? ud_block_size t = true) as E.
    { assert (length pdus <= 1)%nat as L by (unfold len in HL; lia). apply HL3 in L as [L|L]; [lia|].
      subst ud. rewrite L in HS. cbn in HS. apply ok_inj in HS. subst pdus. discriminate HL. }
    rewrite E in IX. destruct IX as (_ & _ & ->).
    destruct HB as (_ & _ & _ & HB & _). destruct (UDH t) as [l|]; [|reflexivity]. cbn [ies].
    destruct HB as (_ & _ & _ & HB). unfold no_concat in HB. rewrite Forall_forall in HB.
    rewrite concat_info_last, !SmsProofs.find_ie_last, !find_ie_none; [reflexivity| |]; intros i Hi; apply HB in Hi; tauto.
  - intros HL. eexists _, _, _, _. intros k s Hk. split.
    + eapply segment_concat_wraps; eauto. destruct HB as (_ & _ & _ & HB & _).
      destruct (UDH t); cbn [ies]; [tauto|constructor].
    + destruct (HW s (nth_error_In _ _ Hk)) as (_ & _ & _ & _ & -> & -> & -> & _). split; [|split]; reflexivity.
  - intros s Hs. now apply HW.
Qed.

Lemma encode_flow e msg opts pdus e' text : encoder_encode e msg opts = Ok (pdus, e') ->
  template_ok (e_pdu (with_options e opts)) ->
  meant (DCS (e_pdu (with_options e opts))) (e_eopts (with_options e opts)) msg text ->
  (forall s, In s pdus -> tpdu_wf s) /\
  (forall dopts, decodes_with (e_eopts (with_options e opts)) dopts ->
     decode_loop (map Some (map received pdus)) None dopts = Ok text) /\
  (len pdus = 1 -> forall s, In s pdus -> tpdu_concat_info s = None) /\
  (1 < len pdus -> exists da oa ref st, forall k s, nth_error pdus k = Some s ->
     tpdu_concat_info s = Some (len pdus mod 256, (Z.of_nat k + 1) mod 256, ref) /\ DA s = da /\ OA s = oa /\ tpdu_type s = st) /\
  (forall s, In s pdus -> Forall ie_fits (ies (UDH s))).
Proof.
  intros HE. destruct (encoder_encode_ok _ _ _ _ _ HE) as (t & ud & HP & HS & _).
  apply (segment_flow _ _ _ _ _ _ _ _ HP HS). discriminate.
Qed.

(** ** What the TPDUs share with the template *)
Lemma prepare_keeps x msg t ud : encode_prepare x msg = Ok (t, ud) ->
  Direction t = Direction (e_pdu x) /\ OA t = OA (e_pdu x) /\ DA t = DA (e_pdu x) /\ SCTS t = SCTS (e_pdu x) /\
  PID t = PID (e_pdu x) /\ VP t = VP (e_pdu x) /\ Z.lor (FO t) 64 = Z.lor (FO (e_pdu x)) 64.
Proof.
  intros HP. unfold encode_prepare in HP.
  destruct (_ || _); [apply ok_pair in HP as [<- _]; auto 10|].
  destruct (encode_user_data msg (e_eopts x)) as [[d u] a]. cbv zeta in HP.
  destruct (dcs_with_alphabet _ _) as [dcs| | |]; try discriminate. apply ok_pair in HP as [<- _].
  assert (E : forall f, Z.lor (Z.lor f 64) 64 = Z.lor f 64).
  { intros f. rewrite <- Z.lor_assoc. reflexivity. }
  destruct (negb _), u; destruct (e_pdu x); cbn; unfold FoUDHI; rewrite ?E; auto 10.
Qed.
Lemma lor64_mti a b : Z.lor a 64 = Z.lor b 64 -> fo_mti a = fo_mti b.
Proof.
  intros H. assert (E : forall f, fo_mti (Z.lor f 64) = fo_mti f).
  { intros f. unfold fo_mti. rewrite Z.land_lor_distr_l. change (Z.land 64 _) with 0. now rewrite Z.lor_0_r. }
  now rewrite <- (E a), H, E.
Qed.
Lemma encode_keeps e msg opts pdus e' text : encoder_encode e msg opts = Ok (pdus, e') ->
  template_ok (e_pdu (with_options e opts)) ->
  meant (DCS (e_pdu (with_options e opts))) (e_eopts (with_options e opts)) msg text ->
  forall p, In p pdus -> keeps (e_pdu (with_options e opts)) (received p).
Proof.
  intros HE HT HM p Hp. destruct (encode_flow _ _ _ _ _ _ HE HT HM) as (HW & _). specialize (HW p Hp).
  destruct (encoder_encode_ok _ _ _ _ _ HE) as (t & ud & HP & HS & _).
  apply prepare_keeps in HP. destruct HP as (T1 & T2 & T3 & T4 & T5 & T6 & T7).
  apply In_nth_error in Hp as (k & Hk). pose proof (segment_inherits _ _ _ _ HS k p Hk) as HI. unfold inherits in HI.
  destruct HI as (I1 & I2 & _ & _ & _ & I3 & _ & I4 & _ & _ & I5 & _ & I6 & _ & I7).
  assert (HF : Z.lor (FO p) 64 = Z.lor (FO (e_pdu (with_options e opts))) 64).
  { rewrite <- T7. destruct (_ <=? _); [now destruct I7 as (-> & _)|]. destruct I7 as (-> & _).
    rewrite <- Z.lor_assoc. reflexivity. }
  assert (HY : tpdu_type p = tpdu_type (e_pdu (with_options e opts))).
  { unfold tpdu_type. now rewrite (lor64_mti _ _ HF), I1, T1. }
  unfold keeps. rewrite (received_type _ HW), <- HY, <- T1, <- I1, <- T5, <- I5, <- HF, <- T2, <- I2, <- T3, <- I3, <- T4, <- I4, <- T6, <- I6.
  unfold received. destruct HW as [H|H].
  - assert (Direction p = MO /\ fo_mti (FO p) = 1) as [D M] by (split; apply H). unfold tpdu_type. rewrite D, M. cbn [submit_fields Direction FO PID DA VP OA SCTS].
    change (MO =? MO) with true. cbv iota. cbn [submit_fields Direction FO PID DA VP OA SCTS].
    assert (vp_value (VP p)) by apply H.
    unfold written_as. repeat match goal with |- _ /\ _ => split end; auto; discriminate.
  - assert (Direction p = MT /\ fo_mti (FO p) = 0) as [D M] by (split; apply H). unfold tpdu_type. rewrite D, M.
    change (MT =? MO) with false. cbv iota. cbn [deliver_fields Direction FO PID DA VP OA SCTS].
    repeat match goal with |- _ /\ _ => split end; auto; discriminate.
Qed.

(** ** Validity periods written as another *)
Lemma vp_fields t w : DCS (set_VPf t w) = DCS t /\ UDH (set_VPf t w) = UDH t /\ VP (set_VPf t w) = w. Proof. now destruct t. Qed.
Lemma set_VPf_id t : set_VPf t (VP t) = t. Proof. now destruct t. Qed.
Lemma set_VPf_twice t v w : set_VPf (set_VPf t v) w = set_VPf t w. Proof. now destruct t. Qed.

Lemma prepare_vp e w msg t d :
  let e1 := {| e_eopts := e_eopts e; e_pdu := set_VPf (e_pdu e) w; e_msg_count := e_msg_count e; e_concat_ref := e_concat_ref e |} in
  encode_prepare e msg = Ok (t, d) -> encode_prepare e1 msg = Ok (set_VPf t w, d).
Proof.
  intros e1 H. unfold encode_prepare in *. unfold e1. cbn [e_pdu e_eopts]. destruct (vp_fields (e_pdu e) w) as (-> & _).
  destruct ((dcs_alpha (DCS (e_pdu e)) =? Alpha8Bit) || (dcs_alpha (DCS (e_pdu e)) =? AlphaUCS2)); [now injection H as <- <-|].
  destruct (encode_user_data msg (e_eopts e)) as [[ud h] a]. cbv zeta in *.
  destruct (dcs_with_alphabet (DCS (e_pdu e)) a) as [dcs| | |]; try discriminate. injection H as <- <-.
  do 2 f_equal. destruct e as [eo t0 mc cr]. cbn [e_pdu]. dtpdu t0. destruct (negb (dcs =? _)), h; reflexivity.
Qed.

Lemma block_size_vp t w : ud_block_size (set_VPf t w) = ud_block_size t.
Proof. now destruct t. Qed.
Lemma make_segments_vp t w cfg ref count : forall cs i,
  make_segments (set_VPf t w) cfg ref count i cs = map (fun p => set_VPf p w) (make_segments t cfg ref count i cs).
Proof.
  induction cs as [|c cs IH]; intros i; cbn [make_segments map]; [reflexivity|]. rewrite IH. f_equal.
  unfold make_segment, with_mr. dtpdu t. destruct (sc_mr cfg); reflexivity.
Qed.
Lemma segment_vp t w msg cfg pdus : segment t msg cfg = Ok pdus ->
  segment (set_VPf t w) msg cfg = Ok (map (fun p => set_VPf p w) pdus).
Proof.
  intros H. unfold segment in *. destruct (len msg =? 0); [now injection H as <-|]. cbv zeta in *.
  rewrite block_size_vp. destruct (len msg <=? ud_block_size t).
  { injection H as <-. cbn [map]. do 2 f_equal. dtpdu t. unfold with_mr. destruct (sc_mr cfg); reflexivity. }
  destruct (vp_fields t w) as (_ & -> & _).
  set (ph := new_ie (sc_wide cfg) 0 0 0) in *.
  replace (set_udh (set_VPf t w) (Some (ies (UDH t) ++ [ph]))) with (set_VPf (set_udh t (Some (ies (UDH t) ++ [ph]))) w) by (now destruct t).
  set (t1 := set_udh t (Some (ies (UDH t) ++ [ph]))) in *.
  rewrite block_size_vp.
  replace (set_UDHf (set_VPf t1 w) (Some (ies (UDH t)))) with (set_VPf (set_UDHf t1 (Some (ies (UDH t)))) w) by (now destruct t1).
  destruct (vp_fields (set_UDHf t1 (Some (ies (UDH t)))) w) as (-> & _).
  destruct (chunk _ _ _) as [cs| | |]; try discriminate. cbn [bind] in *. injection H as <-. f_equal.
  apply make_segments_vp.
Qed.

Lemma marshal_vp t w : vp_format w = vp_format (VP t) -> vp_marshal w = vp_marshal (VP t) ->
  tpdu_marshal (set_VPf t w) = tpdu_marshal t.
Proof.
  intros H1 H2. assert (HS : marshal_submit (set_VPf t w) = marshal_submit t).
  { dtpdu t. cbn [VP] in *. unfold marshal_submit. cbn [set_VPf DA VP FO MR PID DCS Direction OA FCS CT MN RA PI SCTS DT ST UDH UD].
    rewrite H1, H2. reflexivity. }
  unfold tpdu_marshal. rewrite HS. now destruct t.
Qed.
Lemma carried_vp t w r : vp_format w = vp_format (VP t) -> vp_marshal w = vp_marshal (VP t) ->
  carried (set_VPf t w) r -> carried t r.
Proof.
  intros H1 H2 (b & A & B & C). rewrite marshal_vp in A by assumption. exists b. split; [exact A|]. split; [exact B|].
  now destruct t.
Qed.

(** The same encoder with another validity period. *)
Lemma encode_vp e msg opts pdus e' w : encoder_encode e msg opts = Ok (pdus, e') ->
  let e0 := with_options e opts in
  exists e1 e2, encoder_encode e1 msg [] = Ok (map (fun p => set_VPf p w) pdus, e2) /\
    e_pdu (with_options e1 []) = set_VPf (e_pdu e0) w /\ e_eopts (with_options e1 []) = e_eopts e0 /\
    Forall (fun p => VP p = VP (e_pdu e0)) pdus.
Proof.
  intros H e0. destruct (encoder_encode_ok _ _ _ _ _ H) as (t & ud & HP & HS & _). fold e0 in HP, HS.
  pose proof (prepare_keeps _ _ _ _ HP) as (_ & _ & _ & _ & _ & T & _).
  set (e1 := {| e_eopts := e_eopts e0; e_pdu := set_VPf (e_pdu e0) w; e_msg_count := e_msg_count e0; e_concat_ref := e_concat_ref e0 |}).
  exists e1, (advance e1 (map (fun p => set_VPf p w) pdus)). split; [|split; [reflexivity|split; [reflexivity|]]].
  - pose proof (prepare_vp _ w _ _ _ HP) as HP1. cbv zeta in HP1. fold e1 in HP1.
    pose proof (segment_vp _ w _ _ _ HS) as HS1.
    assert (encoder_seg_cfg e1 = encoder_seg_cfg e) as EC.
    { unfold encoder_seg_cfg, e1, e0. cbn [e_msg_count e_concat_ref]. destruct (with_options_counters opts e) as [-> ->]. reflexivity. }
    unfold encoder_encode. change (fold_left apply_encoder_opt [] e1) with e1. rewrite HP1. cbn [bind]. rewrite EC, HS1. reflexivity.
  - rewrite Forall_forall. intros p Hp. apply In_nth_error in Hp as (k & Hk).
    pose proof (segment_inherits _ _ _ _ HS k p Hk) as HI. unfold inherits in HI.
    destruct HI as (_ & _ & _ & _ & _ & _ & _ & _ & _ & _ & _ & _ & I & _). congruence.
Qed.
