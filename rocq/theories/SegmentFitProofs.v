(** Segmentation: concatenation information, inherited fields, and the size of
    the marshalled user data. *)
From Verif Require Import GoBase GoLemmas SpecSegment SevenBit SevenBitProofs Dcs FirstOctet
  UserData Tpdu Segment SpecSegTpdu SegmentProofs SegmentOptProofs Sms.

(** ** C16 *)

Lemma find_ie_last l i : find_ie (l ++ [i]) (ie_id i) = Some i.
Proof. unfold find_ie. rewrite rev_app_distr. cbn [rev app find]. now rewrite Z.eqb_refl. Qed.
Lemma find_ie_none l id : (forall i, In i l -> ie_id i <> id) -> find_ie l id = None.
Proof.
  intros H. unfold find_ie. destruct (find _ (rev l)) as [i|] eqn:E; [|reflexivity].
  apply find_some in E as [HI E]. apply in_rev in HI. apply H in HI. lia.
Qed.
Lemma concat_info_new l wide ref count seq : no_concat l ->
  concat_info (l ++ [new_ie wide ref count seq]) =
  Some (count mod 256, seq mod 256, ref mod (if wide then 65536 else 256)).
Proof.
  intros HN. unfold no_concat in HN. rewrite Forall_forall in HN.
  assert (E : concat_info (l ++ [new_ie wide ref count seq]) =
    match concat_info8 (l ++ [new_ie wide ref count seq]) with
    | Some x => Some x | None => concat_info16 (l ++ [new_ie wide ref count seq]) end).
  { destruct l; reflexivity. }
  rewrite E. destruct wide.
  - unfold concat_info8. rewrite find_ie_none.
    2:{ intros i HI. apply in_app_or in HI as [HI|[<-|[]]]; [apply HN in HI; tauto|cbn; lia]. }
    unfold concat_info16. change 8 with (ie_id (new_ie true ref count seq)). rewrite find_ie_last.
    unfold new_ie, new_ie16. cbn [ie_data]. unfold to_byte. do 2 f_equal. lia.
  - unfold concat_info8. change 0 with (ie_id (new_ie false ref count seq)) at 1. rewrite find_ie_last.
    unfold new_ie, new_ie8. cbn [ie_data]. reflexivity.
Qed.

Lemma segment_concat_wraps t msg cfg segs : segment t msg cfg = Ok segs ->
  no_concat (ies (UDH t)) -> 1 < len segs ->
  forall k s, nth_error segs k = Some s ->
  tpdu_concat_info s =
  Some (len segs mod 256, (Z.of_nat k + 1) mod 256,
        match sc_cr cfg with Some f => f 0%nat | None => 1 end
          mod (if sc_wide cfg then 65536 else 256)).
Proof.
  intros H HN HL k s Hk.
  destruct (segment_cases _ _ _ _ H) as [(-> & ->)|[(NE & L & ->)|(NE & L & cs & Hc & E)]].
  - destruct k; discriminate.
  - change (len [_]) with 1 in HL. lia.
  - assert (len segs = len cs) as EL by (unfold len; rewrite E, make_segments_length; reflexivity).
    destruct (nth_error cs k) as [c|] eqn:Ec.
    2:{ apply nth_error_None in Ec. assert (k < length segs)%nat by (apply nth_error_Some; congruence). unfold len in *; lia. }
    rewrite E in Hk. rewrite (make_segments_nth _ _ _ _ _ _ _ _ Ec) in Hk. injection Hk as <-.
    unfold tpdu_concat_info.
    pose proof (make_segment_fields t cfg (seg_ref cfg) (len cs) k c) as EF. cbv zeta in EF. cbn [Nat.add].
    rewrite EF. cbn [UDH ies]. rewrite concat_info_new by assumption.
    rewrite EL. reflexivity.
Qed.

Lemma segment_concat t msg cfg segs : segment t msg cfg = Ok segs ->
  no_concat (ies (UDH t)) -> 1 < len segs <= 255 ->
  forall k s, nth_error segs k = Some s ->
  tpdu_concat_info s =
  Some (len segs, Z.of_nat k + 1,
        match sc_cr cfg with Some f => f 0%nat | None => 1 end
          mod (if sc_wide cfg then 65536 else 256)).
Proof.
  intros H HN HL k s Hk. rewrite (segment_concat_wraps _ _ _ _ H HN ltac:(lia) k s Hk).
  assert (Z.of_nat k < len segs) by (unfold len; apply inj_lt, nth_error_Some; congruence).
  now rewrite !Z.mod_small by lia.
Qed.

Lemma complete_loop_ok n r : forall segs i,
  (forall k s, nth_error segs k = Some s -> tpdu_concat_info s = Some (n, i + Z.of_nat k + 1, r)) ->
  complete_loop segs n r i = true.
Proof.
  induction segs as [|s segs IH]; intros i H; [reflexivity|]. cbn [complete_loop].
  rewrite (H 0%nat s eq_refl). rewrite !Z.eqb_refl. cbn [negb].
  replace (i + Z.of_nat 0 + 1 =? i + 1) with true by lia. cbn [negb].
  apply IH. intros k s' Hk. rewrite (H (S k) s' Hk). do 3 f_equal. lia.
Qed.

Lemma segment_complete t msg cfg segs : segment t msg cfg = Ok segs ->
  no_concat (ies (UDH t)) -> msg <> [] -> len segs <= 255 -> is_complete_message segs = true.
Proof.
  intros H HN NE HL. destruct (Z.le_gt_cases (len segs) 1) as [L1|L1].
  - destruct (segment_cases _ _ _ _ H) as [(-> & ->)|[(_ & L & ->)|(_ & L & cs & Hc & E)]].
    + contradiction.
    + cbn [is_complete_message].
      assert (tpdu_concat_info (with_mr (sc_mr cfg) 0 (set_UDf t msg)) = None) as ->; [|reflexivity].
      unfold tpdu_concat_info.
      assert (UDH (with_mr (sc_mr cfg) 0 (set_UDf t msg)) = UDH t) as ->
        by (destruct (sc_mr cfg), t; reflexivity).
      unfold no_concat in HN. rewrite Forall_forall in HN.
      unfold concat_info, concat_info8, concat_info16. destruct (ies (UDH t)); [reflexivity|].
      rewrite !find_ie_none; [reflexivity| |]; intros i' HI; apply HN in HI; tauto.
    + exfalso. assert (length segs <= 1)%nat as LL by (unfold len in L1; lia).
      apply (segment_lossless _ _ _ _ H) in LL as [LL|LL]; [lia|contradiction].
  - pose proof (segment_concat _ _ _ _ H HN ltac:(lia)) as HS.
    destruct segs as [|s segs']; [change (len (@nil tpdu)) with 0 in *; lia|].
    unfold is_complete_message. rewrite (HS 0%nat s eq_refl).
    rewrite Z.eqb_refl. cbn [negb]. apply complete_loop_ok.
    intros k s' Hk. rewrite (HS k s' Hk). do 3 f_equal.
Qed.

Lemma segment_complete_iff t msg cfg segs : segment t msg cfg = Ok segs ->
  no_concat (ies (UDH t)) -> msg <> [] -> is_complete_message segs = (len segs <=? 255).
Proof.
  intros H HN NE. destruct (Z.leb_spec (len segs) 255) as [L|L]; [now apply (segment_complete t msg cfg)|].
  pose proof (segment_concat_wraps _ _ _ _ H HN ltac:(lia)) as HS.
  destruct segs as [|s segs']; [reflexivity|].
  unfold is_complete_message. rewrite (HS 0%nat s eq_refl).
  replace (len (s :: segs') mod 256 =? len (s :: segs')) with false; [reflexivity|].
  symmetry. apply Z.eqb_neq. pose proof (Z.mod_pos_bound (len (s :: segs')) 256 ltac:(lia)). lia.
Qed.

(** ** C17 *)

Lemma segment_inherits t msg cfg segs : segment t msg cfg = Ok segs ->
  forall k s, nth_error segs k = Some s ->
  inherits t cfg
    (if (len msg <=? ud_block_size t)
     then None
     else Some (match sc_cr cfg with Some f => f 0%nat | None => 1 end, len segs)) k s.
Proof.
  intros H k s Hk.
  destruct (segment_cases _ _ _ _ H) as [(-> & ->)|[(NE & L & ->)|(NE & L & cs & Hc & E)]].
  - destruct k; discriminate.
  - destruct k; [|destruct k; discriminate]. injection Hk as <-.
    btrue (len msg <=? ud_block_size t). unfold inherits.
    dtpdu t; destruct cfg as [w cr [mr|]]; cbn; unfold to_byte; repeat split; reflexivity.
  - bfalse (len msg <=? ud_block_size t).
    assert (len segs = len cs) as EL by (unfold len; rewrite E, make_segments_length; reflexivity).
    assert (Z.of_nat k < len segs) as Hlt.
    { unfold len. apply inj_lt, nth_error_Some. congruence. }
    destruct (nth_error cs k) as [c|] eqn:Ec; [|apply nth_error_None in Ec; unfold len in *; lia].
    rewrite E in Hk. rewrite (make_segments_nth _ _ _ _ _ _ _ _ Ec) in Hk. injection Hk as <-.
    pose proof (make_segment_fields t cfg (seg_ref cfg) (len cs) k c) as EF. cbv zeta in EF. cbn [Nat.add].
    rewrite EF, EL. unfold inherits, seg_ref.
    cbn [Direction OA FCS CT MN DA RA SCTS DT ST PID DCS VP MR FO PI UDH].
    repeat (split; [reflexivity|]). eexists; split; [reflexivity|].
    destruct (sc_wide cfg); cbn [new_ie new_ie16 new_ie8 ie_id ie_data]; unfold to_byte;
      (split; [reflexivity|]); [|reflexivity].
    f_equal. set (r := match sc_cr cfg with Some f => f 0%nat | None => 1 end). lia.
Qed.

(** ** C18 *)
Lemma ie_marshal_len i : len (ie_marshal i) = ie_len i.
Proof. unfold ie_marshal, ie_len. rewrite !len_cons. lia. Qed.
Lemma ies_marshal_len l : len (flat_map ie_marshal l) = udhl l.
Proof.
  induction l; [reflexivity|]. cbn [flat_map udhl]. rewrite len_app, ie_marshal_len. lia.
Qed.
Lemma udh_marshal_len l : len (udh_marshal l) = if udhl l =? 0 then 0 else udhl l + 1.
Proof.
  unfold udh_marshal. destruct l as [|i l].
  - reflexivity.
  - pose proof (udhl_nonneg l). replace (len (i :: l) =? 0) with false
      by (rewrite len_cons; pose proof (len_nonneg l); lia).
    rewrite len_cons, ies_marshal_len.
    replace (udhl (i :: l) =? 0) with false; [lia|].
    cbn [udhl]. unfold ie_len. pose proof (len_nonneg (ie_data i)). lia.
Qed.

Lemma fill_bits_spec n : 0 <= n -> 8 * n + fill_bits n = 7 * cdiv (8 * n) 7 /\ 0 <= fill_bits n < 7.
Proof.
  intros H. unfold fill_bits, cdiv. destruct (n mod 7 =? 0) eqn:E; lia.
Qed.

(** The packed length does not depend on the values packed. *)
Lemma pack_loop_len u : forall r rbits, 0 <= rbits <= 7 ->
  len (pack_loop u r rbits) = (rbits + 7 * len u + 7) / 8.
Proof.
  induction u as [|s u IH]; intros r rbits H; cbn [pack_loop].
  - change (len (@nil Z)) with 0. destruct (rbits =? 0) eqn:E; cbn [negb].
    + change (len (@nil Z)) with 0. lia.
    + change (len [r]) with 1. lia.
  - rewrite len_cons. pose proof (len_nonneg u). destruct (rbits =? 0) eqn:E.
    + rewrite IH by lia. lia.
    + rewrite len_cons, IH by lia. lia.
Qed.
Lemma pack7bit_size u fill : 0 <= fill <= 6 -> u <> [] ->
  len (pack7bit u fill) = (fill + 7 * len u + 7) / 8.
Proof.
  intros H NE. unfold pack7bit. pose proof (len_ne_nil _ NE). bfalse (len u =? 0).
  apply pack_loop_len. lia.
Qed.

(** The size of the encoded user data and its length octet. *)
Definition ud_septets (t : tpdu) : Z := cdiv (8 * len (udh_marshal (ies (UDH t)))) 7 + len (UD t).

Lemma encode_ud_size t alpha : tpdu_alphabet t = Ok alpha ->
  (alpha = AlphaUCS2 -> len (UD t) mod 2 = 0) ->
  exists udl body, encode_ud t = Ok (udl :: body) /\
  if alpha =? Alpha7Bit
  then (UD t <> [] -> udl = ud_septets t mod 256 /\ len body = cdiv (7 * ud_septets t) 8) /\
       (UD t = [] -> len body = len (udh_marshal (ies (UDH t))))
  else len body = len (udh_marshal (ies (UDH t))) + len (UD t) /\ udl = len body mod 256.
Proof.
  intros HA HE. unfold encode_ud. rewrite HA. cbn [on_err bind].
  set (h := udh_marshal (ies (UDH t))). pose proof (len_nonneg h) as Hh. pose proof (len_nonneg (UD t)) as Hu.
  destruct (alpha =? Alpha7Bit) eqn:E7.
  - eexists _, _. split; [reflexivity|]. split.
    + intros NE. pose proof (len_ne_nil _ NE). btrue (0 <? len (UD t)).
      destruct (fill_bits_spec (len h) Hh) as [Hf Hr]. unfold ud_septets. fold h.
      split.
      * unfold to_byte. f_equal. replace (len h * 8) with (8 * len h) by lia. rewrite Hf.
        replace (7 * cdiv (8 * len h) 7) with (cdiv (8 * len h) 7 * 7) by lia.
        rewrite Z.div_mul by lia. lia.
      * rewrite len_app, pack7bit_size by (assumption || lia).
        unfold cdiv at 1. lia.
    + intros ->. rewrite len_app. change (len (pack7bit [] (fill_bits (len h)))) with 0. lia.
  - destruct (alpha =? AlphaUCS2) eqn:EU.
    + assert (Z.land (len (UD t)) 1 =? 1 = false) as ->.
      { rewrite (Z.land_ones _ 1) by lia. apply Z.eqb_neq. change (2 ^ 1) with 2. specialize (HE ltac:(lia)). lia. }
      cbn [andb]. eexists _, _. split; [reflexivity|]. rewrite len_app. unfold to_byte.
      split; [lia|f_equal; lia].
    + cbn [andb]. eexists _, _. split; [reflexivity|]. rewrite len_app. unfold to_byte.
      split; [lia|f_equal; lia].
Qed.


Lemma block_size_140 t : submit_or_deliver t ->
  let h := len (udh_marshal (ies (UDH t))) in
  ud_block_size t =
    if dcs_alpha (DCS t) =? Alpha7Bit then 160 - cdiv (8 * h) 7
    else if dcs_alpha (DCS t) =? AlphaUCS2 then 2 * ((140 - h) / 2) else 140 - h.
Proof.
  intros H h. unfold h. rewrite udh_marshal_len, ud_block_size_eq. unfold block_size.
  pose proof (udhl_nonneg (ies (UDH t))) as Hn. set (hl := udhl (ies (UDH t))) in *. clearbody hl.
  replace ((tpdu_type t =? SmsSubmit) || (tpdu_type t =? SmsDeliver)) with true
    by (destruct H as [-> | ->]; reflexivity).
  unfold cdiv.
  destruct (dcs_alpha (DCS t) =? Alpha7Bit).
  - destruct (hl =? 0) eqn:E; [reflexivity|]. change (Z.quot (140 * 8) 7) with 160.
    rewrite Z.quot_div_nonneg by lia. lia.
  - destruct (0 <? hl) eqn:E.
    + bfalse (hl =? 0). destruct (dcs_alpha (DCS t) =? AlphaUCS2); lia.
    + btrue (hl =? 0). destruct (dcs_alpha (DCS t) =? AlphaUCS2); reflexivity.
Qed.

Lemma tpdu_alphabet_ok t alpha : tpdu_alphabet t = Ok alpha -> dcs_alpha (DCS t) = alpha.
Proof.
  unfold tpdu_alphabet, dcs_alphabet. destruct (snd _); [discriminate|]. congruence.
Qed.

(** User data within the block size marshals to at most 140 octets, with an
    exact length octet. *)
Lemma encode_ud_fits t alpha : submit_or_deliver t -> tpdu_alphabet t = Ok alpha ->
  (alpha = AlphaUCS2 -> len (UD t) mod 2 = 0) -> UD t <> [] -> len (UD t) <= ud_block_size t ->
  exists udl body, encode_ud t = Ok (udl :: body) /\ len body <= 140 /\
  (if alpha =? Alpha7Bit
   then udl = cdiv (8 * len (udh_marshal (ies (UDH t)))) 7 + len (UD t) /\ len body = cdiv (7 * udl) 8
   else udl = len (udh_marshal (ies (UDH t))) + len (UD t) /\ len body = udl).
Proof.
  intros HT HA HE NE HL. destruct (encode_ud_size t alpha HA HE) as (udl & body & E & HS).
  exists udl, body. split; [exact E|]. apply tpdu_alphabet_ok in HA.
  pose proof (block_size_140 t HT) as HB. cbv zeta in HB. rewrite HA in HB.
  pose proof (len_nonneg (udh_marshal (ies (UDH t)))). pose proof (len_nonneg (UD t)).
  pose proof (len_ne_nil _ NE).
  destruct (alpha =? Alpha7Bit) eqn:E7.
  - destruct HS as [HS _]. destruct (HS NE) as [HS1' HS2']. unfold ud_septets in *.
    rewrite Z.mod_small in HS1' by (unfold cdiv in *; lia).
    split; [unfold cdiv in *; lia|]. split; [exact HS1'|]. now rewrite HS1'.
  - destruct HS as [HS1' HS2']. destruct (alpha =? AlphaUCS2); lia.
Qed.

(** Anything larger does not fit. *)
Lemma encode_ud_overflows t alpha udl body : submit_or_deliver t -> tpdu_alphabet t = Ok alpha ->
  (alpha = AlphaUCS2 -> len (UD t) mod 2 = 0) -> ud_block_size t < len (UD t) ->
  encode_ud t = Ok (udl :: body) -> 140 < len body.
Proof.
  intros HT HA HE HL Henc. destruct (encode_ud_size t alpha HA HE) as (udl' & body' & E & HS).
  rewrite E in Henc. injection Henc as -> ->. specialize (HE). pose proof (tpdu_alphabet_ok _ _ HA) as HA'.
  pose proof (block_size_140 t HT) as HB. cbv zeta in HB. rewrite HA' in HB.
  pose proof (len_nonneg (udh_marshal (ies (UDH t)))). pose proof (len_nonneg (UD t)).
  destruct (alpha =? Alpha7Bit) eqn:E7.
  - destruct HS as [HS1 HS2]. unfold ud_septets in *.
    destruct (UD t) as [|x u] eqn:EU.
    + rewrite (HS2 eq_refl). change (len (@nil Z)) with 0 in *. unfold cdiv in *. lia.
    + destruct HS1 as [_ HS2']; [discriminate|]. unfold cdiv in *. lia.
  - destruct HS as [HS1' _]. destruct (alpha =? AlphaUCS2) eqn:EU; [|lia].
    specialize (HE ltac:(lia)). lia.
Qed.

Lemma unit_even us : Forall (fun u : list Z => len u mod 2 = 0) us -> len (concat us) mod 2 = 0.
Proof.
  induction 1; [reflexivity|]. cbn [concat]. rewrite len_app. lia.
Qed.

(** For UCS-2 all the chunks of an even message are even. *)
Lemma gloop_even msg bs : bs mod 2 = 0 -> len msg mod 2 = 0 ->
  forall fuel a cs, 0 <= a -> a mod 2 = 0 -> gloop adjU fuel msg bs a (a + bs) = Ok cs ->
  Forall (fun c => len c mod 2 = 0) cs.
Proof.
  intros Hb Hm. induction fuel; intros a cs Ha0 Ha H; cbn [gloop] in H; [discriminate|].
  destruct (a + bs <? len msg) eqn:E.
  - apply bind_ok in H as (b & Hb' & H). apply bind_ok in H as (c & Hc & H).
    apply bind_ok in H as (rest & Hr & H). injection H as <-.
    assert (b mod 2 = 0) as Hbe.
    { apply bind_ok in Hb' as (w & _ & Hb'). apply bind_ok in Hb' as (x & _ & Hb').
      apply bind_ok in Hb' as (y & _ & Hb'). injection Hb' as <-. destruct (_ && _); lia. }
    pose proof (slice_len _ _ _ _ Hc). apply slice_inv in Hc.
    constructor; [lia|]. eapply IHfuel; [| |exact Hr]; lia.
  - apply bind_ok in H as (c & Hc & H). injection H as <-.
    apply slice_from_inv in Hc as (_ & _ & E2). constructor; [lia|constructor].
Qed.

Lemma segment_even t msg cfg segs : segment t msg cfg = Ok segs ->
  dcs_alpha (DCS t) = AlphaUCS2 -> len msg mod 2 = 0 ->
  forall s, In s segs -> len (UD s) mod 2 = 0.
Proof.
  intros H HA HM s Hs.
  destruct (segment_cases _ _ _ _ H) as [(-> & ->)|[(NE & L & ->)|(NE & L & cs & Hc & ->)]].
  - destruct Hs.
  - destruct Hs as [<-|[]]. now rewrite with_mr_UD, set_UDf_UD.
  - rewrite chunk_gloop in Hc by (now apply len_ne_nil).
    apply bind_ok in Hc as (_ & _ & Hc). rewrite HA in Hc.
    change (adj_of AlphaUCS2) with adjU in Hc. unfold bs_of in Hc.
    change (AlphaUCS2 =? AlphaUCS2) with true in Hc. cbv iota in Hc.
    apply gloop_even in Hc; [|lia|lia|lia|lia].
    rewrite Forall_forall in Hc. apply Hc.
    rewrite <- (make_segments_UD (multi_template t (sc_wide cfg)) cfg (seg_ref cfg) (len cs) cs 0%nat).
    now apply in_map.
Qed.

Lemma segment_fits t msg cfg segs alpha : segment t msg cfg = Ok segs ->
  submit_or_deliver t -> tpdu_alphabet t = Ok alpha ->
  (alpha = AlphaUCS2 -> len msg mod 2 = 0) ->
  forall s, In s segs -> exists udl body, encode_ud s = Ok (udl :: body) /\ len body <= 140 /\
  (if alpha =? Alpha7Bit
   then udl = cdiv (8 * len (udh_marshal (ies (UDH s)))) 7 + len (UD s) /\ len body = cdiv (7 * udl) 8
   else udl = len (udh_marshal (ies (UDH s))) + len (UD s) /\ len body = udl).
Proof.
  intros H HT HA HE s Hs. pose proof (tpdu_alphabet_ok _ _ HA) as HA'.
  assert (HD : DCS s = DCS t /\ tpdu_type s = tpdu_type t).
  { destruct (segment_cases _ _ _ _ H) as [(-> & ->)|[(NE & L & ->)|(NE & L & cs & Hc & ->)]].
    - destruct Hs.
    - destruct Hs as [<-|[]]. destruct (sc_mr cfg), t; split; reflexivity.
    - apply make_segments_In in Hs as (k & c & Hk & ->).
      pose proof (make_segment_fields t cfg (seg_ref cfg) (len cs) (0 + k) c) as EF. cbv zeta in EF.
      rewrite EF. unfold tpdu_type. cbn [DCS FO Direction]. unfold fo_mti.
      rewrite fo_mti_or. auto. }
  destruct HD as [HD1 HD2].
  destruct (segment_lossless _ _ _ _ H) as (_ & HL & _). destruct (HL s Hs) as [NE Hb].
  apply encode_ud_fits; auto.
  - unfold submit_or_deliver. now rewrite HD2.
  - unfold tpdu_alphabet. now rewrite HD1.
  - intros ->. eapply segment_even; eauto.
Qed.
