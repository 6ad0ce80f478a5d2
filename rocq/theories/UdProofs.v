(** Proofs about user data headers and the user data field. *)
From Verif Require Import GoBase GoLemmas SafeLemmas SevenBit SevenBitProofs SpecSegment Dcs FirstOctet
  TpduError UserData Tpdu SpecTpdu SegmentProofs SegmentFitProofs.

(** ** Headers *)

Lemma elements_marshal l : Forall ie_fits l -> flat_map ie_marshal l = elements l.
Proof.
  induction 1 as [|i l (_ & _ & H) _ IH]; [reflexivity|]. cbn [flat_map elements].
  rewrite IH. unfold ie_marshal.
  rewrite to_byte_id by (pose proof (len_nonneg (ie_data i)); lia). reflexivity.
Qed.
Lemma elements_len l : len (elements l) = udhl l.
Proof.
  induction l; [reflexivity|]. cbn [elements udhl]. unfold ie_len. rewrite !len_cons, len_app. lia.
Qed.
Lemma udh_marshal_ok l : header_fits l -> udh_marshal l = header_octets l.
Proof.
  intros (NE & H & L). unfold udh_marshal, header_octets.
  pose proof (len_ne_nil _ NE). bfalse (len l =? 0).
  rewrite elements_marshal by assumption. rewrite elements_len in *.
  rewrite to_byte_id; [reflexivity|]. pose proof (udhl_nonneg l). lia.
Qed.
Lemma elements_bytes l : Forall ie_fits l -> Forall is_byte (elements l).
Proof.
  induction 1 as [|i l (H1 & H2 & H3) _ IH]; [constructor|]. cbn [elements].
  constructor; [assumption|]. constructor.
  - unfold is_byte. pose proof (len_nonneg (ie_data i)). lia.
  - now apply Forall_app.
Qed.
Lemma header_bytes l : header_fits l -> Forall is_byte (header_octets l).
Proof.
  intros (_ & H & L). constructor; [|now apply elements_bytes].
  unfold is_byte. pose proof (len_nonneg (elements l)). lia.
Qed.

Lemma udh_loop_ok l : Forall ie_fits l -> forall fuel pre rest,
  (length l <= fuel)%nat ->
  udh_loop fuel (pre ++ elements l ++ rest) (len pre + len (elements l)) (len pre) = Ok l.
Proof.
  induction 1 as [|i l (H1 & H2 & H3) _ IH]; intros fuel pre rest Hf.
  - change (len (elements [])) with 0. destruct fuel; cbn [udh_loop];
      replace (len pre <? len pre + 0) with false by lia; reflexivity.
  - destruct fuel as [|fuel]; [cbn [length] in Hf; lia|]. cbn [length] in Hf.
    cbn [udh_loop elements app]. rewrite !len_cons, len_app.
    pose proof (len_nonneg (elements l)). pose proof (len_nonneg (ie_data i)).
    pose proof (len_nonneg pre). pose proof (len_nonneg rest).
    replace (len pre <? len pre + (1 + (1 + (len (ie_data i) + len (elements l))))) with true by lia.
    cbn [negb].
    replace (len pre + (1 + (1 + (len (ie_data i) + len (elements l)))) <? len pre + 2)
      with false by lia.
    rewrite idx_app_mid. cbn [bind].
    replace (len pre + 1) with (len (pre ++ [ie_id i])) by (rewrite len_app; reflexivity).
    replace (pre ++ ie_id i :: len (ie_data i) :: (ie_data i ++ elements l) ++ rest)
      with ((pre ++ [ie_id i]) ++ len (ie_data i) :: (ie_data i ++ elements l) ++ rest)
      by now rewrite <- app_assoc.
    rewrite idx_app_mid. cbn [bind].
    set (pre2 := (pre ++ [ie_id i]) ++ [len (ie_data i)]).
    replace (len (pre ++ [ie_id i]) + 1) with (len pre2)
      by (unfold pre2; rewrite !len_app; reflexivity).
    replace ((pre ++ [ie_id i]) ++ len (ie_data i) :: (ie_data i ++ elements l) ++ rest)
      with (pre2 ++ ie_data i ++ elements l ++ rest)
      by (unfold pre2; now rewrite <- !app_assoc).
    replace (len (pre2 ++ ie_data i ++ elements l ++ rest) <? len pre2 + len (ie_data i))
      with false by (rewrite !len_app; lia).
    rewrite slice_app by reflexivity. cbn [bind].
    specialize (IH fuel (pre2 ++ ie_data i) rest ltac:(lia)).
    rewrite len_app, <- app_assoc in IH.
    replace (len pre + (1 + (1 + (len (ie_data i) + len (elements l)))))
      with (len pre2 + len (ie_data i) + len (elements l))
      by (unfold pre2; rewrite !len_app; change (len [ie_id i]) with 1;
          change (len [len (ie_data i)]) with 1; lia).
    rewrite IH. cbn [bind]. destruct i; reflexivity.
Qed.

Lemma elements_length l : (length l <= length (elements l))%nat.
Proof. induction l; cbn [elements length]; [lia|]. rewrite app_length. lia. Qed.

Lemma udh_roundtrip l rest : header_fits l ->
  udh_unmarshal (header_octets l ++ rest) = Ok (Some l, len (header_octets l)).
Proof.
  intros (NE & H & L). unfold udh_unmarshal, header_octets. cbn [app].
  rewrite !len_cons, len_app. pose proof (len_nonneg (elements l)). pose proof (len_nonneg rest).
  replace (1 + (len (elements l) + len rest) <? 1) with false by lia.
  rewrite idx_0. cbn [bind].
  replace (1 + (len (elements l) + len rest) <? len (elements l) + 1) with false by lia.
  pose proof (udh_loop_ok l H (length (len (elements l) :: elements l ++ rest))
    [len (elements l)] rest) as E.
  change (len [len (elements l)]) with 1 in E. cbn [app] in E.
  replace (len (elements l) + 1) with (1 + len (elements l)) by lia.
  rewrite E.
  - cbn [bind]. destruct l; [congruence|]. reflexivity.
  - cbn [length]. rewrite app_length. pose proof (elements_length l). lia.
Qed.

Lemma udh_empty rest : udh_unmarshal (0 :: rest) = Ok (None, 1).
Proof.
  unfold udh_unmarshal. rewrite len_cons. pose proof (len_nonneg rest).
  replace (1 + len rest <? 1) with false by lia. rewrite idx_0. cbn [bind].
  change (0 + 1) with 1. replace (1 + len rest <? 1) with false by lia.
  cbn [length udh_loop]. reflexivity.
Qed.

Lemma udh_loop_safe src lim : Forall is_byte src -> lim <= len src ->
  forall fuel ri, 0 <= ri -> lim - ri <= Z.of_nat fuel ->
  safe_located (len src) (udh_loop fuel src lim ri).
Proof.
  intros HB HL. induction fuel as [|fuel IH]; intros ri H0 Hf; cbn [udh_loop].
  - replace (ri <? lim) with false by lia. exact I.
  - destruct (ri <? lim) eqn:E; cbn [negb]; [|exact I].
    destruct (lim <? ri + 2) eqn:E2.
    { cbn [safe_located]. apply new_decode_error_located with (n := 0); cbn [err_within]; try exact I; lia. }
    destruct (idx_ok src ri ltac:(lia)) as (id & -> & _). cbn [bind].
    destruct (idx_ok src (ri + 1) ltac:(lia)) as (n & En & Hn). rewrite En. cbn [bind].
    rewrite Forall_forall in HB. pose proof (HB n Hn) as Bn. unfold is_byte in Bn.
    destruct (len src <? ri + 1 + 1 + n) eqn:E3.
    { cbn [safe_located]. apply new_decode_error_located with (n := 0); cbn [err_within]; try exact I; lia. }
    rewrite slice_ok by lia. cbn [bind].
    apply bind_safe_located; [apply IH; lia|]. intros; exact I.
Qed.
Lemma udh_unmarshal_safe src : Forall is_byte src ->
  safe_located (len src) (udh_unmarshal src).
Proof.
  intros HB. unfold udh_unmarshal. pose proof (len_nonneg src).
  destruct (len src <? 1) eqn:E.
  { cbn [safe_located]. apply new_decode_error_located with (n := 0); cbn [err_within]; try exact I; lia. }
  destruct (idx_ok src 0 ltac:(lia)) as (b & -> & Hb). cbn [bind].
  destruct (len src <? b + 1) eqn:E2.
  { cbn [safe_located]. apply new_decode_error_located with (n := 0); cbn [err_within]; try exact I; lia. }
  apply bind_safe_located.
  - apply udh_loop_safe; try assumption; try lia. unfold len in *. lia.
  - intros; exact I.
Qed.

Lemma skipn_cons_idx {A} (l : list A) i x : idx l i = Ok x ->
  skipn (Z.to_nat i) l = x :: skipn (Z.to_nat (i + 1)) l.
Proof.
  intros H. pose proof (idx_range _ _ _ H) as R. unfold idx in H.
  replace (i <? 0) with false in H by lia.
  destruct (nth_error l (Z.to_nat i)) eqn:E; [|discriminate]. apply ok_inj in H. subst a.
  replace (Z.to_nat (i + 1)) with (S (Z.to_nat i)) by lia.
  clear R. revert l E. induction (Z.to_nat i) as [|n IH]; intros [|y l] E; try discriminate.
  - cbn in E. injection E as ->. reflexivity.
  - cbn [skipn]. apply IH. exact E.
Qed.

Lemma udh_loop_inv src lim : Forall is_byte src ->
  forall fuel ri l, 0 <= ri -> udh_loop fuel src lim ri = Ok l ->
  Forall ie_fits l /\
  (exists tail, skipn (Z.to_nat ri) src = elements l ++ tail) /\
  lim <= ri + len (elements l) /\
  (l <> [] -> ri + len (elements (removelast l)) + 2 <= lim).
Proof.
  intros HB. induction fuel as [|fuel IH]; intros ri l H0 H; cbn [udh_loop] in H.
  - destruct (ri <? lim) eqn:E; cbn [negb] in H; [discriminate|]. apply ok_inj in H. subst l.
    split; [constructor|]. split; [exists (skipn (Z.to_nat ri) src); reflexivity|].
    change (len (elements [])) with 0. split; [lia|congruence].
  - destruct (ri <? lim) eqn:E; cbn [negb] in H.
    2:{ apply ok_inj in H. subst l.
        split; [constructor|]. split; [exists (skipn (Z.to_nat ri) src); reflexivity|].
        change (len (elements [])) with 0. split; [lia|congruence]. }
    destruct (lim <? ri + 2) eqn:E2; [discriminate|].
    apply bind_ok in H as (id & Hid & H). apply bind_ok in H as (n & Hn & H).
    cbv beta zeta in H.
    destruct (len src <? ri + 1 + 1 + n) eqn:E3; [discriminate|].
    apply bind_ok in H as (d & Hd & H). apply bind_ok in H as (r & Hr & H).
    apply ok_inj in H. subst l.
    pose proof (idx_byte _ _ _ HB Hid) as Bid. pose proof (idx_byte _ _ _ HB Hn) as Bn.
    unfold is_byte in Bn.
    pose proof (slice_bytes _ _ _ _ HB Hd) as Bd.
    pose proof (slice_len _ _ _ _ Hd) as Ld.
    apply IH in Hr as (F & (tail & T) & L & R); [|lia].
    split; [constructor; [|assumption]; unfold ie_fits; cbn [ie_id ie_data]; split; [assumption|split; [assumption|lia]]|].
    split.
    { exists tail. rewrite (skipn_cons_idx _ _ _ Hid), (skipn_cons_idx _ _ _ Hn).
      apply slice_inv in Hd as (_ & _ & Hd). cbn [elements ie_id ie_data app].
      replace (len d) with n by lia. do 2 f_equal. rewrite <- app_assoc, <- T, Hd.
      replace (Z.to_nat (ri + 1 + 1 + n)) with (Z.to_nat n + Z.to_nat (ri + 1 + 1))%nat by lia.
      replace (ri + 1 + 1 + n - (ri + 1 + 1)) with n by lia.
      assert (Ha : forall (l : bytes) a b, skipn (a + b) l = skipn a (skipn b l)).
      { intros q a b. revert q. induction b as [|b IHb]; intros q.
        - rewrite Nat.add_0_r. reflexivity.
        - rewrite Nat.add_succ_r. destruct q; [now rewrite !skipn_nil|]. cbn [skipn]. apply IHb. }
      rewrite Ha. symmetry. apply firstn_skipn. }
    cbn [elements ie_data]. rewrite !len_cons, len_app.
    split; [lia|]. intros _.
    destruct r as [|j r].
    + cbn [removelast elements]. change (len (@nil Z)) with 0. lia.
    + change (removelast ({| ie_id := id; ie_data := d |} :: j :: r))
        with ({| ie_id := id; ie_data := d |} :: removelast (j :: r)).
      cbn [elements ie_data]. rewrite !len_cons, len_app.
      specialize (R ltac:(discriminate)). lia.
Qed.

Lemma udh_accepted src h n : Forall is_byte src -> udh_unmarshal src = Ok (h, n) ->
  1 <= n <= len src /\
  (exists tail, src = n - 1 :: elements (ies h) ++ tail) /\
  Forall ie_fits (ies h) /\ n - 1 <= len (elements (ies h)) /\
  match h with
  | Some l => l <> [] /\ len (elements (removelast l)) + 2 <= n - 1
  | None => n = 1
  end.
Proof.
  intros HB H. unfold udh_unmarshal in H. destruct (len src <? 1) eqn:E; [discriminate|].
  apply bind_ok in H as (b & Hb & H). cbv zeta in H.
  destruct (len src <? b + 1) eqn:E2; [discriminate|].
  apply bind_ok in H as (l & Hl & H). apply ok_pair in H as (Hh & <-).
  pose proof (idx_byte _ _ _ HB Hb) as Bb. unfold is_byte in Bb.
  apply udh_loop_inv in Hl as (F & (tail & T) & L & R); try assumption; [|lia].
  split; [lia|]. replace (b + 1 - 1) with b by lia.
  assert (EI : ies h = l) by (rewrite <- Hh; now destruct l).
  rewrite EI. split.
  { exists tail. rewrite <- T. pose proof (skipn_cons_idx _ _ _ Hb) as S.
    change (Z.to_nat 0) with 0%nat in S. exact S. }
  split; [assumption|]. split; [lia|].
  rewrite <- Hh. destruct l.
  - change (len (elements [])) with 0 in L. lia.
  - split; [discriminate|]. specialize (R ltac:(discriminate)). lia.
Qed.

Lemma udh_unmarshal_local src ext h n :
  Forall is_byte src -> udh_unmarshal src = Ok (h, n) -> udh_unmarshal (src ++ ext) = Ok (h, n).
Proof.
  intros HB H. unfold udh_unmarshal in *. pose proof (len_nonneg ext). rewrite len_app.
  destruct (len src <? 1) eqn:E; [discriminate|].
  replace (len src + len ext <? 1) with false by lia.
  rewrite idx_app_l by lia. destruct (idx src 0) as [b| | |] eqn:Eb; try discriminate.
  cbn [bind] in *. destruct (len src <? b + 1) eqn:E2; [discriminate|].
  replace (len src + len ext <? b + 1) with false by lia.
  apply bind_ok in H as (l & Hl & H).
  assert (HG : forall lim fuel fuel' ri l, lim <= len src -> 0 <= ri -> (fuel <= fuel')%nat ->
            udh_loop fuel src lim ri = Ok l -> udh_loop fuel' (src ++ ext) lim ri = Ok l).
  { clear - HB. pose proof (len_nonneg ext). intros lim. induction fuel as [|fuel IH];
      intros fuel' ri l HL H0 Hf HE; cbn [udh_loop] in HE.
    - destruct (ri <? lim) eqn:E; [discriminate|]. destruct fuel'; cbn [udh_loop]; now rewrite E.
    - destruct fuel' as [|fuel']; [lia|]. cbn [udh_loop].
      destruct (ri <? lim) eqn:E; cbn [negb] in *; [|exact HE].
      destruct (lim <? ri + 2) eqn:E2; [discriminate|].
      rewrite idx_app_l by lia. apply bind_ok in HE as (id & Hid & HE). rewrite Hid. cbn [bind].
      rewrite idx_app_l by lia. apply bind_ok in HE as (n & Hn & HE). rewrite Hn. cbn [bind].
      pose proof (idx_byte _ _ _ HB Hn) as Bn. unfold is_byte in Bn.
      cbv zeta in HE. rewrite len_app. destruct (len src <? ri + 1 + 1 + n) eqn:E3; [discriminate|].
      replace (len src + len ext <? ri + 1 + 1 + n) with false by lia.
      apply bind_ok in HE as (d & Hd & HE). rewrite slice_app_l by lia. rewrite Hd. cbn [bind].
      apply bind_ok in HE as (r & Hr & HE). rewrite (IH fuel' _ r HL); try lia; assumption. }
  rewrite (HG (b + 1) (length src) (length (src ++ ext)) 1 l); try lia; try assumption.
  rewrite app_length. lia.
Qed.

(** ** The user data field *)

Lemma header_size_marshal u : match u with Some l => header_fits l | None => True end ->
  len (udh_marshal (ies u)) = header_size u /\ Forall is_byte (udh_marshal (ies u)).
Proof.
  destruct u as [l|]; cbn [ies header_size].
  - intros H. rewrite udh_marshal_ok by assumption. split; [reflexivity|now apply header_bytes].
  - intros _. split; [reflexivity|constructor].
Qed.
Lemma header_size_pos u : u <> None -> 1 <= header_size u.
Proof.
  destruct u as [l|]; [|congruence]. intros _. cbn [header_size]. unfold header_octets.
  rewrite len_cons. pose proof (len_nonneg (elements l)). lia.
Qed.
Lemma header_size_nonneg u : 0 <= header_size u.
Proof. destruct u; cbn [header_size]; [apply len_nonneg|lia]. Qed.
Lemma header_size_0 u : header_size u = 0 -> u = None.
Proof.
  destruct u; [|reflexivity]. intros H. pose proof (header_size_pos (Some l) ltac:(discriminate)). lia.
Qed.

Lemma header_parse u fo pre rest ri :
  match u with Some l => fo_udhi fo = true /\ header_fits l | None => fo_udhi fo = false end ->
  ri = len pre ->
  (if fo_udhi fo then
     s <- slice_from (pre ++ udh_marshal (ies u) ++ rest) ri ;;
     on_err (udh_unmarshal s) (new_decode_error "udh" ri)
   else Ok (None, 0)) = Ok (u, header_size u).
Proof.
  intros H ->. destruct u as [l|].
  - destruct H as (-> & HF). rewrite slice_from_app by reflexivity. cbn [bind ies].
    rewrite udh_marshal_ok by assumption. rewrite udh_roundtrip by assumption. reflexivity.
  - rewrite H. reflexivity.
Qed.

Lemma set_same_ud t0 : UD t0 = [] -> set_UDf t0 [] = t0.
Proof. dtpdu t0. cbn. congruence. Qed.
Lemma set_same_udh t0 u : UDH t0 = u -> set_UDHf t0 u = t0.
Proof. dtpdu t0. cbn. congruence. Qed.
Lemma set_UDf_UDH t0 u : UDH (set_UDf t0 u) = UDH t0.
Proof. now dtpdu t0. Qed.

Lemma udh_wf_fits t : ud_wf t ->
  match UDH t with Some l => header_fits l | None => True end.
Proof. intros (H & _). destruct (UDH t); tauto. Qed.

(** The smallest number of whole octets that hold so many septets holds no
    more. *)
Lemma octets_septets h n : 0 <= h -> 0 < n ->
  let s := cdiv (8 * h) 7 + n in
  (s * 7 + 7) / 8 = h + (fill_bits h + 7 * n + 7) / 8.
Proof.
  intros H0 Hn. destruct (fill_bits_spec h H0) as (E & F). cbn zeta. lia.
Qed.

Lemma decode_7bit_ok u h : Forall is_septet u -> u <> [] -> 0 <= h ->
  decode_7bit (cdiv (8 * h) 7 + len u) h (pack7bit u (fill_bits h)) = Ok u.
Proof.
  intros HU NE H0. unfold decode_7bit. destruct (fill_bits_spec h H0) as (E & F).
  assert (Ef : (if 0 <? h then fill_bits h else 0) = fill_bits h).
  { destruct (0 <? h) eqn:Eh; [reflexivity|]. assert (h = 0) as -> by lia. reflexivity. }
  assert (Es : (if 0 <? h then cdiv (8 * h) 7 + len u - (h * 8 + fill_bits h) / 7
                else cdiv (8 * h) 7 + len u) = len u).
  { destruct (0 <? h) eqn:Eh; [lia|]. assert (h = 0) as -> by lia. change (cdiv (8 * 0) 7) with 0. lia. }
  rewrite Ef, Es. rewrite unpack_pack by (assumption || lia).
  pose proof (len_ne_nil _ NE) as HL. bfalse (len u =? 0). cbn [negb andb].
  destruct ((fill_bits h + 7 * len u) mod 8 =? 1).
  - rewrite len_app. change (len [0]) with 1.
    replace (len u + 1 <? len u) with false by lia. replace (len u <? len u + 1) with true by lia.
    replace (len u + 1 <? len u + 1) with false by lia.
    rewrite idx_app_mid. cbn [bind Z.eqb negb].
    pose proof (slice_app (@nil Z) u [0] 0 (len u) eq_refl eq_refl) as S. exact S.
  - rewrite app_nil_r. replace (len u <? len u) with false by lia. reflexivity.
Qed.

Lemma ud_roundtrip t : ud_wf t ->
  exists b, encode_ud t = Ok b /\ Forall is_byte b /\ 1 <= len b /\
    forall t0, FO t0 = FO t -> DCS t0 = DCS t -> UD t0 = [] -> UDH t0 = None ->
      decode_ud t0 b = Ok (set_UDHf (set_UDf t0 (UD t)) (UDH t)).
Proof.
  intros WF. pose proof (udh_wf_fits t WF) as HF. destruct WF as (HU' & HA).
  assert (HU : match UDH t with Some l => fo_udhi (FO t) = true /\ header_fits l | None => fo_udhi (FO t) = false end \/
    UDH t = None /\ UD t = []) by (destruct (UDH t); tauto). clear HU'. destruct HU as [HU|(EH & EU)].
  2: { destruct (tpdu_alphabet t) as [a|e| |] eqn:EA; [|destruct HA as [(HA & _)|[(HA & _)|(HA & _)]]; discriminate HA..].
       unfold encode_ud. rewrite EA, EH, EU. exists [0]. split.
       { cbn [on_err bind]. destruct (a =? Alpha7Bit); [reflexivity|]. destruct (a =? AlphaUCS2); reflexivity. }
       split; [constructor; [unfold is_byte; lia|constructor]|]. split; [cbn; lia|].
       intros t0 _ ED E1 E2. unfold decode_ud. change (len [0] <? 1) with false. rewrite idx_0. cbn [bind].
       assert (tpdu_alphabet t0 = Ok a) as -> by (rewrite <- EA; unfold tpdu_alphabet; now rewrite ED). cbn [on_err bind].
       rewrite set_same_ud, set_same_udh by assumption. now destruct (a =? Alpha7Bit). }
  destruct (header_size_marshal (UDH t) HF) as (HL & HB).
  pose proof (header_size_nonneg (UDH t)) as H0. pose proof (len_nonneg (UD t)) as L0.
  unfold encode_ud. rewrite HL.
  assert (Halpha : forall t0, DCS t0 = DCS t -> tpdu_alphabet t0 = tpdu_alphabet t)
    by (intros t0; unfold tpdu_alphabet; congruence).
  destruct HA as [(EA & HD & HN)|HA].
  - (* 7-bit *)
    rewrite EA. cbn [on_err bind]. change (Alpha7Bit =? Alpha7Bit) with true. cbv iota.
    destruct (fill_bits_spec _ H0) as (E & F).
    eexists. split; [reflexivity|]. split.
    { constructor; [apply to_byte_range|]. apply Forall_app. split; [assumption|].
      apply pack7bit_byte; [assumption|lia]. }
    split. { rewrite len_cons. pose proof (len_nonneg (udh_marshal (ies (UDH t)) ++
      pack7bit (UD t) (fill_bits (header_size (UDH t))))). lia. }
    intros t0 EFO EDCS EUD EUDH. unfold decode_ud.
    set (h := header_size (UDH t)) in *. set (hb := udh_marshal (ies (UDH t))) in *.
    set (p := pack7bit (UD t) (fill_bits h)). pose proof (len_nonneg p) as P0.
    rewrite len_cons, len_app, HL.
    replace (1 + (h + len p) <? 1) with false by lia. rewrite idx_0. cbn [bind].
    rewrite (Halpha _ EDCS), EA. cbn [on_err bind]. change (Alpha7Bit =? Alpha7Bit) with true. cbv iota.
    assert (UD t = [] \/ UD t <> []) as [Eud|NE] by (destruct (UD t); [left|right]; congruence).
    + (* empty message *)
      unfold p in *. clear p. rewrite Eud in *.
      change (len (@nil Z)) with 0 in *. change (0 <? 0) with false. cbv iota.
      change (pack7bit [] (fill_bits h)) with (@nil Z).
      assert (EB : to_byte (h * 8 / 7) = h * 8 / 7) by (apply to_byte_id; lia). rewrite EB.
      destruct (h * 8 / 7 =? 0) eqn:Ez.
      { assert (h = 0) by lia. assert (UDH t = None) as -> by now apply header_size_0.
        rewrite set_same_ud by assumption. now rewrite set_same_udh. }
      change (len (@nil Z)) with 0. cbv zeta.
      replace (1 + (h + 0) <? 1 + (h * 8 / 7 * 7 + 7) / 8) with false by lia.
      replace (1 + (h * 8 / 7 * 7 + 7) / 8 <? 1 + (h + 0)) with false by lia.
      rewrite EFO. pose proof (header_parse (UDH t) (FO t) [h * 8 / 7] [] 1 HU eq_refl) as HP.
      cbn [app] in HP. fold hb in HP. rewrite HP. cbn [bind]. fold h.
      replace (1 + h =? 1 + (h + 0)) with true by lia. now rewrite set_same_ud.
    + assert (LP : 0 < len (UD t)) by (pose proof (len_ne_nil _ NE); lia).
      replace (0 <? len (UD t)) with true by lia.
      assert (EB : to_byte (len (UD t) + (h * 8 + fill_bits h) / 7) = cdiv (8 * h) 7 + len (UD t)).
      { rewrite to_byte_id by lia. lia. }
      rewrite EB. replace (cdiv (8 * h) 7 + len (UD t) =? 0) with false by lia. cbv zeta.
      pose proof (octets_septets h (len (UD t)) H0 LP) as EO. cbn zeta in EO. rewrite EO.
      assert (LPk : len p = (fill_bits h + 7 * len (UD t) + 7) / 8)
        by (apply pack7bit_len; [assumption|lia|assumption]).
      rewrite <- LPk.
      replace (1 + (h + len p) <? 1 + (h + len p)) with false by lia.
      rewrite EFO.
      pose proof (header_parse (UDH t) (FO t) [cdiv (8 * h) 7 + len (UD t)] p 1 HU eq_refl) as HP.
      cbn [app] in HP. fold hb in HP. rewrite HP. cbn [bind]. fold h.
      replace (1 + h =? 1 + (h + len p)) with false by lia.
      pose proof (slice_from_app (cdiv (8 * h) 7 + len (UD t) :: hb) p (1 + h)
        ltac:(rewrite len_cons; lia)) as SP. cbn [app] in SP. rewrite SP. cbn [bind].
      unfold p. rewrite decode_7bit_ok by assumption. reflexivity.
  - (* 8-bit and UCS-2 *)
    assert (exists alpha, tpdu_alphabet t = Ok alpha /\ (alpha =? Alpha7Bit) = false /\
      ((alpha =? AlphaUCS2) && (Z.land (len (UD t)) 1 =? 1)) = false /\ Forall is_byte (UD t) /\
      header_size (UDH t) + len (UD t) <= 255) as (alpha & EA & E7 & EU & HD & HN).
    { destruct HA as [(EA & HD & HN)|(EA & HD & HE & HN)].
      - exists Alpha8Bit. repeat split; assumption.
      - exists AlphaUCS2. split; [assumption|]. split; [reflexivity|]. split; [|split; assumption].
        change 1 with (Z.ones 1) at 1. rewrite Z.land_ones by lia. change (2 ^ 1) with 2.
        rewrite HE. reflexivity. }
    rewrite EA. cbn [on_err bind]. rewrite E7, EU.
    eexists. split; [reflexivity|]. split.
    { constructor; [apply to_byte_range|]. now apply Forall_app. }
    split. { rewrite len_cons. pose proof (len_nonneg (udh_marshal (ies (UDH t)) ++ UD t)). lia. }
    intros t0 EFO EDCS EUD EUDH. unfold decode_ud.
    set (h := header_size (UDH t)) in *. set (hb := udh_marshal (ies (UDH t))) in *.
    rewrite len_cons, len_app, HL.
    replace (1 + (h + len (UD t)) <? 1) with false by lia. rewrite idx_0. cbn [bind].
    rewrite to_byte_id by lia.
    destruct (len (UD t) + h =? 0) eqn:Ez.
    { assert (UD t = []) as -> by (apply len_0_nil; lia).
      assert (UDH t = None) as -> by (apply header_size_0; lia).
      rewrite set_same_ud by assumption. now rewrite set_same_udh. }
    rewrite (Halpha _ EDCS), EA. cbn [on_err bind]. rewrite E7. cbv zeta.
    replace (1 + (h + len (UD t)) <? 1 + (len (UD t) + h)) with false by lia.
    replace (1 + (len (UD t) + h) <? 1 + (h + len (UD t))) with false by lia.
    rewrite EFO.
    pose proof (header_parse (UDH t) (FO t) [len (UD t) + h] (UD t) 1 HU eq_refl) as HP.
    cbn [app] in HP. fold hb in HP. rewrite HP. cbn [bind]. fold h.
    destruct (1 + h =? 1 + (h + len (UD t))) eqn:Ee.
    { assert (UD t = []) as -> by (apply len_0_nil; lia). now rewrite set_same_ud. }
    pose proof (slice_from_app (len (UD t) + h :: hb) (UD t) (1 + h)
        ltac:(rewrite len_cons; lia)) as SP. cbn [app] in SP. rewrite SP. cbn [bind].
    rewrite EU. reflexivity.
Qed.
