(** Lemmas for C79: validity periods, headers and user data. *)
From Verif Require Import GoBase GoLemmas PrintProofs SafeLemmas Utf UtfProofs Bcd Semioctet DigitsProofs SevenBit SevenBitProofs Charset Gsm7 CharsetProofs
  Dcs FirstOctet TpduError Address AddressProofs GoTime TimeProofs ValidityPeriod VPProofs UserData UdProofs Tpdu
  SegmentProofs SegmentFitProofs FlagsProofs TpduProofs LeftProofs ShownProofs AlphabetProofs
  SpecText SpecBits SpecDigits SpecTime SpecVP SpecDcs SpecAlphabet SpecShown SpecTpdu SpecSegment SpecLeft SpecWire SpecRefuse Sms
  WireProofs RefuseProofs.

(** ** Validity periods *)
Lemma fill_fails z : Forall (eq 0) z -> forall pre o b n, o <> 0 -> (length z < n)%nat ->
  check_fill (pre ++ z ++ o :: b) (len pre) n = Err (DecodeErr "enhanced" (len pre + len z) ErrNonZero).
Proof.
  induction 1 as [|x z <- Hz IH]; intros pre o b n O L; (destruct n as [|n]; [cbn [length] in L; lia|]); cbn [check_fill].
  - rewrite idx_app_r by lia. rewrite Z.sub_diag. cbn [app]. rewrite idx_0. cbn [bind]. replace (o =? 0) with false by lia. cbn [negb new_decode_error].
    f_equal. f_equal. change (len (@nil Z)) with 0. lia.
  - rewrite idx_app_r by lia. rewrite Z.sub_diag. cbn [app]. rewrite idx_0. cbn [bind Z.eqb negb].
    replace (pre ++ 0 :: z ++ o :: b) with ((pre ++ [0]) ++ z ++ o :: b) by (now rewrite <- app_assoc).
    replace (len pre + 1) with (len (pre ++ [0])) by (now rewrite len_app).
    rewrite IH; [|exact O|cbn [length] in L; lia]. rewrite len_app. change (len [0]) with 1. rewrite len_cons. now replace (len pre + 1 + len z) with (len pre + (1 + len z)) by lia.
Qed.
Lemma fill_fine z : Forall (eq 0) z -> forall pre b n, n = length z -> check_fill (pre ++ z ++ b) (len pre) n = Ok tt.
Proof.
  induction 1 as [|x z <- Hz IH]; intros pre b n ->; cbn [length check_fill]; [reflexivity|].
  rewrite idx_app_r by lia. rewrite Z.sub_diag. cbn [app]. rewrite idx_0. cbn [bind Z.eqb negb].
  replace (pre ++ 0 :: z ++ b) with ((pre ++ [0]) ++ z ++ b) by (now rewrite <- app_assoc).
  replace (len pre + 1) with (len (pre ++ [0])) by (now rewrite len_app). now apply IH.
Qed.
Lemma first_nonzero l : Forall (eq 0) l \/ exists z o b, l = z ++ o :: b /\ Forall (eq 0) z /\ o <> 0.
Proof.
  induction l as [|x l IH]; [left; constructor|]. destruct (Z.eq_dec 0 x) as [E|E].
  - destruct IH as [IH|(z & o & b & -> & P & X)]; [left; now constructor|]. right. exists (x :: z), o, b. split; [reflexivity|]. split; [now constructor|exact X].
  - right. exists [], x, l. split; [reflexivity|]. split; [constructor|lia].
Qed.
(** The octets in use, and then the filler. *)
Lemma enhanced_used efi p b : Forall is_byte (efi :: p) -> 6 <= len (p ++ b) -> efi mod 8 <= 3 -> len p = in_use (efi mod 8) ->
  (efi mod 8 = 3 -> Forall digits p) ->
  exists d, vp_unmarshal_enhanced (efi :: p ++ b) = bind (check_fill (efi :: p ++ b) (len p + 1) (Z.to_nat (6 - len p))) (fun _ => Ok (efi, d)).
Proof.
  intros HB L K LP D. unfold vp_unmarshal_enhanced. rewrite len_cons. replace (1 + len (p ++ b) <? 7) with false by lia.
  rewrite idx_0. cbn [bind]. rewrite land7. cbv zeta. unfold EvpfRelativeHHMMSS, EvpfRelative, EvpfRelativeSeconds, EvpfNotPresent.
  apply Forall_cons_iff in HB as (Be & Bp).
  assert (efi mod 8 = 0 \/ efi mod 8 = 1 \/ efi mod 8 = 2 \/ efi mod 8 = 3) as [E|[E|[E|E]]] by lia; rewrite E in *; cbn [in_use] in LP; cbn [Z.eqb Pos.eqb].
  - cbn [bind]. exists 0. rewrite LP. reflexivity.
  - destruct p as [|x [|? ?]]; try (unfold len in LP; cbn [length] in LP; lia). cbn [app]. change (idx (efi :: x :: b) 1) with (Ok x). cbn [bind].
    eexists. reflexivity.
  - destruct p as [|x [|? ?]]; try (unfold len in LP; cbn [length] in LP; lia). cbn [app]. change (idx (efi :: x :: b) 1) with (Ok x). cbn [bind].
    eexists. reflexivity.
  - destruct p as [|x [|y [|z [|? ?]]]]; try (unfold len in LP; cbn [length] in LP; lia). cbn [app].
    change (idx (efi :: x :: y :: z :: b) 1) with (Ok x). change (idx (efi :: x :: y :: z :: b) 2) with (Ok y). change (idx (efi :: x :: y :: z :: b) 3) with (Ok z).
    cbn [bind]. specialize (D eq_refl). rewrite !Forall_cons_iff in Bp, D. decompose [and] Bp. decompose [and] D.
    destruct (bcd_any x) as [(_ & vx & ->)|(N & _)]; [assumption| |contradiction].
    destruct (bcd_any y) as [(_ & vy & ->)|(N & _)]; [assumption| |contradiction].
    destruct (bcd_any z) as [(_ & vz & ->)|(N & _)]; [assumption| |contradiction].
    cbn [on_err bind]. eexists. reflexivity.
Qed.
Lemma period_fails_complete f b ft : Forall is_byte b -> period_fails f b ft -> vp_unmarshal vp_zero b f = Err (alone ft).
Proof.
  intros HB H. unfold vp_unmarshal, VpfAbsolute, VpfEnhanced, VpfRelative, VpfNotPresent.
  destruct H as [f b F| |b ft T|b L|efi b L K|efi p o b K LP L P O|efi p z o b K LP P Z O L1 L].
  - replace (f =? 3) with false by lia. replace (f =? 1) with false by lia. replace (f =? 2) with false by lia. replace (f =? 0) with false by lia. reflexivity.
  - reflexivity.
  - cbn [Z.eqb Pos.eqb]. now rewrite (time_fails_complete _ _ HB T).
  - cbn [Z.eqb Pos.eqb]. unfold vp_unmarshal_enhanced. now replace (len b <? 7) with true by lia.
  - cbn [Z.eqb Pos.eqb]. unfold vp_unmarshal_enhanced. rewrite len_cons. replace (1 + len b <? 7) with false by lia. rewrite idx_0. cbn [bind].
    rewrite land7. cbv zeta. unfold EvpfRelativeHHMMSS, EvpfRelative, EvpfRelativeSeconds, EvpfNotPresent.
    replace (efi mod 8 =? 0) with false by lia. replace (efi mod 8 =? 1) with false by lia. replace (efi mod 8 =? 2) with false by lia.
    replace (efi mod 8 =? 3) with false by lia. reflexivity.
  - cbn [Z.eqb Pos.eqb]. unfold vp_unmarshal_enhanced. rewrite len_cons. replace (1 + len (p ++ o :: b) <? 7) with false by lia. rewrite idx_0. cbn [bind].
    rewrite land7. cbv zeta. unfold EvpfRelativeHHMMSS, EvpfRelative, EvpfRelativeSeconds, EvpfNotPresent. rewrite K. cbn [Z.eqb Pos.eqb].
    apply Forall_cons_iff in HB as (_ & HB). apply Forall_app in HB as (Bp & Bo). apply Forall_inv in Bo.
    assert (BAD : bcd_decode o = Err (BcdInvalidOctet o)) by (destruct (bcd_any o Bo) as [(D & _)|(_ & D)]; [contradiction|exact D]).
    destruct p as [|x [|y [|? ?]]]; [| | |exfalso; unfold len in LP; cbn [length] in LP; lia]; cbn [app].
    + change (idx (efi :: o :: b) 1) with (Ok o). cbn [bind]. rewrite BAD. reflexivity.
    + change (idx (efi :: x :: o :: b) 1) with (Ok x). change (idx (efi :: x :: o :: b) 2) with (Ok o). cbn [bind].
      rewrite !Forall_cons_iff in Bp, P. decompose [and] Bp. decompose [and] P.
      destruct (bcd_any x) as [(_ & vx & ->)|(N & _)]; [assumption| |contradiction]. cbn [on_err bind]. rewrite BAD. reflexivity.
    + change (idx (efi :: x :: y :: o :: b) 1) with (Ok x). change (idx (efi :: x :: y :: o :: b) 2) with (Ok y). change (idx (efi :: x :: y :: o :: b) 3) with (Ok o). cbn [bind].
      rewrite !Forall_cons_iff in Bp, P. decompose [and] Bp. decompose [and] P.
      destruct (bcd_any x) as [(_ & vx & ->)|(N & _)]; [assumption| |contradiction].
      destruct (bcd_any y) as [(_ & vy & ->)|(N & _)]; [assumption| |contradiction]. cbn [on_err bind]. rewrite BAD. reflexivity.
  - cbn [Z.eqb Pos.eqb]. apply Forall_cons_iff in HB as (Be & HB). apply Forall_app in HB as (Bp & HB).
    destruct (enhanced_used efi p (z ++ o :: b)) as (d & ->); try assumption; [now constructor|].
    replace (efi :: p ++ z ++ o :: b) with ((efi :: p) ++ z ++ o :: b) by reflexivity.
    replace (len p + 1) with (len (efi :: p)) by (rewrite len_cons; lia).
    rewrite fill_fails; [|exact Z|exact O|unfold len in *; lia]. cbn [bind alone String.eqb]. rewrite len_cons. reflexivity.
Qed.
Lemma period_fails_exists f b e : Forall is_byte b -> vp_unmarshal vp_zero b f = Err e -> exists ft, period_fails f b ft.
Proof.
  intros HB H. destruct (Z_lt_le_dec f 0); [eexists; apply pf_format; lia|]. destruct (Z_lt_le_dec 3 f); [eexists; apply pf_format; lia|].
  unfold vp_unmarshal, VpfAbsolute, VpfEnhanced, VpfRelative, VpfNotPresent in H.
  assert (f = 0 \/ f = 1 \/ f = 2 \/ f = 3) as [-> |[-> |[-> | ->]]] by lia; cbn [Z.eqb Pos.eqb] in H.
  - discriminate.
  - destruct (vp_unmarshal_enhanced b) as [[x y]|e1| |] eqn:E; try discriminate. clear H.
    destruct (Z_lt_le_dec (len b) 7) as [L|L]; [eexists; now apply pf_short|].
    destruct b as [|efi b]; [unfold len in L; cbn [length] in L; lia|]. rewrite len_cons in L.
    destruct (Z_lt_le_dec 3 (efi mod 8)) as [K|K]; [eexists; apply pf_reserved; lia|].
    assert (U : 0 <= in_use (efi mod 8) <= 3).
    { assert (efi mod 8 = 0 \/ efi mod 8 = 1 \/ efi mod 8 = 2 \/ efi mod 8 = 3) as [X|[X|[X|X]]] by lia; rewrite X; cbn [in_use]; lia. }
    destruct (split_len b (in_use (efi mod 8))) as (p & r & -> & LP); [lia|]. rewrite len_app in L.
    destruct (split_len r (6 - len p)) as (z & rest & -> & LZ); [lia|].
    pose proof HB as HB'. apply Forall_cons_iff in HB' as (Be & HB'). apply Forall_app in HB' as (Bp & Br).
    assert (D : (efi mod 8 = 3 -> Forall digits p) \/ efi mod 8 = 3 /\ exists q o s, p = q ++ o :: s /\ Forall digits q /\ ~ digits o).
    { destruct (Z.eq_dec (efi mod 8) 3) as [X|X]; [|left; lia]. destruct (first_bad p Bp) as [Y|Y]; [now left|right; now split]. }
    destruct D as [D|(K3 & q & o & s & -> & Q & O)].
    + destruct (first_nonzero z) as [ZZ|(z1 & o & z2 & -> & ZZ & O)].
      * exfalso. destruct (enhanced_used efi p (z ++ rest)) as (d & E'); try assumption; [now constructor|rewrite !len_app in *; lia|].
        rewrite E' in E. replace (efi :: p ++ z ++ rest) with ((efi :: p) ++ z ++ rest) in E by reflexivity.
        replace (len p + 1) with (len (efi :: p)) in E by (rewrite len_cons; lia).
        rewrite fill_fine in E; [discriminate|exact ZZ|unfold len in *; lia].
      * eexists. rewrite <- !app_assoc. cbn [app]. rewrite !len_app, len_cons in *. pose proof (len_nonneg z2). pose proof (len_nonneg rest).
        apply pf_filler; try assumption; [lia|]. rewrite !len_app, len_cons, len_app. lia.
    + eexists. rewrite <- !app_assoc. cbn [app]. rewrite K3 in LP. cbn [in_use] in LP. rewrite !len_app, len_cons in *. pose proof (len_nonneg s).
      apply pf_digits; try assumption; [lia|]. rewrite !len_app, len_cons, !len_app. lia.
  - destruct b as [|x b]; [eexists; apply pf_relative|]. rewrite len_cons in H. pose proof (len_nonneg b).
    replace (1 + len b <? 1) with false in H by lia. discriminate.
  - destruct (ts_unmarshal b) as [t|e1| |] eqn:E; try discriminate. apply time_fails_exists in E as (ft & T); [|exact HB].
    exists ft. now apply pf_absolute.
Qed.
(** ** Headers *)
Lemma loop_elements l : forall fuel pre rest lim, (length l <= fuel)%nat -> len (pre ++ elements l) < lim -> lim <= len (pre ++ elements l ++ rest) ->
  udh_loop fuel (pre ++ elements l ++ rest) lim (len pre) =
  bind (udh_loop (fuel - length l) ((pre ++ elements l) ++ rest) lim (len (pre ++ elements l))) (fun r => Ok (l ++ r)).
Proof.
  induction l as [|i l IH]; intros fuel pre rest lim Hf H1 H2.
  - cbn [elements app length]. rewrite app_nil_r, Nat.sub_0_r. now destruct (udh_loop fuel _ lim (len pre)).
  - destruct fuel as [|fuel]; [cbn [length] in Hf; lia|]. cbn [length] in *.
    assert (SP : forall s, pre ++ elements (i :: l) ++ s = (pre ++ [ie_id i; len (ie_data i)] ++ ie_data i) ++ elements l ++ s).
    { intros s. cbn [elements]. now rewrite <- !app_assoc, <- app_comm_cons, <- app_comm_cons, <- app_assoc. }
    assert (SQ : pre ++ elements (i :: l) = (pre ++ [ie_id i; len (ie_data i)] ++ ie_data i) ++ elements l).
    { pose proof (SP []) as X. now rewrite !app_nil_r in X. }
    assert (LL : len (pre ++ elements (i :: l)) = len pre + 2 + len (ie_data i) + len (elements l)).
    { cbn [elements]. rewrite len_app, !len_cons, len_app. lia. }
    pose proof (len_nonneg (ie_data i)). pose proof (len_nonneg (elements l)).
    cbn [udh_loop]. replace (len pre <? lim) with true by lia. replace (lim <? len pre + 2) with false by lia. cbn [negb].
    assert (I1 : idx (pre ++ elements (i :: l) ++ rest) (len pre) = Ok (ie_id i)).
    { rewrite idx_app_r by lia. now rewrite Z.sub_diag. }
    assert (I2 : idx (pre ++ elements (i :: l) ++ rest) (len pre + 1) = Ok (len (ie_data i))).
    { rewrite idx_app_r by lia. now replace (len pre + 1 - len pre) with 1 by lia. }
    assert (I3 : slice (pre ++ elements (i :: l) ++ rest) (len pre + 1 + 1) (len pre + 1 + 1 + len (ie_data i)) = Ok (ie_data i)).
    { replace (pre ++ elements (i :: l) ++ rest) with ((pre ++ [ie_id i; len (ie_data i)]) ++ ie_data i ++ elements l ++ rest)
        by (rewrite SP; now rewrite <- !app_assoc).
      pose proof (len_nonneg pre). pose proof (len_nonneg rest).
      rewrite slice_ok by (rewrite ?len_app; change (len [ie_id i; len (ie_data i)]) with 2; lia).
      replace (Z.to_nat (len pre + 1 + 1)) with (length (pre ++ [ie_id i; len (ie_data i)])) by (rewrite app_length; cbn [length]; unfold len; lia).
      rewrite skipn_app, skipn_all, Nat.sub_diag. cbn [skipn app].
      replace (Z.to_nat (len pre + 1 + 1 + len (ie_data i) - (len pre + 1 + 1))) with (length (ie_data i)) by (unfold len; lia).
      rewrite firstn_app, firstn_all, Nat.sub_diag. cbn [firstn]. now rewrite app_nil_r. }
    rewrite I1. cbn [bind]. rewrite I2. cbn [bind]. pose proof (len_nonneg rest).
    assert (LT : len (pre ++ elements (i :: l) ++ rest) = len pre + 2 + len (ie_data i) + len (elements l) + len rest)
      by (rewrite app_assoc, len_app, LL; reflexivity).
    rewrite LT. match goal with |- context [?a <? ?b] => replace (a <? b) with false by lia end. rewrite I3. cbn [bind].
    rewrite SP, SQ.
    replace (len pre + 1 + 1 + len (ie_data i)) with (len (pre ++ [ie_id i; len (ie_data i)] ++ ie_data i))
      by (rewrite !len_app; change (len [ie_id i; len (ie_data i)]) with 2; lia).
    rewrite IH; [|lia|rewrite <- SQ; exact H1|rewrite <- SP; exact H2].
    cbn [Nat.sub]. destruct (udh_loop _ _ lim _); cbn [bind]; try reflexivity. cbn [app]. now destruct i.
Qed.
Lemma header_fails_complete b f : Forall is_byte b -> header_fails b f -> udh_unmarshal b = Err (alone f).
Proof.
  intros HB H. destruct H as [|n b L|n l b E L|n l id k b L1 L2 L3]; [reflexivity| | |].
  - unfold udh_unmarshal. rewrite len_cons, idx_0. pose proof (len_nonneg b). replace (1 + len b <? 1) with false by lia. cbn [bind].
    now replace (1 + len b <? n + 1) with true by lia.
  - unfold udh_unmarshal. rewrite len_cons, idx_0. pose proof (len_nonneg (elements l ++ b)). replace (1 + len (elements l ++ b) <? 1) with false by lia. cbn [bind].
    replace (1 + len (elements l ++ b) <? n + 1) with false by lia.
    pose proof (loop_elements l (length (n :: elements l ++ b)) [n] b (n + 1)) as U. change (len [n]) with 1 in U. cbn [app] in U. rewrite U.
    + replace (n :: elements l ++ b) with ((n :: elements l) ++ b) by reflexivity. rewrite len_cons.
      assert (length (elements l) >= length l)%nat by (pose proof (elements_length l); lia).
      cbn [app length]. rewrite app_length. destruct (S (length (elements l) + length b) - length l)%nat eqn:F; [lia|].
      cbn [udh_loop]. replace (1 + len (elements l) <? n + 1) with true by lia. replace (n + 1 <? 1 + len (elements l) + 2) with true by lia. reflexivity.
    + cbn [length]. rewrite app_length. pose proof (elements_length l). lia.
    + rewrite len_cons. lia.
    + rewrite len_cons. lia.
  - unfold udh_unmarshal. rewrite len_cons, idx_0. pose proof (len_nonneg (elements l ++ id :: k :: b)).
    replace (1 + len (elements l ++ id :: k :: b) <? 1) with false by lia. cbn [bind].
    replace (1 + len (elements l ++ id :: k :: b) <? n + 1) with false by lia.
    pose proof (loop_elements l (length (n :: elements l ++ id :: k :: b)) [n] (id :: k :: b) (n + 1)) as U. change (len [n]) with 1 in U. cbn [app] in U. rewrite U.
    + replace (n :: elements l ++ id :: k :: b) with ((n :: elements l) ++ id :: k :: b) by reflexivity. rewrite len_cons.
      assert (length (elements l) >= length l)%nat by (pose proof (elements_length l); lia).
      rewrite app_length. cbn [length]. destruct (S (length (elements l)) + S (S (length b)) - length l)%nat eqn:F; [lia|].
      cbn [udh_loop]. pose proof (len_nonneg (elements l)).
      replace (1 + len (elements l) <? n + 1) with true by lia. replace (n + 1 <? 1 + len (elements l) + 2) with false by lia. cbn [negb].
      assert (LN : len (n :: elements l) = 1 + len (elements l)) by apply len_cons.
      rewrite (idx_app_r _ _ (1 + len (elements l))) by lia. rewrite LN, Z.sub_diag, idx_0. cbn [bind].
      rewrite (idx_app_r _ _ (1 + len (elements l) + 1)) by lia. rewrite LN. replace (1 + len (elements l) + 1 - (1 + len (elements l))) with 1 by lia.
      change (idx (id :: k :: b) 1) with (Ok k). cbn [bind]. rewrite len_app, LN, !len_cons.
      match goal with |- context [?a <? ?b] => replace (a <? b) with true by lia end. cbn [bind alone String.eqb]. unfold new_decode_error.
      now replace (1 + len (elements l) + 1 + 1) with (1 + len (elements l) + 2) by lia.
    + cbn [length]. rewrite app_length. pose proof (elements_length l). lia.
    + rewrite len_cons. lia.
    + rewrite len_cons. lia.
Qed.
Lemma loop_fails fuel : forall pre b lim e, Forall is_byte b -> len pre <= lim <= len (pre ++ b) ->
  udh_loop fuel (pre ++ b) lim (len pre) = Err e ->
  exists l r, b = elements l ++ r /\
    (lim = len (pre ++ elements l) + 1 \/ exists id k d, r = id :: k :: d /\ len (pre ++ elements l) + 2 <= lim /\ len d < k).
Proof.
  induction fuel as [|fuel IH]; intros pre b lim e HB L H; cbn [udh_loop] in H.
  { destruct (negb _); discriminate. }
  destruct (len pre <? lim) eqn:C; [|discriminate]. cbn [negb] in H.
  destruct (lim <? len pre + 2) eqn:C2.
  { exists [], b. split; [reflexivity|]. left. cbn [elements]. rewrite app_nil_r. lia. }
  rewrite len_app in L.
  destruct b as [|id [|k b]]; try (unfold len in *; cbn [length] in *; lia).
  rewrite idx_app_r in H by lia. rewrite Z.sub_diag, idx_0 in H. cbn [bind] in H.
  rewrite idx_app_r in H by lia. replace (len pre + 1 - len pre) with 1 in H by lia. change (idx (id :: k :: b) 1) with (Ok k) in H. cbn [bind] in H.
  rewrite len_app, !len_cons in H. rewrite !Forall_cons_iff in HB. destruct HB as (Bi & Bk & HB). unfold is_byte in Bk.
  destruct (len pre + (1 + (1 + len b)) <? len pre + 1 + 1 + k) eqn:C3.
  { exists [], (id :: k :: b). split; [reflexivity|]. right. exists id, k, b. split; [reflexivity|]. cbn [elements]. rewrite app_nil_r. lia. }
  destruct (split_len b k) as (d & r & -> & LD); [lia|].
  apply Forall_app in HB as (Bd & Br).
  assert (SP : pre ++ id :: k :: d ++ r = (pre ++ id :: k :: d) ++ r) by (now rewrite <- app_assoc).
  assert (LP : len (pre ++ id :: k :: d) = len pre + 1 + 1 + k) by (rewrite len_app, !len_cons; lia).
  rewrite SP in H. destruct (slice _ _ _) as [s|e1| |] eqn:ES; try discriminate.
  2:{ unfold slice in ES. destruct (_ && _); discriminate. }
  cbn [bind] in H. rewrite <- LP in H.
  destruct (udh_loop fuel _ lim _) as [rr|e2| |] eqn:EU; try discriminate.
  destruct (Z_lt_le_dec lim (len (pre ++ id :: k :: d))) as [Y|Y].
  { exfalso. revert EU. destruct fuel; cbn [udh_loop]; replace (len (pre ++ id :: k :: d) <? lim) with false by lia; discriminate. }
  apply IH in EU; [|exact Br|rewrite <- SP; rewrite !len_app, !len_cons, len_app in *; lia].
  destruct EU as (l & r' & -> & O). exists ({| ie_id := id; ie_data := d |} :: l), r'.
  assert (EL : elements ({| ie_id := id; ie_data := d |} :: l) = id :: k :: d ++ elements l) by (cbn [elements ie_id ie_data]; now rewrite LD).
  rewrite EL. split; [cbn [app]; now rewrite <- app_assoc|].
  replace (pre ++ id :: k :: d ++ elements l) with ((pre ++ id :: k :: d) ++ elements l) by (now rewrite <- app_assoc). exact O.
Qed.
Lemma header_fails_exists b e : Forall is_byte b -> udh_unmarshal b = Err e -> exists f, header_fails b f.
Proof.
  intros HB H. destruct b as [|n b]; [eexists; apply hf_none|].
  destruct (Z_lt_le_dec (len b) n) as [L|L]; [eexists; now apply hf_cut|].
  apply Forall_cons_iff in HB as (Bn & HB). unfold is_byte in Bn.
  unfold udh_unmarshal in H. rewrite len_cons, idx_0 in H. pose proof (len_nonneg b). replace (1 + len b <? 1) with false in H by lia. cbn [bind] in H.
  replace (1 + len b <? n + 1) with false in H by lia.
  destruct (udh_loop _ _ _ _) as [l|e1| |] eqn:E; try discriminate. clear H.
  change (n :: b) with ([n] ++ b) in E at 2. apply (loop_fails _ [n]) in E; [|exact HB|rewrite len_app; change (len [n]) with 1; lia].
  destruct E as (l & r & -> & [E|(id & k & d & -> & E1 & E2)]); rewrite len_app in *; change (len [n]) with 1 in *.
  - eexists. apply hf_element; [lia|rewrite len_app; lia].
  - eexists. apply hf_data; [lia|rewrite len_app; lia|exact E2].
Qed.
(** ** User data *)
Lemma septets_fails l n m e : Forall is_byte m -> m <> [] -> 0 <= n -> decode_7bit l n m = Err e <-> septets_fail n l m e.
Proof.
  intros HB NE N. unfold decode_7bit. cbv zeta.
  destruct (fill_bits_spec n N) as (F1 & F2). unfold cdiv in F1.
  set (taken := (8 * n + 6) / 7).
  assert (FB : (if 0 <? n then fill_bits n else 0) = 7 * taken - 8 * n /\ (if 0 <? n then l - (n * 8 + (if 0 <? n then fill_bits n else 0)) / 7 else l) = l - taken).
  { destruct (0 <? n) eqn:E; [split; lia|]. assert (n = 0) by lia. subst n. subst taken. cbn. lia. }
  destruct FB as (FB & FC). rewrite FC, FB.
  assert (R : 0 <= 7 * taken - 8 * n <= 6) by (subst taken; lia).
  destruct (unpack7bit_spec m _ HB R) as (E & _). rewrite E. clear E. set (all := cut7 _) in *.
  assert (W : septets_fail n l m e <-> (e = ErrUnderflow /\ len all < l - taken \/
     e = ErrOverlength /\ (l - taken + 1 < len all \/ exists u x, all = u ++ [x] /\ len u = l - taken /\ x <> 0))).
  { split; [intros [tk al du why -> -> -> H]; exact H|]. intros H. exact (sf n l m taken all (l - taken) e eq_refl eq_refl eq_refl H). }
  rewrite W. clear W. clearbody all. set (c := l - taken). clearbody c. pose proof (len_nonneg all) as LN. split.
  - destruct (len all <? c) eqn:C1; [intros X; injection X as <-; left; split; [reflexivity|lia]|].
    destruct (c <? len all) eqn:C2; [|discriminate].
    destruct (c + 1 <? len all) eqn:C3; [intros X; injection X as <-; right; split; [reflexivity|left; lia]|].
    destruct (idx all c) as [x|e1| |] eqn:Hx; try discriminate.
    2:{ unfold idx in Hx. destruct (c <? 0); [discriminate|destruct (nth_error _ _); discriminate]. }
    cbn [bind]. destruct (x =? 0) eqn:X.
    { cbn [negb]. intros S. unfold slice in S. destruct (_ && _); discriminate. }
    cbn [negb]. intros S. injection S as <-. right. split; [reflexivity|]. right.
    pose proof (idx_range _ _ _ Hx). exists (firstn (Z.to_nat c) all), x. split; [|split; [unfold len in *; rewrite firstn_length; lia|lia]].
    pose proof (skipn_cons_idx _ _ _ Hx) as S. rewrite <- (firstn_skipn (Z.to_nat c) all) at 1. rewrite S. f_equal.
    f_equal. apply skipn_all2. unfold len in *. lia.
  - intros [(-> & L)|(-> & [L|(u & x & -> & L & X)])].
    + now replace (len all <? c) with true by lia.
    + replace (len all <? c) with false by lia. replace (c <? len all) with true by lia. now replace (c + 1 <? len all) with true by lia.
    + rewrite len_app in *. change (len [x]) with 1 in *. replace (len u + 1 <? c) with false by lia. replace (c <? len u + 1) with true by lia.
      replace (c + 1 <? len u + 1) with false by lia. rewrite idx_app_r by lia. replace (c - len u) with 0 by lia. rewrite idx_0. cbn [bind].
      now replace (x =? 0) with false by lia.
Qed.
Lemma header_at_range b h n (udhi : bool) : (if udhi then header_at b h n else h = None /\ n = 0) -> 0 <= n <= len b.
Proof. pose proof (len_nonneg b). destruct udhi; [intros (r & _ & X & _); lia|lia]. Qed.
(** User data whose length is right, up to the header. *)
Lemma user_data_on t l b a h n : Forall is_byte b -> is_byte (DCS t) -> l <> 0 -> alphabet_of (DCS t) = Some a ->
  len b = (if a =? 0 then (7 * l + 7) / 8 else l) ->
  (if Z.testbit (FO t) 6 then header_at b h n else h = None /\ n = 0) ->
  decode_ud t (l :: b) =
  match skipn (Z.to_nat n) b with
  | [] => Ok (set_UDHf t h)
  | m => if a =? 0 then bind (on_err (decode_7bit l n m) (new_decode_error "sm" (1 + n))) (fun sm => Ok (set_UDHf (set_UDf t sm) h))
         else if (a =? 2) && (Z.land (len m) 1 =? 1) then Err (new_decode_error "sm" (1 + n) ErrOddUCS2Length)
         else Ok (set_UDHf (set_UDf t m) h)
  end.
Proof.
  intros HB HD L EA LB HH. pose proof (header_at_range _ _ _ _ HH) as Hn. rewrite <- udhi_bit in HH. unfold decode_ud.
  rewrite len_cons. pose proof (len_nonneg b). replace (1 + len b <? 1) with false by lia. rewrite idx_0. cbn [bind].
  replace (l =? 0) with false by lia. unfold tpdu_alphabet. rewrite (alphabet_meaning _ HD), EA. unfold Alpha7Bit, AlphaUCS2. cbn [on_err bind].
  assert (SZ : (if a =? 0 then ((if a =? 0 then l else 0) * 7 + 7) / 8 else l) = len b)
    by (rewrite LB; destruct (a =? 0); [f_equal; lia|reflexivity]).
  rewrite SZ. clear SZ. replace (1 + len b <? 1 + len b) with false by lia.
  change (slice_from (l :: b) 1) with (slice_from ([l] ++ b) 1). rewrite (slice_from_app [l] b) by reflexivity. cbn [bind].
  assert ((if fo_udhi (FO t) then on_err (udh_unmarshal b) (new_decode_error "udh" 1) else Ok (None, 0)) = Ok (h, n)) as ->.
  { destruct (fo_udhi (FO t)); [apply header_iff in HH; [now rewrite HH|exact HB]|]. destruct HH as (-> & ->). reflexivity. }
  cbn [bind].
  assert (EMPTY : (1 + n =? 1 + len b) = match skipn (Z.to_nat n) b with [] => true | _ => false end).
  { assert (LS : len (skipn (Z.to_nat n) b) = len b - n) by (unfold len in *; rewrite skipn_length; lia).
    destruct (skipn (Z.to_nat n) b) eqn:ES; [change (len (@nil Z)) with 0 in LS; lia|].
    rewrite len_cons in LS. match goal with |- context [len ?x] => pose proof (len_nonneg l0) end. lia. }
  rewrite EMPTY. rewrite slice_from_ok by (rewrite len_cons; lia). replace (Z.to_nat (1 + n)) with (S (Z.to_nat n)) by lia. cbn [skipn].
  destruct (skipn (Z.to_nat n) b) as [|x m]; [reflexivity|]. cbn [bind]. destruct (a =? 0); [|reflexivity].
  reflexivity.
Qed.
Lemma odd_land n : Z.land n 1 = n mod 2.
Proof. change 1 with (Z.ones 1) at 1. now rewrite Z.land_ones by lia. Qed.
Lemma header_fault_part b part at_ why : header_fails b (Fault part at_ why) -> (part =? "")%string = false /\ why = ErrUnderflow.
Proof. now inversion 1. Qed.
Lemma user_data_fails_complete t b f : Forall is_byte b -> is_byte (DCS t) -> user_data_fails (Z.testbit (FO t) 6) (DCS t) b f ->
  decode_ud t b = Err (alone f).
Proof.
  intros HB HD H. destruct H as [|l b L A|l b a L A S|l b a L A S|l b a part at_ why L A S U H|l b h n m why L A S HH -> NE H|l b h n m k L A S HH -> H].
  - reflexivity.
  - unfold decode_ud. rewrite len_cons. pose proof (len_nonneg b). replace (1 + len b <? 1) with false by lia. rewrite idx_0. cbn [bind].
    replace (l =? 0) with false by lia. unfold tpdu_alphabet. rewrite (alphabet_meaning _ HD), A. reflexivity.
  - unfold decode_ud. rewrite len_cons. pose proof (len_nonneg b). replace (1 + len b <? 1) with false by lia. rewrite idx_0. cbn [bind].
    replace (l =? 0) with false by lia. unfold tpdu_alphabet. rewrite (alphabet_meaning _ HD), A. unfold Alpha7Bit. cbn [on_err bind].
    destruct (a =? 0); match goal with |- context [?x <? ?y] => replace (x <? y) with true by lia end; reflexivity.
  - unfold decode_ud. rewrite len_cons. pose proof (len_nonneg b). replace (1 + len b <? 1) with false by lia. rewrite idx_0. cbn [bind].
    replace (l =? 0) with false by lia. unfold tpdu_alphabet. rewrite (alphabet_meaning _ HD), A. unfold Alpha7Bit. cbn [on_err bind].
    destruct (a =? 0).
    + replace (1 + len b <? 1 + (l * 7 + 7) / 8) with false by lia. now replace (1 + (l * 7 + 7) / 8 <? 1 + len b) with true by lia.
    + replace (1 + len b <? 1 + l) with false by lia. now replace (1 + l <? 1 + len b) with true by lia.
  - rewrite <- udhi_bit in U. apply Forall_cons_iff in HB as (_ & HB). apply header_fails_complete in H as HE; [|exact HB].
    unfold decode_ud. rewrite len_cons. pose proof (len_nonneg b). replace (1 + len b <? 1) with false by lia. rewrite idx_0. cbn [bind].
    replace (l =? 0) with false by lia. unfold tpdu_alphabet. rewrite (alphabet_meaning _ HD), A. unfold Alpha7Bit. cbn [on_err bind].
    assert (SZ : (if a =? 0 then ((if a =? 0 then l else 0) * 7 + 7) / 8 else l) = len b)
      by (rewrite S; destruct (a =? 0); [f_equal; lia|reflexivity]).
    rewrite SZ. clear SZ. replace (1 + len b <? 1 + len b) with false by lia.
    change (slice_from (l :: b) 1) with (slice_from ([l] ++ b) 1). rewrite (slice_from_app [l] b) by reflexivity. cbn [bind].
    rewrite U, HE. destruct (header_fault_part _ _ _ _ H) as (P & W). unfold alone, within. rewrite P. cbn [on_err bind new_decode_error].
    change (("udh" ++ "." ++ part)%string =? "")%string with false. cbv iota. now rewrite Z.add_comm.
  - apply Forall_cons_iff in HB as (_ & HB). rewrite (user_data_on t l b 0 h n) by (try assumption; cbn [Z.eqb]; exact S).
    pose proof (header_at_range _ _ _ _ HH) as Hn.
    apply septets_fails in H as E; [|apply Forall_skipn', HB|exact NE|lia].
    destruct (skipn (Z.to_nat n) b) as [|x m] eqn:EM; [congruence|]. cbn [Z.eqb]. rewrite E. inversion H as [? ? ? ? _ _ _ W]; subst.
    destruct W as [(-> & _)|(-> & _)]; reflexivity.
  - apply Forall_cons_iff in HB as (_ & HB). rewrite (user_data_on t l b 2 h n) by (try assumption; cbn [Z.eqb]; exact S).
    destruct (skipn (Z.to_nat n) b) as [|x m] eqn:EM; [change (len (@nil Z)) with 0 in H; lia|]. cbn [Z.eqb Pos.eqb andb].
    rewrite odd_land. replace (len (x :: m) mod 2 =? 1) with true by lia. reflexivity.
Qed.
Lemma user_data_fails_exists t b e : Forall is_byte b -> is_byte (DCS t) -> decode_ud t b = Err e ->
  exists f, user_data_fails (Z.testbit (FO t) 6) (DCS t) b f.
Proof.
  intros HB HD H. destruct b as [|l b]; [eexists; apply uf_none|]. apply Forall_cons_iff in HB as (Bl & HB).
  destruct (Z.eq_dec l 0) as [-> |L].
  { exfalso. unfold decode_ud in H. rewrite len_cons, idx_0 in H. pose proof (len_nonneg b). replace (1 + len b <? 1) with false in H by lia. discriminate. }
  destruct (alphabet_of (DCS t)) as [a|] eqn:A; [|eexists; apply uf_alphabet; assumption].
  destruct (Z.lt_trichotomy (len b) (if a =? 0 then (7 * l + 7) / 8 else l)) as [S|[S|S]].
  - eexists. eapply uf_short; eassumption.
  - assert (HH : (exists h n, if Z.testbit (FO t) 6 then header_at b h n else h = None /\ n = 0) \/ Z.testbit (FO t) 6 = true /\ exists f, header_fails b f).
    { destruct (Z.testbit (FO t) 6); [|left; now exists None, 0]. destruct (udh_unmarshal b) as [[h n]|e1| |] eqn:E.
      - left. exists h, n. now apply header_iff.
      - right. split; [reflexivity|]. now apply header_fails_exists in E.
      - exfalso. pose proof (udh_unmarshal_safe b HB) as X. rewrite E in X. exact X.
      - exfalso. pose proof (udh_unmarshal_safe b HB) as X. rewrite E in X. exact X. }
    destruct HH as [(h & n & HH)|(U & [part at_ why] & HF)]; [|eexists; eapply uf_header; eassumption].
    pose proof (header_at_range _ _ _ _ HH) as Hn.
    rewrite (user_data_on t l b a h n) in H by assumption.
    destruct (skipn (Z.to_nat n) b) as [|x m] eqn:EM; [discriminate|]. destruct (a =? 0) eqn:E0.
    + assert (a = 0) by lia. subst a. cbv zeta in H. destruct (decode_7bit l n (x :: m)) as [sm|e1| |] eqn:D; try discriminate.
      apply septets_fails in D; [|rewrite <- EM; apply Forall_skipn', HB|discriminate|lia].
      eexists. eapply uf_septets; try eassumption; [now symmetry|discriminate].
    + cbv zeta in H. destruct (a =? 2) eqn:E2; [|discriminate]. assert (a = 2) by lia. subst a. cbn [andb] in H. rewrite odd_land in H.
      destruct (len (x :: m) mod 2 =? 1) eqn:O; [|discriminate].
      eexists. eapply (uf_odd _ _ l b h n (x :: m) (len (x :: m) / 2)); try eassumption; [now symmetry|lia].
  - eexists. eapply uf_long; eassumption.
Qed.
