(** Lemmas for C92. *)
From Verif Require Import GoBase GoLemmas SafeLemmas SevenBit Dcs FirstOctet TpduError Address GoTime ValidityPeriod UserData Tpdu Sms PduMode
  TpduProofs SegmentProofs Heap SpecHeap HeapProofs HeapRead HeapReadProofs HeapWrite.

(** [s] was made after [h], holds [b], and nothing that was there changed. *)
Definition made (h h' : heap Z) (s : gslice) (b : bytes) : Prop :=
  only nowhere h h' /\ ok_slice h' s /\ fresh h h' s /\ view h' s = b.
Definition wrote (h : heap Z) (x : heap Z * res gslice) (v : res bytes) : Prop :=
  only nowhere h (fst x) /\ outcome_is (snd x) v (fun s b => ok_slice (fst x) s /\ fresh h (fst x) s /\ view (fst x) s = b).

Lemma made_append grow junk h0 h s b xs h' s' : made h0 h s b -> gappend grow junk h s xs = (h', s') -> made h0 h' s' (b ++ xs).
Proof.
  intros (O & K & F & V) H. destruct (gappend_spec _ _ _ _ _ _ _ K H) as (O2 & K2 & V2 & L & D).
  pose proof O as (LO & _). pose proof O2 as (LO2 & _). split; [|split; [|split]].
  - eapply only_trans; [exact O|eapply only_weaken; [exact O2|]|].
    + intros a i _ B. exact B.
    + intros a i Ha (E & R & C). unfold fresh in F. unfold nowhere. lia.
  - assumption.
  - unfold fresh in *. destruct F; destruct D as [D|D]; try (right; lia). left. lia.
  - now rewrite V2, V.
Qed.

Lemma made_make h n h' s : gmake h n = (h', s) -> made h h' s [].
Proof.
  unfold gmake. intros H. injection H as <- <-. split; [|split; [|split]].
  - split; [rewrite app_length; lia|]. intros a Ha. rewrite array_app by assumption. auto.
  - split; [cbn; lia|right]. cbn [s_arr s_off s_cap]. rewrite app_length, array_new, repeat_length. cbn [length]. lia.
  - right. cbn [s_arr]. rewrite app_length. cbn [length]. lia.
  - reflexivity.
Qed.
Lemma made_literal h (b : list Z) h' s : gliteral h b = (h', s) -> made h h' s b.
Proof.
  unfold gliteral. intros H. injection H as <- <-. split; [|split; [|split]].
  - split; [rewrite app_length; lia|]. intros a Ha. rewrite array_app by assumption. auto.
  - split; [cbn; lia|right]. cbn [s_arr s_off s_cap]. rewrite app_length, array_new. cbn [length]. lia.
  - right. cbn [s_arr]. rewrite app_length. cbn [length]. lia.
  - unfold view. cbn [s_arr s_off s_len]. rewrite array_new. apply firstn_all.
Qed.
Lemma made_nil h : made h h nil_slice [].
Proof. split; [apply only_refl|]. split; [split; [cbn; lia|now left]|]. split; [now left|reflexivity]. Qed.
Lemma made_later h1 h2 h3 s b : only nowhere h1 h2 -> made h2 h3 s b -> made h1 h3 s b.
Proof.
  intros O (O2 & K & F & V). pose proof O as (L & _). split; [eapply nowhere_trans; eassumption|]. split; [assumption|]. split; [|assumption].
  unfold fresh in *. lia.
Qed.

Definition piece_ok (h : heap Z) (p : piece) : Prop := match p with Octets _ => True | Elems s => ok_slice h s end.
Lemma made_appends grow junk h0 : forall ps h s b h' s', made h0 h s b -> Forall (piece_ok h0) ps ->
  gappends grow junk h s ps = (h', s') -> made h0 h' s' (b ++ flat_map (piece_view h0) ps).
Proof.
  induction ps as [|p ps IH]; intros h s b h' s' M PK H; cbn [gappends flat_map] in *.
  - injection H as <- <-. now rewrite app_nil_r.
  - inversion PK as [|? ? P PK']; subst. destruct (gappend grow junk h s (piece_view h p)) as [h1 s1] eqn:E.
    assert (EV : piece_view h p = piece_view h0 p).
    { destruct p; [reflexivity|]. apply nowhere_view; [apply M|exact P]. }
    rewrite EV in E. rewrite app_assoc. eapply IH; [eapply made_append; eassumption|assumption|exact H].
Qed.

Lemma build_spec grow junk h l ps b : Forall (piece_ok h) ps -> flat_map (piece_view h) ps = b ->
  wrote h (h_build grow junk h l ps) (Ok b).
Proof.
  intros PK <-. unfold h_build. destruct (gmake h l) as [h1 s1] eqn:E1. destruct (gappends grow junk h1 s1 ps) as [h2 s2] eqn:E2.
  pose proof (made_appends _ _ _ _ _ _ _ _ _ (made_make _ _ _ _ E1) PK E2) as (O & K & F & V). split; [exact O|]. cbn [snd fst outcome_is].
  auto.
Qed.

Lemma wrote_try {A} h (r : res A) k k' : (forall a, wrote h (k a) (k' a)) -> wrote h (htry h r k) (bind r k').
Proof. intros H. destruct r; cbn [htry bind]; [apply H|..]; (split; [apply only_refl|]; cbn; auto). Qed.
Lemma wrote_on_err h x v f : wrote h x v -> wrote h (hon_err x f) (on_err v f).
Proof. intros (O & R). split; [exact O|]. destruct x as [h' r]. cbn [hon_err fst snd] in *. destruct r, v; cbn [outcome_is on_err] in *; try contradiction; congruence || auto. Qed.
Lemma wrote_bind h x v k k' : wrote h x v ->
  (forall h1 s b, only nowhere h h1 -> ok_slice h1 s -> view h1 s = b -> wrote h1 (k h1 s) (k' b)) -> wrote h (hbind x k) (bind v k').
Proof.
  intros (O & R) HK. destruct x as [h1 r]. unfold hbind. cbn [fst snd] in *.
  destruct r as [s|e| |], v as [b|e'| |]; cbn [outcome_is htry bind] in *; try contradiction; try (split; [exact O|cbn; auto]).
  destruct R as (K & F & V). destruct (HK _ _ _ O K V) as (O2 & R2). split; [eapply nowhere_trans; eassumption|].
  destruct (k h1 s) as [h2 r2], (k' b) as [b2|e2| |]; cbn [fst snd] in *; destruct r2; cbn [outcome_is] in *; try contradiction; auto.
  destruct R2 as (K2 & F2 & V2). split; [assumption|]. split; [|assumption]. destruct O as (L & _). unfold fresh in *. lia.
Qed.

Lemma udh_marshal_spec grow junk h u h' s : Forall (ok_slice h) (map ri_data u) -> h_udh_marshal grow junk h u = (h', s) ->
  made h h' s (udh_marshal (map (ie_held h) u)).
Proof.
  intros K H. unfold h_udh_marshal, udh_marshal in *. rewrite len_map. destruct (len u =? 0) eqn:E.
  - injection H as <- <-. apply made_nil.
  - destruct (gmake h _) as [h1 s1] eqn:E1.
    assert (PK : Forall (piece_ok h) (Octets [to_byte (udhl (map (ie_held h) u))] ::
        flat_map (fun i => [Octets [ri_id i; to_byte (Z.of_nat (s_len (ri_data i)))]; Elems (ri_data i)]) u)).
    { constructor; [exact I|]. clear - K. induction u as [|i u IH]; [constructor|]. cbn [map flat_map app] in *. inversion K; subst.
      constructor; [exact I|]. constructor; [assumption|auto]. }
    pose proof (made_appends _ _ _ _ _ _ _ _ _ (made_make _ _ _ _ E1) PK H) as M.
    replace (to_byte (udhl (map (ie_held h) u)) :: flat_map ie_marshal (map (ie_held h) u)) with
      ([] ++ flat_map (piece_view h) (Octets [to_byte (udhl (map (ie_held h) u))] ::
        flat_map (fun i => [Octets [ri_id i; to_byte (Z.of_nat (s_len (ri_data i)))]; Elems (ri_data i)]) u)); [exact M|].
    cbn [flat_map piece_view app]. f_equal. clear - K. induction u as [|i u IH]; [reflexivity|]. cbn [map flat_map app] in *. inversion K; subst.
    cbn [piece_view]. rewrite IH by assumption. unfold ie_marshal at 2. cbn [ie_held ie_id ie_data app]. unfold len. rewrite view_length by assumption.
    reflexivity.
Qed.

Lemma pack_spec grow junk h u fill h' s : ok_slice h u -> h_pack7bit grow junk h u fill = (h', s) -> made h h' s (pack7bit (view h u) fill).
Proof.
  intros K H. unfold h_pack7bit in H. pose proof (view_length _ _ K) as L. destruct (s_len u =? 0)%nat eqn:E.
  - assert (view h u = []) as -> by (destruct (view h u); [reflexivity|cbn in L; lia]). replace (pack7bit [] fill) with ([] ++ @nil Z) by reflexivity.
    eapply made_append; [|]. 2: { replace (view h u) with (@nil Z) in H; [exact H|]. destruct (view h u); [reflexivity|cbn in L; lia]. }
    split; [apply only_refl|]. split; [split; [cbn; lia|now left]|]. split; [now left|reflexivity].
  - destruct (gmake h _) as [h1 s1] eqn:E1. pose proof (made_make _ _ _ _ E1) as M. rewrite (nowhere_view _ _ _ (proj1 M) K) in H.
    exact (made_append _ _ _ _ _ _ _ _ _ M H).
Qed.

Definition rt_ok (h : heap Z) (t : rtpdu) : Prop := Forall (ok_slice h) (rt_slices t).
Lemma rt_ok_parts h t : rt_ok h t -> Forall (ok_slice h) (map ri_data (match rt_udh t with Some l => l | None => [] end)) /\ ok_slice h (rt_ud t).
Proof.
  intros H. unfold rt_ok, rt_slices in H. apply Forall_app in H. destruct H as (A & B). inversion B; subst. split; [|assumption].
  destruct (rt_udh t); [assumption|constructor].
Qed.

Lemma encode_ud_spec grow junk h t : rt_ok h t -> wrote h (h_encode_ud grow junk h t) (encode_ud (rt_held h t)).
Proof.
  intros K. destruct (rt_ok_parts _ _ K) as (KU & KD). unfold h_encode_ud, encode_ud.
  destruct (h_udh_marshal grow junk h _) as [h1 hd] eqn:EH. pose proof (udh_marshal_spec _ _ _ _ _ _ KU EH) as (O1 & K1 & F1 & V1).
  assert (EU : udh_marshal (ies (UDH (rt_held h t))) = view h1 hd).
  { rewrite V1. unfold rt_held. destruct t as [rest u d]. cbn [rt_rest rt_udh rt_ud]. dtpdu rest. destruct u; reflexivity. }
  assert (EA : tpdu_alphabet (rt_held h t) = tpdu_alphabet (rt_rest t)) by (destruct t as [rest u d]; now dtpdu rest).
  assert (ED : UD (rt_held h t) = view h (rt_ud t)) by (destruct t as [rest u d]; now dtpdu rest).
  rewrite EU, EA, ED. clear EU EA ED V1. cbv zeta.
  assert (LH : len (view h1 hd) = Z.of_nat (s_len hd)) by (unfold len; now rewrite view_length).
  assert (LD : len (view h (rt_ud t)) = Z.of_nat (s_len (rt_ud t))) by (unfold len; now rewrite view_length).
  rewrite LH, LD.
  assert (FIN : forall h2 ud udl b, only nowhere h1 h2 -> ok_slice h2 ud -> view h2 ud = b ->
    wrote h (let (h, b) := gmake h2 (1 + s_len hd + s_len ud) in
             let (h, b) := gappends grow junk h b [Octets [to_byte udl]; Elems hd; Elems ud] in (h, Ok b))
      (Ok (to_byte udl :: view h1 hd ++ b))).
  { intros h2 ud udl b O2 K2 V2. destruct (build_spec grow junk h2 (1 + s_len hd + s_len ud) [Octets [to_byte udl]; Elems hd; Elems ud]
      (to_byte udl :: view h1 hd ++ b)) as (O3 & R3).
    - constructor; [exact I|]. constructor; [exact (only_ok _ _ _ _ O2 K1)|]. constructor; [exact K2|constructor].
    - cbn [flat_map piece_view app]. rewrite app_nil_r, V2. now rewrite (nowhere_view h1 h2 hd O2 K1).
    - unfold h_build in *. destruct (gmake h2 _) as [h3 s3]. destruct (gappends grow junk h3 s3 _) as [h4 s4]. cbn [fst snd outcome_is] in *.
      pose proof (nowhere_trans _ _ _ O1 O2) as O12. split; [eapply nowhere_trans; eassumption|].
      cbn [fst snd outcome_is]. destruct R3 as (R1 & R2 & R3). split; [assumption|]. split; [|assumption]. destruct O12 as (L & _). unfold fresh in *. lia. }
  destruct (on_err (tpdu_alphabet (rt_rest t)) (encode_error "alphabet")) as [alpha|e| |]; cbn [htry bind]; try (split; [exact O1|cbn; auto]).
  destruct (alpha =? Alpha7Bit).
  - destruct (h_pack7bit grow junk h1 (rt_ud t) _) as [h2 ud] eqn:EP.
    pose proof (pack_spec _ _ _ _ _ _ _ (only_ok _ _ _ _ O1 KD) EP) as (O2 & K2 & F2 & V2). rewrite (nowhere_view _ _ _ O1 KD) in V2.
    apply FIN; assumption.
  - destruct ((alpha =? AlphaUCS2) && _); [split; [exact O1|cbn; auto]|]. apply FIN; [apply only_refl|exact (only_ok _ _ _ _ O1 KD)|].
    now apply nowhere_view.
Qed.

(** The fields that are no slices. *)
Lemma held_rest h t : exists u d, rt_held h t = set_UDHf (set_UDf (rt_rest t) d) u.
Proof. unfold rt_held. eauto. Qed.

Lemma with_ud_spec grow junk h t k k' : rt_ok h t ->
  (forall h1 s b, only nowhere h h1 -> ok_slice h1 s -> view h1 s = b -> wrote h1 (k h1 s) (k' b)) ->
  wrote h (h_with_ud grow junk h t k) (bind (on_err (encode_ud (rt_held h t)) (encode_error "ud")) k').
Proof. intros K H. apply wrote_bind; [|exact H]. apply wrote_on_err. now apply encode_ud_spec. Qed.
Lemma with_ud_opt_spec grow junk h t k k' : rt_ok h t ->
  (forall h1 s b, only nowhere h h1 -> ok_slice h1 s -> view h1 s = b -> wrote h1 (k h1 s) (k' b)) ->
  wrote h (h_with_ud_opt grow junk h t k)
    (bind (if pi_udl (PI (rt_rest t)) then on_err (encode_ud (rt_held h t)) (encode_error "ud") else Ok []) k').
Proof.
  intros K H. unfold h_with_ud_opt. destruct (pi_udl (PI (rt_rest t))); [now apply with_ud_spec|]. cbn [bind].
  destruct (made_nil h) as (O & N & _ & V). now apply H.
Qed.

Lemma fields h t : let v := rt_held h t in let r := rt_rest t in
  FO v = FO r /\ MR v = MR r /\ PID v = PID r /\ CT v = CT r /\ MN v = MN r /\ DA v = DA r /\ OA v = OA r /\ RA v = RA r /\
  SCTS v = SCTS r /\ DT v = DT r /\ ST v = ST r /\ PI v = PI r /\ DCS v = DCS r /\ FCS v = FCS r /\ VP v = VP r /\ tpdu_type v = tpdu_type r /\
  UD v = view h (rt_ud t).
Proof. destruct t as [rest u d]. dtpdu rest. cbv. repeat split. Qed.

Ltac fieldwise h t :=
  pose proof (fields h t) as F; cbv zeta in F;
  destruct F as (E1 & E2 & E3 & E4 & E5 & E6 & E7 & E8 & E9 & E10 & E11 & E12 & E13 & E14 & E15 & E16 & E17);
  rewrite ?E1, ?E2, ?E3, ?E4, ?E5, ?E6, ?E7, ?E8, ?E9, ?E10, ?E11, ?E12, ?E13, ?E14, ?E15, ?E17;
  clear E1 E2 E3 E4 E5 E6 E7 E8 E9 E10 E11 E12 E13 E14 E15 E16 E17.

Lemma command_spec grow junk h t : rt_ok h t -> wrote h (h_marshal_command grow junk h t) (marshal_command (rt_held h t)).
Proof.
  intros K. destruct (rt_ok_parts _ _ K) as (_ & KD). unfold h_marshal_command, marshal_command. fieldwise h t. cbv zeta.
  apply wrote_try. intros da. apply build_spec.
  - repeat (apply Forall_cons || apply Forall_nil || exact I || exact KD).
  - cbn [flat_map piece_view app]. rewrite app_nil_r. unfold len. now rewrite view_length.
Qed.
Lemma deliver_spec grow junk h t : rt_ok h t -> wrote h (h_marshal_deliver grow junk h t) (marshal_deliver (rt_held h t)).
Proof.
  intros K. unfold h_marshal_deliver, marshal_deliver. fieldwise h t. cbv zeta.
  apply wrote_try. intros oa. apply wrote_try. intros scts. apply with_ud_spec; [assumption|]. intros h1 s b O KS <-. apply build_spec.
  - repeat (apply Forall_cons || apply Forall_nil || exact I || exact KS).
  - cbn [flat_map piece_view app]. now rewrite app_nil_r.
Qed.
Lemma submit_spec grow junk h t : rt_ok h t -> wrote h (h_marshal_submit grow junk h t) (marshal_submit (rt_held h t)).
Proof.
  intros K. unfold h_marshal_submit, marshal_submit. fieldwise h t. cbv zeta.
  apply wrote_try. intros da. apply with_ud_spec; [assumption|]. intros h1 s b O KS <-. apply wrote_try. intros vp. apply build_spec.
  - repeat (apply Forall_cons || apply Forall_nil || exact I || exact KS).
  - cbn [flat_map piece_view app]. now rewrite app_nil_r.
Qed.
Lemma deliver_report_spec grow junk h t : rt_ok h t -> wrote h (h_marshal_deliver_report grow junk h t) (marshal_deliver_report (rt_held h t)).
Proof.
  intros K. unfold h_marshal_deliver_report, marshal_deliver_report, marshal_opt. fieldwise h t. cbv zeta.
  apply with_ud_opt_spec; [assumption|]. intros h1 s b O KS <-.
  destruct (negb _), (pi_pid _), (pi_dcs _); cbn [app]; (apply build_spec;
    [repeat (apply Forall_cons || apply Forall_nil || exact I || exact KS)|cbn [flat_map piece_view app]; now rewrite app_nil_r]).
Qed.
Lemma submit_report_spec grow junk h t : rt_ok h t -> wrote h (h_marshal_submit_report grow junk h t) (marshal_submit_report (rt_held h t)).
Proof.
  intros K. unfold h_marshal_submit_report, marshal_submit_report, marshal_opt. fieldwise h t. cbv zeta.
  apply wrote_try. intros scts. apply with_ud_opt_spec; [assumption|]. intros h1 s b O KS <-.
  destruct (negb _), (pi_pid _), (pi_dcs _); cbn [app]; (apply build_spec;
    [repeat (apply Forall_cons || apply Forall_nil || exact I || exact KS)|cbn [flat_map piece_view app]; now rewrite app_nil_r]).
Qed.
Lemma status_report_spec grow junk h t : rt_ok h t -> wrote h (h_marshal_status_report grow junk h t) (marshal_status_report (rt_held h t)).
Proof.
  intros K. unfold h_marshal_status_report, marshal_status_report, marshal_opt. fieldwise h t. cbv zeta.
  apply wrote_try. intros ra. apply wrote_try. intros scts. apply wrote_try. intros dt.
  apply with_ud_opt_spec; [assumption|]. intros h1 s b O KS <-.
  destruct (PI (rt_rest t) =? 0), (pi_pid (PI (rt_rest t))), (pi_dcs (PI (rt_rest t))); cbn [app]; (apply build_spec;
    [repeat (apply Forall_cons || apply Forall_nil || exact I || exact KS)|cbn [flat_map piece_view app]; rewrite <- ?app_assoc; cbn [app]; now rewrite ?app_nil_r]).
Qed.

Lemma marshal_spec grow junk h t : rt_ok h t -> wrote h (h_marshal grow junk h t) (tpdu_marshal (rt_held h t)).
Proof.
  intros K. unfold h_marshal, tpdu_marshal. assert (tpdu_type (rt_held h t) = tpdu_type (rt_rest t)) as -> by apply (fields h t). cbv zeta.
  destruct (_ =? SmsDeliver); [apply wrote_on_err; now apply deliver_spec|].
  destruct (_ =? SmsDeliverReport); [apply wrote_on_err; now apply deliver_report_spec|].
  destruct (_ =? SmsSubmitReport); [apply wrote_on_err; now apply submit_report_spec|].
  destruct (_ =? SmsSubmit); [apply wrote_on_err; now apply submit_spec|].
  destruct (_ =? SmsStatusReport); [apply wrote_on_err; now apply status_report_spec|].
  destruct (_ =? SmsCommand); [apply wrote_on_err; now apply command_spec|].
  split; [apply only_refl|reflexivity].
Qed.

Lemma pdu_marshal_spec grow junk h p : ok_slice h (rp_tpdu p) -> wrote h (h_pdu_marshal grow junk h p) (pdu_marshal (rp_held h p)).
Proof.
  intros K. unfold h_pdu_marshal, pdu_marshal. cbn [rp_held p_smsc p_tpdu]. apply wrote_try. intros a.
  destruct (gliteral h a) as [h1 s1] eqn:E1. pose proof (made_literal _ _ _ _ E1) as M1. rewrite (nowhere_view _ _ _ (proj1 M1) K).
  destruct (gappend grow junk h1 s1 (view h (rp_tpdu p))) as [h2 s2] eqn:E2. pose proof (made_append _ _ _ _ _ _ _ _ _ M1 E2) as (O & K2 & F & V).
  split; [exact O|]. cbn. auto.
Qed.
