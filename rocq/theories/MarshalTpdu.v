(** Lemmas for C77, of whole TPDUs: what MarshalBinary makes of any TPDU. *)
From Verif Require Import GoBase GoLemmas SafeLemmas Utf UtfProofs Bcd Semioctet DigitsProofs SevenBit SevenBitProofs Charset Gsm7 CharsetProofs
  Dcs FirstOctet TpduError Address AddressProofs GoTime GoFloat TimeProofs ValidityPeriod VPProofs UserData UdProofs Tpdu
  SegmentProofs SegmentFitProofs FlagsProofs TpduProofs ShownProofs WireProofs
  SpecText SpecBits SpecDigits SpecTime SpecVP SpecDcs SpecAlphabet SpecShown SpecSegment SpecMarshal MarshalProofs.

(** ** TPDUs *)
Definition at_field (f : string) (o : outcome) : res bytes :=
  match o with Written b => Ok b | Refused w e => Err (EncodeErr (sub f w) e) end.
Definition field_is (f : string) (r : res bytes) (R : outcome -> Prop) : Prop :=
  (exists o, R o) /\ forall o, R o -> r = at_field f o.
Lemma meets_field f r R : meets r R -> field_is f (on_err r (encode_error f)) R.
Proof.
  intros ((o & H & _) & C). split; [eauto|]. clear o H. intros o H. destruct (C o H) as (-> & P).
  destruct o as [b|w e]; [reflexivity|]. cbn [res_of at_field on_err]. unfold sub. destruct (w =? "")%string; [|reflexivity].
  destruct e; cbn [plain_out plain] in P; try contradiction; reflexivity.
Qed.
Lemma announced_field t : marshal_domain t ->
  field_is "ud" (if pi_udl (PI t) then on_err (encode_ud t) (encode_error "ud") else Ok []) (announced t).
Proof.
  intros D. unfold announced. destruct (pi_bits (PI t)) as (_ & _ & ->). destruct (Z.testbit (PI t) 2).
  - apply meets_field, ud_meets, D.
  - split; [eauto|]. intros o ->. reflexivity.
Qed.
Lemma type_marshal t : marshal_domain t ->
  let wrap name r := on_err r (encode_error name) in
  tpdu_marshal t =
    if Direction t =? 0 then
      if FO t mod 4 =? 0 then wrap "SmsDeliver"%string (marshal_deliver t)
      else if FO t mod 4 =? 1 then wrap "SmsSubmitReport"%string (marshal_submit_report t)
      else if FO t mod 4 =? 2 then wrap "SmsStatusReport"%string (marshal_status_report t)
      else Err (ErrUnsupportedSmsType 6)
    else
      if FO t mod 4 =? 0 then wrap "SmsDeliverReport"%string (marshal_deliver_report t)
      else if FO t mod 4 =? 1 then wrap "SmsSubmit"%string (marshal_submit t)
      else if FO t mod 4 =? 2 then wrap "SmsCommand"%string (marshal_command t)
      else Err (ErrUnsupportedSmsType 7).
Proof.
  intros (D & B & _). cbn zeta. unfold tpdu_marshal.
  assert (E : tpdu_type t = 2 * (FO t mod 4) + Direction t).
  { unfold tpdu_type, sms_type, fo_mti. change FoMTIMask with 3. replace (Z.land (FO t) 3) with (FO t mod 4) by (symmetry; apply (Z.land_ones (FO t) 2); lia).
    assert (C : FO t mod 4 = 0 \/ FO t mod 4 = 1 \/ FO t mod 4 = 2 \/ FO t mod 4 = 3) by lia.
    destruct D as [-> | ->], C as [->|[->|[->| ->]]]; reflexivity. }
  unfold sms_type_string, SmsDeliver, SmsDeliverReport, SmsSubmitReport, SmsSubmit, SmsStatusReport, SmsCommand. cbn zeta. rewrite E.
  assert (C : FO t mod 4 = 0 \/ FO t mod 4 = 1 \/ FO t mod 4 = 2 \/ FO t mod 4 = 3) by lia.
  destruct D as [-> | ->], C as [->|[->|[->| ->]]]; cbn [Z.mul Z.add Z.eqb Pos.mul Pos.add Pos.eqb Pos.succ]; reflexivity.
Qed.

Lemma opt_octets t : marshal_opt t = announced_octets t.
Proof. unfold marshal_opt, announced_octets. destruct (pi_bits (PI t)) as (-> & -> & _). reflexivity. Qed.
Lemma fcs_octets x : (if negb (x =? 0) then [x] else []) = unless_zero x.
Proof. unfold unless_zero. now destruct (x =? 0). Qed.

Lemma vp_field t : field_is "vp" (if negb (vp_format (VP t) =? VpfNotPresent) then on_err (vp_marshal (VP t)) (encode_error "vp") else Ok [])
  (period_gives (VP t)).
Proof.
  destruct (vp_format (VP t) =? VpfNotPresent) eqn:N; cbn [negb]; [|apply meets_field, vp_meets].
  split; [apply vp_sound|]. intros o V. apply vp_complete in V as (V & _). unfold vp_marshal in V. change VpfNotPresent with 0 in N.
  replace (vp_format (VP t)) with 0 in V by lia. cbn in V. destruct o as [b|w e]; cbn in V; [now apply ok_inj in V as <-|discriminate].
Qed.

(** The octets described are those written. *)
Lemma written_complete t b : marshal_domain t -> tpdu_written t b -> tpdu_marshal t = Ok b.
Proof.
  intros D W. rewrite (type_marshal t D). pose proof D as (_ & _ & _ & _ & BE & GO & GD & GR & _). cbn zeta.
  destruct (meets_field "oa" _ _ (addr_meets _ GO)) as (_ & COA). destruct (meets_field "da" _ _ (addr_meets _ GD)) as (_ & CDA).
  destruct (meets_field "ra" _ _ (addr_meets _ GR)) as (_ & CRA). destruct (meets_field "scts" _ _ (ts_meets (SCTS t))) as (_ & CTS).
  destruct (meets_field "dt" _ _ (ts_meets (DT t))) as (_ & CDT). destruct (meets_field "ud" _ _ (ud_meets t D)) as (_ & CUD).
  destruct (vp_field t) as (_ & CVP). destruct (announced_field t D) as (_ & CAN).
  destruct W as [oa ts ud E F A T U|ud E F U|ts ud E F T U|da vp ud E F A V U|ra ts dt ud E F A T T2 U|da E F A]; rewrite E, F;
    try apply COA in A; try apply CTS in T.
  - apply CUD in U. cbn [Z.eqb]. unfold marshal_deliver. rewrite A, T, U. reflexivity.
  - apply CAN in U. cbn [Z.eqb]. unfold marshal_deliver_report. rewrite U. cbn [at_field bind on_err]. now rewrite opt_octets, fcs_octets.
  - apply CAN in U. cbn [Z.eqb]. unfold marshal_submit_report. rewrite T, U. cbn [at_field bind on_err]. now rewrite opt_octets, fcs_octets.
  - apply CUD in U. apply CDA in A. cbn [Z.eqb]. unfold marshal_submit. rewrite A, U. cbn [at_field bind on_err].
    apply CVP in V. rewrite V. reflexivity.
  - apply CAN in U. apply CRA in A. apply CDT in T2. cbn [Z.eqb]. unfold marshal_status_report. rewrite A, T, T2, U. cbn [at_field bind on_err].
    destruct (PI t =? 0); cbn [on_err]; [now rewrite app_nil_r|]. rewrite opt_octets. cbn [app]. now rewrite <- !app_assoc.
  - apply CDA in A. cbn [Z.eqb]. unfold marshal_command. rewrite A. reflexivity.
Qed.

(** The reason described is the one given. *)
Lemma sub_sub f w name e : (f =? "")%string = false -> encode_error name (EncodeErr (sub f w) e) = EncodeErr (sub name (sub f w)) e.
Proof.
  intros F. assert (N : (sub f w =? "")%string = false) by (unfold sub; destruct (w =? "")%string; [easy|]; destruct f; [discriminate|reflexivity]).
  remember (sub f w) as x. unfold encode_error, sub. now rewrite N.
Qed.
Ltac split_before H B :=
  match type of H with
  | _ = ?before ++ _ => destruct before as [|? [|? [|? [|? [|? before]]]]]; cbn [app] in H; try discriminate H;
      injection H; intros; subst; repeat match goal with F : Forall _ (_ :: _) |- _ => apply Forall_cons_iff in F as ((? & ?) & F); cbn [snd] in * end
  end.
Lemma refused_complete t e : marshal_domain t -> tpdu_refused t e -> tpdu_marshal t = Err e.
Proof.
  intros D W. rewrite (type_marshal t D). pose proof D as (_ & _ & _ & _ & BE & GO & GD & GR & _). cbn zeta.
  destruct (meets_field "oa" _ _ (addr_meets _ GO)) as (_ & COA). destruct (meets_field "da" _ _ (addr_meets _ GD)) as (_ & CDA).
  destruct (meets_field "ra" _ _ (addr_meets _ GR)) as (_ & CRA). destruct (meets_field "scts" _ _ (ts_meets (SCTS t))) as (_ & CTS).
  destruct (meets_field "dt" _ _ (ts_meets (DT t))) as (_ & CDT). destruct (meets_field "ud" _ _ (ud_meets t D)) as (_ & CUD).
  destruct (vp_field t) as (_ & CVP). destruct (announced_field t D) as (_ & CAN).
  assert (C : FO t mod 4 = 0 \/ FO t mod 4 = 1 \/ FO t mod 4 = 2 \/ FO t mod 4 = 3) by lia.
  destruct W as [mo name before f R after wh why E T B X|mo E T]; rewrite E in *; unfold type_fields in T;
    destruct mo, C as [C|[C|[C|C]]]; rewrite C in *; try discriminate T; cbn [Z.eqb Pos.eqb]; try reflexivity;
    injection T as <- T; split_before T B;
    repeat match goal with
    | H : address_gives (OA t) _ |- _ => apply COA in H
    | H : address_gives (DA t) _ |- _ => apply CDA in H
    | H : address_gives (RA t) _ |- _ => apply CRA in H
    | H : time_gives (SCTS t) _ |- _ => apply CTS in H
    | H : time_gives (DT t) _ |- _ => apply CDT in H
    | H : ud_gives t _ |- _ => apply CUD in H
    | H : period_gives (VP t) _ |- _ => apply CVP in H
    | H : announced t _ |- _ => apply CAN in H
    end;
    unfold marshal_deliver, marshal_deliver_report, marshal_submit_report, marshal_submit, marshal_status_report, marshal_command;
    repeat match goal with H : ?r = at_field _ _ |- _ => rewrite H; clear H end; cbn [at_field bind on_err];
    rewrite sub_sub by reflexivity; reflexivity.
Qed.

(** One of the two is always described. *)
Lemma some_outcome t : marshal_domain t -> (exists b, tpdu_written t b) \/ (exists e, tpdu_refused t e).
Proof.
  intros D. pose proof D as (DI & _ & _ & _ & BE & GO & GD & GR & _).
  destruct (meets_field "oa" _ _ (addr_meets _ GO)) as ((oa & HOA) & _). destruct (meets_field "da" _ _ (addr_meets _ GD)) as ((da & HDA) & _).
  destruct (meets_field "ra" _ _ (addr_meets _ GR)) as ((ra & HRA) & _). destruct (meets_field "scts" _ _ (ts_meets (SCTS t))) as ((ts & HTS) & _).
  destruct (meets_field "dt" _ _ (ts_meets (DT t))) as ((dt & HDT) & _). destruct (meets_field "ud" _ _ (ud_meets t D)) as ((ud & HUD) & _).
  destruct (vp_field t) as ((vp & HVP) & _). destruct (announced_field t D) as ((an & HAN) & _).
  assert (C : FO t mod 4 = 0 \/ FO t mod 4 = 1 \/ FO t mod 4 = 2 \/ FO t mod 4 = 3) by lia.
  assert (R : forall mo name before f R after wh why, Direction t = (if mo : bool then 1 else 0) ->
    type_fields mo t = Some (name, before ++ (f, R) :: after) -> Forall (fun x => exists b, snd x (Written b)) before -> R (Refused wh why) ->
    (exists b, tpdu_written t b) \/ (exists e, tpdu_refused t e)).
  { intros. right. eexists. eapply tr_field; eassumption. }
  destruct DI as [DI|DI], C as [C|[C|[C|C]]].
  - destruct oa as [oa|w e]; [|eapply (R false _ []); [exact DI|unfold type_fields; rewrite C; reflexivity|constructor|exact HOA]].
    destruct ts as [ts|w e]; [|eapply (R false _ [_]); [exact DI|unfold type_fields; rewrite C; reflexivity|repeat constructor; cbn [snd]; eauto|exact HTS]].
    destruct ud as [ud|w e]; [|eapply (R false _ [_; _]); [exact DI|unfold type_fields; rewrite C; reflexivity|repeat constructor; cbn [snd]; eauto|exact HUD]].
    left. eexists. eapply tw_deliver; eassumption.
  - destruct ts as [ts|w e]; [|eapply (R false _ []); [exact DI|unfold type_fields; rewrite C; reflexivity|repeat constructor; cbn [snd]; eauto|exact HTS]].
    destruct an as [ud'|w e]; [|eapply (R false _ [_]); [exact DI|unfold type_fields; rewrite C; reflexivity|repeat constructor; cbn [snd]; eauto|exact HAN]].
    left. eexists. eapply tw_submit_report; eassumption.
  - destruct ra as [ra|w e]; [|eapply (R false _ []); [exact DI|unfold type_fields; rewrite C; reflexivity|constructor|exact HRA]].
    destruct ts as [ts|w e]; [|eapply (R false _ [_]); [exact DI|unfold type_fields; rewrite C; reflexivity|repeat constructor; cbn [snd]; eauto|exact HTS]].
    destruct dt as [dt|w e]; [|eapply (R false _ [_; _]); [exact DI|unfold type_fields; rewrite C; reflexivity|repeat constructor; cbn [snd]; eauto|exact HDT]].
    destruct an as [ud'|w e]; [|eapply (R false _ [_; _; _]); [exact DI|unfold type_fields; rewrite C; reflexivity|repeat constructor; cbn [snd]; eauto|exact HAN]].
    left. eexists. eapply tw_status_report; eassumption.
  - right. eexists. apply (tr_type t false DI). unfold type_fields. now rewrite C.
  - destruct an as [ud'|w e]; [|eapply (R true _ []); [exact DI|unfold type_fields; rewrite C; reflexivity|repeat constructor; cbn [snd]; eauto|exact HAN]].
    left. eexists. eapply tw_deliver_report; eassumption.
  - destruct da as [da|w e]; [|eapply (R true _ []); [exact DI|unfold type_fields; rewrite C; reflexivity|constructor|exact HDA]].
    destruct ud as [ud|w e]; [|eapply (R true _ [_]); [exact DI|unfold type_fields; rewrite C; reflexivity|repeat constructor; cbn [snd]; eauto|exact HUD]].
    destruct vp as [vp|w e]; [|eapply (R true _ [_; _]); [exact DI|unfold type_fields; rewrite C; reflexivity|repeat constructor; cbn [snd]; eauto|exact HVP]].
    left. eexists. eapply tw_submit; eassumption.
  - destruct da as [da|w e]; [|eapply (R true _ []); [exact DI|unfold type_fields; rewrite C; reflexivity|constructor|exact HDA]].
    left. eexists. eapply tw_command; eassumption.
  - right. eexists. apply (tr_type t true DI). unfold type_fields. now rewrite C.
Qed.
Lemma written_iff t b : marshal_domain t -> (tpdu_marshal t = Ok b <-> tpdu_written t b).
Proof.
  intros D. split; [|now apply written_complete]. intros H. destruct (some_outcome t D) as [(b' & W)|(e & W)].
  - pose proof (written_complete t b' D W) as E. rewrite H in E. apply ok_inj in E as ->. exact W.
  - pose proof (refused_complete t e D W) as E. rewrite H in E. discriminate.
Qed.
Lemma refused_iff t e : marshal_domain t -> (tpdu_marshal t = Err e <-> tpdu_refused t e).
Proof.
  intros D. split; [|now apply refused_complete]. intros H. destruct (some_outcome t D) as [(b & W)|(e' & W)].
  - pose proof (written_complete t b D W) as E. rewrite H in E. discriminate.
  - pose proof (refused_complete t e' D W) as E. rewrite H in E. assert (e = e') as -> by congruence. exact W.
Qed.
Lemma meets_ok r R b : meets r R -> (r = Ok b <-> R (Written b)).
Proof.
  intros ((o & H & ->) & C). split; intros G.
  - destruct o as [b'|f w]; [|discriminate]. cbn in G. apply ok_inj in G as ->. exact H.
  - destruct (C _ G) as (-> & _). reflexivity.
Qed.
Lemma meets_err r R e : meets r R -> (r = Err e <-> exists f w, R (Refused f w) /\ e = (if (f =? "")%string then w else EncodeErr f w)).
Proof.
  intros ((o & H & ->) & C). split.
  - intros G. destruct o as [b'|f w]; [discriminate|]. cbn [res_of] in G. exists f, w. split; [exact H|]. congruence.
  - intros (f & w & G & ->). destruct (C _ G) as (-> & _). reflexivity.
Qed.
