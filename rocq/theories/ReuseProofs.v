(** Proofs about UnmarshalBinary on a TPDU that was used before: the run on the
    used receiver and the run on a new one are followed side by side. *)
From Verif Require Import GoBase GoLemmas SevenBit Dcs FirstOctet TpduError Address GoTime
  ValidityPeriod UserData Tpdu Sms SafeLemmas SegmentProofs TpduSafeProofs SpecReuse.

Definition rel {A} (R : A -> A -> Prop) (x y : res A) : Prop :=
  match x, y with
  | Ok a, Ok b => R a b
  | Err e, Err f => e = f
  | Panic, Panic => True
  | Diverge, Diverge => True
  | _, _ => False
  end.
Lemma rel_refl {A} (R : A -> A -> Prop) x : (forall a, R a a) -> rel R x x.
Proof. destruct x; cbn; auto. Qed.
Lemma rel_bind {A B} (R : A -> A -> Prop) (S : B -> B -> Prop) m m' k k' :
  rel R m m' -> (forall a b, R a b -> rel S (k a) (k' b)) -> rel S (bind m k) (bind m' k').
Proof. destruct m, m'; cbn; auto; tauto. Qed.
Lemma rel_same {A B} (S : B -> B -> Prop) (m : res A) k k' :
  (forall a, m = Ok a -> rel S (k a) (k' a)) -> rel S (bind m k) (bind m k').
Proof. destruct m; cbn; auto. Qed.
Lemma rel_on_err {A} (R : A -> A -> Prop) m m' f : rel R m m' -> rel R (on_err m f) (on_err m' f).
Proof. destruct m, m'; cbn; auto; try tauto. congruence. Qed.
Lemma rel_impl {A} (R S : A -> A -> Prop) m m' : (forall a b, R a b -> S a b) -> rel R m m' -> rel S m m'.
Proof. intros H. destruct m, m'; cbn; auto. Qed.

Definition ud_rel (t t0 r r0 : tpdu) : Prop :=
  but_ud t r /\ but_ud t0 r0 /\ ud_assigned t r0 r.

Lemma but_ud_refl t : but_ud t t.
Proof. destruct t. reflexivity. Qed.
Lemma but_ud_h t h : but_ud t (set_UDHf t h).
Proof. destruct t. reflexivity. Qed.
Lemma but_ud_uh t u h : but_ud t (set_UDHf (set_UDf t u) h).
Proof. destruct t. reflexivity. Qed.

Lemma decode_ud_rel t t0 src : DCS t = DCS t0 -> FO t = FO t0 -> UD t0 = [] -> UDH t0 = None ->
  rel (ud_rel t t0) (decode_ud t src) (decode_ud t0 src).
Proof.
  intros HD HF HU HH. unfold decode_ud.
  destruct (len src <? 1); [reflexivity|].
  apply rel_same. intros udl _. destruct (udl =? 0).
  { cbn [rel]. repeat split; try apply but_ud_refl. right. rewrite HU, HH. auto. }
  unfold tpdu_alphabet. rewrite HD, HF.
  apply rel_same. intros alpha _.
  match goal with |- rel _ (if ?b then _ else _) _ => destruct b; [reflexivity|] end.
  match goal with |- rel _ (if ?b then _ else _) _ => destruct b; [reflexivity|] end.
  apply rel_same. intros [h hl] _.
  destruct (1 + hl =? len src).
  { cbn [rel]. repeat split; try apply but_ud_h. right.
    destruct t, t0. cbn in *. subst. auto. }
  apply rel_same. intros s _. destruct (alpha =? Alpha7Bit).
  - apply rel_same. intros sm _. cbn [rel]. repeat split; try apply but_ud_uh. left.
    destruct t, t0. split; reflexivity.
  - destruct ((alpha =? AlphaUCS2) && _); [reflexivity|]. cbn [rel].
    repeat split; try apply but_ud_uh. left. destruct t, t0. split; reflexivity.
Qed.

Definition type_rel (assign : tpdu -> tpdu -> tpdu) (t r r0 : tpdu) : Prop :=
  but_ud (assign t r0) r /\ ud_assigned t r0 r.

Ltac records := repeat match goal with t : tpdu |- _ => destruct t end.
Ltac eqs := repeat match goal with
  | H : Build_tpdu _ _ _ _ _ _ _ _ _ _ _ _ _ _ _ _ _ _ = Build_tpdu _ _ _ _ _ _ _ _ _ _ _ _ _ _ _ _ _ _ |- _ =>
      injection H; clear H; intros; subst end.
Ltac setters := cbn [set_Direction set_FO set_OA set_FCS set_MR set_CT set_MN set_DA set_RA set_PI
  set_SCTS set_DT set_ST set_PIDf set_DCSf set_VPf set_UDHf set_UDf
  Direction FO OA FCS MR CT MN DA RA PI SCTS DT ST PID DCS VP UDH UD] in *.
Ltac settle :=
  intros r r0 (B & B0 & U); unfold type_rel, but_ud, ud_assigned in *; records; setters; subst;
  eqs; split; [reflexivity|exact U].

Lemma deliver_rel t t0 src : FO t = FO t0 -> UD t0 = [] -> UDH t0 = None ->
  rel (type_rel assign_deliver t) (unmarshal_deliver t src) (unmarshal_deliver t0 src).
Proof.
  intros HF HU HH. unfold unmarshal_deliver.
  apply rel_same. intros [a n] _. apply rel_same. intros b _.
  apply rel_same. intros [x1 b1] _. apply rel_same. intros [x2 b2] _.
  apply rel_same. intros ts _. apply rel_on_err.
  eapply rel_impl; [|apply decode_ud_rel; records; setters; assumption || reflexivity].
  unfold assign_deliver. settle.
Qed.
Lemma command_rel t t0 src : FO t = FO t0 -> UD t0 = [] -> UDH t0 = None ->
  rel (type_rel assign_command t) (unmarshal_command t src) (unmarshal_command t0 src).
Proof.
  intros HF HU HH. unfold unmarshal_command.
  apply rel_same. intros [x1 b1] _. apply rel_same. intros [x2 b2] _.
  apply rel_same. intros [x3 b3] _. apply rel_same. intros [x4 b4] _.
  apply rel_same. intros [a n] _. apply rel_on_err.
  eapply rel_impl; [|apply decode_ud_rel; records; setters; assumption || reflexivity].
  unfold assign_command. settle.
Qed.

Lemma vp_rel v v0 s f : rel (fun x y => snd x = snd y /\ same_period (fst x) (fst y))
  (vp_unmarshal v s f) (vp_unmarshal v0 s f).
Proof.
  unfold vp_unmarshal, same_period. destruct (f =? VpfAbsolute) eqn:E1.
  { apply rel_same. intros t _. cbn [rel fst snd vp_format]. split; [reflexivity|]. split; [reflexivity|].
    unfold vp_marshal. cbn [vp_format vp_time vp_duration vp_efi]. rewrite E1. reflexivity. }
  destruct (f =? VpfEnhanced) eqn:E2.
  { apply rel_same. intros [efi d] _. cbn [rel fst snd vp_format]. split; [reflexivity|].
    split; [reflexivity|]. unfold vp_marshal. cbn [vp_format vp_time vp_duration vp_efi].
    rewrite E1, E2. reflexivity. }
  destruct (f =? VpfRelative) eqn:E3.
  { destruct (len s <? 1); [reflexivity|]. apply rel_same. intros b _. cbn [rel fst snd vp_format].
    split; [reflexivity|]. split; [reflexivity|].
    unfold vp_marshal. cbn [vp_format vp_time vp_duration vp_efi]. rewrite E1, E2, E3. reflexivity. }
  destruct (f =? VpfNotPresent) eqn:E4; [|reflexivity].
  cbn [rel fst snd vp_format]. split; [reflexivity|]. split; [reflexivity|]. reflexivity.
Qed.
Definition submit_rel (t r r0 : tpdu) : Prop :=
  but_ud (set_VPf (assign_submit t r0) (VP r)) r /\ same_period (VP r) (VP r0) /\ ud_assigned t r0 r.
Lemma submit_rel_ok t t0 src : FO t = FO t0 -> UD t0 = [] -> UDH t0 = None ->
  rel (submit_rel t) (unmarshal_submit t src) (unmarshal_submit t0 src).
Proof.
  intros HF HU HH. unfold unmarshal_submit. destruct (len src <? 1); [reflexivity|].
  apply rel_same. intros x1 _. apply rel_same. intros s _. apply rel_same. intros [a n] _.
  match goal with |- rel _ (if ?b then _ else _) _ => destruct b; [reflexivity|] end.
  apply rel_same. intros x2 _.
  match goal with |- rel _ (if ?b then _ else _) _ => destruct b; [reflexivity|] end.
  apply rel_same. intros x3 _. apply rel_same. intros s2 _.
  eapply rel_bind.
  { apply rel_on_err. match goal with |- rel _ (vp_unmarshal _ _ ?f) (vp_unmarshal _ _ ?g) =>
      replace g with f by (destruct t, t0; setters; congruence) end. apply vp_rel. }
  intros [v n1] [v0 n2] [E P]. cbn [fst snd] in E, P. subst n2.
  apply rel_same. intros s3 _. apply rel_on_err.
  eapply rel_impl; [|apply decode_ud_rel; destruct t, t0; setters; assumption || reflexivity].
  intros r r0 (B & B0 & U). unfold submit_rel, assign_submit, but_ud, ud_assigned in *.
  records. setters. subst. eqs. split; [reflexivity|]. split; [exact P|exact U].
Qed.

(** Reports: the old data coding must not matter. *)
Definition announces (p : Z) : Prop := pi_udl p = true -> pi_dcs p = true.
Definition relc (R : tpdu -> tpdu -> Prop) (x y : res tpdu) : Prop :=
  forall b, y = Ok b -> announces (PI b) -> exists a, x = Ok a /\ R a b.
Lemma relc_same {A} R (m : res A) k k' :
  (forall a, m = Ok a -> relc R (k a) (k' a)) -> relc R (bind m k) (bind m k').
Proof. destruct m; cbn; intros H b Hb; try discriminate. exact (H a eq_refl b Hb). Qed.
Lemma relc_err R x e : relc R x (Err e).
Proof. intros b Hb. discriminate. Qed.

Lemma decode_ud_pi t src r : decode_ud t src = Ok r -> PI r = PI t.
Proof.
  intros H.
  assert (X : forall t', but_ud t t' -> PI t' = PI t).
  { intros t' B. unfold but_ud in B. destruct t, t'. setters. eqs. reflexivity. }
  apply X. clear X. unfold decode_ud in H.
  repeat match type of H with
  | bind ?m _ = Ok _ => let E := fresh in destruct m as [?| | |] eqn:E; cbn [bind] in H; try discriminate
  | (if ?b then _ else _) = Ok _ => destruct b; try discriminate
  | (let '(_, _) := ?p in _) = Ok _ => destruct p
  | Ok _ = Ok _ => injection H as <-
  end; try apply but_ud_refl; try apply but_ud_h; try apply but_ud_uh.
Qed.
Lemma optionals_pi t src ri r : unmarshal_optionals t src ri = Ok r -> PI r = PI t.
Proof.
  unfold unmarshal_optionals. intros H.
  apply bind_ok in H as ([t1 ri1] & H1 & H). apply bind_ok in H as ([t2 ri2] & H2 & H).
  assert (P1 : PI t1 = PI t).
  { destruct (pi_pid (PI t)); [|injection H1 as <- _; reflexivity].
    destruct (len src <=? ri); [discriminate|]. apply bind_ok in H1 as (x & _ & H1).
    injection H1 as <- _. destruct t. reflexivity. }
  assert (P2 : PI t2 = PI t1).
  { destruct (pi_dcs (PI t1)); [|injection H2 as <- _; reflexivity].
    destruct (len src <=? ri1); [discriminate|]. apply bind_ok in H2 as (x & _ & H2).
    injection H2 as <- _. destruct t1. reflexivity. }
  destruct (pi_udl (PI t2)); [|injection H as <-; congruence].
  apply bind_ok in H as (s & _ & H). apply on_err_ok in H. apply decode_ud_pi in H. congruence.
Qed.

Definition opt_rel (t t0 r r0 : tpdu) : Prop :=
  but_ud (assign_optionals t r0) r /\ but_ud (assign_optionals t0 r0) r0 /\ ud_assigned t r0 r.
Lemma optionals_rel t t0 src ri : PI t = PI t0 -> FO t = FO t0 -> UD t0 = [] -> UDH t0 = None ->
  announces (PI t0) \/ DCS t = DCS t0 ->
  rel (opt_rel t t0) (unmarshal_optionals t src ri) (unmarshal_optionals t0 src ri).
Proof.
  intros HP HF HU HH HA. unfold unmarshal_optionals. rewrite HP.
  destruct (pi_pid (PI t0)) eqn:E1.
  - destruct (len src <=? ri); [reflexivity|].
    destruct (idx src ri) as [x| | |]; cbn [bind rel]; auto.
    destruct t, t0. setters. subst. destruct (pi_dcs _) eqn:E2.
    + destruct (len src <=? ri + 1); [reflexivity|].
      destruct (idx src (ri + 1)) as [y| | |]; cbn [bind rel]; auto. setters. subst.
      destruct (pi_udl _) eqn:E3.
      * apply rel_same. intros s _. apply rel_on_err.
        eapply rel_impl; [|apply decode_ud_rel; setters; reflexivity].
        intros r r0 (B & B0 & U). unfold opt_rel, assign_optionals, but_ud, ud_assigned in *.
        records. setters. eqs. rewrite E1, E2. setters. auto.
      * cbn [rel]. unfold opt_rel, assign_optionals, but_ud, ud_assigned. setters.
        rewrite E1, E2. setters. auto 10.
    + cbn [bind]. setters. destruct (pi_udl _) eqn:E3.
      { destruct HA as [HA|HA]; [specialize (HA E3); congruence|]. setters. subst.
        apply rel_same. intros s _. apply rel_on_err.
        eapply rel_impl; [|apply decode_ud_rel; setters; reflexivity].
        intros r r0 (B & B0 & U). unfold opt_rel, assign_optionals, but_ud, ud_assigned in *.
        records. setters. eqs. rewrite E1, E2. setters. auto. }
      cbn [rel]. unfold opt_rel, assign_optionals, but_ud, ud_assigned. setters.
      rewrite E1, E2. setters. auto 10.
  - cbn [bind]. destruct t, t0. setters. subst. destruct (pi_dcs _) eqn:E2.
    + destruct (len src <=? ri); [reflexivity|].
      destruct (idx src ri) as [y| | |]; cbn [bind rel]; auto. setters. subst.
      destruct (pi_udl _) eqn:E3.
      * apply rel_same. intros s _. apply rel_on_err.
        eapply rel_impl; [|apply decode_ud_rel; setters; reflexivity].
        intros r r0 (B & B0 & U). unfold opt_rel, assign_optionals, but_ud, ud_assigned in *.
        records. setters. eqs. rewrite E1, E2. setters. auto.
      * cbn [rel]. unfold opt_rel, assign_optionals, but_ud, ud_assigned. setters.
        rewrite E1, E2. setters. auto 10.
    + cbn [bind]. setters. destruct (pi_udl _) eqn:E3.
      { destruct HA as [HA|HA]; [specialize (HA E3); congruence|]. setters. subst.
        apply rel_same. intros s _. apply rel_on_err.
        eapply rel_impl; [|apply decode_ud_rel; setters; reflexivity].
        intros r r0 (B & B0 & U). unfold opt_rel, assign_optionals, but_ud, ud_assigned in *.
        records. setters. eqs. rewrite E1, E2. setters. auto. }
      cbn [rel]. unfold opt_rel, assign_optionals, but_ud, ud_assigned. setters.
      rewrite E1, E2. setters. auto 10.
Qed.
Lemma optionals_relc (R : tpdu -> tpdu -> Prop) t t0 src ri : PI t = PI t0 -> FO t = FO t0 -> UD t0 = [] -> UDH t0 = None ->
  (forall r r0, opt_rel t t0 r r0 -> R r r0) ->
  relc R (unmarshal_optionals t src ri) (unmarshal_optionals t0 src ri).
Proof.
  intros HP HF HU HH HR b Hb HA. rewrite (optionals_pi _ _ _ _ Hb) in HA.
  pose proof (optionals_rel t t0 src ri HP HF HU HH (or_introl HA)) as X. rewrite Hb in X.
  destruct (unmarshal_optionals t src ri) as [a| | |]; [|destruct X..]. exists a.
  split; [reflexivity|]. apply HR. exact X.
Qed.

Ltac opt_settle :=
  intros r r0 (B & B0 & U); unfold type_rel, assign_optionals, but_ud, ud_assigned in *;
  cbv zeta in *;
  records; setters; subst;
  repeat match goal with
  | H : context [if ?b then _ else _] |- _ => destruct b eqn:?
  | |- context [if ?b then _ else _] => destruct b eqn:?
  end; setters; eqs; (split; [reflexivity|exact U]).

Lemma deliver_report_relc t t0 src : FO t = FO t0 -> UD t0 = [] -> UDH t0 = None ->
  relc (type_rel assign_deliver_report t) (unmarshal_deliver_report t src) (unmarshal_deliver_report t0 src).
Proof.
  intros HF HU HH. unfold unmarshal_deliver_report.
  destruct (len src <=? 0); [apply relc_err|]. apply relc_same. intros x1 _.
  destruct (len src <=? 0 + 1); [apply relc_err|]. apply relc_same. intros x2 _.
  apply optionals_relc; try (destruct t, t0; setters; assumption || reflexivity).
  unfold assign_deliver_report. opt_settle.
Qed.
Lemma submit_report_relc t t0 src : FO t = FO t0 -> UD t0 = [] -> UDH t0 = None ->
  relc (type_rel assign_submit_report t) (unmarshal_submit_report t src) (unmarshal_submit_report t0 src).
Proof.
  intros HF HU HH. unfold unmarshal_submit_report.
  destruct (len src <? 1); [apply relc_err|]. apply relc_same. intros x1 _.
  match goal with |- relc _ (if ?b then _ else _) _ => destruct b; [apply relc_err|] end.
  apply relc_same. intros x2 _.
  match goal with |- relc _ (if ?b then _ else _) _ => destruct b; [apply relc_err|] end.
  apply relc_same. intros s _. apply relc_same. intros ts _.
  apply optionals_relc; try (destruct t, t0; setters; assumption || reflexivity).
  unfold assign_submit_report. opt_settle.
Qed.
(** A status report: unless the parameter indicator is left out. *)
Lemma status_report_relc t t0 src : FO t = FO t0 -> UD t0 = [] -> UDH t0 = None -> PI t0 = 0 ->
  relc (fun r r0 => PI r0 <> 0 -> type_rel assign_status_report t r r0)
    (unmarshal_status_report t src) (unmarshal_status_report t0 src).
Proof.
  intros HF HU HH HP0. unfold unmarshal_status_report.
  match goal with |- relc _ (if ?b then _ else _) _ => destruct b; [apply relc_err|] end.
  apply relc_same. intros x1 _. apply relc_same. intros s1 _. apply relc_same. intros [a n] _.
  match goal with |- relc _ (if ?b then _ else _) _ => destruct b; [apply relc_err|] end.
  apply relc_same. intros s2 _. apply relc_same. intros ts1 _.
  match goal with |- relc _ (if ?b then _ else _) _ => destruct b; [apply relc_err|] end.
  apply relc_same. intros s3 _. apply relc_same. intros ts2 _.
  match goal with |- relc _ (if ?b then _ else _) _ => destruct b; [apply relc_err|] end.
  apply relc_same. intros x2 _.
  match goal with |- relc _ (if ?b then _ else _) _ => destruct b end.
  - apply relc_same. intros x3 _.
    apply optionals_relc; try (destruct t, t0; setters; assumption || reflexivity).
    intros r r0 H _. revert r r0 H. unfold assign_status_report, assign_status_short. opt_settle.
  - intros b Hb _. injection Hb as <-. eexists. split; [reflexivity|]. intros HP. exfalso. apply HP.
    destruct t0. exact HP0.
Qed.

(** The dispatch. *)
Lemma announced t src : tpdu_type (set_FO t (nth 0 src 0)) = announced_type (Direction t) src.
Proof. destruct t. reflexivity. Qed.
Lemma idx0 (src : bytes) x : idx src 0 = Ok x -> x = nth 0 src 0.
Proof. unfold idx. destruct src; cbn; intros H; [discriminate|]. injection H as <-. reflexivity. Qed.
Lemma fresh_fo t x : FO (set_FO t x) = FO (set_FO (fresh (Direction t)) x).
Proof. destruct t. reflexivity. Qed.

Lemma unmarshal_deliver_alike t src : announced_type (Direction t) src = SmsDeliver ->
  alike (type_rel assign_deliver t) (tpdu_unmarshal t src) (tpdu_unmarshal (fresh (Direction t)) src).
Proof.
  intros E. unfold tpdu_unmarshal. destruct (len src <? 1); [reflexivity|].
  destruct (idx src 0) as [x| | |] eqn:Ex; cbn [bind alike]; auto. apply idx0 in Ex. subst x.
  cbv zeta. rewrite !announced. change (Direction (fresh (Direction t))) with (Direction t). rewrite !E.
  cbn [Z.eqb SmsDeliver]. apply rel_same. intros s _. apply rel_on_err.
  eapply rel_impl; [|apply (deliver_rel _ _ s (fresh_fo t _) eq_refl eq_refl)].
  intros r r0 [B U]. destruct t, r0. split; [exact B|exact U].
Qed.
Lemma unmarshal_command_alike t src : announced_type (Direction t) src = SmsCommand ->
  alike (type_rel assign_command t) (tpdu_unmarshal t src) (tpdu_unmarshal (fresh (Direction t)) src).
Proof.
  intros E. unfold tpdu_unmarshal. destruct (len src <? 1); [reflexivity|].
  destruct (idx src 0) as [x| | |] eqn:Ex; cbn [bind alike]; auto. apply idx0 in Ex. subst x.
  cbv zeta. rewrite !announced. change (Direction (fresh (Direction t))) with (Direction t). rewrite !E.
  cbn [Z.eqb Pos.eqb SmsCommand SmsDeliver SmsDeliverReport SmsSubmitReport SmsSubmit SmsStatusReport].
  apply rel_same. intros s _. apply rel_on_err.
  eapply rel_impl; [|apply (command_rel _ _ s (fresh_fo t _) eq_refl eq_refl)].
  intros r r0 [B U]. destruct t, r0. split; [exact B|exact U].
Qed.
Lemma unmarshal_submit_alike t src : announced_type (Direction t) src = SmsSubmit ->
  alike (submit_rel t) (tpdu_unmarshal t src) (tpdu_unmarshal (fresh (Direction t)) src).
Proof.
  intros E. unfold tpdu_unmarshal. destruct (len src <? 1); [reflexivity|].
  destruct (idx src 0) as [x| | |] eqn:Ex; cbn [bind alike]; auto. apply idx0 in Ex. subst x.
  cbv zeta. rewrite !announced. change (Direction (fresh (Direction t))) with (Direction t). rewrite !E.
  cbn [Z.eqb Pos.eqb SmsCommand SmsDeliver SmsDeliverReport SmsSubmitReport SmsSubmit SmsStatusReport].
  apply rel_same. intros s _. apply rel_on_err.
  eapply rel_impl; [|apply (submit_rel_ok _ _ s (fresh_fo t _) eq_refl eq_refl)].
  intros r r0 (B & P & U). destruct t, r0. split; [exact B|]. split; [exact P|exact U].
Qed.
Lemma unmarshal_report_alike t src r0 :
  tpdu_unmarshal (fresh (Direction t)) src = Ok r0 ->
  let st := announced_type (Direction t) src in
  report_type st = true -> self_contained st r0 ->
  exists r, tpdu_unmarshal t src = Ok r /\ type_rel (assign st) t r r0.
Proof.
  intros H st HT [HA HS]. unfold tpdu_unmarshal in *. destruct (len src <? 1); [discriminate|].
  destruct (idx src 0) as [x| | |] eqn:Ex; try discriminate. apply idx0 in Ex. subst x.
  cbn [bind] in *. cbv zeta in *. rewrite announced in *.
  change (Direction (fresh (Direction t))) with (Direction t) in H. fold st in H |- *.
  destruct (slice_from src 1) as [s| | |]; try discriminate. cbn [bind] in *.
  unfold report_type in HT. unfold assign.
  apply Bool.orb_true_iff in HT as [HT|HT]; [apply Bool.orb_true_iff in HT as [HT|HT]|];
    apply Z.eqb_eq in HT; rewrite HT in *;
    cbn [Z.eqb Pos.eqb SmsCommand SmsDeliver SmsDeliverReport SmsSubmitReport SmsSubmit SmsStatusReport] in *;
    apply on_err_ok in H.
  - destruct (deliver_report_relc _ _ s (fresh_fo t _) eq_refl eq_refl r0 H HA) as (r & E & B & U).
    rewrite E. exists r. split; [reflexivity|]. destruct t, r0. split; [exact B|exact U].
  - destruct (submit_report_relc _ _ s (fresh_fo t _) eq_refl eq_refl r0 H HA) as (r & E & B & U).
    rewrite E. exists r. split; [reflexivity|]. destruct t, r0. split; [exact B|exact U].
  - destruct (status_report_relc _ _ s (fresh_fo t _) eq_refl eq_refl eq_refl r0 H HA) as (r & E & T).
    rewrite E. exists r. split; [reflexivity|]. destruct (T (HS eq_refl)) as [B U].
    destruct t, r0. split; [exact B|exact U].
Qed.

(** What was read marshals alike. *)
Lemma encode_ud_ext t u : DCS t = DCS u -> UD t = UD u -> UDH t = UDH u -> encode_ud t = encode_ud u.
Proof. intros HD HU HH. unfold encode_ud, tpdu_alphabet. rewrite HD, HU, HH. reflexivity. Qed.
Ltac take B := unfold but_ud in B; cbv zeta in B; records; setters;
  repeat match goal with H : context [if ?b then _ else _] |- _ => destruct b eqn:? end;
  setters; injection B; intros; subst.
Lemma marshal_deliver_ext t r r0 : but_ud (assign_deliver t r0) r -> UD r = UD r0 -> UDH r = UDH r0 ->
  marshal_deliver r = marshal_deliver r0.
Proof.
  intros B HU HH. unfold marshal_deliver.
  rewrite (encode_ud_ext r r0); [|unfold assign_deliver in B; take B; reflexivity|assumption..].
  unfold assign_deliver in B. take B. reflexivity.
Qed.
Lemma marshal_command_ext t r r0 : but_ud (assign_command t r0) r -> UD r = UD r0 -> UDH r = UDH r0 ->
  marshal_command r = marshal_command r0.
Proof.
  intros B HU HH. unfold marshal_command. unfold assign_command in B. take B. reflexivity.
Qed.
Lemma marshal_submit_ext t r r0 : but_ud (set_VPf (assign_submit t r0) (VP r)) r ->
  same_period (VP r) (VP r0) -> UD r = UD r0 -> UDH r = UDH r0 ->
  marshal_submit r = marshal_submit r0.
Proof.
  intros B [P1 P2] HU HH. unfold marshal_submit. rewrite P1, P2.
  rewrite (encode_ud_ext r r0); [|unfold assign_submit in B; take B; reflexivity|assumption..].
  unfold assign_submit in B. take B. reflexivity.
Qed.
Lemma optionals_ext t r r0 : but_ud (assign_optionals t r0) r ->
  announces (PI r0) -> (pi_udl (PI r0) = true -> UD r = UD r0 /\ UDH r = UDH r0) ->
  PI r = PI r0 /\ marshal_opt r = marshal_opt r0 /\
  (if pi_udl (PI r) then on_err (encode_ud r) (encode_error "ud") else Ok []) =
  (if pi_udl (PI r0) then on_err (encode_ud r0) (encode_error "ud") else Ok []).
Proof.
  intros B HA HU.
  assert (E : PI r = PI r0 /\ (pi_pid (PI r0) = true -> PID r = PID r0) /\
    (pi_dcs (PI r0) = true -> DCS r = DCS r0)).
  { unfold assign_optionals in B. take B; repeat split; intros; congruence. }
  destruct E as (E & E1 & E2). rewrite E. split; [reflexivity|]. split.
  - unfold marshal_opt. rewrite E. f_equal.
    + destruct (pi_pid (PI r0)); [rewrite E1 by reflexivity|]; reflexivity.
    + destruct (pi_dcs (PI r0)); [rewrite E2 by reflexivity|]; reflexivity.
  - destruct (pi_udl (PI r0)) eqn:EU; [|reflexivity]. destruct (HU eq_refl) as [HU1 HU2].
    rewrite (encode_ud_ext r r0); auto.
Qed.
Lemma marshal_deliver_report_ext t r r0 : but_ud (assign_deliver_report t r0) r ->
  announces (PI r0) -> (pi_udl (PI r0) = true -> UD r = UD r0 /\ UDH r = UDH r0) ->
  marshal_deliver_report r = marshal_deliver_report r0.
Proof.
  intros B HA HU. unfold marshal_deliver_report.
  destruct (optionals_ext _ _ _ B HA HU) as (E1 & E2 & E3). rewrite E3, E2, E1.
  assert (E : FO r = FO r0 /\ FCS r = FCS r0).
  { unfold assign_deliver_report, assign_optionals in B. take B; split; reflexivity. }
  destruct E as [-> ->]. reflexivity.
Qed.
Lemma marshal_submit_report_ext t r r0 : but_ud (assign_submit_report t r0) r ->
  announces (PI r0) -> (pi_udl (PI r0) = true -> UD r = UD r0 /\ UDH r = UDH r0) ->
  marshal_submit_report r = marshal_submit_report r0.
Proof.
  intros B HA HU. unfold marshal_submit_report.
  destruct (optionals_ext _ _ _ B HA HU) as (E1 & E2 & E3). rewrite E3, E2, E1.
  assert (E : FO r = FO r0 /\ FCS r = FCS r0 /\ SCTS r = SCTS r0).
  { unfold assign_submit_report, assign_optionals in B. take B; repeat split; reflexivity. }
  destruct E as (-> & -> & ->). reflexivity.
Qed.
Lemma marshal_status_report_ext t r r0 : but_ud (assign_status_report t r0) r ->
  announces (PI r0) -> (pi_udl (PI r0) = true -> UD r = UD r0 /\ UDH r = UDH r0) ->
  marshal_status_report r = marshal_status_report r0.
Proof.
  intros B HA HU. unfold marshal_status_report.
  destruct (optionals_ext _ _ _ B HA HU) as (E1 & E2 & E3). rewrite E3, E2, E1.
  assert (E : FO r = FO r0 /\ MR r = MR r0 /\ RA r = RA r0 /\ SCTS r = SCTS r0 /\ DT r = DT r0 /\
    ST r = ST r0).
  { unfold assign_status_report, assign_status_short, assign_optionals in B. take B; repeat split; reflexivity. }
  destruct E as (-> & -> & -> & -> & -> & ->). reflexivity.
Qed.

Lemma ud_same t r0 r : ud_assigned t r0 r -> UD r0 <> [] -> UD r = UD r0 /\ UDH r = UDH r0.
Proof. intros [H|[H _]] N; [exact H|contradiction]. Qed.

Lemma unmarshal_type_of t src r : tpdu_unmarshal t src = Ok r ->
  tpdu_type r = announced_type (Direction t) src.
Proof.
  intros H. apply tpdu_unmarshal_type in H as [HD HF]. apply idx0 in HF.
  unfold tpdu_type, announced_type. rewrite HD, HF. reflexivity.
Qed.

Lemma unmarshal_marshal_alike t src r0 :
  tpdu_unmarshal (fresh (Direction t)) src = Ok r0 ->
  let st := announced_type (Direction t) src in
  brings_ud st r0 -> (report_type st = true -> self_contained st r0) ->
  exists r, tpdu_unmarshal t src = Ok r /\ (UD r0 <> [] -> UD r = UD r0 /\ UDH r = UDH r0) /\
    tpdu_marshal r = tpdu_marshal r0.
Proof.
  intros H st HB HS. pose proof (unmarshal_type_of _ _ _ H) as T0.
  change (Direction (fresh (Direction t))) with (Direction t) in T0. fold st in T0.
  destruct (report_type st) eqn:RT.
  - specialize (HS eq_refl). destruct (unmarshal_report_alike t src r0 H RT HS) as (r & E & B & U).
    exists r. split; [exact E|]. split; [apply (ud_same _ _ _ U)|].
    assert (HU : pi_udl (PI r0) = true -> UD r = UD r0 /\ UDH r = UDH r0).
    { intros X. apply (ud_same _ _ _ U). unfold brings_ud in HB. rewrite RT in HB. exact (HB X). }
    pose proof (unmarshal_type_of _ _ _ E) as T1. fold st in T1, B.
    unfold tpdu_marshal. rewrite T0, T1. destruct HS as [HA _]. unfold assign in B.
    unfold report_type in RT.
    apply Bool.orb_true_iff in RT as [RT|RT]; [apply Bool.orb_true_iff in RT as [RT|RT]|];
    apply Z.eqb_eq in RT; rewrite RT in *;
    cbn [Z.eqb Pos.eqb SmsCommand SmsDeliver SmsDeliverReport SmsSubmitReport SmsSubmit SmsStatusReport] in *.
    + now rewrite (marshal_deliver_report_ext _ _ _ B HA HU).
    + now rewrite (marshal_submit_report_ext _ _ _ B HA HU).
    + now rewrite (marshal_status_report_ext _ _ _ B HA HU).
  - unfold brings_ud in HB. rewrite RT in HB.
    assert (C : st = SmsDeliver \/ st = SmsSubmit \/ st = SmsCommand).
    { destruct (Z.eq_dec st SmsDeliver) as [e|n1]; [auto|].
      destruct (Z.eq_dec st SmsSubmit) as [e|n2]; [auto|].
      destruct (Z.eq_dec st SmsCommand) as [e|n3]; [auto|]. exfalso.
      unfold report_type in RT. apply Bool.orb_false_iff in RT as [RT R3].
      apply Bool.orb_false_iff in RT as [R1 R2].
      unfold tpdu_unmarshal in H. destruct (len src <? 1); [discriminate|].
      destruct (idx src 0) as [x| | |] eqn:Ex; try discriminate. apply idx0 in Ex. subst x.
      cbn [bind] in *. cbv zeta in *. rewrite announced in *.
      change (Direction (fresh (Direction t))) with (Direction t) in H. fold st in H.
      destruct (slice_from src 1) as [s| | |]; try discriminate. cbn [bind] in *.
      rewrite R1, R2, R3 in H. apply Z.eqb_neq in n1, n2, n3. rewrite n1, n2, n3 in H. discriminate. }
    destruct C as [C|[C|C]].
    + pose proof (unmarshal_deliver_alike t src C) as A. rewrite H in A.
      destruct (tpdu_unmarshal t src) as [r| | |] eqn:E; [|destruct A..]. destruct A as [B U].
      destruct (ud_same _ _ _ U HB) as [HU HH]. exists r. split; [reflexivity|]. split; [auto|].
      pose proof (unmarshal_type_of _ _ _ E) as T1. fold st in T1.
      unfold tpdu_marshal. rewrite T0, T1, C.
      cbn [Z.eqb Pos.eqb SmsCommand SmsDeliver SmsDeliverReport SmsSubmitReport SmsSubmit SmsStatusReport] in *.
      now rewrite (marshal_deliver_ext _ _ _ B HU HH).
    + pose proof (unmarshal_submit_alike t src C) as A. rewrite H in A.
      destruct (tpdu_unmarshal t src) as [r| | |] eqn:E; [|destruct A..]. destruct A as (B & P & U).
      destruct (ud_same _ _ _ U HB) as [HU HH]. exists r. split; [reflexivity|]. split; [auto|].
      pose proof (unmarshal_type_of _ _ _ E) as T1. fold st in T1.
      unfold tpdu_marshal. rewrite T0, T1, C.
      cbn [Z.eqb Pos.eqb SmsCommand SmsDeliver SmsDeliverReport SmsSubmitReport SmsSubmit SmsStatusReport] in *.
      now rewrite (marshal_submit_ext _ _ _ B P HU HH).
    + pose proof (unmarshal_command_alike t src C) as A. rewrite H in A.
      destruct (tpdu_unmarshal t src) as [r| | |] eqn:E; [|destruct A..]. destruct A as [B U].
      destruct (ud_same _ _ _ U HB) as [HU HH]. exists r. split; [reflexivity|]. split; [auto|].
      pose proof (unmarshal_type_of _ _ _ E) as T1. fold st in T1.
      unfold tpdu_marshal. rewrite T0, T1, C.
      cbn [Z.eqb Pos.eqb SmsCommand SmsDeliver SmsDeliverReport SmsSubmitReport SmsSubmit SmsStatusReport] in *.
      now rewrite (marshal_command_ext _ _ _ B HU HH).
Qed.

(** Reports without conditions: only the data coding and the parameter
    indicator of the used TPDU matter. *)
Lemma deliver_report_rel t t0 src : FO t = FO t0 -> DCS t = DCS t0 -> UD t0 = [] -> UDH t0 = None ->
  rel (type_rel assign_deliver_report t) (unmarshal_deliver_report t src) (unmarshal_deliver_report t0 src).
Proof.
  intros HF HD HU HH. unfold unmarshal_deliver_report.
  destruct (len src <=? 0); [reflexivity|]. apply rel_same. intros x1 _.
  destruct (len src <=? 0 + 1); [reflexivity|]. apply rel_same. intros x2 _.
  eapply rel_impl; [|apply optionals_rel; try right; destruct t, t0; setters; assumption || reflexivity].
  unfold opt_rel, assign_deliver_report. opt_settle.
Qed.
Lemma submit_report_rel t t0 src : FO t = FO t0 -> DCS t = DCS t0 -> UD t0 = [] -> UDH t0 = None ->
  rel (type_rel assign_submit_report t) (unmarshal_submit_report t src) (unmarshal_submit_report t0 src).
Proof.
  intros HF HD HU HH. unfold unmarshal_submit_report.
  destruct (len src <? 1); [reflexivity|]. apply rel_same. intros x1 _.
  match goal with |- rel _ (if ?b then _ else _) _ => destruct b; [reflexivity|] end.
  apply rel_same. intros x2 _.
  match goal with |- rel _ (if ?b then _ else _) _ => destruct b; [reflexivity|] end.
  apply rel_same. intros s _. apply rel_same. intros ts _.
  eapply rel_impl; [|apply optionals_rel; try right; destruct t, t0; setters; assumption || reflexivity].
  unfold opt_rel, assign_submit_report. opt_settle.
Qed.
Lemma status_report_rel t t0 src : FO t = FO t0 -> DCS t = DCS t0 -> PI t = PI t0 ->
  UD t0 = [] -> UDH t0 = None ->
  rel (fun r r0 => type_rel assign_status_report t r r0 \/ (PI r0 = PI t /\ r = assign_status_short t r0))
    (unmarshal_status_report t src) (unmarshal_status_report t0 src).
Proof.
  intros HF HD HP HU HH. unfold unmarshal_status_report.
  match goal with |- rel _ (if ?b then _ else _) _ => destruct b; [reflexivity|] end.
  apply rel_same. intros x1 _. apply rel_same. intros s1 _. apply rel_same. intros [a n] _.
  match goal with |- rel _ (if ?b then _ else _) _ => destruct b; [reflexivity|] end.
  apply rel_same. intros s2 _. apply rel_same. intros ts1 _.
  match goal with |- rel _ (if ?b then _ else _) _ => destruct b; [reflexivity|] end.
  apply rel_same. intros s3 _. apply rel_same. intros ts2 _.
  match goal with |- rel _ (if ?b then _ else _) _ => destruct b; [reflexivity|] end.
  apply rel_same. intros x2 _.
  match goal with |- rel _ (if ?b then _ else _) _ => destruct b end.
  - apply rel_same. intros x3 _.
    eapply rel_impl; [|apply optionals_rel; try right; destruct t, t0; setters; assumption || reflexivity].
    intros r r0 H. left. revert r r0 H. unfold opt_rel, assign_status_report, assign_status_short. opt_settle.
  - cbn [rel]. right. destruct t, t0. unfold assign_status_short. setters. subst. auto.
Qed.
Lemma keeping_fo t x : FO (set_FO t x) = FO (set_FO (fresh_keeping t) x).
Proof. destruct t. reflexivity. Qed.
Lemma keeping_dcs t x : DCS (set_FO t x) = DCS (set_FO (fresh_keeping t) x).
Proof. destruct t. reflexivity. Qed.
Lemma keeping_pi t x : PI (set_FO t x) = PI (set_FO (fresh_keeping t) x).
Proof. destruct t. reflexivity. Qed.
Lemma unmarshal_report_keeping t src :
  let st := announced_type (Direction t) src in report_type st = true ->
  alike (fun r r0 => (but_ud (assign st t r0) r /\ ud_assigned t r0 r) \/
           (st = SmsStatusReport /\ PI r0 = PI t /\ r = assign_status_short t r0))
    (tpdu_unmarshal t src) (tpdu_unmarshal (fresh_keeping t) src).
Proof.
  intros st HT. unfold tpdu_unmarshal. destruct (len src <? 1); [reflexivity|].
  destruct (idx src 0) as [x| | |] eqn:Ex; cbn [bind alike]; auto. apply idx0 in Ex. subst x.
  cbv zeta. rewrite !announced. change (Direction (fresh_keeping t)) with (Direction t). fold st.
  apply rel_same. intros s _. unfold report_type in HT. unfold assign.
  apply Bool.orb_true_iff in HT as [HT|HT]; [apply Bool.orb_true_iff in HT as [HT|HT]|];
    apply Z.eqb_eq in HT; rewrite HT in *;
    cbn [Z.eqb Pos.eqb SmsCommand SmsDeliver SmsDeliverReport SmsSubmitReport SmsSubmit SmsStatusReport] in *;
    apply rel_on_err; eapply rel_impl.
  2: exact (deliver_report_rel _ _ s (keeping_fo t _) (keeping_dcs t _) eq_refl eq_refl).
  3: exact (submit_report_rel _ _ s (keeping_fo t _) (keeping_dcs t _) eq_refl eq_refl).
  4: exact (status_report_rel _ _ s (keeping_fo t _) (keeping_dcs t _) (keeping_pi t _) eq_refl eq_refl).
  - intros r r0 [B U]. left. destruct t, r0. split; [exact B|exact U].
  - intros r r0 [B U]. left. destruct t, r0. split; [exact B|exact U].
  - intros r r0 [[B U]|[P B]]; [left|right]; destruct t, r0; [split; [exact B|exact U]|].
    split; [reflexivity|]. split; [exact P|exact B].
Qed.
