(** Proofs about what UnmarshalBinary leaves in its receiver. *)
From Verif Require Import GoBase GoLemmas SafeLemmas Dcs FirstOctet TpduError Address GoTime
  ValidityPeriod UserData Tpdu AddressProofs TimeProofs VPProofs SegmentProofs TpduSafeProofs
  TpduLeft SpecLeft.

(** ** The receiver-keeping model ends as the other one *)
Definition outcome (lr : tpdu * res unit) : res tpdu :=
  match lr with (l, Ok _) => Ok l | (_, Err e) => Err e | (_, Panic) => Panic | (_, Diverge) => Diverge end.

Lemma outcome_try {A} t (r : res A) k k' : (forall a, outcome (k a) = k' a) ->
  outcome (try t r k) = bind r k'.
Proof. intros H. destruct r; cbn; auto. Qed.
Lemma outcome_read set f off t b k k' : (forall x b', outcome (k (set t x) b') = k' (x, b')) ->
  outcome (read_into set f off t b k) = bind (read_byte f off b) k'.
Proof. intros H. destruct b; cbn; auto. Qed.
Lemma outcome_ud t s off : outcome (left_ud t s off) = on_err (decode_ud t s) (new_decode_error "ud" off).
Proof. unfold left_ud. destruct (decode_ud t s); reflexivity. Qed.

Lemma outcome_optionals t s ri : outcome (left_optionals t s ri) = unmarshal_optionals t s ri.
Proof.
  unfold left_optionals, unmarshal_optionals.
  apply outcome_try. intros [t1 r1]. apply outcome_try. intros [t2 r2].
  destruct (pi_udl (PI t2)); [|reflexivity]. apply outcome_try. intros. apply outcome_ud.
Qed.
Lemma outcome_command t s : outcome (left_command t s) = unmarshal_command t s.
Proof.
  unfold left_command, unmarshal_command. cbv zeta.
  do 4 (apply outcome_read; intros). apply outcome_try. intros [a n]. apply outcome_ud.
Qed.
Lemma outcome_deliver t s : outcome (left_deliver t s) = unmarshal_deliver t s.
Proof.
  unfold left_deliver, unmarshal_deliver. cbv zeta.
  apply outcome_try. intros [a n]. apply outcome_try. intros b.
  apply outcome_read; intros. apply outcome_try. intros [y b1].
  apply outcome_try. intros ts. apply outcome_ud.
Qed.
Lemma outcome_if (c : bool) t e k k' : outcome k = k' ->
  outcome (if c then (t, Err e) else k) = (if c then Err e else k').
Proof. intros <-. destruct c; reflexivity. Qed.
Lemma outcome_deliver_report t s : outcome (left_deliver_report t s) = unmarshal_deliver_report t s.
Proof.
  unfold left_deliver_report, unmarshal_deliver_report. cbv zeta.
  apply outcome_if, outcome_try. intros x. apply outcome_if, outcome_try. intros y.
  apply outcome_optionals.
Qed.
Lemma outcome_submit_report t s : outcome (left_submit_report t s) = unmarshal_submit_report t s.
Proof.
  unfold left_submit_report, unmarshal_submit_report. cbv zeta.
  apply outcome_if, outcome_try. intros x. apply outcome_if, outcome_try. intros y.
  apply outcome_if, outcome_try. intros z. apply outcome_try. intros ts.
  apply outcome_optionals.
Qed.
Lemma outcome_status_report t s : outcome (left_status_report t s) = unmarshal_status_report t s.
Proof.
  unfold left_status_report, unmarshal_status_report. cbv zeta.
  apply outcome_if, outcome_try. intros x. apply outcome_try. intros y. apply outcome_try. intros [a n].
  apply outcome_if, outcome_try. intros z. apply outcome_try. intros ts.
  apply outcome_if, outcome_try. intros z1. apply outcome_try. intros ts1.
  apply outcome_if, outcome_try. intros x1. cbn [fst snd].
  match goal with |- context [if ?c then _ else _] => destruct c end; [|reflexivity].
  apply outcome_try. intros x2. apply outcome_optionals.
Qed.
Lemma vp_unmarshal_cleared v s f : vp_unmarshal (vp_cleared v) s f = vp_unmarshal v s f.
Proof. reflexivity. Qed.
Lemma VP_set_VPf t v : VP (set_VPf t v) = v.
Proof. now destruct t. Qed.
Lemma FO_set_VPf t v : FO (set_VPf t v) = FO t.
Proof. now destruct t. Qed.
Lemma set_VPf_twice t v w : set_VPf (set_VPf t v) w = set_VPf t w.
Proof. now destruct t. Qed.
Lemma outcome_submit t s : outcome (left_submit t s) = unmarshal_submit t s.
Proof.
  unfold left_submit, unmarshal_submit. cbv zeta.
  apply outcome_if, outcome_try. intros x. apply outcome_try. intros y. apply outcome_try. intros [a n].
  apply outcome_if, outcome_try. intros z. apply outcome_if, outcome_try. intros z1.
  apply outcome_try. intros y1. rewrite VP_set_VPf, FO_set_VPf, vp_unmarshal_cleared.
  apply outcome_try. intros [v m]. apply outcome_try. intros y2. cbn [fst snd].
  rewrite set_VPf_twice. apply outcome_ud.
Qed.

Lemma outcome_wrap lr f : outcome (fst lr, on_err (snd lr) f) = on_err (outcome lr) f.
Proof. destruct lr as [l []]; reflexivity. Qed.

Lemma outcome_unmarshal t src : outcome (unmarshal_left t src) = tpdu_unmarshal t src.
Proof.
  unfold unmarshal_left, tpdu_unmarshal. cbv zeta.
  apply outcome_if, outcome_try. intros fo. apply outcome_try. intros s.
  repeat match goal with |- context [if ?c then _ else _] => destruct c; [rewrite outcome_wrap; f_equal|] end.
  - apply outcome_deliver.
  - apply outcome_deliver_report.
  - apply outcome_submit_report.
  - apply outcome_submit.
  - apply outcome_status_report.
  - apply outcome_command.
  - reflexivity.
Qed.

(** ** A TPDU as a sequence of field readers *)
Record reader := {
  r_field : tfield;
  r_run : tpdu -> bytes -> res (option (tpdu * bytes));
  r_fail : tpdu -> tpdu }.

Fixpoint go (rs : list reader) (total : Z) (t : tpdu) (b : bytes) : tpdu * res unit :=
  match rs with
  | [] => (t, Ok tt)
  | r :: rs' =>
      match r_run r t b with
      | Ok (Some (t', b')) => go rs' total t' b'
      | Ok None => (t, Ok tt)
      | Err e => (r_fail r t, Err (new_decode_error (field_name (r_field r)) (total - len b) e))
      | Panic => (t, Panic)
      | Diverge => (t, Diverge)
      end
  end.

(** The reader looks at nothing beyond what it takes. *)
Definition local (r : reader) : Prop := forall t b t' b', Forall is_byte b ->
  r_run r t b = Ok (Some (t', b')) ->
  exists q, b = q ++ b' /\ forall y, r_run r t (q ++ y) = Ok (Some (t', y)).
Definition frames (r : reader) : Prop := forall g, g <> r_field r ->
  (forall t b t' b', r_run r t b = Ok (Some (t', b')) -> agree g t' t) /\
  (forall t, agree g (r_fail r t) t).
Definition completes (r : reader) : Prop := forall t, exists z t', Forall is_byte z /\ forall y,
  r_run r t (z ++ y) = Ok (Some (t', y)).
Definition located_errors (r : reader) : Prop := forall t b e, Forall is_byte b ->
  r_run r t b = Err e -> err_within (len b) e.
Definition good (r : reader) := local r /\ frames r /\ completes r /\ located_errors r.
Definition last_good (r : reader) := frames r /\ located_errors r /\
  (forall t, exists z t', Forall is_byte z /\ r_run r t z = Ok (Some (t', []))).

Fixpoint all_good (rs : list reader) : Prop :=
  match rs with
  | [] => True
  | [r] => last_good r
  | r :: rs' => good r /\ all_good rs'
  end.
Lemma all_good_cons r rs : all_good (r :: rs) -> rs <> [] -> good r /\ all_good rs.
Proof. destruct rs; [congruence|]. cbn. auto. Qed.
Lemma all_good_frames rs : all_good rs -> Forall frames rs.
Proof.
  induction rs as [|r rs IH]; [constructor|]. destruct rs as [|r2 rs].
  - intros (F & _). constructor; [exact F|constructor].
  - intros ((_ & F & _) & H). constructor; [exact F|apply IH, H].
Qed.

Lemma agree_refl g t : agree g t t.
Proof. destruct g; cbn; auto. Qed.
Lemma agree_sym g a b : agree g a b -> agree g b a.
Proof. destruct g; cbn; intuition congruence. Qed.
Lemma agree_trans g a b c : agree g a b -> agree g b c -> agree g a c.
Proof. destruct g; cbn; intuition congruence. Qed.

Lemma go_frames rs : Forall frames rs -> forall total t b l o g, go rs total t b = (l, o) ->
  ~ In g (map r_field rs) -> agree g l t.
Proof.
  induction 1 as [|r rs F HF IH]; intros total t b l o g H N; cbn [go] in H.
  { apply (f_equal fst) in H. cbn in H. subst l. apply agree_refl. }
  cbn [map] in N. destruct (F g) as (F1 & F2); [intros ->; apply N; now left|].
  destruct (r_run r t b) as [[[t' b']|]|e| |] eqn:E.
  - eapply agree_trans; [eapply IH; [exact H|intros X; apply N; now right]|]. now apply F1 in E.
  - apply (f_equal fst) in H. cbn in H. subst l. apply agree_refl.
  - apply (f_equal fst) in H. cbn in H. subst l. apply F2.
  - apply (f_equal fst) in H. cbn in H. subst l. apply agree_refl.
  - apply (f_equal fst) in H. cbn in H. subst l. apply agree_refl.
Qed.

Lemma go_completes rs total : all_good rs -> forall t, exists z r', Forall is_byte z /\ go rs total t z = (r', Ok tt).
Proof.
  induction rs as [|r rs IH]; intros G t; [exists [], t; split; [constructor|reflexivity]|].
  destruct rs as [|r2 rs].
  - destruct G as (_ & _ & C). destruct (C t) as (z & t' & B & E). exists z, t'. split; [exact B|].
    cbn [go]. rewrite E. reflexivity.
  - destruct G as ((_ & _ & C & _) & G). destruct (C t) as (z & t' & B & E).
    destruct (IH G t') as (z2 & r' & B2 & E2). exists (z ++ z2), r'.
    split; [apply Forall_app; now split|]. cbn [go] in *. rewrite E. exact E2.
Qed.

Lemma go_left rs : all_good rs -> NoDup (map r_field rs) ->
  forall total t b l e, Forall is_byte b -> go rs total t b = (l, Err e) ->
  exists bef r aft q b1 t1 e0, rs = bef ++ r :: aft /\ b = q ++ b1 /\
    e = new_decode_error (field_name (r_field r)) (total - len b1) e0 /\ err_within (len b1) e0 /\
    l = r_fail r t1 /\ r_run r t1 b1 = Err e0 /\
    (forall g, ~ In g (map r_field bef) -> agree g t1 t) /\
    (forall total' y, go rs total' t (q ++ y) = go (r :: aft) total' t1 y).
Proof.
  induction rs as [|r rs IH]; intros G ND total t b l e HB H; [discriminate|].
  cbn [go] in H. destruct (r_run r t b) as [[[t' b']|]|e0| |] eqn:E; try discriminate.
  - destruct rs as [|r2 rs]; [discriminate|].
    destruct G as ((L & F & _ & _) & G).
    destruct (L _ _ _ _ HB E) as (q & -> & EQ).
    apply Forall_app in HB as (_ & HB'). cbn [map] in ND. apply NoDup_cons_iff in ND as (N1 & ND).
    destruct (IH G ND _ _ _ _ _ HB' H) as (bef & r0 & aft & q2 & b1 & t1 & e0 & -> & -> & E1 & W & E2 & E3 & A & R).
    exists (r :: bef), r0, aft, (q ++ q2), b1, t1, e0.
    split; [reflexivity|]. split; [now rewrite app_assoc|]. split; [exact E1|]. split; [exact W|].
    split; [exact E2|]. split; [exact E3|]. split.
    + intros g N. cbn [map] in N. eapply agree_trans; [apply A; intros X; apply N; now right|].
      destruct (F g) as (F1 & _); [intros ->; apply N; now left|]. now apply F1 in E.
    + intros total' y. rewrite <- app_assoc. cbn [go]. rewrite EQ. apply R.
  - exists [], r, rs, [], b, t, e0. 
    split; [reflexivity|]. split; [reflexivity|]. split; [congruence|]. split.
    { destruct rs; [destruct G as (_ & LE & _)|destruct G as ((_ & _ & _ & LE) & _)]; now apply LE in E. }
    split; [congruence|]. split; [assumption|]. split; [intros; apply agree_refl|].
    intros total' y. reflexivity.
Qed.

(** ** The readers of the code *)
(** An octet kept in a field, 0 if it is missing ([t.F, err = b.ReadByte()]). *)
Definition rd_into (f : tfield) (set : tpdu -> Z -> tpdu) : reader :=
  {| r_field := f;
     r_run := fun t b => match b with x :: b' => Ok (Some (set t x, b')) | [] => Err EOF end;
     r_fail := fun t => set t 0 |}.
(** An octet kept in a field that is left alone if it is missing. *)
Definition rd_byte (f : tfield) (set : tpdu -> Z -> tpdu) (eof : gerr) : reader :=
  {| r_field := f;
     r_run := fun t b => match b with x :: b' => Ok (Some (set t x, b')) | [] => Err eof end;
     r_fail := fun t => t |}.
(** An octet that the parameter indicator announces. *)
Definition rd_opt (f : tfield) (set : tpdu -> Z -> tpdu) (c : Z -> bool) : reader :=
  {| r_field := f;
     r_run := fun t b => if c (PI t) then
       match b with x :: b' => Ok (Some (set t x, b')) | [] => Err ErrUnderflow end
       else Ok (Some (t, b));
     r_fail := fun t => t |}.
(** The parameter indicator of a status report, which may be missing. *)
Definition rd_last_pi : reader :=
  {| r_field := F_PI;
     r_run := fun t b => match b with x :: b' => Ok (Some (set_PI t x, b')) | [] => Ok None end;
     r_fail := fun t => t |}.
Definition rd_addr (f : tfield) (set : tpdu -> address -> tpdu) : reader :=
  {| r_field := f;
     r_run := fun t b => an <- addr_unmarshal b ;; Ok (Some (set t (fst an), skipn (Z.to_nat (snd an)) b));
     r_fail := fun t => t |}.
Definition rd_ts (f : tfield) (set : tpdu -> gotime -> tpdu) : reader :=
  {| r_field := f;
     r_run := fun t b => ts <- ts_unmarshal b ;; Ok (Some (set t ts, skipn 7 b));
     r_fail := fun t => t |}.
Definition rd_vp : reader :=
  {| r_field := F_VP;
     r_run := fun t b => vn <- vp_unmarshal (VP t) b (fo_vpf (FO t)) ;;
       Ok (Some (set_VPf t (fst vn), skipn (Z.to_nat (snd vn)) b));
     r_fail := fun t => set_VPf t (vp_cleared (VP t)) |}.
Definition rd_dcs8 : reader :=
  {| r_field := F_DCS; r_run := fun t b => Ok (Some (set_DCSf t Dcs8BitData, b)); r_fail := fun t => t |}.
(** The user data, if [c] holds of the parameter indicator. *)
Definition rd_ud (c : Z -> bool) : reader :=
  {| r_field := F_UD;
     r_run := fun t b => if c (PI t) then t' <- decode_ud t b ;; Ok (Some (t', [])) else Ok (Some (t, []));
     r_fail := fun t => t |}.

Definition optionals := [rd_opt F_PID set_PIDf pi_pid; rd_opt F_DCS set_DCSf pi_dcs; rd_ud pi_udl].
Definition readers (st : Z) : list reader :=
  if st =? SmsDeliver then
    [rd_addr F_OA set_OA; rd_into F_PID set_PIDf; rd_byte F_DCS set_DCSf EOF; rd_ts F_SCTS set_SCTS;
     rd_ud (fun _ => true)]
  else if st =? SmsDeliverReport then
    rd_byte F_FCS set_FCS ErrUnderflow :: rd_byte F_PI set_PI ErrUnderflow :: optionals
  else if st =? SmsSubmitReport then
    rd_byte F_FCS set_FCS ErrUnderflow :: rd_byte F_PI set_PI ErrUnderflow :: rd_ts F_SCTS set_SCTS :: optionals
  else if st =? SmsSubmit then
    [rd_byte F_MR set_MR ErrUnderflow; rd_addr F_DA set_DA; rd_byte F_PID set_PIDf ErrUnderflow;
     rd_byte F_DCS set_DCSf ErrUnderflow; rd_vp; rd_ud (fun _ => true)]
  else if st =? SmsStatusReport then
    rd_byte F_MR set_MR ErrUnderflow :: rd_addr F_RA set_RA :: rd_ts F_SCTS set_SCTS :: rd_ts F_DT set_DT ::
    rd_byte F_ST set_ST ErrUnderflow :: rd_last_pi :: optionals
  else
    [rd_into F_MR set_MR; rd_into F_PID set_PIDf; rd_into F_CT set_CT; rd_into F_MN set_MN;
     rd_addr F_DA set_DA; rd_dcs8; rd_ud (fun _ => true)].

Lemma readers_order st : field_order st = F_FO :: map r_field (readers st).
Proof. unfold field_order, readers. repeat match goal with |- context [if ?c then _ else _] => destruct c end; reflexivity. Qed.
Lemma field_order_nodup st : NoDup (field_order st).
Proof.
  unfold field_order. repeat match goal with |- context [if ?c then _ else _] => destruct c end;
    repeat (apply NoDup_cons; [cbn; intuition congruence|]); apply NoDup_nil.
Qed.

(** What the readers of addresses, stamps and periods take. *)
Lemma addr_unmarshal_trunc q y a : Forall is_byte (q ++ y) ->
  addr_unmarshal (q ++ y) = Ok (a, len q) -> addr_unmarshal q = Ok (a, len q).
Proof.
  intros HB H. pose proof (addr_unmarshal_inv _ _ _ HB H) as (L & _). revert H.
  unfold addr_unmarshal. rewrite len_app. pose proof (len_nonneg y) as Ly.
  replace (len q + len y <? 2) with false by lia. replace (len q <? 2) with false by lia.
  rewrite !idx_app_l by lia. intros H.
  apply bind_ok in H as (l & El & H). rewrite El. cbn [bind]. 
  apply bind_ok in H as (toa & Et & H). rewrite Et. cbn [bind].
  destruct (len q + len y <? 2 + (l + 1) / 2) eqn:E1; [discriminate|].
  apply bind_ok in H as (body & Eb & H).
  assert (LQ : len q = 2 + (l + 1) / 2).
  { revert H. destruct (toa_ton toa =? TonAlphanumeric).
    - intros H. apply bind_ok in H as (u & _ & H). apply bind_ok in H as (c & _ & H).
      apply ok_pair in H as (_ & H). lia.
    - intros H. apply bind_ok in H as ([c n] & _ & H).
      destruct (negb (n =? (l + 1) / 2) || (len c <? l)) eqn:E; [discriminate|].
      apply ok_pair in H as (_ & H). apply orb_false_iff in E as (E & _).
      apply negb_false_iff in E. lia. }
  replace (len q <? 2 + (l + 1) / 2) with false by lia.
  rewrite <- LQ in Eb |- *. rewrite (slice_app_l q y) in Eb by lia. rewrite Eb. cbn [bind].
  rewrite LQ in H. rewrite LQ. exact H.
Qed.
Lemma skip_split {A} (b : list A) n : 0 <= n <= len b ->
  exists q b', b = q ++ b' /\ len q = n /\ skipn (Z.to_nat n) b = b'.
Proof.
  intros H. exists (firstn (Z.to_nat n) b), (skipn (Z.to_nat n) b).
  rewrite firstn_skipn. split; [reflexivity|]. split; [|reflexivity].
  unfold len in *. rewrite firstn_length. lia.
Qed.
Lemma skip_q {A} (q y : list A) : skipn (Z.to_nat (len q)) (q ++ y) = y.
Proof. apply skipn_app_exact. unfold len. lia. Qed.

Lemma ts_unmarshal_trunc q y t : len q = 7 -> ts_unmarshal (q ++ y) = Ok t -> ts_unmarshal q = Ok t.
Proof.
  intros L. unfold ts_unmarshal. rewrite len_app. pose proof (len_nonneg y).
  replace (len q <? 7) with false by lia. replace (len q + len y <? 7) with false by lia.
  rewrite !idx_app_l by lia. exact (fun H => H).
Qed.
Lemma vp_unmarshal_len v b f v' n : vp_unmarshal v b f = Ok (v', n) -> 0 <= n <= len b.
Proof.
  unfold vp_unmarshal. pose proof (len_nonneg b).
  destruct (f =? VpfAbsolute).
  { intros H1. apply bind_ok in H1 as (t & Et & H1). apply ts_unmarshal_len in Et. apply ok_pair in H1. lia. }
  destruct (f =? VpfEnhanced).
  { intros H1. apply bind_ok in H1 as ([e d] & Et & H1). apply ok_pair in H1 as (_ & <-).
    unfold vp_unmarshal_enhanced in Et. destruct (len b <? 7) eqn:E; [discriminate|]. lia. }
  destruct (f =? VpfRelative).
  { destruct (len b <? 1) eqn:E; [discriminate|]. intros H1. apply bind_ok in H1 as (t & Et & H1).
    apply ok_pair in H1 as (_ & <-). lia. }
  destruct (f =? VpfNotPresent); [|discriminate]. intros H1. apply ok_pair in H1 as (_ & <-). lia.
Qed.
Lemma vp_unmarshal_trunc v q y f v' : vp_unmarshal v (q ++ y) f = Ok (v', len q) ->
  vp_unmarshal v q f = Ok (v', len q).
Proof.
  unfold vp_unmarshal. pose proof (len_nonneg q). pose proof (len_nonneg y).
  destruct (f =? VpfAbsolute).
  { intros H1. apply bind_ok in H1 as (t & Et & H1). apply ok_pair in H1 as (<- & L).
    rewrite (ts_unmarshal_trunc q y t) by (lia || exact Et). cbn [bind]. now rewrite <- L. }
  destruct (f =? VpfEnhanced).
  { intros H1. apply bind_ok in H1 as ([e d] & Et & H1). apply ok_pair in H1 as (<- & L).
    assert (Eq : vp_unmarshal_enhanced q = Ok (e, d)).
    { rewrite <- Et. revert Et. unfold vp_unmarshal_enhanced. rewrite len_app.
      replace (len q <? 7) with false by lia. replace (len q + len y <? 7) with false by lia.
      rewrite !idx_app_l by lia. intros E.
      apply bind_ok in E as (b0 & E0 & E). rewrite E0. cbn [bind].
      apply bind_ok in E as ([d' used] & Eu & E). rewrite Eu. cbn [bind].
      assert (Hu : 0 <= used <= 3).
      { unfold EvpfRelativeHHMMSS, EvpfRelative, EvpfRelativeSeconds, EvpfNotPresent in Eu.
        destruct (Z.land b0 7 =? 0); [apply ok_pair in Eu; lia|].
        destruct (Z.land b0 7 =? 1); [apply bind_ok in Eu as (? & _ & Eu); apply ok_pair in Eu; lia|].
        destruct (Z.land b0 7 =? 2); [apply bind_ok in Eu as (? & _ & Eu); apply ok_pair in Eu; lia|].
        destruct (Z.land b0 7 =? 3); [|discriminate].
        do 6 (apply bind_ok in Eu as (? & _ & Eu)). apply ok_pair in Eu; lia. }
      rewrite check_fill_local by lia. reflexivity. }
    rewrite Eq. cbn [bind]. now rewrite <- L. }
  destruct (f =? VpfRelative).
  { rewrite len_app. destruct (len q + len y <? 1) eqn:E; [discriminate|]. intros H1.
    apply bind_ok in H1 as (x & Ex & H1). apply ok_pair in H1 as (<- & L).
    rewrite idx_app_l in Ex by lia. rewrite Ex. replace (len q <? 1) with false by lia. cbn [bind].
    now rewrite <- L. }
  destruct (f =? VpfNotPresent); auto.
Qed.

Ltac zeros := repeat (apply Forall_cons; [unfold is_byte; lia|]); apply Forall_nil.

Definition sets_only {A} (f : tfield) (set : tpdu -> A -> tpdu) : Prop :=
  forall t x g, g <> f -> agree g (set t x) t.
Lemma so_MR : sets_only F_MR set_MR. Proof. intros t x g N. dtpdu t. destruct g; cbn; auto; congruence. Qed.
Lemma so_PID : sets_only F_PID set_PIDf. Proof. intros t x g N. dtpdu t. destruct g; cbn; auto; congruence. Qed.
Lemma so_CT : sets_only F_CT set_CT. Proof. intros t x g N. dtpdu t. destruct g; cbn; auto; congruence. Qed.
Lemma so_MN : sets_only F_MN set_MN. Proof. intros t x g N. dtpdu t. destruct g; cbn; auto; congruence. Qed.
Lemma so_DA : sets_only F_DA set_DA. Proof. intros t x g N. dtpdu t. destruct g; cbn; auto; congruence. Qed.
Lemma so_OA : sets_only F_OA set_OA. Proof. intros t x g N. dtpdu t. destruct g; cbn; auto; congruence. Qed.
Lemma so_RA : sets_only F_RA set_RA. Proof. intros t x g N. dtpdu t. destruct g; cbn; auto; congruence. Qed.
Lemma so_PI : sets_only F_PI set_PI. Proof. intros t x g N. dtpdu t. destruct g; cbn; auto; congruence. Qed.
Lemma so_SCTS : sets_only F_SCTS set_SCTS. Proof. intros t x g N. dtpdu t. destruct g; cbn; auto; congruence. Qed.
Lemma so_DT : sets_only F_DT set_DT. Proof. intros t x g N. dtpdu t. destruct g; cbn; auto; congruence. Qed.
Lemma so_ST : sets_only F_ST set_ST. Proof. intros t x g N. dtpdu t. destruct g; cbn; auto; congruence. Qed.
Lemma so_DCS : sets_only F_DCS set_DCSf. Proof. intros t x g N. dtpdu t. destruct g; cbn; auto; congruence. Qed.
Lemma so_VP : sets_only F_VP set_VPf. Proof. intros t x g N. dtpdu t. destruct g; cbn; auto; congruence. Qed.
Lemma so_FCS : sets_only F_FCS set_FCS. Proof. intros t x g N. dtpdu t. destruct g; cbn; auto; congruence. Qed.
Lemma so_FO : sets_only F_FO set_FO. Proof. intros t x g N. dtpdu t. destruct g; cbn; auto; congruence. Qed.

Lemma ok_some {A} (a b : A) : Ok (Some a) = Ok (Some b) -> a = b.
Proof. congruence. Qed.
Lemma some_pair {A B} (a a' : A) (b b' : B) : Ok (Some (a, b)) = Ok (Some (a', b')) -> a = a' /\ b = b'.
Proof. intros H. split; congruence. Qed.

Lemma rd_byte_good f set e : sets_only f set -> (forall n, 0 <= n -> err_within n e) -> good (rd_byte f set e).
Proof.
  intros S HE. split; [|split; [|split]].
  - intros t [|x b] t' b' _ H; [discriminate|]. cbn in H. apply some_pair in H as (<- & <-).
    exists [x]. split; [reflexivity|]. reflexivity.
  - intros g N. split.
    + intros t [|x b] t' b' H; [discriminate|]. cbn in H. apply some_pair in H as (<- & _). now apply S.
    + intros. apply agree_refl.
  - intros t. exists [0], (set t 0). split; [zeros|reflexivity].
  - intros t [|x b] e' _ H; [|discriminate]. cbn in H. injection H as <-. apply HE, len_nonneg.
Qed.
Lemma rd_into_good f set : sets_only f set -> good (rd_into f set).
Proof.
  intros S. split; [|split; [|split]].
  - intros t [|x b] t' b' _ H; [discriminate|]. cbn in H. apply some_pair in H as (<- & <-).
    exists [x]. split; [reflexivity|]. reflexivity.
  - intros g N. split.
    + intros t [|x b] t' b' H; [discriminate|]. cbn in H. apply some_pair in H as (<- & _). now apply S.
    + intros. now apply S.
  - intros t. exists [0], (set t 0). split; [zeros|reflexivity].
  - intros t [|x b] e' _ H; [|discriminate]. cbn in H. injection H as <-. exact I.
Qed.
Lemma rd_opt_good f set c : sets_only f set -> good (rd_opt f set c).
Proof.
  intros S. split; [|split; [|split]].
  - intros t b t' b' _ H. cbn [rd_opt r_run] in *. destruct (c (PI t)).
    + destruct b as [|x b]; [discriminate|]. apply some_pair in H as (<- & <-).
      exists [x]. split; reflexivity.
    + apply some_pair in H as (<- & <-). exists []. split; reflexivity.
  - intros g N. cbn [rd_opt r_run r_fail] in *. split.
    + intros t b t' b' H. destruct (c (PI t)).
      * destruct b as [|x b]; [discriminate|]. apply some_pair in H as (<- & _). now apply S.
      * apply some_pair in H as (<- & _). apply agree_refl.
    + intros. apply agree_refl.
  - intros t. cbn [rd_opt r_run]. destruct (c (PI t)).
    + exists [0], (set t 0). split; [zeros|reflexivity].
    + exists [], t. split; [zeros|reflexivity].
  - intros t b e' _ H. cbn [rd_opt r_run] in H. destruct (c (PI t)); [|discriminate].
    destruct b; [|discriminate]. injection H as <-. exact I.
Qed.
Lemma rd_last_pi_good : good rd_last_pi.
Proof.
  split; [|split; [|split]].
  - intros t [|x b] t' b' _ H; [discriminate|]. cbn in H. apply some_pair in H as (<- & <-).
    exists [x]. split; [reflexivity|]. reflexivity.
  - intros g N. split.
    + intros t [|x b] t' b' H; [discriminate|]. cbn in H. apply some_pair in H as (<- & _). now apply so_PI.
    + intros. apply agree_refl.
  - intros t. exists [0], (set_PI t 0). split; [zeros|reflexivity].
  - intros t [|x b] e' _ H; discriminate.
Qed.
Lemma rd_addr_good f set : sets_only f set -> good (rd_addr f set).
Proof.
  intros S. split; [|split; [|split]].
  - intros t b t' b' HB H. cbn [rd_addr r_run] in *.
    apply bind_ok in H as ([a n] & E & H). cbn [fst snd] in H. apply some_pair in H as (<- & H).
    pose proof (addr_unmarshal_inv _ _ _ HB E) as (L & _).
    destruct (skip_split b n) as (q & b2 & -> & L1 & L2); [lia|]. subst n.
    rewrite skip_q in H. subst b2. exists q. split; [reflexivity|].
    intros y. pose proof (addr_unmarshal_trunc _ _ _ HB E) as Eq.
    rewrite (addr_unmarshal_local _ _ _ y Eq). cbn [bind fst snd]. now rewrite skip_q.
  - intros g N. split.
    + intros t b t' b' H. cbn [rd_addr r_run] in H. apply bind_ok in H as ([a n] & E & H).
      apply some_pair in H as (<- & _). now apply S.
    + intros. apply agree_refl.
  - intros t. exists [0; 0], (set t {| a_toa := 0; a_addr := [] |}). split; [zeros|]. intros y.
    cbn [rd_addr r_run]. rewrite (addr_unmarshal_local [0;0] {| a_toa := 0; a_addr := [] |} 2 y) by reflexivity.
    reflexivity.
  - intros t b e HB H. cbn [rd_addr r_run] in H. pose proof (addr_unmarshal_safe b HB) as X.
    destruct (addr_unmarshal b) as [an|e'| |]; try discriminate. cbn in H. injection H as <-.
    cbn in X. destruct X as (p & o & i & -> & Ho). exact Ho.
Qed.
Lemma rd_ts_good f set : sets_only f set -> good (rd_ts f set).
Proof.
  intros S. split; [|split; [|split]].
  - intros t b t' b' HB H. cbn [rd_ts r_run] in *.
    apply bind_ok in H as (ts & E & H). apply some_pair in H as (<- & H).
    pose proof (ts_unmarshal_len _ _ E) as L.
    destruct (skip_split b 7) as (q & b2 & -> & L1 & L2); [lia|].
    change 7%nat with (Z.to_nat 7) in H. rewrite L2 in H. subst b2. exists q. split; [reflexivity|].
    intros y. pose proof (ts_unmarshal_trunc _ _ _ L1 E) as Eq.
    rewrite (ts_unmarshal_local _ y _ Eq). cbn [bind]. change 7%nat with (Z.to_nat 7). rewrite <- L1. now rewrite skip_q.
  - intros g N. split.
    + intros t b t' b' H. cbn [rd_ts r_run] in H. apply bind_ok in H as (ts & E & H).
      apply some_pair in H as (<- & _). now apply S.
    + intros. apply agree_refl.
  - intros t. pose (z := [0; 0; 0; 0; 0; 0; 0]).
    assert (X : exists ts, ts_unmarshal z = Ok ts) by (eexists; reflexivity).
    destruct X as (ts & E). exists z, (set t ts). split; [zeros|]. intros y. cbn [rd_ts r_run].
    rewrite (ts_unmarshal_local _ y _ E). reflexivity.
  - intros t b e HB H. cbn [rd_ts r_run] in H. pose proof (ts_unmarshal_safe b (len b) HB) as X.
    destruct (ts_unmarshal b) as [an|e'| |]; try discriminate. cbn in H. injection H as <-. exact X.
Qed.
Lemma fo_vpf_range f : 0 <= fo_vpf f < 4.
Proof.
  unfold fo_vpf, FoVPFMask, FoVPFShift. rewrite Z.shiftr_land. change (Z.shiftr 24 3) with (Z.ones 2).
  rewrite Z.land_ones by lia. apply Z.mod_pos_bound. lia.
Qed.
Lemma rd_vp_good : good rd_vp.
Proof.
  split; [|split; [|split]].
  - intros t b t' b' HB H. cbn [rd_vp r_run] in *.
    apply bind_ok in H as ([v n] & E & H). cbn [fst snd] in H. apply some_pair in H as (<- & H).
    pose proof (vp_unmarshal_len _ _ _ _ _ E) as L.
    destruct (skip_split b n) as (q & b2 & -> & L1 & L2); [lia|]. subst n.
    rewrite skip_q in H. subst b2. exists q. split; [reflexivity|].
    intros y. pose proof (vp_unmarshal_trunc _ _ _ _ _ E) as Eq.
    rewrite (vp_unmarshal_local _ _ _ y _ Eq). cbn [bind fst snd]. now rewrite skip_q.
  - intros g N. split.
    + intros t b t' b' H. cbn [rd_vp r_run] in H. apply bind_ok in H as ([a n] & E & H).
      apply some_pair in H as (<- & _). now apply so_VP.
    + intros. now apply so_VP.
  - intros t. cbn [rd_vp r_run]. 
    assert (X : exists z v, Forall is_byte z /\ vp_unmarshal (VP t) z (fo_vpf (FO t)) = Ok (v, len z)).
    { pose proof (fo_vpf_range (FO t)) as R.
      assert (C : fo_vpf (FO t) = 0 \/ fo_vpf (FO t) = 1 \/ fo_vpf (FO t) = 2 \/ fo_vpf (FO t) = 3) by lia.
      destruct C as [-> |[-> |[-> | ->]]].
      - exists []. eexists. split; [zeros|reflexivity].
      - exists [0;0;0;0;0;0;0]. eexists. split; [zeros|reflexivity].
      - exists [0]. eexists. split; [zeros|reflexivity].
      - exists [0;0;0;0;0;0;0]. eexists. split; [zeros|reflexivity]. }
    destruct X as (z & v & B & E). exists z, (set_VPf t v). split; [exact B|]. intros y.
    rewrite (vp_unmarshal_local _ _ _ y _ E). cbn [bind fst snd]. now rewrite skip_q.
  - intros t b e HB H. cbn [rd_vp r_run] in H. pose proof (vp_unmarshal_safe (VP t) b (fo_vpf (FO t)) HB) as X.
    destruct (vp_unmarshal (VP t) b (fo_vpf (FO t))) as [an|e'| |]; try discriminate. cbn in H. injection H as <-. exact X.
Qed.
Lemma rd_dcs8_good : good rd_dcs8.
Proof.
  split; [|split; [|split]].
  - intros t b t' b' _ H. cbn in H. apply some_pair in H as (<- & <-). exists []. split; reflexivity.
  - intros g N. split.
    + intros t b t' b' H. cbn in H. apply some_pair in H as (<- & _). now apply so_DCS.
    + intros. apply agree_refl.
  - intros t. exists [], (set_DCSf t Dcs8BitData). split; [zeros|reflexivity].
  - discriminate.
Qed.
Lemma decode_ud_agree t b t' g : decode_ud t b = Ok t' -> g <> F_UD -> agree g t' t.
Proof.
  intros H N.
  assert (X : exists h u, t' = set_UDHf (set_UDf t u) h).
  { revert H. unfold decode_ud. cbv zeta.
    destruct (len b <? 1); [discriminate|]. intros H. apply bind_ok in H as (udl & _ & H).
    destruct (udl =? 0). { apply ok_inj in H. subst. exists (UDH t'), (UD t'). now dtpdu t'. }
    apply bind_ok in H as (al & _ & H).
    match type of H with (if ?c then _ else _) = _ => destruct c; [discriminate|] end.
    match type of H with (if ?c then _ else _) = _ => destruct c; [discriminate|] end.
    apply bind_ok in H as ([h hl] & _ & H).
    destruct (1 + hl =? len b). { apply ok_inj in H. subst. exists h, (UD t). now dtpdu t. }
    apply bind_ok in H as (s & _ & H). destruct (al =? Alpha7Bit).
    { apply bind_ok in H as (sm & _ & H). apply ok_inj in H. subst. now exists h, sm. }
    destruct (_ && _); [discriminate|]. apply ok_inj in H. subst. now exists h, s. }
  destruct X as (h & u & ->). dtpdu t. destruct g; cbn; auto; congruence.
Qed.
Lemma rd_ud_good c : last_good (rd_ud c).
Proof.
  split; [|split].
  - intros g N. cbn [rd_ud r_run r_fail r_field] in *. split.
    + intros t b t' b' H. destruct (c (PI t)).
      * apply bind_ok in H as (t2 & E & H). apply some_pair in H as (<- & _). now apply decode_ud_agree with (b := b).
      * apply some_pair in H as (<- & _). apply agree_refl.
    + intros. apply agree_refl.
  - intros t b e HB H. cbn [rd_ud r_run] in H. destruct (c (PI t)); [|discriminate].
    pose proof (decode_ud_safe t b HB) as X.
    destruct (decode_ud t b) as [an|e'| |]; try discriminate. cbn in H. injection H as <-.
    cbn in X. destruct X as (p & o & i & -> & Ho). exact Ho.
  - intros t. exists [0], t. split; [zeros|]. cbn [rd_ud r_run]. destruct (c (PI t)); reflexivity.
Qed.
Lemma readers_good st : all_good (readers st).
Proof.
  unfold readers, optionals.
  repeat match goal with |- context [if ?c then _ else _] => destruct c end;
  cbn [all_good];
  repeat match goal with |- _ /\ _ => split end;
  first [apply rd_ud_good | apply rd_byte_good; [|intros; exact I] | apply rd_into_good | apply rd_opt_good
        | apply rd_last_pi_good | apply rd_addr_good | apply rd_ts_good | apply rd_vp_good | apply rd_dcs8_good];
  auto using so_MR, so_PID, so_CT, so_MN, so_DA, so_OA, so_RA, so_PI, so_SCTS, so_DT, so_ST, so_DCS, so_VP, so_FCS.
Qed.

(** ** The code runs these readers *)
Lemma off_app (pre b : bytes) : len (pre ++ b) - len b = len pre.
Proof. rewrite len_app. lia. Qed.
Lemma snoc_app {A} (pre : list A) x b : pre ++ x :: b = (pre ++ [x]) ++ b.
Proof. now rewrite <- app_assoc. Qed.
Lemma len_snoc {A} (pre : list A) x : len (pre ++ [x]) = len pre + 1.
Proof. rewrite len_app. reflexivity. Qed.

(** Reading the octet at [len pre] of [pre ++ b]. *)
Lemma byte_step (f : tfield) set rs t (pre b : bytes) ri (c : bool) k :
  ri = len pre -> c = (len b <? 1) ->
  (forall x b', b = x :: b' -> k x = go rs (len (pre ++ b)) (set t x) b') ->
  (if c then (t, Err (new_decode_error (field_name f) ri ErrUnderflow))
   else try t (idx (pre ++ b) ri) k) = go (rd_byte f set ErrUnderflow :: rs) (len (pre ++ b)) t b.
Proof.
  intros -> -> H. destruct b as [|x b]; cbn [go rd_byte r_run r_fail r_field].
  - rewrite len_nil. cbn. rewrite app_nil_r, Z.sub_0_r. reflexivity.
  - rewrite len_cons. pose proof (len_nonneg b). replace (1 + len b <? 1) with false by lia.
    rewrite idx_app_mid. cbn [try]. now apply H.
Qed.
Lemma le_step (pre b : bytes) ri : ri = len pre -> (len (pre ++ b) <=? ri) = (len b <? 1).
Proof. intros ->. rewrite len_app. lia. Qed.

Lemma ud_step c t (pre b : bytes) : (c (PI t) = true) ->
  left_ud t b (len pre) = go [rd_ud c] (len (pre ++ b)) t b.
Proof.
  intros H. unfold left_ud. cbn [go rd_ud r_run r_fail r_field]. rewrite H, off_app.
  destruct (decode_ud t b); reflexivity.
Qed.

Lemma opt_step f (set : tpdu -> Z -> tpdu) (c : Z -> bool) rs t (pre b : bytes) ri k : ri = len pre ->
  (forall t' pre' b', pre' ++ b' = pre ++ b -> k (t', len pre') = go rs (len (pre' ++ b')) t' b') ->
  try t (if c (PI t) then
           if len (pre ++ b) <=? ri then Err (new_decode_error (field_name f) ri ErrUnderflow)
           else x <- idx (pre ++ b) ri ;; Ok (set t x, ri + 1)
         else Ok (t, ri)) k = go (rd_opt f set c :: rs) (len (pre ++ b)) t b.
Proof.
  intros -> H. cbn [go rd_opt r_run r_fail r_field]. destruct (c (PI t)).
  - rewrite (le_step pre b) by reflexivity. destruct b as [|x b].
    + cbn. rewrite app_nil_r, Z.sub_0_r. reflexivity.
    + rewrite len_cons. pose proof (len_nonneg b). replace (1 + len b <? 1) with false by lia.
      rewrite idx_app_mid. cbn [bind try]. rewrite <- len_snoc with (x := x).
      rewrite (H _ (pre ++ [x]) b) by (symmetry; apply snoc_app). now rewrite <- snoc_app.
  - cbn [try]. apply H. reflexivity.
Qed.

Lemma optionals_go t pre b ri : ri = len pre ->
  left_optionals t (pre ++ b) ri = go optionals (len (pre ++ b)) t b.
Proof.
  intros ->. unfold left_optionals, optionals.
  apply (opt_step F_PID); [reflexivity|]. intros t1 pre1 b1 <-.
  apply (opt_step F_DCS); [reflexivity|]. intros t2 pre2 b2 <-.
  destruct (pi_udl (PI t2)) eqn:E.
  - rewrite slice_from_app by reflexivity. cbn [try]. now apply ud_step.
  - cbn [go rd_ud r_run]. rewrite E. reflexivity.
Qed.

Lemma deliver_report_go t s : left_deliver_report t s = go (readers SmsDeliverReport) (len s) t s.
Proof.
  unfold left_deliver_report. cbv zeta. change (readers SmsDeliverReport) with
    (rd_byte F_FCS set_FCS ErrUnderflow :: rd_byte F_PI set_PI ErrUnderflow :: optionals).
  change s with ([] ++ s) at 1 2 3 4 5 6.
  apply (byte_step F_FCS); [reflexivity|now apply le_step|]. intros x s1 ->.
  change ([] ++ x :: s1) with ([x] ++ s1).
  apply (byte_step F_PI); [reflexivity|now apply le_step|]. intros y s2 ->.
  change ([x] ++ y :: s2) with ([x; y] ++ s2). now apply optionals_go.
Qed.

(** The seven octets of a stamp at [len pre]. *)
Lemma ts_firstn b : ts_unmarshal (firstn 7 b) = ts_unmarshal b.
Proof.
  rewrite <- (firstn_skipn 7 b) at 2. set (q := firstn 7 b). set (y := skipn 7 b).
  destruct (len b <? 7) eqn:E.
  - assert (y = []) as ->. { unfold y. apply skipn_all2. unfold len in E. lia. }
    now rewrite app_nil_r.
  - assert (L : len q = 7). { unfold q, len in *. rewrite firstn_length. lia. }
    unfold ts_unmarshal. rewrite len_app. pose proof (len_nonneg y).
    replace (len q <? 7) with false by lia. replace (len q + len y <? 7) with false by lia.
    rewrite !idx_app_l by lia. reflexivity.
Qed.
Lemma slice_mid {A} (pre b : list A) : 7 <= len b ->
  slice (pre ++ b) (len pre) (len pre + 7) = Ok (firstn 7 b).
Proof.
  intros H. rewrite <- (firstn_skipn 7 b) at 1. apply slice_app; [reflexivity|].
  unfold len in *. rewrite firstn_length. lia.
Qed.
Lemma split7 (b : bytes) : 7 <= len b -> exists q, b = q ++ skipn 7 b /\ len q = 7.
Proof.
  intros H. exists (firstn 7 b). rewrite firstn_skipn. split; [reflexivity|].
  unfold len in *. rewrite firstn_length. lia.
Qed.
Lemma ts_step f set rs t (pre b : bytes) ri k : ri = len pre ->
  (forall ts pre' b', pre' ++ b' = pre ++ b -> len pre' = ri + 7 -> b' = skipn 7 b ->
     k ts = go rs (len (pre' ++ b')) (set t ts) b') ->
  (if len (pre ++ b) <? ri + 7 then (t, Err (new_decode_error (field_name f) ri ErrUnderflow))
   else try t (slice (pre ++ b) ri (ri + 7)) (fun s =>
        try t (on_err (ts_unmarshal s) (new_decode_error (field_name f) ri)) k))
  = go (rd_ts f set :: rs) (len (pre ++ b)) t b.
Proof.
  intros -> H. cbn [go rd_ts r_run r_fail r_field].
  destruct (len (pre ++ b) <? len pre + 7) eqn:E; rewrite len_app in E.
  - unfold ts_unmarshal. replace (len b <? 7) with true by lia. cbn [bind]. now rewrite off_app.
  - rewrite slice_mid by lia. cbn [try]. rewrite ts_firstn.
    destruct (ts_unmarshal b) as [ts|e| |]; cbn [on_err try bind]; try reflexivity.
    + destruct (split7 b) as (q & Eb & Lq); [lia|].
      rewrite (H ts (pre ++ q) (skipn 7 b)).
      * now rewrite <- app_assoc, <- Eb.
      * now rewrite <- app_assoc, <- Eb.
      * rewrite len_app. lia.
      * reflexivity.
    + now rewrite off_app.
Qed.

Lemma submit_report_go t s : left_submit_report t s = go (readers SmsSubmitReport) (len s) t s.
Proof.
  unfold left_submit_report. cbv zeta. change (readers SmsSubmitReport) with
    (rd_byte F_FCS set_FCS ErrUnderflow :: rd_byte F_PI set_PI ErrUnderflow :: rd_ts F_SCTS set_SCTS :: optionals).
  change s with ([] ++ s) at 1 2 3 4 5 6 7 8.
  apply (byte_step F_FCS); [reflexivity|reflexivity|]. intros x s1 ->.
  change ([] ++ x :: s1) with ([x] ++ s1).
  apply (byte_step F_PI); [reflexivity|now apply le_step|]. intros y s2 ->.
  change ([x] ++ y :: s2) with ([x; y] ++ s2).
  apply (ts_step F_SCTS); [reflexivity|]. intros ts pre b <- L _. symmetry in L. now apply optionals_go.
Qed.

Lemma addr_step f set rs t (pre b : bytes) ri k : ri = len pre -> Forall is_byte b ->
  (forall a n pre' b', pre' ++ b' = pre ++ b -> len pre' = ri + n -> Forall is_byte b' ->
     b' = skipn (Z.to_nat n) b ->
     k (a, n) = go rs (len (pre' ++ b')) (set t a) b') ->
  try t (on_err (addr_unmarshal b) (new_decode_error (field_name f) ri)) k
  = go (rd_addr f set :: rs) (len (pre ++ b)) t b.
Proof.
  intros -> HB H. cbn [go rd_addr r_run r_fail r_field].
  destruct (addr_unmarshal b) as [[a n]|e| |] eqn:E; cbn [on_err try bind fst snd]; try reflexivity.
  - pose proof (addr_unmarshal_inv _ _ _ HB E) as (L & _).
    destruct (skip_split b n) as (q & b2 & -> & L1 & L2); [lia|]. rewrite L2.
    apply Forall_app in HB as (_ & HB).
    rewrite (H a n (pre ++ q) b2).
    + now rewrite <- app_assoc.
    + now rewrite <- app_assoc.
    + rewrite len_app. lia.
    + assumption.
    + now symmetry.
  - now rewrite off_app.
Qed.

Lemma status_report_go t s : Forall is_byte s ->
  left_status_report t s = go (readers SmsStatusReport) (len s) t s.
Proof.
  intros HB. unfold left_status_report. cbv zeta. change (readers SmsStatusReport) with
    (rd_byte F_MR set_MR ErrUnderflow :: rd_addr F_RA set_RA :: rd_ts F_SCTS set_SCTS :: rd_ts F_DT set_DT ::
    rd_byte F_ST set_ST ErrUnderflow :: rd_last_pi :: optionals).
  refine (byte_step F_MR set_MR _ t [] s 0 _ _ eq_refl _ _); [now apply (le_step [] s)|]. intros x s1 ->.
  apply Forall_inv_tail in HB.
  change ([] ++ x :: s1) with ([x] ++ s1). change (x :: s1) with ([x] ++ s1).
  rewrite (slice_from_app [x] s1) by reflexivity. cbn [try].
  apply (addr_step F_RA); [reflexivity|assumption|]. intros a n pre b <- L _ _. cbn [fst snd].
  apply (ts_step F_SCTS); [lia|]. intros ts pre1 b1 <- L1 _.
  apply (ts_step F_DT); [lia|]. intros ts1 pre2 b2 <- L2 _.
  apply (byte_step F_ST); [lia|apply le_step; lia|]. intros y b3 ->.
  cbn [go rd_last_pi r_run]. rewrite snoc_app, len_app, len_snoc. destruct b3 as [|z b4].
  - replace (_ <? _) with false by (change (len (@nil Z)) with 0; lia). reflexivity.
  - rewrite len_cons. pose proof (len_nonneg b4). replace (_ <? _) with true by lia.
    replace (0 + 1 + n + 7 + 7 + 1) with (len (pre2 ++ [y])) by (rewrite len_snoc; lia).
    rewrite idx_app_mid. cbn [try]. rewrite (snoc_app _ z). rewrite (optionals_go _ _ b4) by (rewrite !len_snoc; lia).
    f_equal. rewrite !len_app. change (len [z]) with 1. change (len [y]) with 1. lia.
Qed.

Lemma submit_go t s : Forall is_byte s -> left_submit t s = go (readers SmsSubmit) (len s) t s.
Proof.
  intros HB. unfold left_submit. cbv zeta. change (readers SmsSubmit) with
    [rd_byte F_MR set_MR ErrUnderflow; rd_addr F_DA set_DA; rd_byte F_PID set_PIDf ErrUnderflow;
     rd_byte F_DCS set_DCSf ErrUnderflow; rd_vp; rd_ud (fun _ => true)].
  refine (byte_step F_MR set_MR _ t [] s 0 _ _ eq_refl _ _); [reflexivity|]. intros x s1 ->.
  apply Forall_inv_tail in HB.
  change ([] ++ x :: s1) with ([x] ++ s1). change (x :: s1) with ([x] ++ s1).
  rewrite (slice_from_app [x] s1) by reflexivity. cbn [try].
  apply (addr_step F_DA); [reflexivity|assumption|]. intros a n pre b <- L HB1 _. cbn [fst snd].
  apply (byte_step F_PID); [lia|apply le_step; lia|]. intros y b1 ->. rewrite snoc_app.
  apply (byte_step F_DCS); [rewrite len_snoc; lia|apply le_step; rewrite len_snoc; lia|]. intros z b2 ->.
  assert (HB2 : Forall is_byte b2) by (now do 2 apply Forall_inv_tail in HB1).
  rewrite snoc_app. set (pre1 := (pre ++ [y]) ++ [z]).
  replace (1 + n + 1 + 1) with (len pre1) by (unfold pre1; rewrite !len_snoc; lia).
  rewrite slice_from_app by reflexivity. cbn [try go rd_vp r_run r_fail r_field].
  set (t1 := set_DCSf _ z). rewrite VP_set_VPf, FO_set_VPf, vp_unmarshal_cleared.
  destruct (vp_unmarshal (VP t1) b2 (fo_vpf (FO t1))) as [[v m]|e| |] eqn:E; cbn [on_err try bind fst snd].
  - pose proof (vp_unmarshal_len _ _ _ _ _ E) as Lm.
    destruct (skip_split b2 m) as (q & b3 & -> & L1 & L2); [lia|]. rewrite L2.
    rewrite app_assoc. replace (len pre1 + m) with (len (pre1 ++ q)) by (rewrite len_app; lia).
    rewrite slice_from_app by reflexivity. cbn [try]. rewrite set_VPf_twice.
    rewrite (ud_step (fun _ => true)) by reflexivity. reflexivity.
  - now rewrite off_app.
  - pose proof (vp_unmarshal_safe (VP t1) b2 (fo_vpf (FO t1)) HB2) as X. rewrite E in X. destruct X.
  - pose proof (vp_unmarshal_safe (VP t1) b2 (fo_vpf (FO t1)) HB2) as X. rewrite E in X. destruct X.
Qed.

Lemma into_step (f : tfield) set rs t (pre b : bytes) off k : off = len pre ->
  (forall x b', b = x :: b' -> k (set t x) b' = go rs (len (pre ++ b)) (set t x) b') ->
  read_into set (field_name f) off t b k = go (rd_into f set :: rs) (len (pre ++ b)) t b.
Proof.
  intros -> H. destruct b as [|x b]; cbn [read_into go rd_into r_run r_fail r_field].
  - rewrite app_nil_r, Z.sub_0_r. reflexivity.
  - now apply H.
Qed.

Lemma deliver_go t s : Forall is_byte s -> left_deliver t s = go (readers SmsDeliver) (len s) t s.
Proof.
  intros HB. unfold left_deliver. cbv zeta. change (readers SmsDeliver) with
    [rd_addr F_OA set_OA; rd_into F_PID set_PIDf; rd_byte F_DCS set_DCSf EOF; rd_ts F_SCTS set_SCTS;
     rd_ud (fun _ => true)].
  refine (addr_step F_OA set_OA _ t [] s 0 _ eq_refl HB _). intros a n pre b Es L _ _. cbn [fst snd].
  cbn [app] in Es. subst s. rewrite slice_from_app by lia. cbn [try].
  apply (into_step F_PID); [apply off_app|]. intros x b1 ->. cbn [go rd_byte r_run r_fail r_field].
  destruct b1 as [|y b2]; cbn [read_byte try fst snd]; [reflexivity|].
  cbn [go rd_ts r_run r_fail r_field].
  destruct (ts_unmarshal b2) as [ts|e| |] eqn:E; cbn [on_err try bind]; try reflexivity.
  apply ts_unmarshal_len in E. destruct (split7 b2 E) as (q & Eb & Lq).
  change (buf_next 7 b2) with (skipn 7 b2). set (b3 := skipn 7 b2) in *. clearbody b3. subst b2.
  replace (pre ++ x :: y :: q ++ b3) with ((pre ++ x :: y :: q) ++ b3) by (now rewrite <- app_assoc).
  rewrite off_app, (ud_step (fun _ => true)) by reflexivity. cbn [go]. now rewrite off_app.
Qed.

Lemma command_go t s : Forall is_byte s -> left_command t s = go (readers SmsCommand) (len s) t s.
Proof.
  intros HB. unfold left_command. cbv zeta. change (readers SmsCommand) with
    [rd_into F_MR set_MR; rd_into F_PID set_PIDf; rd_into F_CT set_CT; rd_into F_MN set_MN;
     rd_addr F_DA set_DA; rd_dcs8; rd_ud (fun _ => true)].
  refine (into_step F_MR set_MR _ t [] s (len s - len s) _ (Z.sub_diag _) _). intros x s1 ->.
  change ([] ++ x :: s1) with ([x] ++ s1). change (x :: s1) with ([x] ++ s1).
  apply (into_step F_PID); [apply off_app|]. intros x2 s2 ->.
  change ([x] ++ x2 :: s2) with ([x; x2] ++ s2).
  apply (into_step F_CT); [apply off_app|]. intros x3 s3 ->.
  change ([x; x2] ++ x3 :: s3) with ([x; x2; x3] ++ s3).
  apply (into_step F_MN); [apply off_app|]. intros x4 s4 ->.
  change ([x; x2; x3] ++ x4 :: s4) with ([x; x2; x3; x4] ++ s4).
  apply (addr_step F_DA); [apply off_app|now do 4 apply Forall_inv_tail in HB|].
  intros a n pre b E L _ Eb. cbn [fst snd]. cbn [go rd_dcs8 r_run].
  change (buf_next n s4) with (skipn (Z.to_nat n) s4). rewrite <- Eb, <- E, off_app.
  rewrite (ud_step (fun _ => true)) by reflexivity. cbn [go]. now rewrite off_app.
Qed.

(** ** The whole call *)
Lemma sms_type_small st : st = SmsDeliver \/ st = SmsDeliverReport \/ st = SmsSubmitReport \/
  st = SmsSubmit \/ st = SmsStatusReport \/ st = SmsCommand \/
  ((st =? SmsDeliver) = false /\ (st =? SmsDeliverReport) = false /\ (st =? SmsSubmitReport) = false /\
   (st =? SmsSubmit) = false /\ (st =? SmsStatusReport) = false /\ (st =? SmsCommand) = false).
Proof. unfold SmsDeliver, SmsDeliverReport, SmsSubmitReport, SmsSubmit, SmsStatusReport, SmsCommand. lia. Qed.

Definition known_type (st : Z) : bool := existsb (Z.eqb st) [0; 1; 2; 3; 4; 5].

Lemma unmarshal_left_go t fo s : Forall is_byte s ->
  unmarshal_left t (fo :: s) =
  let t := set_FO t fo in
  if known_type (tpdu_type t) then
    let lr := go (readers (tpdu_type t)) (len s) t s in
    (fst lr, on_err (snd lr) (new_decode_error (sms_type_string (tpdu_type t)) 1))
  else (set_FO t 0, Err (new_decode_error "tpdu.firstOctet" 0 (ErrUnsupportedSmsType (tpdu_type t)))).
Proof.
  intros HB. unfold unmarshal_left. rewrite len_cons. pose proof (len_nonneg s).
  replace (1 + len s <? 1) with false by lia. rewrite idx_0. cbn [try]. cbv zeta.
  change (fo :: s) with ([fo] ++ s). rewrite (slice_from_app [fo] s) by reflexivity. cbn [try].
  set (t1 := set_FO t fo). set (st := tpdu_type t1).
  destruct (sms_type_small st) as [->|[->|[->|[->|[->|[->|(E0 & E1 & E2 & E3 & E4 & E5)]]]]]].
  - change (known_type SmsDeliver) with true. cbn [Z.eqb]. now rewrite <- deliver_go.
  - change (known_type SmsDeliverReport) with true. change (SmsDeliverReport =? SmsDeliver) with false.
    cbn [Z.eqb Pos.eqb]. rewrite <- deliver_report_go. reflexivity.
  - change (known_type SmsSubmitReport) with true. cbn [Z.eqb Pos.eqb]. rewrite <- submit_report_go. reflexivity.
  - change (known_type SmsSubmit) with true. rewrite <- submit_go by assumption. reflexivity.
  - change (known_type SmsStatusReport) with true. rewrite <- status_report_go by assumption. reflexivity.
  - change (known_type SmsCommand) with true. rewrite <- command_go by assumption. reflexivity.
  - rewrite E0, E1, E2, E3, E4, E5.
    assert (known_type st = false) as ->; [|reflexivity].
    unfold known_type, SmsDeliver, SmsDeliverReport, SmsSubmitReport, SmsSubmit, SmsStatusReport, SmsCommand in *.
    cbn [existsb]. now rewrite E0, E1, E2, E3, E4, E5.
Qed.

Lemma string_app_assoc a b c : ((a ++ b) ++ c = a ++ (b ++ c))%string.
Proof. induction a as [|x a IH]; cbn; [reflexivity|]. now rewrite IH. Qed.
Lemma nde_path f o e : exists part off inner, new_decode_error f o e = DecodeErr part off inner /\
  (part = f \/ exists p, part = (f ++ "." ++ p)%string) /\ (forall n, err_within n e -> o <= off).
Proof.
  destruct e; cbn [new_decode_error]; (eexists; eexists; eexists; split; [reflexivity|]; split;
    [first [now left | right; eexists; reflexivity] | intros n H; cbn [err_within] in H; lia]).
Qed.
Lemma nde_twice st f o e n : err_within n e -> exists path off inner,
  new_decode_error (sms_type_string st) 1 (new_decode_error (field_name f) o e) = DecodeErr path off inner /\
  names path st f /\ 1 + o <= off.
Proof.
  intros W. destruct (nde_path (field_name f) o e) as (p & off & i & -> & N & L). specialize (L n W).
  cbn [new_decode_error]. eexists; eexists; eexists. split; [reflexivity|]. split; [|lia].
  unfold names. destruct N as [-> |(q & ->)]; [now left|]. right. exists q.
  rewrite !string_app_assoc. reflexivity.
Qed.

Lemma failed_reader st r t t1 : known_type st = true -> In r (readers st) ->
  agree (r_field r) t1 t -> failed_field st (r_field r) t (r_fail r t1).
Proof.
  intros K HI A. unfold known_type in K. cbn [existsb] in K.
  assert (C : st = 0 \/ st = 1 \/ st = 2 \/ st = 3 \/ st = 4 \/ st = 5) by lia. clear K.
  destruct C as [-> |[-> |[-> |[-> |[-> | ->]]]]]; cbn in HI;
    repeat (destruct HI as [<- |HI]; [|]); try destruct HI; cbn in A |- *;
    try exact A; try (now rewrite A); try (now dtpdu t1).
  rewrite VP_set_VPf, A. reflexivity.
Qed.

Lemma NoDup_mid {A} (a b : list A) x : NoDup (a ++ x :: b) -> ~ In x a /\ ~ In x b.
Proof.
  intros H. apply NoDup_remove_2 in H. split; intros X; apply H, in_or_app; auto.
Qed.

Lemma go_ok_total rs : forall total total' t b r, go rs total t b = (r, Ok tt) -> go rs total' t b = (r, Ok tt).
Proof.
  induction rs as [|x rs IH]; intros total total' t b r H; cbn [go] in *; [exact H|].
  destruct (r_run x t b) as [[[t' b']|]|e| |]; try discriminate; try exact H.
  now apply IH with (1 := H).
Qed.

Lemma go_bytes_prefix t fo s r : Forall is_byte s -> known_type (tpdu_type (set_FO t fo)) = true ->
  tpdu_unmarshal t (fo :: s) = Ok r ->
  go (readers (tpdu_type (set_FO t fo))) (len s) (set_FO t fo) s = (r, Ok tt).
Proof.
  intros HB K H. rewrite <- outcome_unmarshal, unmarshal_left_go in H by assumption.
  cbv zeta in H. rewrite K in H.
  destruct (go _ _ _ _) as [l [u|e| |]]; cbn in H; try discriminate. destruct u. congruence.
Qed.
Lemma go_to_unmarshal t fo s r total : Forall is_byte s -> known_type (tpdu_type (set_FO t fo)) = true ->
  go (readers (tpdu_type (set_FO t fo))) total (set_FO t fo) s = (r, Ok tt) ->
  tpdu_unmarshal t (fo :: s) = Ok r.
Proof.
  intros HB K H. rewrite <- outcome_unmarshal, unmarshal_left_go by assumption.
  cbv zeta. rewrite K. rewrite (go_ok_total _ _ (len s) _ _ _ H). reflexivity.
Qed.

Lemma firstn_prefix {A} (p s' : list A) n : n = length p -> firstn n s' = p -> exists y, s' = p ++ y.
Proof. intros -> E. exists (skipn (length p) s'). rewrite <- E at 1. symmetry. apply firstn_skipn. Qed.


Lemma left_up_to t fo s l e : Forall is_byte s -> known_type (tpdu_type (set_FO t fo)) = true ->
  unmarshal_left t (fo :: s) = (l, Err e) ->
  exists f start path off inner,
    e = DecodeErr path off inner /\ names path (tpdu_type (set_FO t fo)) f /\
    1 <= start <= off /\ start <= len (fo :: s) /\
    unmarshalled_up_to tpdu_unmarshal (tpdu_type (set_FO t fo)) f start (fo :: s) t l /\
    (exists rest r, Forall is_byte rest /\
       tpdu_unmarshal t (firstn (Z.to_nat start) (fo :: s) ++ rest) = Ok r).
Proof.
  intros HB K H. rewrite unmarshal_left_go in H by assumption. cbv zeta in H. rewrite K in H.
  set (t0 := set_FO t fo) in *. set (st := tpdu_type t0) in *.
  destruct (go (readers st) (len s) t0 s) as [l' [u|e1| |]] eqn:E; cbn [fst snd on_err] in H; try discriminate.
  apply pair_equal_spec in H as (-> & H). injection H as H.
  pose proof (readers_order st) as O. pose proof (field_order_nodup st) as ND. rewrite O in ND.
  apply NoDup_cons_iff in ND as (NF & ND).
  destruct (go_left _ (readers_good st) ND _ _ _ _ _ HB E)
    as (bef & r & aft & q & b1 & t1 & e0 & ER & -> & E1 & W & El & Er & A & R).
  rewrite E1 in H. rewrite off_app in H.
  destruct (nde_twice st (r_field r) (len q) e0 _ W) as (path & off & inner & E2 & NA & LO).
  pose proof (len_nonneg q). pose proof (len_nonneg b1).
  assert (FS : firstn (Z.to_nat (1 + len q)) (fo :: q ++ b1) = fo :: q).
  { replace (Z.to_nat (1 + len q)) with (S (length q)) by (unfold len; lia). cbn [firstn].
    now rewrite firstn_app_exact. }
  rewrite ER, map_app in ND. cbn [map] in ND. apply NoDup_mid in ND as (N1 & N2).
  assert (Nr : r_field r <> F_FO).
  { intros X. apply NF. rewrite ER, map_app. apply in_or_app. right. left. exact X. }
  exists (r_field r), (1 + len q), path, off, inner.
  split; [congruence|]. split; [exact NA|]. split; [lia|]. split; [rewrite len_cons, len_app; lia|].
  assert (HR : In r (readers st)) by (rewrite ER; apply in_or_app; right; now left).
  pose proof (all_good_frames _ (readers_good st)) as AF. pose proof AF as AF0.
  rewrite Forall_forall in AF0.
  split.
  - exists (F_FO :: map r_field bef), (map r_field aft). split.
    { rewrite O, ER, map_app. reflexivity. }
    rewrite FS. split; [|split].
    + intros g HI s' r' HB' HP HU.
      destruct (firstn_prefix (fo :: q) s' (Z.to_nat (1 + len q)) ltac:(cbn [length]; unfold len; lia) HP) as (y & ->).
      cbn [app] in HU. apply Forall_inv_tail in HB'.
      apply go_bytes_prefix in HU; [|exact HB'|exact K]. fold t0 in HU. fold st in HU.
      rewrite R in HU.
      assert (AL : agree g l t1).
      { subst l. apply (AF0 r HR). intros ->. destruct HI as [HI|HI]; [congruence|contradiction]. }
      eapply agree_trans; [exact AL|]. apply agree_sym.
      eapply go_frames; [|exact HU|].
      * rewrite ER in AF. apply Forall_app in AF as (_ & AF). exact AF.
      * cbn [map]. intros [X|X].
        -- subst g. destruct HI as [HI|HI]; [congruence|contradiction].
        -- destruct HI as [<- |HI].
           ++ apply NF. rewrite ER, map_app. apply in_or_app. right. now right.
           ++ clear - HI X ER O st. pose proof (field_order_nodup st) as ND. rewrite O in ND.
              apply NoDup_cons_iff in ND as (_ & ND). rewrite ER, map_app in ND. cbn [map] in ND.
              apply in_split in HI as (l1 & l2 & HI). rewrite HI in ND.
              rewrite <- app_assoc in ND. cbn [app] in ND. apply NoDup_remove_2 in ND. apply ND.
              apply in_or_app. right. apply in_or_app. right. now right.
    + intros g N. cbn [app] in N.
      assert (Ng : g <> r_field r).
      { intros ->. apply N. right. apply in_or_app. right. now left. }
      eapply agree_trans; [subst l; now apply (AF0 r HR)|].
      eapply agree_trans; [apply A; intros X; apply N; right; apply in_or_app; now left|].
      apply so_FO. intros ->. apply N. now left.
    + subst l. apply failed_reader; [exact K|exact HR|].
      eapply agree_trans; [now apply A|]. now apply so_FO.
  - rewrite FS.
    assert (G : all_good (r :: aft)).
    { pose proof (readers_good st) as G. rewrite ER in G. clear - G.
      induction bef as [|b bef IH]; [exact G|]. apply IH.
      apply all_good_cons in G as (_ & G); [exact G|]. destruct bef; discriminate. }
    destruct (go_completes _ 0 G t1) as (z & r' & BZ & EZ).
    exists z, r'. split; [exact BZ|]. cbn [app]. apply Forall_app in HB as (HQ & _).
    apply go_to_unmarshal with (total := 0); [apply Forall_app; now split|exact K|].
    fold t0. fold st. rewrite R. exact EZ.
Qed.
