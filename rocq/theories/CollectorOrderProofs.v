(** Reassembly in any order of arrival. *)
From Coq Require Import Permutation.
From Verif Require Import GoBase GoLemmas UserData Tpdu Address Collector SpecCollect CollectorProofs CollectorMsgProofs.

(** ** Following one message *)

Section Follow.
Context (cfg : ccfg) (m : message) (MO : m_ok m).

Definition absent (s : cstate) : Prop := klookup (c_pipes s) (key_of m) = None.
Definition track (s : cstate) (id : nat) (p : pipe) : Prop :=
  klookup (c_pipes s) (key_of m) = Some id /\ nth_error (c_heap s) id = Some p /\ live s id.

Lemma frame_absent s s' : frame s s' (key_of m) -> absent s -> absent s'.
Proof. intros (A & _) B. unfold absent in *. congruence. Qed.
Lemma frame_track s s' id p : frame s s' (key_of m) -> track s id p -> track s' id p.
Proof. intros (A & F) (B & C & D). destruct (F id B) as (F1 & F2). repeat split; auto; congruence. Qed.

(** Events that are not about the message. *)
Definition other (e : event) : Prop :=
  match e with EvCollect g => seg_no m g = None | EvClose => False | _ => True end.
Definition no_fire (s : cstate) (e : event) : Prop :=
  match e with
  | EvFire tid => forall tm g, nth_error (c_timers s) tid = Some tm -> tm_state tm = TActive ->
            In (Some g) (pipe_segs s (tm_pipe tm)) -> seg_no m g = None
  | _ => True
  end.

Lemma other_key g n q ref : typed g -> seg_no m g = None ->
  tpdu_concat_info (sg_pdu g) = Some (n, q, ref) -> 2 <= n -> fst (pdu_key (sg_pdu g) n ref) <> key_of m.
Proof.
  intros TY HN HC H2. destruct (supported_dec g) as [SU|NS].
  2:{ rewrite (unsupported_key g n ref NS). cbn [fst]. intros E. symmetry in E. now apply key_nonempty in E. }
  destruct (part_message g n q ref TY SU HC H2) as (m' & MO' & _ & HS & HK). rewrite HK. cbn [fst]. intros E.
  apply key_inj in E; [|assumption..]. subst m'. apply seg_no_iff in HS. congruence.
Qed.

Lemma somes_in {A} (l : list (option A)) x : In x (somes l) -> In (Some x) l.
Proof. unfold somes. intros H. apply in_flat_map in H as ([y|] & H1 & H2); [|contradiction]. destruct H2 as [->|[]]. assumption. Qed.

Lemma entry_seg s id : MInv s -> klookup (c_pipes s) (key_of m) = Some id ->
  exists g i, In (Some g) (pipe_segs s id) /\ seg_no m g = Some i.
Proof.
  intros M LK. apply klookup_in in LK. destruct (proj1 (M _ _ LK) (key_nonempty _)) as (m' & p & MO' & EK & HP & (_ & WF & WS) & HF).
  apply key_inj in EK; [|assumption..]. subst m'. rewrite (pipe_segs_nth _ _ _ HP).
  destruct (somes (p_segs p)) as [|g l] eqn:ES; [cbn in WF; lia|].
  assert (HI : In (Some g) (p_segs p)) by (apply somes_in; rewrite ES; now left).
  exists g. destruct (In_nth_error _ _ HI) as (j & Hj). exists (Z.of_nat j + 1). split; [assumption|].
  apply seg_no_iff. now apply WS.
Qed.

Lemma step_other s e s' o : Inv cfg None s -> MInv s -> typed_event e -> other e -> no_fire s e ->
  step cfg s e = (s', o) ->
  (absent s -> absent s') /\ (forall id p, track s id p -> track s' id p) /\
  (c_closed s = false -> c_closed s' = false).
Proof.
  intros I M SE OT NF H.
  assert (CL : c_closed s = false -> c_closed s' = false).
  { intros O. destruct e as [g| | |tid|tid|tid]; cbn [step] in H.
    - destruct (collect cfg s g) as [s1 r] eqn:E. injection H as <- <-. clear - E O.
      unfold collect in E. rewrite O in E. unfold stop_timer, new_pipe, store in E.
      repeat match type of E with
      | context [match ?x with _ => _ end] =>
          match x with context [match _ with _ => _ end] => fail 1 | _ => destruct x eqn:? end
      end; injection E as <- <-; cbn; try assumption; cbn in *; congruence.
    - contradiction.
    - now injection H as <- <-.
    - destruct (nth_error (c_timers s) tid) as [tm|]; [destruct (tm_state tm)|]; now injection H as <- <-.
    - destruct (nth_error (c_timers s) tid) as [tm|]; [destruct (tm_state tm)|]; injection H as <- <-; auto.
      unfold expire_pipe. destruct (klookup _ _); [destruct (Nat.eqb _ _)|]; auto.
    - destruct (nth_error (c_timers s) tid) as [tm|]; [destruct (tm_state tm)|]; now injection H as <- <-. }
  assert (FF : frame s s' (key_of m) -> (absent s -> absent s') /\ (forall id p, track s id p -> track s' id p) /\
    (c_closed s = false -> c_closed s' = false)).
  { intros F. split; [now apply frame_absent|]. split; [|assumption]. intros id p. now apply frame_track. }
  destruct e as [g| | |tid|tid|tid]; cbn [step] in H.
  - destruct (collect cfg s g) as [s1 r] eqn:E. injection H as <- <-. apply FF.
    apply (collect_frame cfg s g s1 r _ I E). intros n q ref HC H2. now apply (other_key g n q ref).
  - contradiction.
  - injection H as <- <-. apply FF, frame_refl.
  - destruct (nth_error (c_timers s) tid) as [tm|] eqn:HT; [|injection H as <- <-; apply FF, frame_refl].
    destruct (tm_state tm) eqn:ES; injection H as <- <-; try (apply FF, frame_refl).
    apply FF. split; [reflexivity|]. intros id LK. split; [reflexivity|]. intros L j x Hx HP.
    cbn [set_timer c_timers] in Hx. apply nth_upd_inv in Hx as [(-> & -> & _)|(_ & Hx)]; [|now apply (L j)].
    cbn [tm_pipe] in HP. destruct (entry_seg s id M LK) as (g & i & HG & HS). rewrite <- HP in HG.
    specialize (NF tm g HT ES HG). congruence.
  - destruct (nth_error (c_timers s) tid) as [tm|] eqn:HT; [|injection H as <- <-; apply FF, frame_refl].
    destruct (tm_state tm) eqn:ES; injection H as <- <-; try (apply FF, frame_refl).
    assert (EX : c_heap (expire_pipe s tm) = c_heap s /\ c_timers (expire_pipe s tm) = c_timers s /\
      (c_pipes (expire_pipe s tm) = c_pipes s \/
       (c_pipes (expire_pipe s tm) = kdelete (c_pipes s) (tm_key tm) /\ klookup (c_pipes s) (tm_key tm) = Some (tm_pipe tm)))).
    { unfold expire_pipe. destruct (klookup (c_pipes s) (tm_key tm)) as [id|]; [|auto].
      destruct (Nat.eqb id (tm_pipe tm)) eqn:EQ; [|auto]. apply Nat.eqb_eq in EQ. subst id. auto. }
    destruct EX as (EH & ET & EP). split; [|split; [|assumption]].
    + unfold absent. cbn [set_timer c_pipes]. intros A. destruct EP as [-> | (-> & LK)]; [assumption|].
      rewrite klookup_kdelete_other; [assumption|]. congruence.
    + intros id p (A & B & L). unfold track. cbn [set_timer c_pipes c_heap]. rewrite EH. split; [|split; [assumption|]].
      * destruct EP as [-> | (-> & LK)]; [assumption|]. rewrite klookup_kdelete_other; [assumption|].
        intros EQ. rewrite EQ in A. assert (id = tm_pipe tm) by congruence. subst id. now apply (L tid tm HT).
      * intros j x Hx HP. cbn [set_timer c_timers] in Hx. rewrite ET in Hx.
        apply nth_upd_inv in Hx as [(-> & -> & _)|(_ & Hx)]; [discriminate|now apply (L j)].
  - destruct (nth_error (c_timers s) tid) as [tm|] eqn:HT; [|injection H as <- <-; apply FF, frame_refl].
    destruct (tm_state tm) eqn:ES; injection H as <- <-; try (apply FF, frame_refl).
    apply FF. split; [reflexivity|]. intros id LK. split; [reflexivity|]. intros L j x Hx HP.
    cbn [set_timer c_timers] in Hx. apply nth_upd_inv in Hx as [(-> & -> & _)|(_ & Hx)]; [discriminate|now apply (L j)].
Qed.

(** ** The slots filled by the segments received *)

Definition place (n : nat) (got : list (Z * seg)) : list (option seg) :=
  fold_left (fun l ig => upd l (Z.to_nat (fst ig - 1)) (Some (snd ig))) got (repeat None n).
Lemma place_snoc n got i g : place n (got ++ [(i, g)]) = upd (place n got) (Z.to_nat (i - 1)) (Some g).
Proof. unfold place. now rewrite fold_left_app. Qed.
Lemma place_length n got : length (place n got) = n.
Proof. induction got as [|[i g] got IH] using rev_ind; [apply repeat_length|]. rewrite place_snoc, upd_length. exact IH. Qed.

Definition numbered (n : nat) (got : list (Z * seg)) : Prop :=
  NoDup (map fst got) /\ Forall (fun ig => 1 <= fst ig <= Z.of_nat n) got.
Lemma numbered_app n a b : numbered n (a ++ b) -> numbered n a.
Proof.
  intros (A & B). rewrite map_app in A. apply Forall_app in B as (B & _). split; [|assumption].
  clear B. induction (map fst a) as [|x l IH]; [constructor|]. cbn in A. apply NoDup_cons_iff in A as (A1 & A2).
  constructor; [|auto]. intros F. apply A1, in_or_app. auto.
Qed.

Lemma place_nth n got : numbered n got -> forall j, (j < n)%nat ->
  (forall g, nth_error (place n got) j = Some (Some g) <-> In (Z.of_nat j + 1, g) got) /\
  (nth_error (place n got) j = Some None <-> ~ In (Z.of_nat j + 1) (map fst got)).
Proof.
  induction got as [|[i g] got IH] using rev_ind; intros NU j HJ.
  - unfold place. cbn [fold_left]. rewrite nth_error_repeat by assumption. split; [|cbn; tauto].
    intros g. split; [discriminate|intros []].
  - pose proof (numbered_app _ _ _ NU) as NU'. specialize (IH NU' j HJ). rewrite place_snoc.
    destruct NU as (ND & FA). apply Forall_app in FA as (_ & FA). apply Forall_cons_iff in FA as (RI & _). cbn [fst] in RI.
    rewrite map_app in ND |- *. cbn [map fst] in ND |- *. apply NoDup_remove in ND as (_ & NI). rewrite app_nil_r in NI.
    rewrite nth_upd. destruct (Nat.eqb j (Z.to_nat (i - 1))) eqn:E.
    + apply Nat.eqb_eq in E. assert (EI : Z.of_nat j + 1 = i) by lia. rewrite EI, <- E.
      destruct (nth_error (place n got) j) eqn:EN.
      2:{ apply nth_error_None in EN. rewrite place_length in EN. lia. }
      split.
      * intros x. rewrite in_app_iff. split.
        -- intros H. injection H as ->. right. now left.
        -- intros [H|[H|[]]]; [|now injection H as ->]. exfalso. apply NI. apply (in_map fst) in H. exact H.
      * split; [discriminate|]. intros F. exfalso. apply F, in_or_app. right. now left.
    + apply Nat.eqb_neq in E. destruct IH as (IH1 & IH2). split.
      * intros x. rewrite IH1, in_app_iff. split; [auto|]. intros [H|[H|[]]]; [assumption|].
        exfalso. injection H as H _. lia.
      * rewrite IH2, in_app_iff. cbn. split; [|tauto]. intros H [F|[F|[]]]; [tauto|lia].
Qed.

Lemma place_somes n got : numbered n got -> length (somes (place n got)) = length got.
Proof.
  induction got as [|[i g] got IH] using rev_ind; intros NU.
  - unfold place. cbn [fold_left]. now rewrite somes_repeat_none.
  - pose proof (numbered_app _ _ _ NU) as NU'. rewrite place_snoc, app_length. cbn [length].
    assert (FREE : nth_error (place n got) (Z.to_nat (i - 1)) = Some None).
    { destruct NU as (ND & FA). apply Forall_app in FA as (_ & FA). apply Forall_cons_iff in FA as (RI & _). cbn [fst] in RI.
      apply (place_nth n got NU'); [lia|]. rewrite map_app in ND. cbn [map fst] in ND.
      apply NoDup_remove in ND as (_ & NI). rewrite app_nil_r in NI. now replace (Z.of_nat (Z.to_nat (i - 1)) + 1) with i by lia. }
    rewrite (Permutation_length (somes_upd _ _ g FREE)). cbn [length]. rewrite IH by assumption. lia.
Qed.

(** ** Progress *)

Definition total : nat := Z.to_nat (m_total m).
Definition progress (s : cstate) (got : list (Z * seg)) : Prop :=
  (got = [] /\ absent s) \/
  (got <> [] /\ exists id p, track s id p /\ p_segs p = place total got).

Lemma store_live s id key n q g err s' : Inv cfg (Some id) s -> quiet s id ->
  store cfg s id key n q g err = (s', CReturn None err) -> live s' id.
Proof.
  intros I Q H. unfold store in H. destruct (nth_error (c_heap s) id) as [p|]; [|discriminate].
  destruct (p_frags p + 1 =? n); [discriminate|].
  destruct (cf_timeout cfg); injection H as <-; intros j tm Hj HP; cbn [c_timers] in Hj.
  - apply nth_error_snoc in Hj as [Hj| ->]; [|discriminate]. rewrite (Q j tm Hj HP). discriminate.
  - rewrite (Q j tm Hj HP). discriminate.
Qed.

Lemma step_mine s got i g s' o : Inv cfg None s -> MInv s -> c_closed s = false -> progress s got ->
  numbered total (got ++ [(i, g)]) -> seg_no m g = Some i -> step cfg s (EvCollect g) = (s', o) ->
  c_closed s' = false /\
  ((length got + 1 < total)%nat /\ o = OCollect (CReturn None None) /\ progress s' (got ++ [(i, g)]) \/
   (length got + 1 = total)%nat /\ o = OCollect (CReturn (Some (place total (got ++ [(i, g)]))) None) /\ absent s').
Proof.
  intros I M O PR NU HS H. apply seg_no_iff in HS. cbn [step] in H.
  destruct (collect cfg s g) as [s1 r] eqn:E. injection H as <- <-.
  assert (HC : tpdu_concat_info (sg_pdu g) = Some (m_total m, i, m_ref m)) by apply HS.
  pose proof (segment_key m i g HS) as HK. pose proof (proj2 (proj2 (proj2 MO))) as T2.
  assert (RI : 1 <= i <= m_total m).
  { destruct NU as (_ & FA). apply Forall_app in FA as (_ & FA). apply Forall_cons_iff in FA as (RI & _). cbn [fst] in RI.
    unfold total in RI. lia. }
  pose proof (numbered_app _ _ _ NU) as NU'.
  assert (FREE : nth_error (place total got) (Z.to_nat (i - 1)) = Some None).
  { apply (place_nth total got NU'); [unfold total; lia|]. destruct NU as (ND & _). rewrite map_app in ND. cbn [map fst] in ND.
    apply NoDup_remove in ND as (_ & NI). rewrite app_nil_r in NI. now replace (Z.of_nat (Z.to_nat (i - 1)) + 1) with i by lia. }
  assert (NN : got ++ [(i, g)] <> []) by (destruct got; discriminate).
  destruct (collect_cases cfg s g _ _ _ _ _ O HC T2 RI HK) as [(LK & EC)|[(id & p & LK & HP & CA)|(id & LK & HP & EC)]].
  - (* the first segment *)
    destruct PR as [(-> & _)|(_ & id & p & (LK' & _) & _)]; [|congruence]. rewrite EC in E.
    destruct (fresh_msg cfg s m i g s1 r I M MO RI HS E) as (_ & -> & LK1 & c & HP1).
    destruct (new_pipe s (key_of m) (m_total m)) as [s0 id0] eqn:EN.
    assert (HO : forall old, klookup (c_pipes s) (key_of m) = Some old ->
      exists j tm, nth_error (c_timers s) j = Some tm /\ tm_pipe tm = old /\ tm_state tm = TFired) by (intros; congruence).
    destruct (inv_new_pipe cfg s _ _ s0 id0 I O HO EN) as (I0 & O0 & K0 & P0 & Q0 & _).
    assert (ID : id0 = length (c_heap s)) by (unfold new_pipe in EN; congruence).
    pose proof (store_live s0 id0 _ _ _ _ _ s1 I0 Q0 E) as LV.
    split.
    { clear - E O0. unfold store in E. destruct (nth_error (c_heap s0) id0); [|discriminate].
      destruct (_ =? _); [discriminate|]. destruct (cf_timeout cfg); injection E as <-; exact O0. }
    left. split; [unfold total; cbn; lia|]. split; [reflexivity|]. right. split; [assumption|].
    exists (length (c_heap s)). eexists. split; [split; [exact LK1|split; [exact HP1|]]|reflexivity].
    now rewrite <- ID.
  - destruct PR as [(_ & A)|(NE & id' & p' & (LK' & HP' & LV) & PS)]; [unfold absent in A; congruence|].
    assert (id' = id) by congruence. subst id'. assert (p' = p) by congruence. subst p'.
    pose proof (klookup_in _ _ _ LK) as IN.
    destruct (proj1 (M _ _ IN) (key_nonempty _)) as (m2 & p2 & MO2 & EK & HP2 & W & HF).
    assert (m2 = m) by (symmetry; now apply key_inj). subst m2. assert (p2 = p) by congruence. subst p2.
    assert (FG : p_frags p = Z.of_nat (length got)).
    { destruct W as (_ & -> & _). rewrite PS, place_somes by assumption. reflexivity. }
    assert (ST : forall s0, Inv cfg (Some id) s0 -> quiet s0 id -> c_pipes s0 = c_pipes s -> c_heap s0 = c_heap s ->
      c_closed s0 = false -> store cfg s0 id (key_of m) (m_total m) i g None = (s1, r) ->
      c_closed s1 = false /\
      ((length got + 1 < total)%nat /\ OCollect r = OCollect (CReturn None None) /\ progress s1 (got ++ [(i, g)]) \/
       (length got + 1 = total)%nat /\ OCollect r = OCollect (CReturn (Some (place total (got ++ [(i, g)]))) None) /\ absent s1)).
    { intros s0 I0 Q0 E1 E2 O0 HH. split.
      { clear - HH O0. unfold store in HH. destruct (nth_error (c_heap s0) id); [|injection HH as <- _; exact O0].
        destruct (_ =? _); [injection HH as <- _; exact O0|]. destruct (cf_timeout cfg); injection HH as <- _; exact O0. }
      destruct (store_msg cfg s0 id m i g p s1 r) as (_ & B); rewrite ?E1, ?E2; auto; try apply I; try lia.
      - now rewrite PS.
      - intros k j Hj _. unfold entry. rewrite E2. exact (M k j Hj).
      - destruct B as [(B1 & -> & B2 & c & B3)|(B1 & B2 & gs & B3 & -> & _)].
        + left. split; [unfold total; lia|]. split; [reflexivity|]. right. split; [assumption|].
          exists id. eexists. split; [split; [exact B2|split; [exact B3|]]|].
          * now apply (store_live s0 id (key_of m) (m_total m) i g None).
          * cbn [p_segs]. now rewrite PS, place_snoc.
        + right. split; [unfold total; lia|]. split; [now rewrite place_snoc, <- PS, B3|exact B2]. }
    destruct CA as [(old & EI & _)|[(_ & CA)|(EI & _)]].
    + apply idx_nth in EI as (_ & EI). rewrite PS in EI. congruence.
    + destruct CA as [(CN & EC)|[(tid & tm & CS & HT & CA)|(tid & CS & HT & _)]].
      * rewrite EC in E. apply (ST s); auto.
        { destruct I. split; auto. intros k i' p' j A B C. destruct (i_cleanup k i' p' j A B C) as (tm & X1 & X2 & X3 & X4).
          exists tm. repeat split; auto. destruct X4 as [X4|[X4|(X4 & X5)]]; auto. destruct X4; [auto|discriminate]. }
        intros j tm HT HPT. destruct (i_owner _ _ _ I _ _ _ _ _ IN HP HT HPT); [assumption|congruence].
      * destruct (i_cleanup _ _ _ I _ _ _ _ IN HP CS) as (tm' & HT' & HPT & _ & HST).
        assert (tm' = tm) by congruence. subst tm'.
        destruct HST as [HST|[HST|([F|F] & _)]]; [|now destruct (LV tid tm HT HPT)|congruence|discriminate].
        destruct CA as [(_ & EC)|(F & _)]; [|contradiction]. rewrite EC in E.
        destruct (inv_stop cfg s tid tm _ id p I IN HP CS HT HST) as (I1 & Q1 & _).
        now apply (ST (stopped s tid tm)).
      * destruct (i_cleanup _ _ _ I _ _ _ _ IN HP CS) as (tm' & HT' & _). congruence.
    + exfalso. apply idx_panic in EI. apply EI. rewrite PS. unfold len. rewrite place_length. unfold total. lia.
  - exfalso. apply klookup_in, M in LK. destruct (proj1 LK (key_nonempty _)) as (m2 & p2 & _ & _ & F & _). congruence.
Qed.

Lemma replies_none es : forall os, parts m es = [] -> replies m es os = [].
Proof.
  induction es as [|e es IH]; intros [|o os] H; try reflexivity; cbn [parts flat_map] in H.
  - destruct e; reflexivity.
  - apply app_eq_nil in H as (H1 & H2). destruct e; cbn [replies]; try (now apply IH).
    destruct (seg_no m g); [discriminate|]. now apply IH.
Qed.

Lemma follow es : forall s got, Inv cfg None s -> MInv s -> c_closed s = false -> progress s got ->
  Forall typed_event es -> Forall (fun e => e <> EvClose) es -> no_timeout cfg m s es ->
  numbered total (got ++ parts m es) ->
  (length got < total)%nat -> (length (got ++ parts m es) = total)%nat ->
  replies m es (snd (run cfg s es)) =
    repeat (OCollect (CReturn None None)) (length (parts m es) - 1) ++
    [OCollect (CReturn (Some (place total (got ++ parts m es))) None)].
Proof.
  induction es as [|e es IH]; intros s got I M O PR SE NC NT NU LT EQ.
  { cbn in EQ. rewrite app_nil_r in EQ. lia. }
  rewrite run_cons. destruct (step cfg s e) as [s1 o] eqn:E. cbn [fst snd].
  apply Forall_cons_iff in SE as (SE1 & SE). apply Forall_cons_iff in NC as (NC1 & NC).
  destruct NT as (NT1 & NT). rewrite E in NT. cbn [fst] in NT.
  destruct (inv_step cfg s e s1 o I E) as (I1 & _). pose proof (minv_step cfg s e s1 o I M SE1 E) as M1.
  assert (OTHER : other e -> no_fire s e ->
    replies m es (snd (run cfg s1 es)) =
    repeat (OCollect (CReturn None None)) (length (parts m es) - 1) ++
    [OCollect (CReturn (Some (place total (got ++ parts m es))) None)] \/ parts m (e :: es) <> parts m es).
  { intros OT NF. destruct (step_other s e s1 o I M SE1 OT NF E) as (SA & ST & SO).
    assert (PE : parts m (e :: es) = parts m es).
    { cbn [parts flat_map]. destruct e; try reflexivity. cbn in OT. now rewrite OT. }
    left. rewrite PE in *. apply (IH s1 got); auto.
    destruct PR as [(A & B)|(A & id & p & B & C)]; [left; auto|right; eauto 6]. }
  destruct e as [g| | |tid|tid|tid]; cbn [replies]; try (now contradict NC1);
    try (destruct (OTHER I) as [X|X] || destruct (OTHER Logic.I NT1) as [X|X] || destruct (OTHER Logic.I Logic.I) as [X|X];
         [exact X|now contradict X]).
  destruct (seg_no m g) as [i|] eqn:ES.
  2:{ destruct (OTHER ES Logic.I) as [X|X]; cbn [parts flat_map] in *; rewrite ES in *; [exact X|now contradict X]. }
  assert (PE : parts m (EvCollect g :: es) = (i, g) :: parts m es) by (cbn [parts flat_map]; now rewrite ES).
  rewrite PE in *. clear PE OTHER.
  assert (NU1 : numbered total (got ++ [(i, g)])).
  { apply numbered_app with (b := parts m es). rewrite <- app_assoc. exact NU. }
  assert (RE : got ++ (i, g) :: parts m es = (got ++ [(i, g)]) ++ parts m es) by (rewrite <- app_assoc; reflexivity).
  destruct (step_mine s got i g s1 o I M O PR NU1 ES E) as (O1 & [(L1 & -> & PR1)|(L1 & -> & _)]).
  - rewrite RE in NU, EQ. rewrite (IH s1 (got ++ [(i, g)]) I1 M1 O1 PR1 SE NC NT NU); [|rewrite app_length; cbn; lia|exact EQ].
    rewrite <- RE. cbn [length]. rewrite Nat.sub_succ, Nat.sub_0_r.
    rewrite !app_length in EQ. cbn [length] in EQ.
    destruct (length (parts m es)) as [|k] eqn:EK; [lia|]. cbn [repeat app]. now rewrite Nat.sub_succ, Nat.sub_0_r.
  - assert (PN : parts m es = []).
    { rewrite app_length in EQ. cbn [length] in EQ. destruct (parts m es); [reflexivity|cbn in EQ; lia]. }
    rewrite (replies_none es _ PN), PN. reflexivity.
Qed.

End Follow.
