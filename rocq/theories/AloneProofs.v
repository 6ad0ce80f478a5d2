(** The Collector seen from one message. *)
From Coq Require Import Permutation.
From Verif Require Import GoBase GoLemmas UserData Tpdu Address Collector SpecCollect CollectorProofs CollectorMsgProofs
  CollectorOrderProofs CollectorHistProofs SpecAlone.

Section Alone.
Context (cfg : ccfg) (m : message) (MO : m_ok m).

Definition fired (s : cstate) (id : nat) : Prop :=
  exists j tm, nth_error (c_timers s) j = Some tm /\ tm_pipe tm = id /\ tm_state tm = TFired.
Definition at_id (s : cstate) (id : nat) (p : pipe) : Prop :=
  klookup (c_pipes s) (key_of m) = Some id /\ nth_error (c_heap s) id = Some p.

Definition sim (s : cstate) (r : m_state) : Prop :=
  c_closed s = r_closed r /\ numbered (total m) (rev (r_got r)) /\ (length (r_got r) < total m)%nat /\
  ((r_got r = [] /\ r_late r = false /\ absent m s) \/
   (r_got r <> [] /\ exists id p, at_id s id p /\ p_segs p = place (total m) (rev (r_got r)) /\
      if r_late r then fired s id else live s id)).

Lemma total2 : (2 <= total m)%nat.
Proof. unfold total. destruct MO as (_ & _ & _ & H). lia. Qed.
Lemma sim_start : sim new_collector m_start.
Proof.
  split; [reflexivity|]. split; [split; constructor|]. split; [pose proof total2; cbn; lia|].
  left. split; [reflexivity|]. split; reflexivity.
Qed.

(** A pipe with a segment of [m] that Pipes shows is the one of [m]. *)
Lemma has_part_in l : has_part m l = true <-> exists g i, In (Some g) l /\ seg_no m g = Some i.
Proof.
  unfold has_part. rewrite existsb_exists. split.
  - intros ([g|] & H1 & H2); [|discriminate]. destruct (seg_no m g) as [i|] eqn:E; [|discriminate]. eauto.
  - intros (g & i & H1 & H2). exists (Some g). split; [exact H1|]. now rewrite H2.
Qed.
Lemma shown_key s k id : MInv s -> In (k, id) (c_pipes s) -> has_part m (pipe_segs s id) = true -> k = key_of m.
Proof.
  intros M IN HP. apply has_part_in in HP as (g & i & HG & HS).
  destruct (list_eq_dec Z.eq_dec k []) as [EK|NK].
  { destruct (proj2 (M _ _ IN) EK) as (p & HP & _ & _ & U). rewrite (pipe_segs_nth _ _ _ HP) in HG. destruct (U g HG).
    apply seg_no_iff in HS as (_ & [(_ & A & _)|(_ & A & _)]); unfold supported; auto. }
  destruct (proj1 (M _ _ IN) NK) as (m2 & p & MO2 & -> & HP & (_ & _ & W) & _). rewrite (pipe_segs_nth _ _ _ HP) in HG.
  destruct (In_nth_error _ _ HG) as (j & Hj). apply seg_no_iff in HS.
  destruct (segment_message _ _ _ _ _ HS (W _ _ Hj)) as (<- & _). reflexivity.
Qed.
Lemma key_shown s id : MInv s -> klookup (c_pipes s) (key_of m) = Some id -> has_part m (pipe_segs s id) = true.
Proof.
  intros M LK. apply has_part_in. destruct (entry_seg m MO s id M LK) as (g & i & H1 & H2). eauto.
Qed.

(** Places. *)
Lemma numbered_rev_cons n i g got : numbered n (rev ((i, g) :: got)) <->
  numbered n (rev got) /\ 1 <= i <= Z.of_nat n /\ existsb (fun ig => fst ig =? i) got = false.
Proof.
  assert (EX : forall l : list (Z * seg), existsb (fun ig => fst ig =? i) l = false <-> ~ In i (map fst l)).
  { intros l. rewrite <- not_true_iff_false, existsb_exists. split.
    - intros N H. apply in_map_iff in H as (x & <- & H). apply N. exists x. split; [exact H|apply Z.eqb_refl].
    - intros N (x & H & E). apply Z.eqb_eq in E. subst. apply N. now apply in_map. }
  rewrite EX. cbn [rev]. unfold numbered. rewrite map_app, Forall_app. cbn [map fst].
  assert (IR : forall l : list (Z * seg), In i (map fst (rev l)) <-> In i (map fst l)).
  { intros l. rewrite map_rev. symmetry. apply in_rev. }
  split.
  - intros (ND & FA & F1). apply Forall_inv in F1. cbn [fst] in F1.
    apply NoDup_remove in ND as (ND & NI). rewrite app_nil_r in ND, NI. rewrite IR in NI. tauto.
  - intros ((ND & FA) & RI & NI). split; [|split; [exact FA|constructor; [exact RI|constructor]]].
    rewrite <- (IR got) in NI. apply (NoDup_Add (a := i) (l := map fst (rev got))); [|tauto].
    pose proof (Add_app i (map fst (rev got)) []) as A. now rewrite app_nil_r in A.
Qed.
Lemma slot_iff n got i g : numbered n (rev got) -> (slot got i = Some g <-> In (i, g) got).
Proof.
  induction got as [|[j h] got IH]; intros NU.
  { unfold slot. cbn. split; [discriminate|tauto]. }
  apply numbered_rev_cons in NU as (NU & RI & NX). unfold slot. cbn [find fst]. destruct (Z.eqb_spec j i) as [->|N].
  - cbn [option_map snd]. split.
    + intros H. injection H as ->. now left.
    + intros [H|H]; [now injection H as ->|]. exfalso. rewrite <- not_true_iff_false in NX. apply NX.
      apply existsb_exists. exists (i, g). split; [exact H|apply Z.eqb_refl].
  - fold (slot got i). rewrite (IH NU). split; [now right|]. intros [H|H]; [congruence|exact H].
Qed.
Lemma place_in_order got : numbered (total m) (rev got) -> place (total m) (rev got) = in_order (m_total m) got.
Proof.
  intros NU. unfold in_order. fold (total m). apply nth_error_ext.
  { rewrite place_length, map_length, seq_length. reflexivity. }
  intros j x HX. assert (L : (j < total m)%nat).
  { rewrite <- (place_length (total m) (rev got)). apply nth_error_Some. congruence. }
  rewrite nth_error_map, (nth_error_nth' (seq 1 (total m)) 0%nat) by (now rewrite seq_length).
  cbn [option_map]. rewrite seq_nth by exact L. replace (Z.of_nat (1 + j)) with (Z.of_nat j + 1) by lia.
  destruct (place_nth _ _ NU j L) as (P1 & P2). rewrite <- HX. symmetry. clear HX.
  destruct (slot got (Z.of_nat j + 1)) as [g|] eqn:E.
  - apply P1. apply (slot_iff _ _ _ _ NU) in E. now apply -> in_rev in E.
  - apply P2. intros H. apply in_map_iff in H as ([i g] & EI & H). apply in_rev in H. cbn [fst] in EI. subst i.
    apply (slot_iff _ _ _ _ NU) in H. congruence.
Qed.

(** A pipe whose timer has fired stays so until the callback runs. *)
Lemma fired_step s e s' o id : Inv cfg None s -> step cfg s e = (s', o) -> fired s id ->
  fired s' id \/ exists j tm, e = EvExpire j /\ nth_error (c_timers s) j = Some tm /\ tm_pipe tm = id /\ tm_state tm = TFired.
Proof.
  intros I H (j & tm & HT & HP & HS).
  destruct (late_step cfg s e s' o j tm I H HT ltac:(unfold late; tauto)) as [(A & _)|[(-> & _)|(_ & F & _)]].
  - left. exists j, tm. auto.
  - right. exists j, tm. auto.
  - congruence.
Qed.
Lemma close_live s id : Inv cfg None s -> live s id -> live (close s) id.
Proof.
  intros I L. destruct (c_closed s) eqn:O; [unfold close; now rewrite O|].
  intros j x Hx HP. rewrite (close_shape cfg s I O) in Hx. cbn [c_timers] in Hx. rewrite nth_error_map in Hx.
  destruct (nth_error (c_timers s) j) as [tm|] eqn:E; [|discriminate]. cbn in Hx. injection Hx as <-.
  rewrite quench_pipe in HP. rewrite quench_state. specialize (L j tm E HP). destruct (tm_state tm); congruence.
Qed.
Lemma fired_owner s id p j tm : Inv cfg None s -> at_id s id p -> nth_error (c_timers s) j = Some tm ->
  tm_pipe tm = id -> tm_state tm = TFired -> p_cleanup p = Some j /\ tm_key tm = key_of m.
Proof.
  intros I (LK & HP) HT TP ES. pose proof (klookup_in _ _ _ LK) as IN.
  destruct (i_owner _ _ _ I _ _ _ _ _ IN HP HT TP) as [F|F]; [congruence|]. split; [exact F|].
  destruct (i_cleanup _ _ _ I _ _ _ _ IN HP F) as (tm' & E & _ & K & _). congruence.
Qed.

(** Steps that do not concern the message. *)
Lemma sim_other s e s' o r : Inv cfg None s -> MInv s -> typed_event e -> concerns m s e = [] ->
  step cfg s e = (s', o) -> sim s r -> sim s' r.
Proof.
  intros I M SE CE H (S1 & S2 & S3 & S4).
  assert (OT : other m e).
  { destruct e as [g| | |?|?|?]; cbn [concerns other] in *; try exact Logic.I; [|discriminate].
    now destruct (seg_no m g). }
  assert (NF : no_fire m s e).
  { destruct e as [g| | |tid|?|?]; cbn [concerns no_fire] in *; try exact Logic.I.
    intros tm g HT ES HG. rewrite HT, ES in CE. destruct (has_part m (pipe_segs s (tm_pipe tm))) eqn:HP; [discriminate|].
    destruct (seg_no m g) as [i|] eqn:EN; [|reflexivity]. exfalso. rewrite <- not_true_iff_false in HP. apply HP.
    apply has_part_in. eauto. }
  destruct (step_other cfg m MO s e s' o I M SE OT NF H) as (SA & ST & _).
  assert (SC : c_closed s' = c_closed s).
  { clear - H CE. destruct e as [g| | |tid|tid|tid]; cbn [step concerns] in *; try discriminate.
    - destruct (collect cfg s g) as [s1 r] eqn:E. injection H as <- <-. clear - E.
      unfold collect in E. unfold stop_timer, new_pipe, store in E.
      repeat match type of E with
      | context [match ?x with _ => _ end] =>
          match x with context [match _ with _ => _ end] => fail 1 | _ => destruct x eqn:? end
      end; injection E as <- <-; cbn; try reflexivity; cbn in *; congruence.
    - now injection H as <- <-.
    - destruct (nth_error (c_timers s) tid) as [tm|]; [destruct (tm_state tm)|]; now injection H as <- <-.
    - destruct (nth_error (c_timers s) tid) as [tm|]; [destruct (tm_state tm)|]; injection H as <- <-; auto.
      unfold expire_pipe. destruct (klookup _ _); [destruct (Nat.eqb _ _)|]; auto.
    - destruct (nth_error (c_timers s) tid) as [tm|]; [destruct (tm_state tm)|]; now injection H as <- <-. }
  split; [congruence|]. split; [exact S2|]. split; [exact S3|].
  destruct S4 as [(A & B & C)|(A & id & p & (LK & HP) & PS & LF)]; [left; auto|]. right. split; [exact A|]. exists id, p.
  destruct (r_late r).
  2:{ destruct (ST id p (conj LK (conj HP LF))) as (T1 & T2 & T3). split; [split; assumption|]. auto. }
  assert (NE : forall j tm, e = EvExpire j -> nth_error (c_timers s) j = Some tm -> tm_state tm = TFired -> tm_pipe tm <> id).
  { intros j tm -> HT ES TP. cbn [concerns] in CE. rewrite HT, ES, TP, (key_shown s id M LK) in CE. cbn [andb] in CE.
    destruct (existsb (Nat.eqb id) (map snd (pipes s))) eqn:EX; [discriminate|]. rewrite <- not_true_iff_false in EX.
    apply EX, existsb_exists. exists id. split; [|apply Nat.eqb_refl]. apply klookup_in in LK. now apply (in_map snd) in LK. }
  split.
  2:{ split; [exact PS|]. destruct (fired_step s e s' o id I H LF) as [F|(j & tm & E1 & E2 & E3 & E4)]; [exact F|].
      destruct (NE j tm E1 E2 E4 E3). }
  unfold at_id. destruct e as [g| | |tid|tid|tid]; cbn [step] in H.
  - destruct (collect cfg s g) as [s1 rr] eqn:E. injection H as <- <-.
    assert (F : frame s s1 (key_of m)).
    { apply (collect_frame cfg s g s1 rr _ I E). intros n q ref HC H2. destruct SE as (TY & SU).
      now apply (other_key m MO g n q ref). }
    destruct F as (F1 & F2). destruct (F2 id LK) as (F3 & _). split; congruence.
  - contradiction.
  - injection H as <- <-. auto.
  - destruct (nth_error (c_timers s) tid) as [tm|]; [destruct (tm_state tm)|]; injection H as <- <-; auto.
  - destruct (nth_error (c_timers s) tid) as [tm|] eqn:HT; [|injection H as <- <-; auto].
    destruct (tm_state tm) eqn:ES; injection H as <- <-; auto. cbn [set_timer c_pipes c_heap].
    specialize (NE tid tm eq_refl HT ES). unfold expire_pipe.
    destruct (klookup (c_pipes s) (tm_key tm)) as [id'|] eqn:LK'; [|auto].
    destruct (Nat.eqb id' (tm_pipe tm)) eqn:EQ; [|auto]. cbn [c_pipes c_heap]. apply Nat.eqb_eq in EQ. subst id'.
    rewrite klookup_kdelete_other; [auto|]. intros E. rewrite <- E in LK'. congruence.
  - destruct (nth_error (c_timers s) tid) as [tm|]; [destruct (tm_state tm)|]; injection H as <- <-; auto.
Qed.

(** Close. *)
Lemma sim_close s r : Inv cfg None s -> sim s r -> sim (close s) (fst (react m r MClosed)).
Proof.
  intros I (S1 & S2 & S3 & S4). destruct (inv_close cfg s I) as (_ & _ & _ & C1 & C2 & C3).
  cbn [react fst]. split; [exact C1|]. cbn [r_got r_late r_closed]. split; [exact S2|]. split; [exact S3|].
  unfold absent, at_id. rewrite C2, C3. destruct S4 as [S4|(A & id & p & B & PS & LF)]; [left; exact S4|].
  right. split; [exact A|]. exists id, p. split; [exact B|]. split; [exact PS|]. destruct (r_late r).
  - destruct (fired_step s EvClose (close s) ONone id I eq_refl LF) as [F|(j & tm & F & _)]; [exact F|discriminate].
  - now apply close_live.
Qed.

(** The time is up. *)
Lemma sim_late s tid tm r : Inv cfg None s -> MInv s -> nth_error (c_timers s) tid = Some tm -> tm_state tm = TActive ->
  has_part m (pipe_segs s (tm_pipe tm)) = true -> sim s r ->
  sim (set_timer s tid tm TFired) (fst (react m r MLate)).
Proof.
  intros I M HT ES HP (S1 & S2 & S3 & S4). destruct (i_active _ _ _ I _ _ HT ES) as (_ & IN).
  pose proof (shown_key s _ _ M IN HP) as EK. rewrite EK in IN.
  pose proof (klookup_nodup _ _ _ (i_keys _ _ _ I) IN) as LK.
  split; [exact S1|]. cbn [react fst r_got r_late]. split; [exact S2|]. split; [exact S3|].
  destruct S4 as [(A & B & C)|(A & id & p & (LK' & HP') & PS & LF)]; [unfold absent in C; congruence|].
  right. split; [exact A|]. exists id, p. split; [split; assumption|]. split; [exact PS|].
  exists tid. eexists. cbn [set_timer c_timers]. split; [now apply nth_upd_same with (x := tm)|]. cbn. split; [congruence|reflexivity].
Qed.

(** The callback. *)
Lemma sim_removed s tid tm r : Inv cfg None s -> MInv s -> nth_error (c_timers s) tid = Some tm -> tm_state tm = TFired ->
  has_part m (pipe_segs s (tm_pipe tm)) = true -> existsb (Nat.eqb (tm_pipe tm)) (map snd (pipes s)) = true -> sim s r ->
  sim (set_timer (expire_pipe s tm) tid tm TExpired) (fst (react m r MRemoved)).
Proof.
  intros I M HT ES HP HX (S1 & S2 & S3 & S4).
  apply existsb_exists in HX as (id & HI & EQ). apply Nat.eqb_eq in EQ. subst id.
  apply in_map_iff in HI as ((k & id) & E & IN). cbn [snd] in E. subst id. unfold pipes in IN.
  pose proof (shown_key s _ _ M IN HP) as EK. rewrite EK in IN.
  pose proof (klookup_nodup _ _ _ (i_keys _ _ _ I) IN) as LK.
  destruct (proj1 (M _ _ IN) (key_nonempty _)) as (_ & p & _ & _ & HH & _).
  destruct (fired_owner s _ p tid tm I (conj LK HH) HT eq_refl ES) as (_ & TK).
  assert (EE : expire_pipe s tm = {| c_closed := c_closed s; c_pipes := kdelete (c_pipes s) (key_of m);
                 c_heap := c_heap s; c_timers := c_timers s |}).
  { unfold expire_pipe. rewrite TK, LK, Nat.eqb_refl. reflexivity. }
  rewrite EE. split; [exact S1|]. cbn [react fst r_got r_late]. split; [split; constructor|].
  split; [pose proof total2; cbn; lia|]. left. split; [reflexivity|]. split; [reflexivity|].
  unfold absent. cbn [set_timer c_pipes]. apply klookup_kdelete_same.
Qed.

(** A segment. *)
Lemma sim_part s i g s' o r : Inv cfg None s -> MInv s -> seg_no m g = Some i -> step cfg s (EvCollect g) = (s', o) ->
  sim s r -> sim s' (fst (react m r (MPart i g))) /\ snd (react m r (MPart i g)) = [o].
Proof.
  intros I M HS H SIM. pose proof SIM as (S1 & S2 & S3 & S4). cbn [react]. rewrite <- S1.
  pose proof (proj1 (seg_no_iff m i g) HS) as SG. pose proof (proj1 SG) as HC. pose proof (proj2 (proj2 (proj2 MO))) as T2.
  destruct (c_closed s) eqn:O.
  { cbn [step] in H. unfold collect in H. rewrite O in H. injection H as <- <-. split; [exact SIM|reflexivity]. }
  destruct (negb ((1 <=? i) && (i <=? m_total m))) eqn:RI.
  { cbn [step] in H. unfold collect in H. rewrite O, HC in H. replace (m_total m <? 2) with false in H by lia.
    replace ((i <? 1) || (m_total m <? i)) with true in H by lia. injection H as <- <-. split; [exact SIM|reflexivity]. }
  assert (RI' : 1 <= i <= m_total m) by lia. clear RI. pose proof (segment_key m i g SG) as HK.
  destruct (existsb (fun ig => fst ig =? i) (r_got r)) eqn:DUP.
  { assert (CD : collect cfg s g = (s, CReturn None (Some ErrDuplicateSegment))).
    { apply existsb_exists in DUP as ([j h] & HI & EQ). cbn [fst] in EQ. apply Z.eqb_eq in EQ. subst j.
      destruct S4 as [(A & _)|(A & id & p & (LK & HP) & PS & LF)]; [rewrite A in HI; contradiction|].
      assert (SL : nth_error (p_segs p) (Z.to_nat (i - 1)) = Some (Some h)).
      { rewrite PS. apply (place_nth _ _ S2); [unfold total; lia|]. replace (Z.of_nat (Z.to_nat (i - 1)) + 1) with i by lia.
        now apply -> in_rev in HI. }
      destruct (collect_cases cfg s g _ _ _ _ _ O HC T2 RI' HK) as [(LK' & _)|[(id' & p' & LK' & HP' & CA)|(id' & LK' & HP' & _)]];
        try congruence. assert (id' = id) by congruence. subst id'. assert (p' = p) by congruence. subst p'.
      destruct CA as [(old & _ & E)|[(HN & _)|(HN & _)]]; [exact E| |].
      - apply idx_nth in HN as (_ & HN). congruence.
      - unfold idx in HN. replace (i - 1 <? 0) with false in HN by lia. rewrite SL in HN. discriminate. }
    cbn [step] in H. rewrite CD in H. injection H as <- <-. split; [exact SIM|reflexivity]. }
  assert (NU1 : numbered (total m) (rev ((i, g) :: r_got r))).
  { apply numbered_rev_cons. split; [exact S2|]. split; [unfold total; lia|exact DUP]. }
  destruct (r_late r) eqn:LT.
  - (* anew *)
    destruct S4 as [(_ & F & _)|(A & id & p & (LK & HP) & PS & (j & tm & HT & TP & ES))]; [discriminate|].
    pose proof (klookup_in _ _ _ LK) as IN.
    destruct (fired_owner s id p j tm I (conj LK HP) HT TP ES) as (CL & TK).
    assert (FREE : nth_error (p_segs p) (Z.to_nat (i - 1)) = Some None).
    { rewrite PS. apply (place_nth _ _ S2); [unfold total; lia|]. replace (Z.of_nat (Z.to_nat (i - 1)) + 1) with i by lia.
      intros HI. apply in_map_iff in HI as ((j0 & h) & E & HI). cbn [fst] in E. subst j0. apply in_rev in HI.
      rewrite <- not_true_iff_false in DUP. apply DUP, existsb_exists. exists (i, h). split; [exact HI|apply Z.eqb_refl]. }
    assert (EC : collect cfg s g = (let '(s, id) := new_pipe s (key_of m) (m_total m) in store cfg s id (key_of m) (m_total m) i g None)).
    { destruct (collect_cases cfg s g _ _ _ _ _ O HC T2 RI' HK) as [(LK' & _)|[(id' & p' & LK' & HP' & CA)|(id' & LK' & HP' & _)]];
        try congruence. assert (id' = id) by congruence. subst id'. assert (p' = p) by congruence. subst p'.
      destruct CA as [(old & EI & _)|[(_ & CA)|(EI & _)]].
      - apply idx_nth in EI as (_ & EI). congruence.
      - destruct CA as [(F & _)|[(tid & tm' & CS & HT' & [(F & _)|(_ & E)])|(tid & CS & HT' & _)]]; try congruence.
      - unfold idx in EI. replace (i - 1 <? 0) with false in EI by lia. rewrite FREE in EI. discriminate. }
    cbn [step] in H. destruct (collect cfg s g) as [s1 rr] eqn:E. injection H as <- <-. symmetry in EC.
    destruct (fresh_msg cfg s m i g s1 rr I M MO RI' SG EC) as (_ & -> & LK1 & c & HP1).
    destruct (new_pipe s (key_of m) (m_total m)) as [s0 id0] eqn:EN.
    assert (HO : forall old, klookup (c_pipes s) (key_of m) = Some old ->
      exists j tm, nth_error (c_timers s) j = Some tm /\ tm_pipe tm = old /\ tm_state tm = TFired).
    { intros old Ho. assert (old = id) by congruence. subst old. exists j, tm. auto. }
    destruct (inv_new_pipe cfg s _ _ s0 id0 I O HO EN) as (I0 & O0 & K0 & P0 & Q0 & _).
    assert (ID : id0 = length (c_heap s)) by (unfold new_pipe in EN; congruence).
    pose proof (store_live cfg s0 id0 _ _ _ _ _ s1 I0 Q0 EC) as LV.
    split; [|reflexivity]. cbn [fst]. split.
    { cbn [r_closed]. clear - EC O0. unfold store in EC. destruct (nth_error (c_heap s0) id0); [|discriminate].
      destruct (_ =? _); [discriminate|]. destruct (cf_timeout cfg); injection EC as <-; exact O0. }
    cbn [r_got r_late]. split.
    { apply numbered_rev_cons. split; [split; constructor|]. split; [unfold total; lia|reflexivity]. }
    split; [pose proof total2; cbn; lia|]. right. split; [discriminate|]. exists (length (c_heap s)). eexists.
    split; [split; [exact LK1|exact HP1]|]. split; [reflexivity|]. now rewrite <- ID.
  - (* continued *)
    assert (PR : progress m s (rev (r_got r))).
    { destruct S4 as [(A & _ & B)|(A & id & p & (LK & HP) & PS & LF)].
      - left. rewrite A. split; [reflexivity|exact B].
      - right. split; [|exists id, p; split; [split; [exact LK|split; [exact HP|exact LF]]|exact PS]].
        intros E. apply A. rewrite <- (rev_involutive (r_got r)), E. reflexivity. }
    destruct (step_mine cfg m MO s (rev (r_got r)) i g s' o I M O PR NU1 HS H) as (O1 & CA).
    rewrite rev_length in CA. change (rev (r_got r) ++ [(i, g)]) with (rev ((i, g) :: r_got r)) in CA.
    destruct CA as [(L1 & -> & PR1)|(L1 & -> & AB)].
    + replace (len (r_got r) + 1 =? m_total m) with false by (unfold len, total in *; lia).
      split; [|reflexivity]. cbn [fst]. split; [exact O1|]. cbn [r_got r_late]. split; [exact NU1|].
      split; [cbn [length]; lia|]. right. split; [discriminate|].
      destruct PR1 as [(F & _)|(_ & id & p & (A1 & A2 & A3) & B)]; [cbn [rev] in F; apply app_eq_nil in F as (_ & F); discriminate|].
      exists id, p. split; [split; assumption|]. split; assumption.
    + replace (len (r_got r) + 1 =? m_total m) with true by (unfold len, total in *; lia).
      cbn [fst snd]. rewrite <- place_in_order by exact NU1. split; [|reflexivity].
      split; [exact O1|]. cbn [r_got r_late]. split; [split; constructor|]. split; [pose proof total2; cbn; lia|].
      left. split; [reflexivity|]. split; [reflexivity|exact AB].
Qed.

Lemma alone es : forall s r, Inv cfg None s -> MInv s -> Forall typed_event es -> sim s r ->
  replies m es (snd (run cfg s es)) = snd (reacts m r (view cfg m s es)) /\
  sim (fst (run cfg s es)) (fst (reacts m r (view cfg m s es))) /\
  Inv cfg None (fst (run cfg s es)) /\ MInv (fst (run cfg s es)).
Proof.
  induction es as [|e es IH]; intros s r I M SE SIM.
  { cbn. auto. }
  rewrite run_cons. destruct (step cfg s e) as [s1 o] eqn:E. cbn [fst snd].
  apply Forall_cons_iff in SE as (SE1 & SE).
  destruct (inv_step cfg s e s1 o I E) as (I1 & _). pose proof (minv_step cfg s e s1 o I M SE1 E) as M1.
  cbn [view]. rewrite E. cbn [fst].
  assert (NIL : concerns m s e = [] -> replies m (e :: es) (o :: snd (run cfg s1 es)) = replies m es (snd (run cfg s1 es))).
  { destruct e as [g| | |?|?|?]; cbn [replies concerns]; try reflexivity. now destruct (seg_no m g). }
  assert (DONE : concerns m s e = [] ->
    replies m (e :: es) (o :: snd (run cfg s1 es)) = snd (reacts m r (concerns m s e ++ view cfg m s1 es)) /\
    sim (fst (run cfg s1 es)) (fst (reacts m r (concerns m s e ++ view cfg m s1 es))) /\
    Inv cfg None (fst (run cfg s1 es)) /\ MInv (fst (run cfg s1 es))).
  { intros CE. rewrite (NIL CE), CE. cbn [app]. apply IH; auto. exact (sim_other s e s1 o r I M SE1 CE E SIM). }
  assert (ONE : forall me, concerns m s e = [me] -> sim s1 (fst (react m r me)) ->
    replies m (e :: es) (o :: snd (run cfg s1 es)) = snd (react m r me) ++ replies m es (snd (run cfg s1 es)) ->
    replies m (e :: es) (o :: snd (run cfg s1 es)) = snd (reacts m r (concerns m s e ++ view cfg m s1 es)) /\
    sim (fst (run cfg s1 es)) (fst (reacts m r (concerns m s e ++ view cfg m s1 es))) /\
    Inv cfg None (fst (run cfg s1 es)) /\ MInv (fst (run cfg s1 es))).
  { intros me CE S1 RE. rewrite CE, RE. cbn [app reacts]. destruct (react m r me) as [r1 os1]. cbn [fst snd] in *.
    destruct (IH s1 r1 I1 M1 SE S1) as (A & B & C). destruct (reacts m r1 (view cfg m s1 es)) as [r2 os2].
    cbn [fst snd] in *. rewrite A. auto. }
  destruct (concerns m s e) as [|me l] eqn:CE; [now apply DONE|]. clear DONE NIL.
  destruct e as [g| | |tid|tid|tid]; cbn [concerns] in CE; try discriminate.
  - destruct (seg_no m g) as [i|] eqn:HS; [|discriminate]. injection CE as <- <-.
    destruct (sim_part s i g s1 o r I M HS E SIM) as (A & B). eapply ONE; [reflexivity|exact A|].
    cbn [replies]. rewrite HS, B. reflexivity.
  - injection CE as <- <-. cbn [step] in E. injection E as <- <-. eapply ONE; [reflexivity|now apply sim_close|reflexivity].
  - destruct (nth_error (c_timers s) tid) as [tm|] eqn:HT; [|discriminate]. destruct (tm_state tm) eqn:ES; try discriminate.
    destruct (has_part m (pipe_segs s (tm_pipe tm))) eqn:HP; [|discriminate]. injection CE as <- <-.
    cbn [step] in E. rewrite HT, ES in E. injection E as <- <-. eapply ONE; [reflexivity|now apply sim_late|reflexivity].
  - destruct (nth_error (c_timers s) tid) as [tm|] eqn:HT; [|discriminate]. destruct (tm_state tm) eqn:ES; try discriminate.
    destruct (has_part m (pipe_segs s (tm_pipe tm)) && existsb (Nat.eqb (tm_pipe tm)) (map snd (pipes s))) eqn:HP; [|discriminate].
    apply andb_prop in HP as (HP & HX). injection CE as <- <-.
    cbn [step] in E. rewrite HT, ES in E. injection E as <- <-. eapply ONE; [reflexivity|now apply sim_removed|reflexivity].
Qed.
End Alone.
