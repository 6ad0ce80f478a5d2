(** The Collector with a clock. *)
From Verif Require Import GoBase GoLemmas UserData Tpdu Address Collector SpecCollect CollectorProofs CollectorMsgProofs
  CollectorOrderProofs CollectorHistProofs SpecAlone AloneProofs SpecClock.

(** * The cases of Collect *)

(** The segment is about to be stored in pipe [id], which has no running timer, in
    a state that differs from [s] in a stopped timer or a new pipe. *)
Record ready (s s1 : cstate) (id : nat) (p : pipe) (key : bytes) (q n : Z) : Prop := {
  rd_range : 1 <= q <= n;
  rd_count : length (c_timers s1) = length (c_timers s);
  rd_key : klookup (c_pipes s1) key = Some id;
  rd_pipe : nth_error (c_heap s1) id = Some p;
  rd_free : nth_error (p_segs p) (Z.to_nat (q - 1)) = Some None;
  rd_quiet : quiet s1 id;
  rd_timers : forall j tm, nth_error (c_timers s1) j = Some tm -> tm_state tm = TStopped \/ nth_error (c_timers s) j = Some tm;
  rd_segs : forall i g, In (Some g) (pipe_segs s1 i) -> In (Some g) (pipe_segs s i);
  rd_back : forall i g, In (Some g) (pipe_segs s i) -> In (Some g) (pipe_segs s1 i);
  rd_shown : forall k i, In (k, i) (c_pipes s) -> In (k, i) (c_pipes s1) \/
     exists j tm, nth_error (c_timers s) j = Some tm /\ tm_pipe tm = i /\ tm_state tm = TFired;
  rd_others : forall k i, In (k, i) (c_pipes s1) -> i <> id ->
     In (k, i) (c_pipes s) /\ nth_error (c_heap s1) i = nth_error (c_heap s) i;
  rd_keys : NoDup (map fst (c_pipes s1));
  rd_ids : NoDup (map snd (c_pipes s1)) }.

Lemma collect_shape cfg s g s' r : Inv cfg None s -> collect cfg s g = (s', r) ->
  (s' = s /\ r <> CReturn None None /\
   forall n q ref l, tpdu_concat_info (sg_pdu g) = Some (n, q, ref) -> 2 <= n -> r <> CReturn (Some l) None) \/
  exists s1 id p key n q ref err, tpdu_concat_info (sg_pdu g) = Some (n, q, ref) /\ pdu_key (sg_pdu g) n ref = (key, err) /\
    ready s s1 id p key q n /\ store cfg s1 id key n q g err = (s', r).
Proof.
  intros I H.
  destruct (c_closed s) eqn:O; [left; unfold collect in H; rewrite O in H; injection H as <- <-; repeat split; discriminate|].
  destruct (tpdu_concat_info (sg_pdu g)) as [[[n q] ref]|] eqn:C;
    [|left; unfold collect in H; rewrite O, C in H; injection H as <- <-; now split].
  destruct (n <? 2) eqn:E2; [left; unfold collect in H; rewrite O, C, E2 in H; injection H as <- <-; repeat split; try discriminate;
    intros ? ? ? ? F; injection F as <- <- <-; lia|].
  destruct ((q <? 1) || (n <? q)) eqn:EQ;
    [left; unfold collect in H; rewrite O, C, E2, EQ in H; injection H as <- <-; repeat split; discriminate|].
  destruct (pdu_key (sg_pdu g) n ref) as [key err] eqn:EK.
  assert (FR : (forall old, klookup (c_pipes s) key = Some old ->
       exists j tm, nth_error (c_timers s) j = Some tm /\ tm_pipe tm = old /\ tm_state tm = TFired) ->
     (let '(s, id) := new_pipe s key n in store cfg s id key n q g err) = (s', r) ->
     exists s1 id p, ready s s1 id p key q n /\ store cfg s1 id key n q g err = (s', r)).
  { intros HO HS. destruct (new_pipe s key n) as [s1 id] eqn:EN.
    destruct (inv_new_pipe cfg s key n s1 id I O HO EN) as (I1 & O1 & K1 & P1 & Q1 & _). exists s1, id.
    eexists. split; [|exact HS]. unfold new_pipe in EN. injection EN as <- <-.
    set (p0 := {| p_cleanup := None; p_segs := repeat None (Z.to_nat n); p_frags := 0 |}) in *.
    set (s1 := {| c_closed := c_closed s; c_pipes := _; c_heap := _; c_timers := _ |}) in *.
    assert (OLD : forall i, (i < length (c_heap s))%nat -> pipe_segs s1 i = pipe_segs s i).
    { intros i L. unfold pipe_segs, s1. cbn [c_heap]. now rewrite nth_error_app1. }
    split.
    - lia.
    - reflexivity.
    - apply klookup_nodup; [exact (i_keys _ _ _ I1)|exact K1].
    - exact P1.
    - cbn [p0 p_segs]. apply nth_error_repeat. lia.
    - exact Q1.
    - auto.
    - intros i h HI. destruct (Nat.lt_ge_cases i (length (c_heap s))) as [L|L]; [now rewrite <- OLD|].
      exfalso. unfold pipe_segs in HI. cbn [s1 c_heap] in HI. rewrite nth_error_app2 in HI by exact L.
      destruct (i - length (c_heap s))%nat as [|[|?]]; cbn in HI; try contradiction. apply repeat_spec in HI. discriminate.
    - intros i h HI. destruct (Nat.lt_ge_cases i (length (c_heap s))) as [L|L]; [now rewrite OLD|].
      exfalso. unfold pipe_segs in HI. apply nth_error_None in L. now rewrite L in HI.
    - intros k i HI. destruct (list_eq_dec Z.eq_dec k key) as [->|NE].
      + right. apply HO. apply klookup_nodup; [apply I|exact HI].
      + left. cbn [s1 c_pipes]. apply in_kset. auto.
    - intros k i HI NI. cbn [s1 c_pipes] in HI. apply in_kset in HI as [(_ & F)|(HI & _)]; [contradiction|].
      split; [exact HI|]. cbn [s1 c_heap]. apply nth_error_app1. exact (inv_id _ _ _ _ _ I HI).
    - exact (i_keys _ _ _ I1).
    - exact (i_ids _ _ _ I1). }
  assert (GO : (exists s1 id p, ready s s1 id p key q n /\ store cfg s1 id key n q g err = (s', r)) ->
    exists s1 id p key0 n0 q0 ref0 err0, Some (n, q, ref) = Some (n0, q0, ref0) /\ pdu_key (sg_pdu g) n0 ref0 = (key0, err0) /\
      ready s s1 id p key0 q0 n0 /\ store cfg s1 id key0 n0 q0 g err0 = (s', r)).
  { intros (s1 & id & p & A & B). exists s1, id, p, key, n, q, ref, err. auto. }
  destruct (collect_cases cfg s g n q ref key err O C ltac:(lia) ltac:(lia) EK)
    as [(LK & E)|[(id & p & LK & HP & CA)|(id & LK & HP & E)]].
  - right. apply GO, FR; [congruence|]. now rewrite <- E.
  - pose proof (klookup_in _ _ _ LK) as HK.
    destruct CA as [(old & _ & E)|[(EI & CA)|(_ & E)]]; [left; rewrite E in H; injection H as <- <-; repeat split; discriminate| |
      left; rewrite E in H; injection H as <- <-; repeat split; discriminate].
    right. apply GO. apply idx_nth in EI as (_ & EI).
    destruct CA as [(EC & E)|[(tid & tm & EC & HT & [(ES & E)|(ES & E)])|(tid & EC & HT & E)]].
    + exists s, id, p. split; [|now rewrite <- E]. split; auto; [lia| |apply I|apply I].
      intros j tm HT TP. destruct (i_owner _ _ _ I _ _ _ _ _ HK HP HT TP); [assumption|congruence].
    + exists (stopped s tid tm), id, p. split; [|now rewrite <- E].
      destruct (inv_stop cfg s tid tm key id p I HK HP EC HT ES) as (_ & Q1 & _).
      split; auto; [lia|cbn; now rewrite upd_length| |apply I|apply I].
      intros j x Hx. cbn [stopped c_timers] in Hx. apply nth_upd_inv in Hx as [(_ & -> & _)|(_ & Hx)]; auto.
    + apply FR; [|now rewrite <- E]. intros old Ho. assert (old = id) by congruence. subst old.
      destruct (i_cleanup _ _ _ I _ _ _ _ HK HP EC) as (tm' & HT' & TP & _ & CS). assert (tm' = tm) by congruence. subst tm'.
      exists tid, tm. split; [exact HT|]. split; [exact TP|]. destruct CS as [F|[F|([F|F] & _)]]; congruence.
    + destruct (i_cleanup _ _ _ I _ _ _ _ HK HP EC) as (tm' & HT' & _). congruence.
  - left. rewrite E in H. injection H as <- <-. repeat split; discriminate.
Qed.

(** What is stored, with the timer that is started. *)
Lemma store_shape cfg s s1 id p key n q g err s' r : ready s s1 id p key q n -> store cfg s1 id key n q g err = (s', r) ->
  let segs := upd (p_segs p) (Z.to_nat (q - 1)) (Some g) in
  c_closed s' = c_closed s1 /\
  (forall i, pipe_segs s' i = if Nat.eqb i id then segs else pipe_segs s1 i) /\
  ((r = CReturn (Some segs) None /\ c_pipes s' = kdelete (c_pipes s1) key /\ c_timers s' = c_timers s1) \/
   (r = CReturn None err /\ c_pipes s' = c_pipes s1 /\
    if cf_timeout cfg
    then c_timers s' = c_timers s1 ++ [{| tm_pipe := id; tm_key := key; tm_state := TActive |}] /\
         exists p', nth_error (c_heap s') id = Some p' /\ p_cleanup p' = Some (length (c_timers s1))
    else c_timers s' = c_timers s1)).
Proof.
  intros R H. unfold store in H. rewrite (rd_pipe _ _ _ _ _ _ _ R) in H. cbv zeta in H |- *.
  assert (PS : forall m' p' tms, forall i, pipe_segs (with_pipe s1 m' id p' tms) i = if Nat.eqb i id then p_segs p' else pipe_segs s1 i).
  { intros. apply (pipe_segs_with s1 _ id _ _ i p). exact (rd_pipe _ _ _ _ _ _ _ R). }
  destruct (_ =? _); [|destruct (cf_timeout cfg)]; injection H as <- <-; (split; [reflexivity|]); (split; [apply PS|]).
  - left. auto.
  - right. split; [reflexivity|]. split; [reflexivity|]. split; [reflexivity|].
    eexists. split; [cbn [c_heap]; apply (nth_upd_same _ _ _ _ (rd_pipe _ _ _ _ _ _ _ R))|reflexivity].
  - right. auto.
Qed.

Lemma in_upd {A} (l : list A) i x y : In x (upd l i y) -> x = y \/ In x l.
Proof.
  intros H. apply In_nth_error in H as (j & H). apply nth_upd_inv in H as [(_ & -> & _)|(_ & H)]; [auto|].
  right. now apply nth_error_In in H.
Qed.
Lemma upd_keeps {A} (l : list (option A)) i x y : nth_error l i = Some None -> In (Some x) l -> In (Some x) (upd l i y).
Proof.
  intros N H. apply In_nth_error in H as (j & H). destruct (Nat.eq_dec j i) as [->|NE]; [congruence|].
  rewrite <- (nth_upd_other l i j y NE) in H. now apply nth_error_In in H.
Qed.

(** * Times *)
Lemma timers_grow cfg s e s' o : Inv cfg None s -> step cfg s e = (s', o) -> (length (c_timers s) <= length (c_timers s'))%nat.
Proof.
  intros I H. destruct e as [g| | |tid|tid|tid]; cbn [step] in H.
  - destruct (collect cfg s g) as [s1 r] eqn:E. injection H as <- <-.
    destruct (collect_shape cfg s g s1 r I E) as [(-> & _)|(s2 & id & p & key & n & q & ref & err & _ & _ & R & ST)]; [lia|].
    rewrite <- (rd_count _ _ _ _ _ _ _ R).
    destruct (store_shape _ _ _ _ _ _ _ _ _ _ _ _ R ST) as (_ & _ & [(_ & _ & ->)|(_ & _ & T)]); [lia|].
    destruct (cf_timeout cfg); [destruct T as (-> & _); rewrite app_length; lia|rewrite T; lia].
  - injection H as <- <-. destruct (c_closed s) eqn:O; [unfold close; rewrite O; lia|].
    rewrite (close_shape cfg s I O). cbn [c_timers]. rewrite map_length. lia.
  - injection H as <- <-. lia.
  - destruct (nth_error (c_timers s) tid) as [tm|]; [destruct (tm_state tm)|]; injection H as <- <-; try lia.
    cbn [set_timer c_timers]. rewrite upd_length. lia.
  - destruct (nth_error (c_timers s) tid) as [tm|]; [destruct (tm_state tm)|]; injection H as <- <-; try lia.
    cbn [set_timer c_timers]. rewrite upd_length. unfold expire_pipe.
    destruct (klookup _ _); [destruct (Nat.eqb _ _)|]; cbn [c_timers]; lia.
  - destruct (nth_error (c_timers s) tid) as [tm|]; [destruct (tm_state tm)|]; injection H as <- <-; try lia.
    cbn [set_timer c_timers]. rewrite upd_length. lia.
Qed.
Lemma started_length cfg s e s' o t st : Inv cfg None s -> step cfg s e = (s', o) -> length st = length (c_timers s) ->
  length (started s s' t st) = length (c_timers s').
Proof.
  intros I H L. pose proof (timers_grow cfg s e s' o I H). unfold started. rewrite app_length, repeat_length. lia.
Qed.
Lemma started_old s s' t st j x : nth_error st j = Some x -> nth_error (started s s' t st) j = Some x.
Proof.
  intros H. unfold started. rewrite nth_error_app1; [exact H|]. apply nth_error_Some. congruence.
Qed.
Lemma started_same s s' t st : length (c_timers s') = length (c_timers s) -> started s s' t st = st.
Proof. intros E. unfold started. rewrite E, Nat.sub_diag. apply app_nil_r. Qed.

(** Each segment in a pipe was collected, before the last timer of the pipe was
    started; and timers that have fired were started [d] before or earlier. *)
Record dated (d : Z) (past : list (Z * event)) (now : Z) (st : list Z) (s : cstate) : Prop := {
  da_count : length st = length (c_timers s);
  da_all : forall id g, In (Some g) (pipe_segs s id) -> since past g now;
  da_timer : forall j tm t0 g, nth_error (c_timers s) j = Some tm -> nth_error st j = Some t0 ->
    tm_state tm <> TStopped -> In (Some g) (pipe_segs s (tm_pipe tm)) -> since past g t0;
  da_fired : forall j tm t0, nth_error (c_timers s) j = Some tm -> nth_error st j = Some t0 ->
    tm_state tm <> TStopped -> tm_state tm <> TActive -> t0 + d <= now }.

Lemma since_later past past' g t t' : since past g t -> t <= t' -> since (past ++ past') g t'.
Proof. intros (x & H & L) LE. exists x. split; [apply in_or_app; now left|lia]. Qed.

Lemma dated_step cfg d past now st s e s' o t : Inv cfg None s -> dated d past now st s -> now <= t ->
  not_early d s st t e -> step cfg s e = (s', o) -> dated d (past ++ [(t, e)]) t (started s s' t st) s'.
Proof.
  intros I D LE NE H. pose proof (started_length cfg s e s' o t st I H (da_count _ _ _ _ _ D)) as LN.
  (* steps that only change the states of timers *)
  assert (SOFT : length (c_timers s') = length (c_timers s) -> (forall id, pipe_segs s' id = pipe_segs s id) ->
    (forall j tm, nth_error (c_timers s') j = Some tm -> tm_state tm <> TStopped ->
       exists tm0, nth_error (c_timers s) j = Some tm0 /\ tm_pipe tm0 = tm_pipe tm /\ tm_state tm0 <> TStopped /\
         (tm_state tm <> TActive -> tm_state tm0 <> TActive \/ e = EvFire j)) ->
    dated d (past ++ [(t, e)]) t (started s s' t st) s').
  { intros EL PS TS. rewrite (started_same _ _ _ _ EL) in *. split.
    - exact LN.
    - intros id g HI. rewrite PS in HI. apply (since_later _ _ _ now); [now apply (da_all _ _ _ _ _ D id)|exact LE].
    - intros j tm t0 g HT H0 NS HI. rewrite PS in HI. destruct (TS j tm HT NS) as (tm0 & HT0 & TP & NS0 & _).
      rewrite <- TP in HI. apply (since_later _ _ _ t0); [|lia]. now apply (da_timer _ _ _ _ _ D j tm0 t0).
    - intros j tm t0 HT H0 NS NA. destruct (TS j tm HT NS) as (tm0 & HT0 & TP & NS0 & AC).
      destruct (AC NA) as [NA0|E].
      + pose proof (da_fired _ _ _ _ _ D j tm0 t0 HT0 H0 NS0 NA0). lia.
      + destruct (tm_state tm0) eqn:ES.
        * apply (NE j tm0 t0 E HT0 ES H0).
        * destruct (NS0 eq_refl).
        * pose proof (da_fired _ _ _ _ _ D j tm0 t0 HT0 H0 ltac:(congruence) ltac:(congruence)). lia.
        * pose proof (da_fired _ _ _ _ _ D j tm0 t0 HT0 H0 ltac:(congruence) ltac:(congruence)). lia.
        * pose proof (da_fired _ _ _ _ _ D j tm0 t0 HT0 H0 ltac:(congruence) ltac:(congruence)). lia. }
  assert (ID : s' = s -> dated d (past ++ [(t, e)]) t (started s s' t st) s').
  { intros ->. apply SOFT; auto. intros j tm HT NS. exists tm. auto. }
  assert (SET : forall s0 tid tm x, (forall id, pipe_segs s0 id = pipe_segs s id) -> c_timers s0 = c_timers s ->
    nth_error (c_timers s) tid = Some tm -> tm_state tm <> TStopped -> x <> TActive ->
    tm_state tm <> TActive \/ e = EvFire tid -> s' = set_timer s0 tid tm x ->
    dated d (past ++ [(t, e)]) t (started s s' t st) s').
  { intros s0 tid tm x PS TM HT NS XA OR ->. apply SOFT.
    - cbn [set_timer c_timers]. now rewrite upd_length, TM.
    - intros id. rewrite pipe_segs_set_timer. apply PS.
    - intros j y Hy NY. cbn [set_timer c_timers] in Hy. rewrite TM in Hy.
      apply nth_upd_inv in Hy as [(-> & -> & _)|(_ & Hy)]; [|exists y; auto].
      exists tm. cbn [tm_pipe tm_state]. repeat split; auto. }
  destruct e as [g| | |tid|tid|tid]; cbn [step] in H.
  - destruct (collect cfg s g) as [s1 r] eqn:E. injection H as <- <-.
    destruct (collect_shape cfg s g s1 r I E) as [(-> & _)|(s2 & id & p & key & n & q & ref & err & _ & _ & R & ST)]; [now apply ID|].
    pose proof (store_shape _ _ _ _ _ _ _ _ _ _ _ _ R ST) as (_ & PS & CA). cbv zeta in PS, CA.
    assert (NEW : since (past ++ [(t, EvCollect g)]) g t).
    { exists t. split; [apply in_or_app; right; now left|lia]. }
    assert (ALL : forall i h, In (Some h) (pipe_segs s1 i) -> since (past ++ [(t, EvCollect g)]) h t).
    { intros i h HI. rewrite PS in HI.
      assert (OLD : forall i, In (Some h) (pipe_segs s2 i) -> since (past ++ [(t, EvCollect g)]) h t).
      { intros i0 H0. apply (rd_segs _ _ _ _ _ _ _ R) in H0. apply (since_later _ _ _ now); [|exact LE].
        now apply (da_all _ _ _ _ _ D i0). }
      destruct (Nat.eqb i id); [|now apply (OLD i)]. apply in_upd in HI as [HI|HI]; [injection HI as ->; exact NEW|].
      apply (OLD id). now rewrite (pipe_segs_nth _ _ _ (rd_pipe _ _ _ _ _ _ _ R)). }
    assert (TI : forall j tm, nth_error (c_timers s2) j = Some tm -> tm_state tm <> TStopped ->
      nth_error (c_timers s) j = Some tm /\ forall h, In (Some h) (pipe_segs s1 (tm_pipe tm)) -> In (Some h) (pipe_segs s (tm_pipe tm))).
    { intros j tm HT NS. destruct (rd_timers _ _ _ _ _ _ _ R j tm HT) as [F|HT0]; [contradiction|]. split; [exact HT0|].
      intros h HI. rewrite PS in HI. destruct (Nat.eqb_spec (tm_pipe tm) id) as [TP|TP].
      - destruct (NS (rd_quiet _ _ _ _ _ _ _ R j tm HT TP)).
      - now apply (rd_segs _ _ _ _ _ _ _ R) in HI. }
    assert (SAME : c_timers s1 = c_timers s2 -> dated d (past ++ [(t, EvCollect g)]) t (started s s1 t st) s1).
    { intros TM. rewrite started_same in * by (rewrite TM; apply (rd_count _ _ _ _ _ _ _ R)). split; [exact LN|exact ALL| |].
      - intros j tm t0 h HT H0 NS HI. rewrite TM in HT. destruct (TI j tm HT NS) as (HT0 & SG).
        apply (since_later _ _ _ t0); [|lia]. apply (da_timer _ _ _ _ _ D j tm t0 h HT0 H0 NS). auto.
      - intros j tm t0 HT H0 NS NA. rewrite TM in HT. destruct (TI j tm HT NS) as (HT0 & _).
        pose proof (da_fired _ _ _ _ _ D j tm t0 HT0 H0 NS NA). lia. }
    destruct CA as [(_ & _ & TM)|(_ & _ & TM)]; [now apply SAME|].
    destruct (cf_timeout cfg); [|now apply SAME]. destruct TM as (TM & _).
    assert (SP : forall j tm t0, nth_error (c_timers s1) j = Some tm -> nth_error (started s s1 t st) j = Some t0 ->
      (tm = {| tm_pipe := id; tm_key := key; tm_state := TActive |} /\ t0 = t) \/
      (nth_error (c_timers s2) j = Some tm /\ nth_error st j = Some t0)).
    { intros j tm t0 HT H0. rewrite TM in HT. destruct (Nat.lt_ge_cases j (length (c_timers s2))) as [L|L].
      - right. rewrite nth_error_app1 in HT by exact L. split; [exact HT|]. unfold started in H0.
        rewrite nth_error_app1 in H0; [exact H0|]. rewrite (da_count _ _ _ _ _ D), <- (rd_count _ _ _ _ _ _ _ R). exact L.
      - left. rewrite nth_error_app2 in HT by exact L. unfold started in H0.
        rewrite nth_error_app2 in H0 by (rewrite (da_count _ _ _ _ _ D), <- (rd_count _ _ _ _ _ _ _ R); exact L).
        apply nth_error_In, repeat_spec in H0. split; [|exact H0].
        destruct (j - length (c_timers s2))%nat as [|[|?]]; cbn in HT; congruence. }
    split; [exact LN|exact ALL| |].
    + intros j tm t0 h HT H0 NS HI. destruct (SP j tm t0 HT H0) as [(-> & ->)|(HT2 & H02)]; [now apply (ALL id)|].
      destruct (TI j tm HT2 NS) as (HT0 & SG). apply (since_later _ _ _ t0); [|lia].
      apply (da_timer _ _ _ _ _ D j tm t0 h HT0 H02 NS). auto.
    + intros j tm t0 HT H0 NS NA. destruct (SP j tm t0 HT H0) as [(-> & ->)|(HT2 & H02)]; [destruct (NA eq_refl)|].
      destruct (TI j tm HT2 NS) as (HT0 & _). pose proof (da_fired _ _ _ _ _ D j tm t0 HT0 H02 NS NA). lia.
  - injection H as <- <-. destruct (c_closed s) eqn:O; [apply ID; unfold close; now rewrite O|].
    destruct (inv_close cfg s I) as (_ & _ & _ & _ & C2 & C3). apply SOFT.
    + rewrite (close_shape cfg s I O). cbn [c_timers]. apply map_length.
    + intros id. unfold pipe_segs. now rewrite C3.
    + intros j tm HT NS. rewrite (close_shape cfg s I O) in HT. cbn [c_timers] in HT. rewrite nth_error_map in HT.
      destruct (nth_error (c_timers s) j) as [tm0|] eqn:E; [|discriminate]. cbn in HT. injection HT as <-.
      exists tm0. rewrite quench_pipe. rewrite quench_state in NS |- *. repeat split; destruct (tm_state tm0); try congruence; auto.
  - injection H as <- <-. now apply ID.
  - destruct (nth_error (c_timers s) tid) as [tm|] eqn:HT; [|injection H as <- <-; now apply ID].
    destruct (tm_state tm) eqn:ES; injection H as <- <-; try (now apply ID).
    apply (SET s tid tm TFired); auto; congruence.
  - destruct (nth_error (c_timers s) tid) as [tm|] eqn:HT; [|injection H as <- <-; now apply ID].
    destruct (tm_state tm) eqn:ES; injection H as <- <-; try (now apply ID).
    apply (SET (expire_pipe s tm) tid tm TExpired); auto; try congruence.
    + intros id. unfold expire_pipe. destruct (klookup _ _); [destruct (Nat.eqb _ _)|]; reflexivity.
    + unfold expire_pipe. destruct (klookup _ _); [destruct (Nat.eqb _ _)|]; reflexivity.
    + left. congruence.
  - destruct (nth_error (c_timers s) tid) as [tm|] eqn:HT; [|injection H as <- <-; now apply ID].
    destruct (tm_state tm) eqn:ES; injection H as <- <-; try (now apply ID).
    apply (SET s tid tm TDone); auto; try congruence. left. congruence.
Qed.

Lemma dated_run cfg d h1 : forall s st now past h2, Inv cfg None s -> dated d past now st s ->
  keeps (not_early d) cfg s st now (h1 ++ h2) -> exists st1 now1,
  Inv cfg None (fst (run cfg s (map snd h1))) /\
  dated d (past ++ h1) now1 st1 (fst (run cfg s (map snd h1))) /\
  keeps (not_early d) cfg (fst (run cfg s (map snd h1))) st1 now1 h2.
Proof.
  induction h1 as [|[t e] h1 IH]; intros s st now past h2 I D K; cbn [app map snd keeps] in *.
  { exists st, now. rewrite app_nil_r. auto. }
  destruct K as (LE & NE & K). rewrite run_cons. destruct (step cfg s e) as [s1 o] eqn:E. cbn [fst] in *.
  destruct (inv_step cfg s e s1 o I E) as (I1 & _).
  pose proof (dated_step cfg d past now st s e s1 o t I D LE NE E) as D1.
  destruct (IH s1 _ t _ h2 I1 D1 K) as (st1 & now1 & A & B & C). exists st1, now1.
  rewrite <- app_assoc in B. auto.
Qed.

(** What is given up was collected at least [d] before. *)
Lemma given_up cfg d past now st s e s' o t : Inv cfg None s -> dated d past now st s -> now <= t ->
  step cfg s e = (s', o) ->
  (forall l g, o = OHandled l -> In (Some g) l -> since past g (t - d)) /\
  (forall k id g, In (k, id) (pipes s) -> ~ In (k, id) (pipes s') -> In (Some g) (pipe_segs s id) ->
     since past g (t - d) \/ exists l, o = OCollect (CReturn (Some l) None) /\ In (Some g) l).
Proof.
  intros I D LE H. unfold pipes.
  assert (FIRED : forall j tm g, nth_error (c_timers s) j = Some tm -> tm_state tm <> TStopped -> tm_state tm <> TActive ->
    In (Some g) (pipe_segs s (tm_pipe tm)) -> since past g (t - d)).
  { intros j tm g HT NS NA HI. destruct (nth_error st j) as [t0|] eqn:H0.
    - pose proof (da_fired _ _ _ _ _ D j tm t0 HT H0 NS NA) as L.
      destruct (da_timer _ _ _ _ _ D j tm t0 g HT H0 NS HI) as (t' & A & B). exists t'. split; [exact A|lia].
    - apply nth_error_None in H0. rewrite (da_count _ _ _ _ _ D) in H0. apply nth_error_None in H0. congruence. }
  destruct e as [g| | |tid|tid|tid]; cbn [step] in H.
  - destruct (collect cfg s g) as [s1 r] eqn:E. injection H as <- <-. split; [discriminate|].
    destruct (collect_shape cfg s g s1 r I E) as [(-> & _)|(s2 & id & p & key & n & q & ref & err & _ & _ & R & ST)]; [tauto|].
    pose proof (store_shape _ _ _ _ _ _ _ _ _ _ _ _ R ST) as (_ & PS & CA). cbv zeta in PS, CA.
    intros k i h IN NI HI. destruct (rd_shown _ _ _ _ _ _ _ R k i IN) as [IN2|(j & tm & HT & TP & ES)].
    2:{ left. apply (FIRED j tm); try congruence. }
    destruct CA as [(-> & CP & _)|(_ & CP & _)]; rewrite CP in NI; [|contradiction].
    right. eexists. split; [reflexivity|].
    assert (k = key) as ->.
    { destruct (list_eq_dec Z.eq_dec k key) as [->|NE]; [reflexivity|]. destruct NI. now apply in_kdelete. }
    assert (i = id).
    { apply (keys_inj (c_pipes s2) key); [apply (rd_keys _ _ _ _ _ _ _ R)|exact IN2|].
      apply klookup_in. apply (rd_key _ _ _ _ _ _ _ R). }
    subst i. apply upd_keeps; [apply (rd_free _ _ _ _ _ _ _ R)|].
    rewrite <- (pipe_segs_nth _ _ _ (rd_pipe _ _ _ _ _ _ _ R)). now apply (rd_back _ _ _ _ _ _ _ R).
  - injection H as <- <-. destruct (inv_close cfg s I) as (_ & _ & _ & _ & C2 & _). rewrite C2. split; [discriminate|tauto].
  - injection H as <- <-. split; [discriminate|tauto].
  - split; [|destruct (nth_error (c_timers s) tid) as [tm|]; [destruct (tm_state tm)|]; injection H as <- <-; cbn; tauto].
    destruct (nth_error (c_timers s) tid) as [tm|]; [destruct (tm_state tm)|]; injection H as <- <-; discriminate.
  - split; [destruct (nth_error (c_timers s) tid) as [tm|]; [destruct (tm_state tm)|]; injection H as <- <-; discriminate|].
    destruct (nth_error (c_timers s) tid) as [tm|] eqn:HT; [|injection H as <- <-; tauto].
    destruct (tm_state tm) eqn:ES; injection H as <- <-; try tauto. cbn [set_timer c_pipes].
    intros k id g IN NI HI. left. unfold expire_pipe in NI.
    destruct (klookup (c_pipes s) (tm_key tm)) as [id'|] eqn:LK; [|contradiction].
    destruct (Nat.eqb_spec id' (tm_pipe tm)) as [->|NE]; [|contradiction]. cbn [c_pipes] in NI.
    assert (k = tm_key tm) as ->.
    { destruct (list_eq_dec Z.eq_dec k (tm_key tm)) as [->|NE]; [reflexivity|]. destruct NI. now apply in_kdelete. }
    apply (klookup_nodup _ _ _ (i_keys _ _ _ I)) in IN. assert (id = tm_pipe tm) by congruence. subst id.
    apply (FIRED tid tm); try congruence.
  - split; [|destruct (nth_error (c_timers s) tid) as [tm|]; [destruct (tm_state tm)|]; injection H as <- <-; cbn; tauto].
    intros l g. destruct (nth_error (c_timers s) tid) as [tm|] eqn:HT; [|injection H as <- <-; discriminate].
    destruct (tm_state tm) eqn:ES; injection H as <- <-; try discriminate.
    destruct (cf_handler cfg); [|discriminate]. intros E HI. injection E as <-. apply (FIRED tid tm); congruence.
Qed.

(** The running timer of a pipe was started when one of its segments was collected. *)
Definition latest (past : list (Z * event)) (st : list Z) (s : cstate) : Prop :=
  forall k id, In (k, id) (c_pipes s) -> exists p j t0 g, nth_error (c_heap s) id = Some p /\ p_cleanup p = Some j /\
    nth_error st j = Some t0 /\ In (Some g) (p_segs p) /\ In (t0, EvCollect g) past.

Lemma latest_step cfg past st s e s' o t : cf_timeout cfg = true -> Inv cfg None s -> length st = length (c_timers s) ->
  latest past st s -> step cfg s e = (s', o) -> latest (past ++ [(t, e)]) (started s s' t st) s'.
Proof.
  intros TO I L LA H.
  assert (SOFT : c_heap s' = c_heap s -> (forall kv, In kv (c_pipes s') -> In kv (c_pipes s)) ->
    latest (past ++ [(t, e)]) (started s s' t st) s').
  { intros EH SUB k id IN. destruct (LA k id (SUB _ IN)) as (p & j & t0 & g & A & B & C & D & E). exists p, j, t0, g.
    rewrite EH. split; [exact A|]. split; [exact B|]. split; [now apply started_old|]. split; [exact D|]. apply in_or_app. now left. }
  destruct e as [g| | |tid|tid|tid]; cbn [step] in H.
  - destruct (collect cfg s g) as [s1 r] eqn:E. injection H as <- <-.
    destruct (collect_shape cfg s g s1 r I E) as [(-> & _)|(s2 & id & p & key & n & q & ref & err & _ & _ & R & ST)]; [now apply SOFT|].
    pose proof (store_shape _ _ _ _ _ _ _ _ _ _ _ _ R ST) as (_ & PS & CA). cbv zeta in PS, CA. rewrite TO in CA.
    assert (HO : forall i, i <> id -> nth_error (c_heap s1) i = nth_error (c_heap s2) i).
    { intros i NE. clear - ST NE. unfold store in ST. destruct (nth_error (c_heap s2) id); [|now injection ST as <- <-].
      destruct (_ =? _); [|destruct (cf_timeout cfg)]; injection ST as <- <-; cbn [c_heap]; now apply nth_upd_other. }
    intros k i IN.
    assert (IN2 : In (k, i) (c_pipes s2)).
    { destruct CA as [(_ & CP & _)|(_ & CP & _)]; rewrite CP in IN; [now apply in_kdelete in IN|exact IN]. }
    destruct (Nat.eq_dec i id) as [->|NE].
    + destruct CA as [(_ & CP & _)|(_ & CP & CT & p' & HP' & CL)].
      { exfalso. rewrite CP in IN. apply in_kdelete in IN as (_ & NK). apply NK.
        apply (ids_inj (c_pipes s2) k key id); [apply (rd_ids _ _ _ _ _ _ _ R)|exact IN2|].
        apply klookup_in. apply (rd_key _ _ _ _ _ _ _ R). }
      exists p', (length (c_timers s2)), t, g. split; [exact HP'|]. split; [exact CL|]. split; [|split].
      * unfold started. rewrite CT, app_length, (rd_count _ _ _ _ _ _ _ R). cbn [length].
        rewrite nth_error_app2 by lia. replace (length (c_timers s) - length st)%nat with 0%nat by lia.
        replace (length (c_timers s) + 1 - length (c_timers s))%nat with 1%nat by lia. reflexivity.
      * pose proof (PS id) as E1. rewrite (pipe_segs_nth _ _ _ HP'), Nat.eqb_refl in E1. rewrite E1.
        apply nth_error_In with (n := Z.to_nat (q - 1)). apply (nth_upd_same _ _ _ _ (rd_free _ _ _ _ _ _ _ R)).
      * apply in_or_app. right. now left.
    + destruct (rd_others _ _ _ _ _ _ _ R k i IN2 NE) as (IN0 & EH). destruct (LA k i IN0) as (p0 & j & t0 & h & A & B & C & D & F).
      exists p0, j, t0, h. rewrite (HO i NE), EH. split; [exact A|]. split; [exact B|]. split; [now apply started_old|].
      split; [exact D|]. apply in_or_app. now left.
  - injection H as <- <-. destruct (inv_close cfg s I) as (_ & _ & _ & _ & C2 & C3). apply SOFT; [exact C3|]. now rewrite C2.
  - injection H as <- <-. now apply SOFT.
  - destruct (nth_error (c_timers s) tid) as [tm|]; [destruct (tm_state tm)|]; injection H as <- <-; now apply SOFT.
  - destruct (nth_error (c_timers s) tid) as [tm|]; [destruct (tm_state tm)|]; injection H as <- <-; try (now apply SOFT).
    apply SOFT; cbn [set_timer c_heap c_pipes]; unfold expire_pipe;
      destruct (klookup _ _); try destruct (Nat.eqb _ _); auto. cbn [c_pipes]. intros (a & b) H. now apply in_kdelete in H.
  - destruct (nth_error (c_timers s) tid) as [tm|]; [destruct (tm_state tm)|]; injection H as <- <-; now apply SOFT.
Qed.
Lemma latest_run cfg (P : timing) h1 : cf_timeout cfg = true -> forall s st now past h2, Inv cfg None s ->
  length st = length (c_timers s) -> latest past st s -> keeps P cfg s st now (h1 ++ h2) -> exists st1 now1,
  Inv cfg None (fst (run cfg s (map snd h1))) /\ length st1 = length (c_timers (fst (run cfg s (map snd h1)))) /\
  latest (past ++ h1) st1 (fst (run cfg s (map snd h1))) /\
  keeps P cfg (fst (run cfg s (map snd h1))) st1 now1 h2.
Proof.
  intros TO. induction h1 as [|[t e] h1 IH]; intros s st now past h2 I L LA K; cbn [app map snd keeps] in *.
  { exists st, now. rewrite app_nil_r. auto. }
  destruct K as (LE & NE & K). rewrite run_cons. destruct (step cfg s e) as [s1 o] eqn:E. cbn [fst] in *.
  destruct (inv_step cfg s e s1 o I E) as (I1 & _).
  pose proof (latest_step cfg past st s e s1 o t TO I L LA E) as LA1.
  pose proof (started_length cfg s e s1 o t st I E L) as L1.
  destruct (IH s1 _ t _ h2 I1 L1 LA1 K) as (st1 & now1 & A & B & C & D). exists st1, now1.
  rewrite <- app_assoc in C. auto.
Qed.

(** * One message *)
Section Timed.
Context (cfg : ccfg) (TO : cf_timeout cfg = true) (m : message) (MO : m_ok m) (d : Z).

Lemma at_other s e s' o id p : Inv cfg None s -> MInv s -> typed_event e -> concerns m s e = [] ->
  step cfg s e = (s', o) -> at_id m s id p -> at_id m s' id p.
Proof.
  intros I M SE CE H (LK & HP). unfold at_id.
  destruct e as [g| | |tid|tid|tid]; cbn [step concerns] in *.
  - destruct (collect cfg s g) as [s1 rr] eqn:E. injection H as <- <-.
    assert (F : frame s s1 (key_of m)).
    { apply (collect_frame cfg s g s1 rr _ I E). intros n q ref HC H2.
      apply (other_key m MO g n q ref); auto. now destruct (seg_no m g). }
    destruct F as (F1 & F2). destruct (F2 id LK) as (F3 & _). split; congruence.
  - discriminate.
  - injection H as <- <-. auto.
  - destruct (nth_error (c_timers s) tid) as [tm|]; [destruct (tm_state tm)|]; injection H as <- <-; auto.
  - destruct (nth_error (c_timers s) tid) as [tm|] eqn:HT; [|injection H as <- <-; auto].
    destruct (tm_state tm) eqn:ES; injection H as <- <-; auto. cbn [set_timer c_pipes c_heap].
    assert (NE : tm_pipe tm <> id).
    { intros TP. rewrite TP, (key_shown m MO s id M LK) in CE. cbn [andb] in CE.
      destruct (existsb (Nat.eqb id) (map snd (pipes s))) eqn:EX; [discriminate|]. rewrite <- not_true_iff_false in EX.
      apply EX, existsb_exists. exists id. split; [|apply Nat.eqb_refl]. apply klookup_in in LK. now apply (in_map snd) in LK. }
    unfold expire_pipe. destruct (klookup (c_pipes s) (tm_key tm)) as [id'|] eqn:LK'; [|auto].
    destruct (Nat.eqb id' (tm_pipe tm)) eqn:EQ; [|auto]. cbn [c_pipes c_heap]. apply Nat.eqb_eq in EQ. subst id'.
    rewrite klookup_kdelete_other; [auto|]. intros E. rewrite <- E in LK'. congruence.
  - destruct (nth_error (c_timers s) tid) as [tm|]; [destruct (tm_state tm)|]; injection H as <- <-; auto.
Qed.

(** The timer of the message was started at time [last]. *)
Definition linked (s : cstate) (st : list Z) (last : Z) : Prop :=
  exists id p j, at_id m s id p /\ p_cleanup p = Some j /\ nth_error st j = Some last.

(** [r] is what the Collector holds, [q] what a machine without timers does: they
    are the same until the time is up. *)
Definition same (s : cstate) (st : list Z) (r : m_state) (q : t_state) : Prop :=
  r = t_held q /\ (r_got r <> [] -> linked s st (t_last q)).
Definition apart (s : cstate) (st : list Z) (r : m_state) (q : t_state) (now : Z) : Prop :=
  r_got (t_held q) <> [] /\ t_last q + d <= now /\
  ((r_got r = [] /\ r_late r = false) \/ (r_late r = true /\ r_got r = r_got (t_held q) /\ linked s st (t_last q))).
Definition both (s : cstate) (st : list Z) (r : m_state) (q : t_state) (now : Z) : Prop :=
  sim m s r /\ length st = length (c_timers s) /\ r_closed r = r_closed (t_held q) /\ r_late (t_held q) = false /\
  (same s st r q \/ apart s st r q now).

Lemma both_start now : both new_collector [] m_start t_start now.
Proof.
  split; [now apply sim_start|]. split; [reflexivity|]. split; [reflexivity|]. split; [reflexivity|]. left.
  split; [reflexivity|]. cbn. tauto.
Qed.

(** The timer of what is held. *)
Lemma linked_timer s st r last : Inv cfg None s -> sim m s r -> length st = length (c_timers s) -> r_got r <> [] ->
  linked s st last -> exists id j tm, klookup (c_pipes s) (key_of m) = Some id /\ nth_error (c_timers s) j = Some tm /\
    tm_pipe tm = id /\ nth_error st j = Some last /\
    (forall j' tm', nth_error (c_timers s) j' = Some tm' -> tm_pipe tm' = id -> tm_state tm' = TStopped \/ j' = j) /\
    (tm_state tm = TActive \/ tm_state tm = TFired \/ c_closed s = true).
Proof.
  intros I SIM L NE (id & p & j & (LK & HP) & CL & H0). pose proof (klookup_in _ _ _ LK) as IN.
  destruct (i_cleanup _ _ _ I _ _ _ _ IN HP CL) as (tm & HT & TP & TK & CS). exists id, j, tm.
  repeat split; auto.
  - intros j' tm' HT' TP'. destruct (i_owner _ _ _ I _ _ _ _ _ IN HP HT' TP') as [F|F]; [auto|]. right. congruence.
  - destruct CS as [F|[F|([F|F] & _)]]; auto. discriminate.
Qed.

(** Segments of the message. *)
Lemma kept_linked s st i g s' o t r : Inv cfg None s -> MInv s -> seg_no m g = Some i -> step cfg s (EvCollect g) = (s', o) ->
  length st = length (c_timers s) -> sim m s r ->
  let r' := fst (react m r (MPart i g)) in
  (s' = s /\ r' = r) \/
  ((r_late r = false -> length (r_got r') <> length (r_got r)) /\ (r_got r' <> [] -> linked s' (started s s' t st) t)).
Proof.
  intros I M HS H L SIM. cbv zeta. destruct (sim_part cfg m MO s i g s' o r I M HS H SIM) as (_ & OUT).
  pose proof (proj1 (seg_no_iff m i g) HS) as SG. pose proof (proj1 SG) as HC. pose proof (segment_key m i g SG) as HK.
  pose proof (proj2 (proj2 (proj2 MO))) as T2.
  cbn [step] in H. destruct (collect cfg s g) as [s1 rr] eqn:E. injection H as <- <-.
  destruct (collect_shape cfg s g s1 rr I E) as [(-> & NK & NL)|(s2 & id & p & key & n & q & ref & err & C & K & R & ST)].
  { left. split; [reflexivity|]. specialize (NL _ _ _ (in_order (m_total m) ((i, g) :: r_got r)) HC T2). cbn [react] in *.
    destruct (r_closed r); [reflexivity|]. destruct (negb _); [reflexivity|]. destruct (existsb _ _); [reflexivity|].
    destruct (r_late r); [|destruct (_ =? _)]; cbn [fst snd] in *; injection OUT as OUT; congruence. }
  right. rewrite HC in C. injection C as <- <- <-. rewrite HK in K. injection K as <- <-.
  pose proof (store_shape _ _ _ _ _ _ _ _ _ _ _ _ R ST) as (_ & _ & CA). cbv zeta in CA. rewrite TO in CA. split.
  - intros LT. cbn [react] in *. rewrite LT in *.
    destruct (r_closed r); [cbn [snd] in OUT; injection OUT as <-; destruct CA as [(F & _)|(F & _)]; discriminate|].
    destruct (negb _); [cbn [snd] in OUT; injection OUT as <-; destruct CA as [(F & _)|(F & _)]; discriminate|].
    destruct (existsb _ _); [cbn [snd] in OUT; injection OUT as <-; destruct CA as [(F & _)|(F & _)]; discriminate|].
    destruct (len (r_got r) + 1 =? m_total m) eqn:EN; cbn [fst r_got length]; [|lia]. unfold len in EN. lia.
  - intros NE. destruct CA as [(-> & _)|(-> & CP & CT & p' & HP' & CL)].
    { exfalso. apply NE. cbn [react] in *. destruct (r_closed r); [discriminate|]. destruct (negb _); [discriminate|].
      destruct (existsb _ _); [discriminate|]. destruct (r_late r); [discriminate|]. destruct (_ =? _); [reflexivity|discriminate]. }
    exists id, p', (length (c_timers s2)). split; [split; [rewrite CP; apply (rd_key _ _ _ _ _ _ _ R)|exact HP']|].
    split; [exact CL|]. unfold started. rewrite CT, app_length, (rd_count _ _ _ _ _ _ _ R). cbn [length].
    rewrite nth_error_app2 by lia. replace (length (c_timers s) - length st)%nat with 0%nat by lia.
    replace (length (c_timers s) + 1 - length (c_timers s))%nat with 1%nat by lia. reflexivity.
Qed.

Lemma linked_other s e s' o st t last : Inv cfg None s -> MInv s -> typed_event e -> concerns m s e = [] ->
  step cfg s e = (s', o) -> linked s st last -> linked s' (started s s' t st) last.
Proof.
  intros I M SE CE H (id & p & j & A & B & C). exists id, p, j.
  split; [exact (at_other s e s' o id p I M SE CE H A)|]. split; [exact B|]. now apply started_old.
Qed.
Lemma linked_heap s s' st t last : c_pipes s' = c_pipes s -> c_heap s' = c_heap s -> linked s st last ->
  linked s' (started s s' t st) last.
Proof.
  intros EP EH (id & p & j & (A & A') & B & C). exists id, p, j. unfold at_id. rewrite EP, EH.
  split; [split; assumption|]. split; [exact B|]. now apply started_old.
Qed.

(** The pipe of the message, when its timer fires or its callback runs. *)
Lemma mine_shown s k id r : Inv cfg None s -> MInv s -> sim m s r -> In (k, id) (c_pipes s) ->
  has_part m (pipe_segs s id) = true ->
  klookup (c_pipes s) (key_of m) = Some id /\ r_got r <> [].
Proof.
  intros I M (_ & _ & _ & S4) IN HP. pose proof (shown_key m s k id M IN HP) as ->.
  apply (klookup_nodup _ _ _ (i_keys _ _ _ I)) in IN. split; [exact IN|].
  destruct S4 as [(_ & _ & F)|(A & _)]; [unfold absent in F; congruence|exact A].
Qed.

Lemma both_step s e s' o st r q now t : Inv cfg None s -> MInv s -> typed_event e -> now <= t ->
  not_early d s st t e -> step cfg s e = (s', o) -> both s st r q now ->
  match e with
  | EvCollect g =>
      match seg_no m g with
      | Some i => same s st r q \/ r_closed r = true ->
          snd (react m r (MPart i g)) = snd (takes m q t i g) /\
          both s' (started s s' t st) (fst (react m r (MPart i g))) (fst (takes m q t i g)) t
      | None => both s' (started s s' t st) r q t
      end
  | EvClose => both s' (started s s' t st) (fst (react m r MClosed)) (closes m q) t
  | _ => both s' (started s s' t st) (fst (reacts m r (concerns m s e))) q t
  end.
Proof.
  intros I M SE LE NE H (SIM & L & EC & QL & CA).
  pose proof (started_length cfg s e s' o t st I H L) as LN.
  assert (OTHER : concerns m s e = [] -> both s' (started s s' t st) r q t).
  { intros CE. split; [exact (sim_other cfg m MO s e s' o r I M SE CE H SIM)|]. split; [exact LN|]. split; [exact EC|].
    split; [exact QL|]. destruct CA as [(A & B)|(A & B & C)].
    - left. split; [exact A|]. intros X. exact (linked_other s e s' o st t _ I M SE CE H (B X)).
    - right. split; [exact A|]. split; [lia|]. destruct C as [C|(C1 & C2 & C3)]; [now left|right].
      split; [exact C1|]. split; [exact C2|]. exact (linked_other s e s' o st t _ I M SE CE H C3). }
  assert (NIL : concerns m s e = [] -> both s' (started s s' t st) (fst (reacts m r (concerns m s e))) q t).
  { intros CE. rewrite CE. now apply OTHER. }
  destruct e as [g| | |tid|tid|tid]; try (apply NIL; reflexivity).
  - destruct (seg_no m g) as [i|] eqn:HS; [|apply OTHER; cbn [concerns]; now rewrite HS].
    intros FINE. destruct (sim_part cfg m MO s i g s' o r I M HS H SIM) as (SIM1 & _).
    destruct (r_closed r) eqn:RC.
    { (* closed *)
      assert (RR : react m r (MPart i g) = (r, [OCollect (CReturn None (Some ErrClosed))])) by (cbn [react]; now rewrite RC).
      assert (RQ : takes m q t i g = (q, [OCollect (CReturn None (Some ErrClosed))])).
      { unfold takes. cbn [react]. rewrite <- EC. rewrite Nat.eqb_refl. now destruct q. }
      rewrite RR, RQ. cbn [fst snd]. split; [reflexivity|].
      assert (s' = s) as ->.
      { cbn [step] in H. unfold collect in H. destruct SIM as (C & _). rewrite C, RC in H. congruence. }
      rewrite started_same by reflexivity. split; [exact SIM|]. split; [exact L|]. split; [congruence|]. split; [exact QL|].
      destruct CA as [CA|(A & B & C)]; [now left|right]. split; [exact A|]. split; [lia|exact C]. }
    destruct FINE as [(E & LK)|F]; [|discriminate]. subst r.
    unfold takes. destruct (kept_linked s st i g s' o t (t_held q) I M HS H L SIM) as [(-> & EQ)|(A & B)].
    + destruct (react m (t_held q) (MPart i g)) as [r1 o1]. cbn [fst snd] in *. subst r1. split; [reflexivity|].
      rewrite Nat.eqb_refl. rewrite started_same by reflexivity. split; [exact SIM|]. split; [exact L|].
      split; [reflexivity|]. split; [exact QL|]. left. split; [reflexivity|exact LK].
    + specialize (A QL).
      assert (QL1 : r_late (fst (react m (t_held q) (MPart i g))) = false).
      { cbn [react]. rewrite QL. destruct (r_closed (t_held q)); [exact QL|]. destruct (negb _); [exact QL|].
        destruct (existsb _ _); [exact QL|]. now destruct (_ =? _). }
      destruct (react m (t_held q) (MPart i g)) as [r1 o1]. cbn [fst snd] in *. split; [reflexivity|].
      apply Nat.eqb_neq in A. rewrite A. split; [exact SIM1|]. split; [exact LN|]. split; [reflexivity|].
      split; [exact QL1|]. left. split; [reflexivity|]. exact B.
  - cbn [step] in H. injection H as <- <-. destruct (inv_close cfg s I) as (_ & _ & _ & _ & C2 & C3).
    split; [now apply (sim_close cfg m s r I)|]. split; [exact LN|]. split; [reflexivity|]. split; [exact QL|].
    destruct CA as [(A & B)|(A & B & C)]; [left|right].
    + subst r. split; [reflexivity|]. intros X. apply linked_heap; auto.
    + split; [exact A|]. split; [cbn [closes t_last]; lia|]. destruct C as [C|(D1 & D2 & D3)]; [now left|right].
      split; [exact D1|]. split; [exact D2|]. now apply linked_heap.
  - (* a timer fires *)
    cbn [concerns] in *. cbn [step] in H. destruct (nth_error (c_timers s) tid) as [tm|] eqn:HT; [|now apply NIL].
    destruct (tm_state tm) eqn:ES; try (now apply NIL).
    destruct (has_part m (pipe_segs s (tm_pipe tm))) eqn:HP; [|now apply NIL].
    injection H as <- <-. cbn [reacts react fst].
    split; [exact (sim_late cfg m s tid tm r I M HT ES HP SIM)|]. split; [exact LN|]. split; [exact EC|]. split; [exact QL|].
    destruct (i_active _ _ _ I _ _ HT ES) as (_ & IN). destruct (mine_shown s _ _ r I M SIM IN HP) as (KL & NE0).
    right. destruct CA as [(A & B)|(A & B & C)].
    + specialize (B NE0). pose proof B as B'.
      destruct (linked_timer s st r _ I SIM L NE0 B) as (id & j & tm' & KL' & HT' & TP' & H0 & OWN & _).
      assert (id = tm_pipe tm) by congruence. destruct (OWN tid tm HT ltac:(congruence)) as [F|F]; [congruence|]. subst tid.
      pose proof (NE j tm _ eq_refl HT ES H0). split; [now subst r|]. split; [lia|]. right. split; [reflexivity|].
      cbn [r_got]. split; [now subst r|]. apply linked_heap; auto.
    + split; [exact A|]. split; [lia|]. right. split; [reflexivity|]. destruct C as [(F & _)|(D1 & D2 & D3)]; [contradiction|].
      split; [exact D2|]. now apply linked_heap.
  - (* a callback *)
    cbn [concerns] in *. cbn [step] in H. destruct (nth_error (c_timers s) tid) as [tm|] eqn:HT; [|now apply NIL].
    destruct (tm_state tm) eqn:ES; try (now apply NIL).
    destruct (has_part m (pipe_segs s (tm_pipe tm)) && existsb (Nat.eqb (tm_pipe tm)) (map snd (pipes s))) eqn:HP; [|now apply NIL].
    apply andb_prop in HP as (HP & HX). injection H as <- <-. cbn [reacts react fst].
    split; [exact (sim_removed cfg m MO s tid tm r I M HT ES HP HX SIM)|]. split; [exact LN|]. split; [exact EC|]. split; [exact QL|].
    apply existsb_exists in HX as (id & HI & EQ). apply Nat.eqb_eq in EQ. subst id. apply snd_in in HI as (k & IN).
    destruct (mine_shown s _ _ r I M SIM IN HP) as (KL & NE0).
    right. destruct CA as [(A & B)|(A & B & C)].
    + exfalso. destruct SIM as (_ & _ & _ & [(F & _)|(_ & id & p & (LK & _) & _ & LF)]); [contradiction|].
      subst r. rewrite QL in LF. assert (id = tm_pipe tm) by congruence. subst id. exact (LF tid tm HT eq_refl ES).
    + split; [exact A|]. split; [lia|]. left. auto.
Qed.

(** A segment that comes in time finds what was held. *)
Lemma in_time_same s st r q now t : both s st r q now -> now <= t ->
  r_got (t_held q) = [] \/ r_closed (t_held q) = true \/ t < t_last q + d -> same s st r q \/ r_closed r = true.
Proof.
  intros (_ & _ & EC & _ & [CA|(A & B & _)]) LE F; [now left|]. right. destruct F as [F|[F|F]]; [contradiction|congruence|lia].
Qed.

(** With timers that are on time, a segment that comes late finds nothing. *)
Lemma on_time_same s st r q now t g : Inv cfg None s -> both s st r q now -> now <= t -> on_time d s st t (EvCollect g) ->
  both s st r (forgets d q t) now /\ (same s st r (forgets d q t) \/ r_closed r = true).
Proof.
  intros I B LE (_ & OT). pose proof B as (SIM & L & EC & QL & CA). unfold forgets.
  destruct (r_closed (t_held q)) eqn:QC; cbn [negb andb]; [split; [exact B|right; congruence]|].
  assert (ACT : r_got r <> [] -> linked s st (t_last q) -> t < t_last q + d).
  { intros NE0 LK. destruct (linked_timer s st r _ I SIM L NE0 LK) as (id & j & tm & KL & HT & TP & H0 & OWN & CS).
    apply (OT g j tm _ eq_refl HT); auto. destruct CS as [F|[F|F]]; auto. destruct SIM as (C & _). congruence. }
  assert (MS : forall x, r_closed x = false -> r_late x = false -> r_got x = [] -> x = m_start).
  { intros [a b c] E1 E2 E3. cbn in *. subst. reflexivity. }
  destruct CA as [(A & B')|(A & B' & C)].
  - destruct (t_last q + d <=? t) eqn:EQ; [|split; [exact B|left; split; assumption]].
    assert (GE : r_got r = []).
    { destruct (r_got r) as [|x l] eqn:G; [reflexivity|]. exfalso. specialize (ACT ltac:(congruence) (B' ltac:(congruence))). lia. }
    assert (E : t_held q = m_start) by (apply MS; congruence). rewrite <- E. replace {| t_held := t_held q; t_last := t_last q |} with q by (now destruct q).
    split; [exact B|]. left. split; assumption.
  - replace (t_last q + d <=? t) with true by lia. destruct C as [(C1 & C2)|(C1 & C2 & C3)].
    2:{ exfalso. specialize (ACT ltac:(congruence) C3). lia. }
    assert (E : r = m_start) by (apply MS; congruence). subst r.
    assert (S0 : same s st m_start {| t_held := m_start; t_last := t_last q |}) by (split; [reflexivity|cbn; tauto]).
    split; [|now left]. split; [exact SIM|]. split; [exact L|]. split; [reflexivity|]. split; [reflexivity|]. now left.
Qed.

Definition told (e : event) : list m_event :=
  match e with
  | EvCollect g => match seg_no m g with Some i => [MPart i g] | None => [] end
  | EvClose => [MClosed]
  | _ => []
  end.

Lemma takes_react q t i g : snd (takes m q t i g) = snd (react m (t_held q) (MPart i g)) /\
  t_held (fst (takes m q t i g)) = fst (react m (t_held q) (MPart i g)).
Proof. unfold takes. destruct (react m (t_held q) (MPart i g)). auto. Qed.

Lemma silent e r s : match e with EvCollect g => seg_no m g = None | EvClose => False | _ => True end ->
  snd (reacts m r (concerns m s e)) = [].
Proof.
  intros H. destruct e as [g| | |tid|tid|tid]; cbn [concerns]; try reflexivity; try contradiction.
  - now rewrite H.
  - destruct (nth_error _ _) as [tm|]; [destruct (tm_state tm)|]; try reflexivity. destruct (has_part _ _); reflexivity.
  - destruct (nth_error _ _) as [tm|]; [destruct (tm_state tm)|]; try reflexivity. destruct (_ && _); reflexivity.
Qed.
Lemma reacts_app a : forall r b,
  snd (reacts m r (a ++ b)) = snd (reacts m r a) ++ snd (reacts m (fst (reacts m r a)) b).
Proof.
  induction a as [|e a IH]; intros r b; cbn [app reacts fst snd]; [reflexivity|].
  destruct (react m r e) as [r1 o]. specialize (IH r1 b). destruct (reacts m r1 a) as [r2 os].
  destruct (reacts m r1 (a ++ b)) as [r3 os3]. cbn [fst snd] in *. now rewrite IH, app_assoc.
Qed.

(** In time. *)
Lemma in_time_run h : forall s st r q now, Inv cfg None s -> MInv s -> Forall typed_event (map snd h) ->
  keeps (not_early d) cfg s st now h -> both s st r q now -> in_time m d q h ->
  snd (reacts m r (view cfg m s (map snd h))) = snd (reacts m (t_held q) (flat_map told (map snd h))).
Proof.
  induction h as [|[t e] h IH]; intros s st r q now I M SE K B IT; [reflexivity|].
  cbn [map snd view flat_map keeps] in *. destruct K as (LE & NE & K). apply Forall_cons_iff in SE as (SE1 & SE).
  destruct (step cfg s e) as [s1 o] eqn:E. cbn [fst] in *.
  destruct (inv_step cfg s e s1 o I E) as (I1 & _). pose proof (minv_step cfg s e s1 o I M SE1 E) as M1.
  pose proof (both_step s e s1 o st r q now t I M SE1 LE NE E B) as B1.
  rewrite !reacts_app. destruct e as [g| | |tid|tid|tid]; cbn [in_time told] in *;
    try (rewrite silent by exact Logic.I; cbn [reacts fst snd app]; exact (IH _ _ _ q _ I1 M1 SE K B1 IT)).
  - cbn [concerns]. destruct (seg_no m g) as [i|]; [|cbn [reacts fst snd app]; exact (IH _ _ _ q _ I1 M1 SE K B1 IT)].
    destruct IT as (IN & IT). destruct (B1 (in_time_same s st r q now t B LE IN)) as (EO & B2).
    destruct (takes_react q t i g) as (T1 & T2). cbn [reacts].
    specialize (IH _ _ _ _ _ I1 M1 SE K B2 IT). rewrite T2 in IH. rewrite T1 in EO.
    destruct (react m r (MPart i g)) as [r1 o1]. destruct (react m (t_held q) (MPart i g)) as [r2 o2]. cbn [fst snd] in *.
    rewrite EO, IH. reflexivity.
  - cbn [concerns]. specialize (IH _ _ _ _ _ I1 M1 SE K B1 IT). cbn [reacts react fst snd app]. exact IH.
Qed.

(** On time. *)
Lemma on_time_run h : forall s st r q now, Inv cfg None s -> MInv s -> Forall typed_event (map snd h) ->
  keeps (on_time d) cfg s st now h -> both s st r q now ->
  snd (reacts m r (view cfg m s (map snd h))) = timely m d q h.
Proof.
  induction h as [|[t e] h IH]; intros s st r q now I M SE K B; [reflexivity|].
  cbn [map snd view keeps] in *. destruct K as (LE & OT & K). apply Forall_cons_iff in SE as (SE1 & SE).
  destruct (step cfg s e) as [s1 o] eqn:E. cbn [fst] in *.
  destruct (inv_step cfg s e s1 o I E) as (I1 & _). pose proof (minv_step cfg s e s1 o I M SE1 E) as M1.
  pose proof (fun q => both_step s e s1 o st r q now t I M SE1 LE (proj1 OT) E) as B1.
  rewrite reacts_app. destruct e as [g| | |tid|tid|tid]; cbn [timely] in *;
    try (rewrite silent by exact Logic.I; cbn [app]; exact (IH _ _ _ q _ I1 M1 SE K (B1 q B))).
  - cbn [concerns]. destruct (seg_no m g) as [i|]; [|cbn [reacts fst snd app]; exact (IH _ _ _ q _ I1 M1 SE K (B1 q B))].
    destruct (on_time_same s st r q now t g I B LE OT) as (B2 & FINE).
    destruct (B1 _ B2 FINE) as (EO & B3). specialize (IH _ _ _ _ _ I1 M1 SE K B3).
    destruct (takes m (forgets d q t) t i g) as [q1 oq]. cbn [reacts].
    destruct (react m r (MPart i g)) as [r1 o1]. cbn [fst snd] in *. now rewrite app_nil_r, EO, IH.
  - cbn [concerns reacts react fst snd app]. exact (IH _ _ _ _ _ I1 M1 SE K (B1 q B)).
Qed.

(** No timer of the message fires if its segments come once each, close together. *)
Lemma keeps_later (P : timing) h : forall s st now t e, keeps P cfg s st now h -> In (t, e) h -> now <= t.
Proof.
  induction h as [|[t0 e0] h IH]; intros s st now t e K HI; [destruct HI|]. cbn [keeps] in K. destruct K as (LE & _ & K).
  destruct HI as [E|HI]; [injection E as <- <-; exact LE|]. specialize (IH _ _ _ _ _ K HI). lia.
Qed.
Lemma arrivals_in h t : In t (arrivals m h) -> exists e, In (t, e) h.
Proof.
  intros H. apply in_flat_map in H as ([t0 e] & HI & H). cbn [fst snd] in H. exists e.
  destruct e as [g| | |?|?|?]; try contradiction. destruct (seg_no m g); [|contradiction]. destruct H as [->|[]]. exact HI.
Qed.
Lemma parts_cons e es : parts m (e :: es) =
  match e with EvCollect g => match seg_no m g with Some i => [(i, g)] | None => [] end | _ => [] end ++ parts m es.
Proof. reflexivity. Qed.
Lemma arrivals_cons t e h : arrivals m ((t, e) :: h) =
  match e with EvCollect g => match seg_no m g with Some _ => [t] | None => [] end | _ => [] end ++ arrivals m h.
Proof. reflexivity. Qed.
Lemma arrivals_parts h : length (arrivals m h) = length (parts m (map snd h)).
Proof.
  induction h as [|[t e] h IH]; [reflexivity|]. cbn [map snd]. rewrite arrivals_cons, parts_cons.
  destruct e as [g| | |?|?|?]; cbn [app]; try exact IH. destruct (seg_no m g); cbn [app length]; [now rewrite IH|exact IH].
Qed.

Definition expects (q : t_state) (h : list (Z * event)) : Prop :=
  let ps := parts m (map snd h) in
  (r_got (t_held q) = [] /\ ps = []) \/
  ((length (r_got (t_held q)) + length ps = total m)%nat /\ (length (r_got (t_held q)) < total m)%nat /\
   NoDup (map fst (r_got (t_held q)) ++ map fst ps) /\ Forall (fun p => 1 <= fst p <= m_total m) ps /\
   close_together d ((if r_got (t_held q) then [] else [t_last q]) ++ arrivals m h)).

Lemma no_timeout_run h : forall s st q now, Inv cfg None s -> MInv s -> Forall typed_event (map snd h) ->
  Forall (fun e => e <> EvClose) (map snd h) -> keeps (not_early d) cfg s st now h ->
  both s st (t_held q) q now -> r_closed (t_held q) = false -> expects q h -> no_timeout cfg m s (map snd h).
Proof.
  induction h as [|[t e] h IH]; intros s st q now I M SE NC K B QC EX; [exact Logic.I|].
  cbn [map snd no_timeout keeps] in *. destruct K as (LE & NE & K). apply Forall_cons_iff in SE as (SE1 & SE).
  apply Forall_cons_iff in NC as (NC1 & NC).
  destruct (step cfg s e) as [s1 o] eqn:E. cbn [fst] in *.
  destruct (inv_step cfg s e s1 o I E) as (I1 & _). pose proof (minv_step cfg s e s1 o I M SE1 E) as M1.
  pose proof (both_step s e s1 o st (t_held q) q now t I M SE1 LE NE E B) as B1.
  pose proof B as (SIM & L & _ & QL & CA).
  assert (SAME : same s st (t_held q) q).
  { destruct CA as [CA|(A & _ & [(F & _)|(F & _)])]; [exact CA|contradiction|congruence]. }
  assert (NOTE : match e with EvCollect g => seg_no m g = None | _ => True end -> expects q h).
  { intros X. unfold expects in *. cbn [map snd] in EX. rewrite parts_cons, arrivals_cons in EX.
    destruct e as [g| | |?|?|?]; try exact EX. rewrite X in EX. exact EX. }
  assert (LATE : e <> EvClose -> (forall g, e <> EvCollect g) ->
    both s1 (started s s1 t st) (fst (reacts m (t_held q) (concerns m s e))) q t -> concerns m s e <> [] -> False).
  { intros X1 X2 B2 CN.
    assert (AP : apart s1 (started s s1 t st) (fst (reacts m (t_held q) (concerns m s e))) q t).
    { destruct B2 as (_ & _ & _ & _ & [(F & _)|F]); [|exact F]. exfalso.
      destruct e as [g| | |tid|tid|tid]; try congruence; try (destruct (X2 g); reflexivity); cbn [concerns] in *; try congruence.
      - destruct (nth_error (c_timers s) tid) as [tm|]; [|congruence]. destruct (tm_state tm); try congruence.
        destruct (has_part _ _); [|congruence]. cbn [reacts react fst] in F. rewrite <- F in QL. discriminate.
      - destruct (nth_error (c_timers s) tid) as [tm|] eqn:HT; [|congruence]. destruct (tm_state tm) eqn:ES; try congruence.
        destruct (has_part m (pipe_segs s (tm_pipe tm)) && existsb (Nat.eqb (tm_pipe tm)) (map snd (pipes s))) eqn:HP; [|congruence].
        apply andb_prop in HP as (HP & HX).
        apply existsb_exists in HX as (id & HI & EQ). apply Nat.eqb_eq in EQ. subst id. apply snd_in in HI as (k & IN).
        destruct (mine_shown s _ _ _ I M SIM IN HP) as (KL & NE0). cbn [reacts react fst] in F. rewrite <- F in NE0. now apply NE0. }
    destruct AP as (G & LT & _).
    assert (EX1 : expects q h) by (apply NOTE; destruct e as [g| | |?|?|?]; try exact Logic.I; destruct (X2 g); reflexivity).
    destruct EX1 as [(F & _)|(C1 & C2 & _ & _ & CT)]; [contradiction|]. rewrite <- arrivals_parts in C1.
    destruct (r_got (t_held q)); [contradiction|]. destruct (arrivals m h) as [|t2 ts] eqn:EA; [cbn [length] in *; lia|].
    cbn [app close_together] in CT. destruct CT as (CT & _).
    destruct (arrivals_in h t2) as (e2 & H2); [rewrite EA; now left|]. pose proof (keeps_later _ _ _ _ _ _ _ K H2). lia. }
  assert (DULL : e <> EvClose -> (forall g, e <> EvCollect g) ->
    both s1 (started s s1 t st) (fst (reacts m (t_held q) (concerns m s e))) q t -> no_timeout cfg m s1 (map snd h)).
  { intros X1 X2 B2. destruct (concerns m s e) as [|c cs] eqn:CE; [|exfalso; apply LATE; congruence].
    apply (IH s1 (started s s1 t st) q t); auto. apply NOTE. destruct e as [g| | |?|?|?]; try exact Logic.I. destruct (X2 g); reflexivity. }
  destruct e as [g| | |tid|tid|tid]; try congruence.
  - split; [exact Logic.I|]. destruct (seg_no m g) as [i|] eqn:HS; [|apply (IH s1 (started s s1 t st) q t); auto].
    destruct (B1 (or_introl SAME)) as (_ & B2). destruct (takes_react q t i g) as (_ & T2). rewrite <- T2 in B2.
    unfold expects in EX. cbn [map snd] in EX. rewrite parts_cons, arrivals_cons, HS in EX. cbn [app] in EX. destruct EX as [(_ & F)|(C1 & C2 & ND & FA & CT)]; [discriminate|].
    apply Forall_cons_iff in FA as (RI & FA). cbn [fst map] in RI, ND. cbn [length] in C1.
    apply NoDup_remove in ND as (ND & NI).
    assert (DUP : existsb (fun ig => fst ig =? i) (r_got (t_held q)) = false).
    { apply not_true_iff_false. intros X. apply existsb_exists in X as ([j h0] & HI & EQ). cbn [fst] in EQ. apply NI.
      apply in_or_app. left. apply Z.eqb_eq in EQ. subst j. now apply (in_map fst) in HI. }
    assert (CT' : close_together d (t :: arrivals m h)).
    { destruct (r_got (t_held q)); [exact CT|]. exact (proj2 CT). }
    unfold total in *.
    assert (RC : r_closed (t_held (fst (takes m q t i g))) = false).
    { rewrite T2. cbn [react]. rewrite QC, DUP, QL. destruct (negb _); [exact QC|]. now destruct (_ =? _). }
    apply (IH s1 _ _ t I1 M1 SE NC K B2 RC). unfold expects. fold (total m). cbv zeta.
    assert (TL : r_got (t_held (fst (takes m q t i g))) <> [] -> t_last (fst (takes m q t i g)) = t /\
      r_got (t_held (fst (takes m q t i g))) = (i, g) :: r_got (t_held q)).
    { unfold takes. cbn [react]. rewrite QC, QL, DUP. replace (negb ((1 <=? i) && (i <=? m_total m))) with false by lia.
      destruct (len (r_got (t_held q)) + 1 =? m_total m); cbn [fst t_held r_got t_last]; [congruence|]. intros _.
      replace (Nat.eqb _ _) with false by (symmetry; apply Nat.eqb_neq; cbn [length]; lia). auto. }
    assert (DONE : r_got (t_held (fst (takes m q t i g))) = [] -> parts m (map snd h) = []).
    { rewrite T2. cbn [react]. rewrite QC, QL, DUP. replace (negb ((1 <=? i) && (i <=? m_total m))) with false by lia.
      destruct (len (r_got (t_held q)) + 1 =? m_total m) eqn:EN; cbn [fst r_got]; [|discriminate]. intros _.
      unfold len in EN. apply length_zero_iff_nil. lia. }
    assert (FEW : r_got (t_held (fst (takes m q t i g))) <> [] -> (S (length (r_got (t_held q))) < total m)%nat).
    { rewrite T2. cbn [react]. rewrite QC, QL, DUP. replace (negb ((1 <=? i) && (i <=? m_total m))) with false by lia.
      destruct (len (r_got (t_held q)) + 1 =? m_total m) eqn:EN; cbn [fst r_got]; [congruence|]. intros _.
      unfold len in EN. unfold total. lia. }
    destruct (r_got (t_held (fst (takes m q t i g)))) as [|x l] eqn:G; [left; auto|right].
    destruct (TL ltac:(discriminate)) as (TL1 & TL2). specialize (FEW ltac:(discriminate)). rewrite TL1, TL2. cbn [length map fst app].
    split; [unfold total in *; lia|]. split; [exact FEW|]. split; [constructor; assumption|]. split; assumption.
  - split; [exact Logic.I|]. now apply DULL.
  - split; [|now apply DULL]. intros tm g HT ES HG. destruct (seg_no m g) as [i|] eqn:HS; [|reflexivity]. exfalso.
    apply LATE; try discriminate; [exact B1|]. cbn [concerns]. rewrite HT, ES.
    replace (has_part m (pipe_segs s (tm_pipe tm))) with true; [discriminate|]. symmetry. apply (has_part_in m). eauto.
  - split; [exact Logic.I|]. now apply DULL.
  - split; [exact Logic.I|]. now apply DULL.
Qed.
End Timed.
