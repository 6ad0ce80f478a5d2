(** Proofs about the goroutines that share a Collector: every execution of
    [CollectorLock.v] is explained by the sequential Collector of [Collector.v].

    A call takes effect at the step after which it no longer looks at a timer
    (the Stop of collect.go:115 where there is one), the callback when it removes
    its pipe, Close when it has stopped the last timer. *)
From Coq Require Import Permutation.
From Verif Require Import GoBase GoLemmas UserData Tpdu Address Collector CollectorLock SpecLock SpecCollect
  CollectorProofs CollectorMsgProofs CollectorOrderProofs CollectorHistProofs.

Lemma who_eqb_eq v w : who_eqb v w = true <-> v = w.
Proof.
  destruct v, w; cbn; rewrite ?Nat.eqb_eq; split; intros H; try congruence; try discriminate.
Qed.
Lemma who_eqb_refl w : who_eqb w w = true. Proof. now apply who_eqb_eq. Qed.
Lemma who_eqb_neq v w : v <> w -> who_eqb v w = false.
Proof. intros H. destruct (who_eqb v w) eqn:E; [|reflexivity]. now apply who_eqb_eq in E. Qed.
Lemma who_dec (v w : who) : v = w \/ v <> w.
Proof. destruct (who_eqb v w) eqn:E; [left; now apply who_eqb_eq|right]. intros ->. now rewrite who_eqb_refl in E. Qed.
Lemma moves_same f w d : moves f w d w = d.
Proof. unfold moves. now rewrite who_eqb_refl. Qed.
Lemma moves_other f w d v : v <> w -> moves f w d v = f v.
Proof. intros H. unfold moves. now rewrite who_eqb_neq. Qed.

(** ** Timers that change state at any time *)
Definition tick (st : tstate) (s : cstate) (tid : nat) : cstate :=
  match nth_error (c_timers s) tid with Some tm => set_timer s tid tm st | None => s end.
Lemma tick_heap st s tid : c_heap (tick st s tid) = c_heap s.
Proof. unfold tick. now destruct (nth_error _ _). Qed.
Lemma tick_pipes st s tid : c_pipes (tick st s tid) = c_pipes s.
Proof. unfold tick. now destruct (nth_error _ _). Qed.
Lemma tick_closed st s tid : c_closed (tick st s tid) = c_closed s.
Proof. unfold tick. now destruct (nth_error _ _). Qed.
Lemma tick_length st s tid : length (c_timers (tick st s tid)) = length (c_timers s).
Proof. unfold tick. destruct (nth_error _ _); [|reflexivity]. cbn [set_timer c_timers]. apply upd_length. Qed.
Lemma tick_other st s tid j : j <> tid -> nth_error (c_timers (tick st s tid)) j = nth_error (c_timers s) j.
Proof. intros H. unfold tick. destruct (nth_error (c_timers s) tid); [|reflexivity]. cbn [set_timer c_timers]. now apply nth_upd_other. Qed.
Lemma tick_same st s tid tm : nth_error (c_timers s) tid = Some tm ->
  nth_error (c_timers (tick st s tid)) tid = Some {| tm_pipe := tm_pipe tm; tm_key := tm_key tm; tm_state := st |}.
Proof. intros H. unfold tick. rewrite H. cbn [set_timer c_timers]. now apply nth_upd_same with (x := tm). Qed.

Lemma upd_upd {A} (l : list A) i x y : upd (upd l i x) i y = upd l i y.
Proof. revert i; induction l as [|a l IH]; intros [|i]; cbn; auto. now rewrite IH. Qed.
Lemma upd_app {A} (l r : list A) i x : (i < length l)%nat -> upd (l ++ r) i x = upd l i x ++ r.
Proof. revert i; induction l as [|a l IH]; intros [|i] H; cbn in *; try lia; auto. rewrite IH by lia. reflexivity. Qed.

Lemma tick_state_eq st s tid m h : tick st {| c_closed := c_closed s; c_pipes := m; c_heap := h; c_timers := c_timers s |} tid =
  {| c_closed := c_closed (tick st s tid); c_pipes := m; c_heap := h; c_timers := c_timers (tick st s tid) |}.
Proof. unfold tick. cbn [c_timers]. destruct (nth_error _ _); reflexivity. Qed.
Lemma tick_with_heap st s tid h : with_heap (tick st s tid) h = tick st (with_heap s h) tid.
Proof. unfold with_heap. rewrite tick_state_eq, !tick_pipes. reflexivity. Qed.
Lemma tick_with_map st s tid m : with_map (tick st s tid) m = tick st (with_map s m) tid.
Proof. unfold with_map. rewrite tick_state_eq, !tick_heap. reflexivity. Qed.

(** ** After the effect *)
Definition post (i : pc) : bool :=
  match i with
  | AtNew _ | AtPut _ _ | AtCount _ _ | AtDelete _ _ | AtAfter _ _ | AtCleanup _ _ _ | AtUnlock _ => true
  | _ => false
  end.
Lemma micro_post cfg n s i : post i = true -> post (snd (micro cfg n s i)) = true.
Proof.
  destruct i; cbn [post]; try discriminate; intros _; cbn [micro snd];
    repeat match goal with |- context [match ?x with _ => _ end] => destruct x end; reflexivity.
Qed.
Lemma micro_choice cfg n m s i : post i = true -> micro cfg n s i = micro cfg m s i.
Proof. destruct i; cbn [post]; try discriminate; reflexivity. Qed.
Lemma micro_tick cfg n st s tid i : post i = true -> (tid < length (c_timers s))%nat ->
  micro cfg n (tick st s tid) i = (tick st (fst (micro cfg n s i)) tid, snd (micro cfg n s i)).
Proof.
  intros HP HT. destruct i; cbn [post] in HP; try discriminate; cbn [micro]; rewrite ?tick_heap, ?tick_pipes.
  - unfold new_pipe. cbn [fst snd]. rewrite tick_heap, tick_pipes. f_equal. rewrite tick_state_eq. reflexivity.
  - destruct (nth_error (c_heap s) id) as [q|]; [|reflexivity]. now rewrite tick_with_heap.
  - destruct (nth_error (c_heap s) id) as [q|]; [|reflexivity]. now rewrite tick_with_heap.
  - rewrite tick_with_map. unfold pipe_segs. rewrite tick_heap. reflexivity.
  - rewrite tick_length. cbn [fst snd]. f_equal. rewrite tick_closed. unfold tick. cbn [c_timers].
    rewrite nth_error_app1 by assumption. destruct (nth_error (c_timers s) tid) as [tm|]; [|reflexivity].
    unfold set_timer. cbn [c_timers c_closed c_pipes c_heap]. now rewrite upd_app.
  - destruct (nth_error (c_heap s) id) as [q|]; [|reflexivity]. now rewrite tick_with_heap.
  - reflexivity.
Qed.
Lemma micro_timer cfg n s tid i : post i = true -> (tid < length (c_timers s))%nat ->
  nth_error (c_timers (fst (micro cfg n s i))) tid = nth_error (c_timers s) tid.
Proof.
  intros HP HT. destruct i; cbn [post] in HP; try discriminate; cbn [micro]; try reflexivity;
    try (destruct (nth_error (c_heap s) id) as [q|]; reflexivity).
  cbn [fst c_timers]. now apply nth_error_app1.
Qed.

Fixpoint finish (cfg : ccfg) (n : nat) (s : cstate) (i : pc) : cstate * pc :=
  match n with
  | O => (s, i)
  | S n => let '(s, i) := micro cfg 0 s i in finish cfg n s i
  end.
Definition ends (cfg : ccfg) (s : cstate) (i : pc) (a : cstate) (o : output) : Prop :=
  exists n, finish cfg n s i = (a, AtUnlock o).

Lemma ends_micro cfg n s i a o : post i = true -> ends cfg s i a o ->
  ends cfg (fst (micro cfg n s i)) (snd (micro cfg n s i)) a o.
Proof.
  intros HP [k H]. rewrite (micro_choice cfg n 0) by assumption. destruct k as [|k].
  - cbn in H. injection H as -> ->. exists O. reflexivity.
  - exists k. cbn [finish] in H. destruct (micro cfg 0 s i) as [s1 i1]. exact H.
Qed.
Lemma ends_tick cfg st s tid i a o : post i = true -> (tid < length (c_timers s))%nat -> ends cfg s i a o ->
  ends cfg (tick st s tid) i (tick st a tid) o.
Proof.
  intros HP HT [k H]. exists k. revert s i HP HT H. induction k as [|k IH]; intros s i HP HT H; cbn [finish] in *.
  - now injection H as -> ->.
  - rewrite micro_tick by assumption. destruct (micro cfg 0 s i) as [s1 i1] eqn:E. cbn [fst snd].
    apply IH; [|destruct i; cbn [post] in HP; try discriminate; cbn [micro] in E|exact H].
    + pose proof (micro_post cfg 0 s i HP) as X. now rewrite E in X.
    + injection E as <- <-. assumption.
    + destruct (nth_error (c_heap s) id); injection E as <- <-; assumption.
    + destruct (nth_error (c_heap s) id); injection E as <- <-; assumption.
    + injection E as <- <-. assumption.
    + injection E as <- <-. cbn [c_timers]. rewrite app_length. cbn. lia.
    + destruct (nth_error (c_heap s) id); injection E as <- <-; assumption.
    + injection E as <- <-. assumption.
Qed.
Lemma ends_timer cfg s tid i a o : post i = true -> (tid < length (c_timers s))%nat -> ends cfg s i a o ->
  nth_error (c_timers a) tid = nth_error (c_timers s) tid.
Proof.
  intros HP HT [k H]. revert s i HP HT H. induction k as [|k IH]; intros s i HP HT H; cbn [finish] in *.
  - now injection H as -> ->.
  - pose proof (micro_timer cfg 0 s tid i HP HT) as X. pose proof (micro_post cfg 0 s i HP) as Y.
    destruct (micro cfg 0 s i) as [s1 i1] eqn:E. cbn [fst snd] in *. rewrite <- X. apply (IH s1 i1); auto.
    apply nth_error_Some. rewrite X. now apply nth_error_Some.
Qed.

(** ** Before the effect *)
Definition static (g : seg) (p : part) : Prop :=
  exists ref, tpdu_concat_info (sg_pdu g) = Some (pt_total p, pt_seq p, ref) /\ (pt_total p <? 2) = false /\
    ((pt_seq p <? 1) || (pt_total p <? pt_seq p)) = false /\
    pdu_key (sg_pdu g) (pt_total p) ref = (pt_key p, pt_err p) /\ pt_seg p = g.
Definition shut (s : cstate) : cstate :=
  {| c_closed := true; c_pipes := c_pipes s; c_heap := c_heap s; c_timers := c_timers s |}.
Inductive pre (a s : cstate) : call -> pc -> Prop :=
| pre_closed g : s = a -> pre a s (CallCollect g) (AtClosed g)
| pre_lookup g p : s = a -> c_closed a = false -> static g p -> pre a s (CallCollect g) (AtLookup p)
| pre_segment g p id : s = a -> c_closed a = false -> static g p -> klookup (c_pipes a) (pt_key p) = Some id ->
    pre a s (CallCollect g) (AtSegment p id)
| pre_stop g p id q : s = a -> c_closed a = false -> static g p -> klookup (c_pipes a) (pt_key p) = Some id ->
    nth_error (c_heap a) id = Some q -> idx (p_segs q) (pt_seq p - 1) = Ok None -> pre a s (CallCollect g) (AtStop p id)
| pre_close : s = a -> pre a s CallClose AtClose
| pre_stops done rest : c_closed a = false -> Permutation (done ++ rest) (c_pipes a) ->
    s = fold_left stop_pipe done (shut a) -> pre a s CallClose (AtStops rest)
| pre_pipes : s = a -> pre a s CallPipes AtPipes
| pre_expire tid : s = a -> pre a s (CallExpire tid) (AtExpire tid)
| pre_remove tid tm m : s = a -> nth_error (c_timers a) tid = Some tm -> m = klookup (c_pipes a) (tm_key tm) ->
    pre a s (CallExpire tid) (AtRemove tid m).

(** What the steps that write segments rely on. *)
Definition safe (s : cstate) (i : pc) : Prop :=
  (forall j tm, nth_error (c_timers s) j = Some tm -> (tm_pipe tm < length (c_heap s))%nat) /\
  match i with
  | AtPut _ id => quiet s id
  | AtAfter _ id => (id < length (c_heap s))%nat
  | _ => True
  end.

Lemma ends_step cfg s i s1 i1 a o : micro cfg 0 s i = (s1, i1) -> ends cfg s1 i1 a o -> ends cfg s i a o.
Proof. intros E [k H]. exists (S k). cbn [finish]. now rewrite E. Qed.
Lemma ends_unlock cfg s o : ends cfg s (AtUnlock o) s o.
Proof. exists O. reflexivity. Qed.
Lemma store_ends cfg s p id q g key n sq err s' r : nth_error (c_heap s) id = Some q ->
  p = {| pt_seg := g; pt_total := n; pt_seq := sq; pt_key := key; pt_err := err |} ->
  store cfg s id key n sq g err = (s', r) -> ends cfg s (AtPut p id) s' (OCollect r).
Proof.
  intros HQ -> H. unfold store in H. rewrite HQ in H.
  assert (L : (id < length (c_heap s))%nat) by (apply nth_error_Some; congruence).
  assert (N : forall x, nth_error (upd (c_heap s) id x) id = Some x) by (intros; now apply nth_upd_same with (x := q)).
  eapply ends_step; [cbn [micro]; rewrite HQ; reflexivity|]. cbn [pt_seq pt_seg].
  eapply ends_step; [cbn [micro with_heap c_heap]; rewrite N; reflexivity|].
  cbn [p_frags p_cleanup p_segs pt_total pt_err with_heap c_heap c_pipes c_timers c_closed]. rewrite upd_upd.
  destruct (p_frags q + 1 =? n) eqn:EF; [|destruct (cf_timeout cfg) eqn:ET]; injection H as <- <-.
  - eapply ends_step; [reflexivity|]. unfold pipe_segs. cbn [with_heap c_heap]. rewrite N. apply ends_unlock.
  - eapply ends_step; [reflexivity|]. eapply ends_step; [cbn [micro with_heap c_heap]; rewrite N; reflexivity|].
    cbn [with_heap with_map c_heap c_pipes c_timers c_closed p_segs p_frags pt_key pt_err]. unfold with_heap.
    cbn [c_heap c_pipes c_timers c_closed]. rewrite upd_upd. apply ends_unlock.
  - apply ends_unlock.
Qed.
Lemma fresh_ends cfg s p g key n sq err s0 id s' r :
  p = {| pt_seg := g; pt_total := n; pt_seq := sq; pt_key := key; pt_err := err |} ->
  new_pipe s key n = (s0, id) -> store cfg s0 id key n sq g err = (s', r) ->
  ends cfg s (AtNew p) s' (OCollect r).
Proof.
  intros HP HN HS. apply ends_step with (s1 := s0) (i1 := AtPut p id).
  - subst p. cbn [micro pt_key pt_total]. now rewrite HN.
  - eapply store_ends; [|exact HP|exact HS]. unfold new_pipe in HN. injection HN as <- <-. cbn [c_heap].
    rewrite nth_error_app2 by lia. rewrite Nat.sub_diag. reflexivity.
Qed.

Lemma close_perm cfg s l : CollectorProofs.Inv cfg None s -> c_closed s = false -> Permutation l (c_pipes s) ->
  fold_left stop_pipe l (shut s) = close s.
Proof.
  intros I O PM. rewrite (close_shape cfg s I O).
  assert (P0 : partly s (shut s)) by (unfold partly, shut; cbn; auto).
  destruct (fold_stop l s (shut s) P0) as ((A & B & C & D) & E & F).
  set (s1 := fold_left stop_pipe l (shut s)) in *.
  assert (T : map quench (c_timers s) = c_timers s1).
  { apply nth_error_ext; [now rewrite map_length|]. intros j x Hx. rewrite nth_error_map in Hx.
    destruct (nth_error (c_timers s) j) as [tm|] eqn:HT; [|discriminate]. injection Hx as <-.
    destruct (tm_state tm) eqn:ES; try (destruct (D _ _ HT) as [X|X]; [rewrite X; unfold quench; now rewrite ES|exact X]).
    destruct (i_active _ _ _ I _ _ HT ES) as (_ & HK). destruct (i_heap _ _ _ I _ _ HK) as (p & HP & _).
    destruct (i_owner _ _ _ I _ _ _ _ _ HK HP HT eq_refl) as [X|X]; [congruence|].
    apply (F j tm (tm_key tm, tm_pipe tm) p HT); auto. apply (Permutation_in _ (Permutation_sym PM)). exact HK. }
  rewrite T. destruct s1; cbn in *; congruence.
Qed.
Lemma take_nth_perm n l x r : take_nth n l = Some (x, r) -> Permutation l (x :: r).
Proof.
  unfold take_nth. intros H. set (i := Nat.modulo n (length l)) in *.
  destruct (skipn i l) as [|y t] eqn:E; [discriminate|]. injection H as <- <-.
  rewrite <- (firstn_skipn i l) at 1. rewrite E. symmetry. apply Permutation_middle.
Qed.
Lemma take_nth_none n l : take_nth n l = None -> l = [].
Proof.
  unfold take_nth. intros H. destruct l as [|x l]; [reflexivity|]. exfalso.
  set (i := Nat.modulo n (length (x :: l))) in *. assert (i < length (x :: l))%nat by (apply Nat.mod_upper_bound; cbn; lia).
  destruct (skipn i (x :: l)) as [|y t] eqn:E; [|discriminate].
  apply (f_equal (@length _)) in E. rewrite skipn_length in E. cbn [length] in *. lia.
Qed.

Lemma collect_static cfg s g p : c_closed s = false -> static g p -> collect cfg s g =
  (let fresh s := let '(s, id) := new_pipe s (pt_key p) (pt_total p) in
     store cfg s id (pt_key p) (pt_total p) (pt_seq p) g (pt_err p) in
   match klookup (c_pipes s) (pt_key p) with
   | None => fresh s
   | Some id =>
       match nth_error (c_heap s) id with
       | None => (s, CPanic)
       | Some q =>
           match idx (p_segs q) (pt_seq p - 1) with
           | Ok (Some _) => (s, CReturn None (Some ErrDuplicateSegment))
           | Ok None =>
               match p_cleanup q with
               | None => store cfg s id (pt_key p) (pt_total p) (pt_seq p) g (pt_err p)
               | Some tid =>
                   let '(s, stopped) := stop_timer s tid in
                   if stopped : bool then store cfg s id (pt_key p) (pt_total p) (pt_seq p) g (pt_err p)
                   else fresh s
               end
           | _ => (s, CPanic)
           end
       end
   end).
Proof. intros O (ref & E1 & E2 & E3 & E4 & _). unfold collect. rewrite O, E1, E2, E3, E4. reflexivity. Qed.
Lemma part_eta g p : pt_seg p = g ->
  p = {| pt_seg := g; pt_total := pt_total p; pt_seq := pt_seq p; pt_key := pt_key p; pt_err := pt_err p |}.
Proof. intros <-. now destruct p. Qed.

Definition fired (c : call) (a : cstate) : Prop :=
  forall tid, c = CallExpire tid -> exists tm, nth_error (c_timers a) tid = Some tm /\ tm_state tm = TFired.

Lemma pre_micro cfg n a s c i s1 i1 : CollectorProofs.Inv cfg None a -> fired c a -> pre a s c i ->
  micro cfg n s i = (s1, i1) ->
  pre a s1 c i1 \/
  (post i1 = true /\ exists a' o, step cfg a (event_of c) = (a', o) /\ ends cfg s1 i1 a' o /\ safe s1 i1).
Proof.
  intros I HF P H.
  assert (TP := i_tpipe _ _ _ I).
  destruct P as [g E|g p E O ST|g p id E O ST LK|g p id q E O ST LK HQ HS|E|done rest O PM E|E|tid E|tid tm m E HT HM];
    try subst s; cbn [micro] in H; cbn [event_of step].
  - destruct (c_closed a) eqn:O.
    { injection H as <- <-. right. split; [reflexivity|]. unfold collect. rewrite O. do 2 eexists. split; [reflexivity|].
      split; [apply ends_unlock|split; [exact TP|exact Logic.I]]. }
    destruct (tpdu_concat_info (sg_pdu g)) as [[[total seq] ref]|] eqn:EC.
    2:{ injection H as <- <-. right. split; [reflexivity|]. unfold collect. rewrite O, EC. do 2 eexists. split; [reflexivity|].
        split; [apply ends_unlock|split; [exact TP|exact Logic.I]]. }
    destruct (total <? 2) eqn:E2.
    { injection H as <- <-. right. split; [reflexivity|]. unfold collect. rewrite O, EC, E2. do 2 eexists. split; [reflexivity|].
      split; [apply ends_unlock|split; [exact TP|exact Logic.I]]. }
    destruct ((seq <? 1) || (total <? seq)) eqn:E3.
    { injection H as <- <-. right. split; [reflexivity|]. unfold collect. rewrite O, EC, E2, E3. do 2 eexists. split; [reflexivity|].
      split; [apply ends_unlock|split; [exact TP|exact Logic.I]]. }
    destruct (pdu_key (sg_pdu g) total ref) as [key err] eqn:EK. injection H as <- <-. left.
    apply pre_lookup; auto. exists ref. auto.
  - destruct (klookup (c_pipes a) (pt_key p)) as [id|] eqn:LK; injection H as <- <-; [left; now apply pre_segment|].
    right. split; [reflexivity|]. rewrite (collect_static cfg a g p O ST), LK. cbv beta zeta.
    destruct (new_pipe a (pt_key p) (pt_total p)) as [s0 id] eqn:EN.
    destruct (store cfg s0 id (pt_key p) (pt_total p) (pt_seq p) g (pt_err p)) as [s' r] eqn:ES.
    exists s', (OCollect r). split; [reflexivity|]. split; [|split; [exact TP|exact Logic.I]].
    eapply fresh_ends; [|exact EN|exact ES]. apply part_eta. now destruct ST as (? & _ & _ & _ & _ & ?).
  - destruct (nth_error (c_heap a) id) as [q|] eqn:HQ.
    2:{ injection H as <- <-. right. split; [reflexivity|]. rewrite (collect_static cfg a g p O ST), LK, HQ. do 2 eexists. split; [reflexivity|].
        split; [apply ends_unlock|split; [exact TP|exact Logic.I]]. }
    destruct (idx (p_segs q) (pt_seq p - 1)) as [[old|]|e| |] eqn:EI;
      try (injection H as <- <-; right; split; [reflexivity|]; rewrite (collect_static cfg a g p O ST), LK, HQ, EI;
        do 2 eexists; split; [reflexivity|]; split; [apply ends_unlock|split; [exact TP|exact Logic.I]]).
    injection H as <- <-. left. now apply pre_stop with (q := q).
  - rewrite HQ in H. right. rewrite (collect_static cfg a g p O ST), LK, HQ, HS. cbv beta zeta.
    assert (PE : pt_seg p = g) by now destruct ST as (? & _ & _ & _ & _ & ?).
    assert (IN := klookup_in _ _ _ LK).
    destruct (p_cleanup q) as [tid|] eqn:CU.
    + destruct (stop_timer a tid) as [s2 b] eqn:EST. unfold stop_timer in EST.
      assert (AA : (b = true /\ exists tm, nth_error (c_timers a) tid = Some tm /\ tm_state tm = TActive /\ s2 = stopped a tid tm)
                   \/ (b = false /\ s2 = a)).
      { destruct (nth_error (c_timers a) tid) as [tm|] eqn:HT; [|injection EST as <- <-; auto].
        destruct (tm_state tm) eqn:ES; injection EST as <- <-; auto. left. split; [reflexivity|]. exists tm. auto. }
      destruct AA as [(-> & tm & HT & ES & ->)|(-> & ->)]; injection H as <- <-.
      * split; [reflexivity|].
        destruct (store cfg (stopped a tid tm) id (pt_key p) (pt_total p) (pt_seq p) g (pt_err p)) as [s' r] eqn:ESS.
        exists s', (OCollect r). split; [reflexivity|]. split; [|split].
        -- eapply store_ends; [|apply part_eta; exact PE|exact ESS]. exact HQ.
        -- intros j x Hj. cbn [stopped c_timers c_heap] in *. apply nth_upd_inv in Hj.
           destruct Hj as [(-> & Hx & _)|[_ Hj]]; [subst x; cbn [tm_pipe]; exact (TP _ _ HT)|exact (TP _ _ Hj)].
        -- intros j x Hj HX. cbn [stopped c_timers] in Hj. apply nth_upd_inv in Hj.
           destruct Hj as [(-> & Hx & _)|[NE Hj]]; [now subst x|].
           destruct (i_owner _ _ _ I _ _ _ _ _ IN HQ Hj HX) as [S|S]; [exact S|congruence].
      * split; [reflexivity|]. destruct (new_pipe a (pt_key p) (pt_total p)) as [s0 id0] eqn:EN.
        destruct (store cfg s0 id0 (pt_key p) (pt_total p) (pt_seq p) g (pt_err p)) as [s' r] eqn:ESS.
        exists s', (OCollect r). split; [reflexivity|]. split; [|split; [exact TP|exact Logic.I]].
        eapply fresh_ends; [|exact EN|exact ESS]. now apply part_eta.
    + injection H as <- <-. split; [reflexivity|].
      destruct (store cfg a id (pt_key p) (pt_total p) (pt_seq p) g (pt_err p)) as [s' r] eqn:ESS.
      exists s', (OCollect r). split; [reflexivity|]. split; [|split; [exact TP|]].
      * eapply store_ends; [exact HQ|apply part_eta; exact PE|exact ESS].
      * intros j x Hj HX. destruct (i_owner _ _ _ I _ _ _ _ _ IN HQ Hj HX) as [S|S]; [exact S|congruence].
  - destruct (c_closed a) eqn:O; injection H as <- <-.
    + right. split; [reflexivity|]. exists a, ONone. split; [unfold close; now rewrite O|].
      split; [apply ends_unlock|split; [exact TP|exact Logic.I]].
    + left. apply pre_stops with (done := []); auto.
  - destruct (take_nth n rest) as [[kv r]|] eqn:ET; injection H as <- <-.
    + left. apply pre_stops with (done := done ++ [kv]); auto.
      * rewrite <- PM, <- app_assoc. apply Permutation_app_head. symmetry. now apply (take_nth_perm n).
      * now rewrite fold_left_app.
    + apply take_nth_none in ET. subst rest. rewrite app_nil_r in PM. right. split; [reflexivity|].
      exists (fold_left stop_pipe done (shut a)), ONone. rewrite (close_perm cfg a done I O PM). split; [reflexivity|].
      split; [apply ends_unlock|split; [|exact Logic.I]]. rewrite (close_shape cfg a I O). cbn [c_timers c_heap].
      intros j x Hj. rewrite nth_error_map in Hj. destruct (nth_error (c_timers a) j) as [y|] eqn:HY; [|discriminate].
      injection Hj as <-. rewrite quench_pipe. exact (TP _ _ HY).
  - injection H as <- <-. right. split; [reflexivity|]. do 2 eexists. split; [reflexivity|].
    split; [apply ends_unlock|split; [exact TP|exact Logic.I]].
  - destruct (HF tid eq_refl) as (tm & HT & ES). rewrite HT in H. injection H as <- <-. left.
    now apply pre_remove with (tm := tm).
  - rewrite HT in H. injection H as <- <-. right. split; [reflexivity|].
    destruct (HF tid eq_refl) as (tm' & HT' & ES). assert (tm' = tm) by congruence. subst tm'. rewrite HT, ES.
    subst m. unfold expire_pipe, with_map. do 2 eexists. split; [reflexivity|].
    split; [apply ends_unlock|split; [|exact Logic.I]].
    intros j x Hj. cbn [set_timer c_timers c_heap] in *.
    assert (HE : c_heap (match klookup (c_pipes a) (tm_key tm) with
      | Some id => if Nat.eqb id (tm_pipe tm) then {| c_closed := c_closed a; c_pipes := kdelete (c_pipes a) (tm_key tm);
          c_heap := c_heap a; c_timers := c_timers a |} else a | None => a end) = c_heap a /\
      c_timers (match klookup (c_pipes a) (tm_key tm) with
      | Some id => if Nat.eqb id (tm_pipe tm) then {| c_closed := c_closed a; c_pipes := kdelete (c_pipes a) (tm_key tm);
          c_heap := c_heap a; c_timers := c_timers a |} else a | None => a end) = c_timers a).
    { destruct (klookup _ _); [destruct (Nat.eqb _ _)|]; auto. }
    destruct HE as [HE1 HE2]. rewrite HE1. rewrite HE2 in Hj. apply nth_upd_inv in Hj.
    destruct Hj as [(-> & Hx & _)|[_ Hj]]; [subst x; cbn [tm_pipe]; exact (TP _ _ HT)|exact (TP _ _ Hj)].
Qed.

Lemma stop_back s kv tid tm : nth_error (c_timers (stop_pipe s kv)) tid = Some tm -> tm_state tm <> TStopped ->
  nth_error (c_timers s) tid = Some tm.
Proof.
  unfold stop_pipe. destruct (nth_error (c_heap s) (snd kv)) as [p|]; [|auto].
  destruct (p_cleanup p) as [j|]; [|auto]. unfold stop_timer.
  destruct (nth_error (c_timers s) j) as [x|] eqn:E; [|auto]. destruct (tm_state x) eqn:ES; auto.
  cbn [fst c_timers]. intros H N. apply nth_upd_inv in H as [(E1 & E2 & _)|(_ & H)]; [|assumption].
  subst tm. now destruct N.
Qed.
Lemma upd_comm {A} (l : list A) i j x y : i <> j -> upd (upd l i x) j y = upd (upd l j y) i x.
Proof.
  revert i j; induction l as [|a l IH]; intros [|i] [|j] H; cbn; try reflexivity; try lia. f_equal. apply IH. lia.
Qed.
Lemma stop_tick st s kv tid tm : (st = TFired \/ st = TDone) ->
  nth_error (c_timers (stop_pipe s kv)) tid = Some tm -> tm_state tm <> TStopped ->
  stop_pipe (tick st s tid) kv = tick st (stop_pipe s kv) tid.
Proof.
  intros HS HT N. pose proof (stop_back _ _ _ _ HT N) as HB. unfold stop_pipe in *. rewrite tick_heap.
  destruct (nth_error (c_heap s) (snd kv)) as [p|]; [|auto]. destruct (p_cleanup p) as [j|]; [|auto].
  unfold stop_timer in *. destruct (Nat.eq_dec j tid) as [->|NE].
  - rewrite (tick_same st s tid tm HB). rewrite HB in *. cbn [tm_state].
    destruct (tm_state tm) eqn:ES.
    + exfalso. apply N. cbn [fst c_timers] in HT. rewrite (nth_upd_same _ _ _ _ HB) in HT. apply (f_equal (option_map tm_state)) in HT. cbn in HT. congruence.
    + contradiction.
    + destruct HS as [-> | ->]; reflexivity.
    + destruct HS as [-> | ->]; reflexivity.
    + destruct HS as [-> | ->]; reflexivity.
  - rewrite tick_other by assumption. destruct (nth_error (c_timers s) j) as [x|] eqn:HJ; [|reflexivity].
    destruct (tm_state x) eqn:ES; try reflexivity. cbn [fst]. unfold tick. cbn [c_timers]. rewrite HB.
    rewrite nth_upd_other by auto. rewrite HB. unfold set_timer. cbn [c_timers c_closed c_pipes c_heap].
    now rewrite (upd_comm _ j tid) by assumption.
Qed.
Lemma fold_back l : forall s tid tm, nth_error (c_timers (fold_left stop_pipe l s)) tid = Some tm -> tm_state tm <> TStopped ->
  nth_error (c_timers s) tid = Some tm.
Proof.
  induction l as [|kv l IH]; intros s tid tm H N; [exact H|]. cbn [fold_left] in H. apply (stop_back s kv); auto.
Qed.
Lemma fold_tick st l : (st = TFired \/ st = TDone) -> forall s tid tm,
  nth_error (c_timers (fold_left stop_pipe l s)) tid = Some tm -> tm_state tm <> TStopped ->
  fold_left stop_pipe l (tick st s tid) = tick st (fold_left stop_pipe l s) tid.
Proof.
  intros HS. induction l as [|kv l IH]; intros s tid tm H N; [reflexivity|]. cbn [fold_left] in *.
  pose proof (fold_back _ _ _ _ H N) as HB. rewrite (stop_tick st s kv tid tm HS HB N). now apply (IH _ _ tm).
Qed.
Lemma tick_shut st s tid : tick st (shut s) tid = shut (tick st s tid).
Proof. unfold tick, shut. cbn [c_timers]. destruct (nth_error _ _); reflexivity. Qed.

Lemma pre_timer a s c i tid tm : pre a s c i -> nth_error (c_timers s) tid = Some tm -> tm_state tm <> TStopped ->
  nth_error (c_timers a) tid = Some tm.
Proof.
  intros P H N. destruct P as [g E|g p E O ST|g p id E O ST LK|g p id q E O ST LK HQ HS|E|done rest O PM E|E|j E|j x m E HT HM];
    try (rewrite <- E; exact H). subst s. now apply (fold_back done (shut a)).
Qed.
Lemma pre_tick st a s c i tid tm : (st = TFired \/ st = TDone) -> pre a s c i ->
  nth_error (c_timers s) tid = Some tm -> tm_state tm <> TStopped ->
  pre (tick st a tid) (tick st s tid) c i.
Proof.
  intros HS P H N. destruct P as [g E|g p E O ST|g p id E O ST LK|g p id q E O ST LK HQ HI|E|done rest O PM E|E|j E|j x m E HT HM]; subst s.
  - now apply pre_closed.
  - apply pre_lookup; auto. now rewrite tick_closed.
  - apply pre_segment; auto; [now rewrite tick_closed|now rewrite tick_pipes].
  - apply pre_stop with (q := q); auto; [now rewrite tick_closed|now rewrite tick_pipes|now rewrite tick_heap].
  - now apply pre_close.
  - apply pre_stops with (done := done); [now rewrite tick_closed|now rewrite tick_pipes|].
    rewrite <- tick_shut. symmetry. now apply (fold_tick st done HS _ _ tm).
  - now apply pre_pipes.
  - now apply pre_expire.
  - destruct (Nat.eq_dec j tid) as [->|NE].
    + eapply pre_remove; [reflexivity|now apply tick_same with (tm := x)|]. cbn [tm_key]. now rewrite tick_pipes.
    + eapply pre_remove; [reflexivity|rewrite tick_other by assumption; exact HT|]. now rewrite tick_pipes.
Qed.

(** The segments a handler is given are not being written. *)
Lemma safe_micro cfg n s i s1 i1 : post i = true -> safe s i -> micro cfg n s i = (s1, i1) -> safe s1 i1.
Proof.
  intros HP [TP Q] H.
  assert (G : (forall h, length h = length (c_heap s) -> forall s1, c_timers s1 = c_timers s -> c_heap s1 = h ->
    forall j tm, nth_error (c_timers s1) j = Some tm -> (tm_pipe tm < length (c_heap s1))%nat)).
  { intros h HL s2 E1 E2 j tm Hj. rewrite E1 in Hj. rewrite E2, HL. exact (TP _ _ Hj). }
  destruct i; cbn [post] in HP; try discriminate; cbn [micro] in H.
  - unfold new_pipe in H. injection H as <- <-. split.
    + intros j tm Hj. cbn [c_timers c_heap] in *. rewrite app_length. cbn. apply TP in Hj. lia.
    + intros j tm Hj E. cbn [c_timers] in Hj. apply TP in Hj. lia.
  - destruct (nth_error (c_heap s) id) as [q|]; injection H as <- <-; (split; [|exact Logic.I]); [|exact TP].
    eapply G; [|reflexivity|reflexivity]. apply upd_length.
  - destruct (nth_error (c_heap s) id) as [q|] eqn:HQ.
    + assert (E : s1 = with_heap s (upd (c_heap s) id {| p_cleanup := p_cleanup q; p_segs := p_segs q; p_frags := p_frags q + 1 |})) by congruence.
      subst s1. split; [eapply G; [|reflexivity|reflexivity]; apply upd_length|].
      injection H as <-. destruct (p_frags q + 1 =? pt_total p); [|destruct (cf_timeout cfg)]; try exact Logic.I.
      cbn [with_heap c_heap]. rewrite upd_length. apply nth_error_Some. congruence.
    + injection H as <- <-. split; [exact TP|exact Logic.I].
  - injection H as <- <-. split; [exact TP|exact Logic.I].
  - injection H as <- <-. split; [|exact Logic.I]. cbn [c_timers c_heap]. intros j tm Hj.
    apply nth_error_snoc in Hj as [Hj|Hj]; [exact (TP _ _ Hj)|subst tm; exact Q].
  - destruct (nth_error (c_heap s) id) as [q|]; injection H as <- <-; (split; [|exact Logic.I]); [|exact TP].
    eapply G; [|reflexivity|reflexivity]. apply upd_length.
  - injection H as <- <-. split; [exact TP|exact Logic.I].
Qed.

Lemma safe_tick st s tid tm i : nth_error (c_timers s) tid = Some tm -> tm_state tm <> TStopped -> safe s i ->
  safe (tick st s tid) i.
Proof.
  intros HT N [TP Q]. split.
  - intros j x Hj. rewrite tick_heap. destruct (Nat.eq_dec j tid) as [->|NE].
    + rewrite (tick_same st s tid tm HT) in Hj. injection Hj as <-. cbn [tm_pipe]. exact (TP _ _ HT).
    + rewrite tick_other in Hj by assumption. exact (TP _ _ Hj).
  - destruct i; auto; [|now rewrite tick_heap]. intros j x Hj E. destruct (Nat.eq_dec j tid) as [->|NE].
    + rewrite (tick_same st s tid tm HT) in Hj. injection Hj as <-. cbn [tm_pipe] in E. now specialize (Q _ _ HT E).
    + rewrite tick_other in Hj by assumption. exact (Q _ _ Hj E).
Qed.
Lemma micro_segs cfg n s i tid tm : post i = true -> safe s i -> nth_error (c_timers s) tid = Some tm ->
  tm_state tm <> TStopped -> pipe_segs (fst (micro cfg n s i)) (tm_pipe tm) = pipe_segs s (tm_pipe tm).
Proof.
  intros HP [TP Q] HT N. pose proof (TP _ _ HT) as LT.
  destruct i; cbn [post] in HP; try discriminate; cbn [micro]; try reflexivity.
  - unfold new_pipe, pipe_segs. cbn [fst c_heap]. now rewrite nth_error_app1.
  - destruct (nth_error (c_heap s) id) as [q|] eqn:HQ; [|reflexivity]. unfold pipe_segs. cbn [fst with_heap c_heap].
    rewrite nth_upd_other; [reflexivity|]. intros E. now specialize (Q _ _ HT E).
  - destruct (nth_error (c_heap s) id) as [q|] eqn:HQ; [|reflexivity]. unfold pipe_segs. cbn [fst with_heap c_heap].
    destruct (Nat.eq_dec (tm_pipe tm) id) as [->|NE]; [|now rewrite nth_upd_other].
    rewrite (nth_upd_same _ _ _ _ HQ), HQ. reflexivity.
  - destruct (nth_error (c_heap s) id) as [q|] eqn:HQ; [|reflexivity]. unfold pipe_segs. cbn [fst with_heap c_heap].
    destruct (Nat.eq_dec (tm_pipe tm) id) as [->|NE]; [|now rewrite nth_upd_other].
    rewrite (nth_upd_same _ _ _ _ HQ), HQ. reflexivity.
Qed.
Lemma ends_segs cfg s i a o tid tm : post i = true -> safe s i -> ends cfg s i a o ->
  nth_error (c_timers s) tid = Some tm -> tm_state tm <> TStopped ->
  pipe_segs a (tm_pipe tm) = pipe_segs s (tm_pipe tm).
Proof.
  intros HP HS [k H] HT N. revert s i HP HS HT H. induction k as [|k IH]; intros s i HP HS HT H; cbn [finish] in H.
  - now injection H as -> ->.
  - assert (LT : (tid < length (c_timers s))%nat) by (apply nth_error_Some; congruence).
    pose proof (micro_segs cfg 0 s i tid tm HP HS HT N) as X.
    pose proof (micro_post cfg 0 s i HP) as Y. pose proof (micro_timer cfg 0 s tid i HP LT) as Z.
    destruct (micro cfg 0 s i) as [s1 i1] eqn:E. cbn [fst snd] in *. rewrite <- X.
    apply (IH s1 i1); auto; [|congruence]. now apply (safe_micro cfg 0 s i).
Qed.
Lemma pre_segs a s c i id : pre a s c i -> pipe_segs s id = pipe_segs a id.
Proof.
  intros P. destruct P as [g E|g p E O ST|g p j E O ST LK|g p j q E O ST LK HQ HS|E|done rest O PM E|E|j E|j x m E HT HM];
    subst s; try reflexivity.
  assert (P0 : partly a (shut a)) by (unfold partly, shut; cbn; auto).
  destruct (fold_stop done a (shut a) P0) as ((_ & B & _) & _). unfold pipe_segs. now rewrite B.
Qed.
Lemma pre_post a s c i : pre a s c i -> post i = false.
Proof. now destruct 1. Qed.
Lemma pre_entry a c : pre a a c (entry_pc c).
Proof. destruct c; cbn [entry_pc]; now constructor. Qed.

(** ** The simulation *)
Lemma run_snoc cfg s es a os e a' o : run cfg s es = (a, os) -> step cfg a e = (a', o) ->
  run cfg s (es ++ [e]) = (a', os ++ [o]).
Proof.
  revert s os. induction es as [|x es IH]; intros s os H E; cbn [run app] in *.
  - injection H as <- <-. now rewrite E.
  - destruct (step cfg s x) as [s1 o1]. destruct (run cfg s1 es) as [s2 os2] eqn:R. injection H as <- <-.
    now rewrite (IH _ _ R E).
Qed.
Lemma effects_app h h' : effects (h ++ h') = effects h ++ effects h'.
Proof. apply flat_map_app. Qed.
Lemma erase_app h h' : erase (h ++ h') = erase h ++ erase h'.
Proof. apply filter_app. Qed.

Definition ran (cfg : ccfg) (h : list item) (a : cstate) : Prop :=
  run cfg new_collector (map fst (effects h)) = (a, map snd (effects h)).
Lemma ran_more cfg h a x e a' o : ran cfg h a -> effects [x] = [(e, o)] -> step cfg a e = (a', o) -> ran cfg (h ++ [x]) a'.
Proof.
  intros H E S. unfold ran. rewrite effects_app, E, !map_app. cbn [map fst snd]. now apply run_snoc with (a := a).
Qed.
Lemma ran_same cfg h a x : ran cfg h a -> effects [x] = [] -> ran cfg (h ++ [x]) a.
Proof. intros H E. unfold ran. now rewrite effects_app, E, app_nil_r. Qed.
Lemma ran_inv cfg h a : ran cfg h a -> CollectorProofs.Inv cfg None a.
Proof.
  intros H. pose proof (inv_run cfg (map fst (effects h)) new_collector (inv_new cfg)) as I. now rewrite H in I.
Qed.

Definition lins (h : list item) : list (who * call * output) :=
  flat_map (fun x => match x with Lin w c o => [(w, c, o)] | _ => [] end) h.
Definition rets (h : list item) : list (who * call * output) :=
  flat_map (fun x => match x with Returns w c o => [(w, c, o)] | _ => [] end) h.
Lemma lins_app h h' : lins (h ++ h') = lins h ++ lins h'.
Proof. apply flat_map_app. Qed.
Lemma rets_app h h' : rets (h ++ h') = rets h ++ rets h'.
Proof. apply flat_map_app. Qed.

Record sim (cfg : ccfg) (z : sys) (h : list item) (a : cstate) : Prop := {
  m_run : ran cfg h a;
  m_free : mutex z = None -> shared z = a /\ lins h = rets h;
  m_holder : forall w c i, at_ z w = Holding c i -> mutex z = Some w;
  m_held : forall w, mutex z = Some w -> exists c i, at_ z w = Holding c i;
  m_pre : forall w c i, at_ z w = Holding c i -> post i = false -> stage_of w h (Called c) /\ pre a (shared z) c i /\ lins h = rets h;
  m_post : forall w c i, at_ z w = Holding c i -> post i = true ->
    exists o, stage_of w h (Took c o) /\ ends cfg (shared z) i a o /\ safe (shared z) i /\ lins h = rets h ++ [(w, c, o)];
  m_stage : forall w, match at_ z w with
    | Absent | Idle | Handling _ => stage_of w h Free
    | Waiting c => stage_of w h (Called c)
    | Holding _ _ => True
    end;
  m_absent : forall tid, at_ z (Callback tid) <> Absent ->
    exists tm, nth_error (c_timers (shared z)) tid = Some tm /\ late (tm_state tm);
  m_fired : forall w tid, (at_ z w = Waiting (CallExpire tid) \/
      exists i, at_ z w = Holding (CallExpire tid) i /\ post i = false) ->
    w = Callback tid /\ exists tm, nth_error (c_timers a) tid = Some tm /\ tm_state tm = TFired;
  m_expired : forall w tid, (at_ z w = Handling tid \/
      exists i, at_ z w = Holding (CallExpire tid) i /\ post i = true) ->
    w = Callback tid /\ exists tm, nth_error (c_timers a) tid = Some tm /\ tm_state tm = TExpired }.

Lemma sim_start cfg : sim cfg start [] new_collector.
Proof.
  split; cbn [start shared mutex at_]; try discriminate; auto.
  - reflexivity.
  - intros [n|n]; discriminate.
  - intros [n|n]; discriminate.
  - intros [n|n]; discriminate.
  - intros [n|n]; constructor.
  - intros tid H. now destruct H.
  - intros [n|n] tid [H|(i & H & _)]; discriminate.
  - intros [n|n] tid [H|(i & H & _)]; discriminate.
Qed.

Lemma late_keep cfg a e a' o j tm : CollectorProofs.Inv cfg None a -> step cfg a e = (a', o) ->
  nth_error (c_timers a) j = Some tm -> late (tm_state tm) ->
  exists tm', nth_error (c_timers a') j = Some tm' /\ late (tm_state tm') /\
    (e <> EvExpire j -> e <> EvHandler j -> tm' = tm).
Proof.
  intros I H HJ L. destruct (late_step cfg a e a' o j tm I H HJ L) as [(A & _)|[(E & _ & A)|(E & _ & A)]];
    eexists; (split; [exact A|]); unfold late; cbn; split; auto; congruence.
Qed.

Definition link (cfg : ccfg) (s a : cstate) : Prop :=
  s = a \/ (exists c i, pre a s c i) \/ (exists i o, post i = true /\ ends cfg s i a o /\ safe s i).
Lemma sim_link cfg z h a : sim cfg z h a -> link cfg (shared z) a.
Proof.
  intros M. unfold link. destruct (mutex z) as [w|] eqn:E.
  - destruct (m_held _ _ _ _ M w E) as (c & i & H). destruct (post i) eqn:P.
    + destruct (m_post _ _ _ _ M w c i H P) as (o & _ & A & B & _). right. right. eauto.
    + destruct (m_pre _ _ _ _ M w c i H P) as (_ & A & _). right. left. eauto.
  - left. now apply (m_free _ _ _ _ M).
Qed.
Lemma link_timer cfg s a tid tm : link cfg s a -> nth_error (c_timers s) tid = Some tm -> tm_state tm <> TStopped ->
  nth_error (c_timers a) tid = Some tm.
Proof.
  intros [->|[(c & i & P)|(i & o & P & E & S)]] H N; [assumption|now apply (pre_timer a s c i)|].
  rewrite (ends_timer cfg s tid i a o P); auto. apply nth_error_Some. congruence.
Qed.
Lemma link_segs cfg s a tid tm : link cfg s a -> nth_error (c_timers s) tid = Some tm -> tm_state tm <> TStopped ->
  pipe_segs a (tm_pipe tm) = pipe_segs s (tm_pipe tm).
Proof.
  intros [->|[(c & i & P)|(i & o & P & E & S)]] H N; [reflexivity|symmetry; now apply (pre_segs a s c i)|].
  now apply (ends_segs cfg s i a o tid).
Qed.
Lemma micro_late cfg n s i tid tm : nth_error (c_timers s) tid = Some tm -> late (tm_state tm) ->
  exists tm', nth_error (c_timers (fst (micro cfg n s i))) tid = Some tm' /\ late (tm_state tm') /\ tm_pipe tm' = tm_pipe tm.
Proof.
  intros H L. assert (LT : (tid < length (c_timers s))%nat) by (apply nth_error_Some; congruence).
  destruct (post i) eqn:P; [rewrite micro_timer by assumption; exists tm; auto|].
  assert (K : exists tm', nth_error (c_timers s) tid = Some tm' /\ late (tm_state tm') /\ tm_pipe tm' = tm_pipe tm) by eauto.
  assert (KS : forall j, exists tm', nth_error (c_timers (fst (stop_timer s j))) tid = Some tm' /\ late (tm_state tm') /\ tm_pipe tm' = tm_pipe tm).
  { intros j. unfold stop_timer. destruct (nth_error (c_timers s) j) as [x|] eqn:HX; [|assumption].
    destruct (tm_state x) eqn:SX; try assumption. cbn [fst c_timers].
    assert (tid <> j) by (intros ->; rewrite HX in H; injection H as ->; rewrite SX in L; destruct L as [?|[?|?]]; discriminate).
    rewrite nth_upd_other by assumption. exact K. }
  assert (KR : forall j x st s', nth_error (c_timers s) j = Some x -> late st -> c_timers s' = c_timers s ->
    exists tm', nth_error (c_timers (set_timer s' j x st)) tid = Some tm' /\ late (tm_state tm') /\ tm_pipe tm' = tm_pipe tm).
  { intros j x st s' HX HL E. unfold set_timer. cbn [c_timers]. rewrite E. destruct (Nat.eq_dec tid j) as [->|NE].
    - rewrite (nth_upd_same _ _ _ _ HX). eexists; split; [reflexivity|]. split; [exact HL|]. cbn [tm_pipe]. congruence.
    - rewrite nth_upd_other by assumption. exact K. }
  destruct i as [| | |p id| | | | | | | |rest| |j0|j m|]; cbn [post] in P; try discriminate; cbn [micro]; auto.
  - destruct (c_closed s); [assumption|]. destruct (tpdu_concat_info _) as [[[? ?] ?]|]; [|assumption].
    destruct (_ <? 2); [assumption|]. destruct (_ || _); [assumption|]. now destruct (pdu_key _ _ _).
  - now destruct (klookup _ _).
  - destruct (nth_error (c_heap s) _) as [q|]; [|assumption]. now destruct (idx _ _) as [[?|]| | |].
  - destruct (nth_error (c_heap s) id) as [q|]; [|assumption]. destruct (p_cleanup q) as [j|]; [|assumption].
    pose proof (KS j) as X. now destruct (stop_timer s j) as [s' b].
  - now destruct (c_closed s).
  - destruct (take_nth n rest) as [[kv r]|]; [|assumption]. cbn [fst]. unfold stop_pipe.
    destruct (nth_error (c_heap s) _) as [q|]; [|assumption]. destruct (p_cleanup q) as [j|]; [|assumption]. apply KS.
  - destruct (nth_error (c_timers s) j0) as [?|]; exact K.
  - destruct (nth_error (c_timers s) j) as [x|] eqn:HX; [|assumption]. cbv zeta. cbn [fst]. apply KR; [assumption|unfold late; auto|].
    destruct m as [id|]; [|reflexivity]. now destruct (Nat.eqb id (tm_pipe x)).
Qed.

Lemma about_calls w v c : v <> w -> about w (Calls v c) = false.
Proof. intros H. cbn [about]. now apply who_eqb_neq. Qed.
Lemma about_lin w v c o : v <> w -> about w (Lin v c o) = false.
Proof. intros H. cbn [about]. now apply who_eqb_neq. Qed.
Lemma about_returns w v c o : v <> w -> about w (Returns v c o) = false.
Proof. intros H. cbn [about]. now apply who_eqb_neq. Qed.

(** A goroutine other than the holder starts a call. *)
Lemma sim_invoke cfg z h a w c : sim cfg z h a -> at_ z w = Idle -> (forall tid, c <> CallExpire tid) ->
  sim cfg {| shared := shared z; mutex := mutex z; at_ := moves (at_ z) w (Waiting c) |} (h ++ [Calls w c]) a.
Proof.
  intros M HW NE. assert (LR : lins (h ++ [Calls w c]) = lins h /\ rets (h ++ [Calls w c]) = rets h).
  { rewrite lins_app, rets_app. cbn. now rewrite !app_nil_r. }
  destruct LR as [L1 L2]. split; cbn [shared mutex at_]; rewrite ?L1, ?L2.
  - apply ran_same; [apply M|reflexivity].
  - apply M.
  - intros v d i H. destruct (who_dec v w) as [->|N]; [rewrite moves_same in H; discriminate|rewrite moves_other in H by assumption].
    now apply (m_holder _ _ _ _ M v d i).
  - intros v H. destruct (m_held _ _ _ _ M v H) as (d & i & E). exists d, i. rewrite moves_other; [assumption|]. intros ->. congruence.
  - intros v d i H P. destruct (who_dec v w) as [->|N]; [rewrite moves_same in H; discriminate|rewrite moves_other in H by assumption].
    destruct (m_pre _ _ _ _ M v d i H P) as (A & B). split; [|assumption]. apply stage_other; [apply about_calls; congruence|assumption].
  - intros v d i H P. destruct (who_dec v w) as [->|N]; [rewrite moves_same in H; discriminate|rewrite moves_other in H by assumption].
    destruct (m_post _ _ _ _ M v d i H P) as (o & A & B). exists o. split; [|assumption].
    apply stage_other; [apply about_calls; congruence|assumption].
  - intros v. pose proof (m_stage _ _ _ _ M v) as S. destruct (who_dec v w) as [->|N].
    + rewrite moves_same. rewrite HW in S. now constructor.
    + rewrite moves_other by assumption.
      destruct (at_ z v); auto; apply stage_other; auto; apply about_calls; congruence.
  - intros tid H. apply (m_absent _ _ _ _ M tid). destruct (who_dec (Callback tid) w) as [<-|N]; [congruence|].
    now rewrite moves_other in H by assumption.
  - intros v tid H. apply (m_fired _ _ _ _ M v tid). destruct (who_dec v w) as [->|N].
    + rewrite moves_same in H. destruct H as [H|(i & H & _)]; [injection H as ->; now destruct (NE tid)|discriminate].
    + now rewrite moves_other in H by assumption.
  - intros v tid H. apply (m_expired _ _ _ _ M v tid). destruct (who_dec v w) as [->|N].
    + rewrite moves_same in H. destruct H as [H|(i & H & _)]; discriminate.
    + now rewrite moves_other in H by assumption.
Qed.

Lemma sim_acquire cfg z h a w c : sim cfg z h a -> at_ z w = Waiting c -> mutex z = None ->
  sim cfg {| shared := shared z; mutex := Some w; at_ := moves (at_ z) w (Holding c (entry_pc c)) |} h a.
Proof.
  intros M HW HM.
  assert (NH : forall v d i, at_ z v <> Holding d i) by (intros v d i H; apply (m_holder _ _ _ _ M) in H; congruence).
  assert (PE : post (entry_pc c) = false) by now destruct c.
  split; cbn [shared mutex at_].
  - apply M.
  - discriminate.
  - intros v d i H. destruct (who_dec v w) as [->|N]; [reflexivity|rewrite moves_other in H by assumption]. now apply NH in H.
  - intros v H. injection H as <-. rewrite moves_same. eauto.
  - intros v d i H P. destruct (who_dec v w) as [->|N]; [|rewrite moves_other in H by assumption; now apply NH in H].
    rewrite moves_same in H. injection H as <- <-. pose proof (m_stage _ _ _ _ M w) as S. rewrite HW in S. split; [assumption|].
    destruct (m_free _ _ _ _ M HM) as [-> ?]. split; [apply pre_entry|assumption].
  - intros v d i H P. destruct (who_dec v w) as [->|N]; [|rewrite moves_other in H by assumption; now apply NH in H].
    rewrite moves_same in H. injection H as <- <-. congruence.
  - intros v. pose proof (m_stage _ _ _ _ M v) as S. destruct (who_dec v w) as [->|N].
    + now rewrite moves_same.
    + now rewrite moves_other by assumption.
  - intros tid H. apply (m_absent _ _ _ _ M tid). destruct (who_dec (Callback tid) w) as [<-|N]; [congruence|].
    now rewrite moves_other in H by assumption.
  - intros v tid H. apply (m_fired _ _ _ _ M v tid). destruct (who_dec v w) as [->|N].
    + rewrite moves_same in H. destruct H as [H|(i & H & _)]; [discriminate|]. injection H as -> _. now left.
    + now rewrite moves_other in H by assumption.
  - intros v tid H. apply (m_expired _ _ _ _ M v tid). destruct (who_dec v w) as [->|N].
    + rewrite moves_same in H. destruct H as [H|(i & H & HP)]; [discriminate|]. injection H as -> <-. discriminate.
    + now rewrite moves_other in H by assumption.
Qed.

Lemma sim_unlock cfg z h a w c o : sim cfg z h a -> at_ z w = Holding c (AtUnlock o) ->
  sim cfg {| shared := shared z; mutex := None;
             at_ := moves (at_ z) w (match c with CallExpire tid => Handling tid | _ => Idle end) |} (h ++ [Returns w c o]) a.
Proof.
  intros M HW. destruct (m_post _ _ _ _ M w c (AtUnlock o) HW eq_refl) as (o' & ST & EN & SF & LR).
  assert (E : shared z = a /\ o' = o).
  { destruct EN as [k EN]. assert (F : forall k, finish cfg k (shared z) (AtUnlock o) = (shared z, AtUnlock o)).
    { intros k'. induction k' as [|k' IH]; [reflexivity|]. cbn [finish micro]. exact IH. }
    rewrite F in EN. injection EN as -> ->. auto. }
  destruct E as [E ->]. pose proof (m_holder _ _ _ _ M w _ _ HW) as HM.
  assert (ON : forall v d i, v <> w -> at_ z v <> Holding d i) by (intros v d i N H; apply (m_holder _ _ _ _ M) in H; congruence).
  split; cbn [shared mutex at_].
  - apply ran_same; [apply M|reflexivity].
  - intros _. split; [exact E|]. rewrite lins_app, rets_app. cbn. now rewrite app_nil_r.
  - intros v d i H. destruct (who_dec v w) as [->|N]; [rewrite moves_same in H; now destruct c|].
    rewrite moves_other in H by assumption. now apply ON in H.
  - discriminate.
  - intros v d i H. destruct (who_dec v w) as [->|N]; [rewrite moves_same in H; now destruct c|].
    rewrite moves_other in H by assumption. now apply ON in H.
  - intros v d i H. destruct (who_dec v w) as [->|N]; [rewrite moves_same in H; now destruct c|].
    rewrite moves_other in H by assumption. now apply ON in H.
  - intros v. pose proof (m_stage _ _ _ _ M v) as S. destruct (who_dec v w) as [->|N].
    + rewrite moves_same. assert (stage_of w (h ++ [Returns w c o]) Free) by now apply stage_ret. now destruct c.
    + rewrite moves_other by assumption.
      destruct (at_ z v); auto; apply stage_other; auto; apply about_returns; congruence.
  - intros tid H. apply (m_absent _ _ _ _ M tid). destruct (who_dec (Callback tid) w) as [<-|N]; [congruence|].
    now rewrite moves_other in H by assumption.
  - intros v tid H. apply (m_fired _ _ _ _ M v tid). destruct (who_dec v w) as [->|N].
    + rewrite moves_same in H. destruct H as [H|(i & H & _)]; destruct c; discriminate.
    + now rewrite moves_other in H by assumption.
  - intros v tid H. apply (m_expired _ _ _ _ M v tid). destruct (who_dec v w) as [->|N].
    + rewrite moves_same in H. destruct H as [H|(i & H & HP)]; destruct c; try discriminate. injection H as <-. right. eauto.
    + now rewrite moves_other in H by assumption.
Qed.

Lemma sim_micro cfg z h a w c i n : sim cfg z h a -> at_ z w = Holding c i -> (forall o, i <> AtUnlock o) ->
  exists h2 a', erase h2 = [] /\
  sim cfg {| shared := fst (micro cfg n (shared z) i); mutex := mutex z;
             at_ := moves (at_ z) w (Holding c (snd (micro cfg n (shared z) i))) |} (h ++ h2) a'.
Proof.
  intros M HW NU. pose proof (m_holder _ _ _ _ M w _ _ HW) as HM. pose proof (sim_link _ _ _ _ M) as LK.
  assert (ON : forall v d j, v <> w -> at_ z v <> Holding d j) by (intros v d j N H; apply (m_holder _ _ _ _ M) in H; congruence).
  destruct (micro cfg n (shared z) i) as [s1 i1] eqn:EM. cbn [fst snd].
  assert (ML : forall tid tm, nth_error (c_timers (shared z)) tid = Some tm -> late (tm_state tm) ->
     exists tm', nth_error (c_timers s1) tid = Some tm' /\ late (tm_state tm')).
  { intros tid tm H L. destruct (micro_late cfg n _ i tid tm H L) as (tm' & X & Y & _). rewrite EM in X. eauto. }
  (* the parts that do not depend on the moment *)
  assert (K : forall h2 a', ran cfg (h ++ h2) a' ->
     (post i1 = false -> stage_of w (h ++ h2) (Called c) /\ pre a' s1 c i1 /\ lins (h ++ h2) = rets (h ++ h2)) ->
     (post i1 = true -> exists o, stage_of w (h ++ h2) (Took c o) /\ ends cfg s1 i1 a' o /\ safe s1 i1 /\
        lins (h ++ h2) = rets (h ++ h2) ++ [(w, c, o)]) ->
     (forall v st, v <> w -> stage_of v h st -> stage_of v (h ++ h2) st) ->
     (forall tid tm, w <> Callback tid -> at_ z (Callback tid) <> Absent -> nth_error (c_timers a) tid = Some tm -> late (tm_state tm) ->
        nth_error (c_timers a') tid = Some tm) ->
     (forall tid, c = CallExpire tid -> post i1 = false -> exists tm, nth_error (c_timers a') tid = Some tm /\ tm_state tm = TFired) ->
     (forall tid, c = CallExpire tid -> post i1 = true -> exists tm, nth_error (c_timers a') tid = Some tm /\ tm_state tm = TExpired) ->
     sim cfg {| shared := s1; mutex := mutex z; at_ := moves (at_ z) w (Holding c i1) |} (h ++ h2) a').
  { intros h2 a' R P1 P2 ST TM F1 F2. split; cbn [shared mutex at_].
    - exact R.
    - congruence.
    - intros v d j H. destruct (who_dec v w) as [->|N]; [assumption|rewrite moves_other in H by assumption; now apply ON in H].
    - intros v H. assert (v = w) as -> by congruence. rewrite moves_same. eauto.
    - intros v d j H P. destruct (who_dec v w) as [->|N]; [|rewrite moves_other in H by assumption; now apply ON in H].
      rewrite moves_same in H. injection H as <- <-. auto.
    - intros v d j H P. destruct (who_dec v w) as [->|N]; [|rewrite moves_other in H by assumption; now apply ON in H].
      rewrite moves_same in H. injection H as <- <-. auto.
    - intros v. pose proof (m_stage _ _ _ _ M v) as S. destruct (who_dec v w) as [->|N].
      + now rewrite moves_same.
      + rewrite moves_other by assumption. destruct (at_ z v); auto.
    - intros tid H. destruct (m_absent _ _ _ _ M tid) as (tm & A & B); [|now apply (ML tid tm)].
      destruct (who_dec (Callback tid) w) as [<-|N]; [congruence|]. now rewrite moves_other in H by assumption.
    - intros v tid H. destruct (who_dec v w) as [->|N].
      + rewrite moves_same in H. destruct H as [H|(j & H & HP)]; [discriminate|]. injection H as -> <-. split; [|auto].
        destruct (post i) eqn:PI.
        * apply (m_expired _ _ _ _ M w tid). eauto.
        * apply (m_fired _ _ _ _ M w tid). eauto.
      + rewrite moves_other in H by assumption. destruct (m_fired _ _ _ _ M v tid H) as (-> & tm & A & B). split; [reflexivity|].
        exists tm. split; [|assumption]. apply TM; auto; [|unfold late; auto]. destruct H as [H|(j & H & _)]; congruence.
    - intros v tid H. destruct (who_dec v w) as [->|N].
      + rewrite moves_same in H. destruct H as [H|(j & H & HP)]; [discriminate|]. injection H as -> <-. split; [|auto].
        destruct (post i) eqn:PI.
        * apply (m_expired _ _ _ _ M w tid). eauto.
        * apply (m_fired _ _ _ _ M w tid). eauto.
      + rewrite moves_other in H by assumption. destruct (m_expired _ _ _ _ M v tid H) as (-> & tm & A & B). split; [reflexivity|].
        exists tm. split; [|assumption]. apply TM; auto; [|unfold late; auto]. destruct H as [H|(j & H & _)]; congruence. }
  destruct (post i) eqn:PI.
  - (* after its effect *)
    destruct (m_post _ _ _ _ M w c i HW PI) as (o & ST & EN & SF & LR).
    pose proof (micro_post cfg n (shared z) i PI) as PI1. rewrite EM in PI1. cbn [snd] in PI1.
    exists [], a. split; [reflexivity|]. apply K; rewrite ?app_nil_r; auto.
    + apply M.
    + congruence.
    + intros _. exists o. split; [assumption|]. split; [|split; [now apply (safe_micro cfg n (shared z) i)|assumption]].
      pose proof (ends_micro cfg n _ i a o PI EN) as X. now rewrite EM in X.
    + congruence.
    + intros tid -> _. destruct (m_expired _ _ _ _ M w tid) as (_ & X); eauto.
  - destruct (m_pre _ _ _ _ M w c i HW PI) as (ST & P & LR).
    assert (F : fired c a). { intros tid ->. destruct (m_fired _ _ _ _ M w tid) as (_ & X); eauto. }
    pose proof (ran_inv _ _ _ (m_run _ _ _ _ M)) as I.
    destruct (pre_micro cfg n a _ c i s1 i1 I F P EM) as [P1|(PI1 & a' & o & SE & EN & SF)].
    + exists [], a. split; [reflexivity|]. pose proof (pre_post _ _ _ _ P1) as PI1. apply K; rewrite ?app_nil_r; auto.
      * apply M.
      * congruence.
      * congruence.
    + exists [Lin w c o], a'. split; [reflexivity|]. apply K.
      * apply (ran_more cfg h a _ (event_of c) a' o); [apply M|reflexivity|assumption].
      * congruence.
      * intros _. exists o. split; [now apply stage_lin|]. split; [assumption|]. split; [assumption|].
        rewrite lins_app, rets_app, LR. cbn. now rewrite app_nil_r.
      * intros v st N S. apply stage_other; [apply about_lin; congruence|assumption].
      * intros tid tm N _ A L. destruct (late_keep cfg a _ a' o tid tm I SE A L) as (tm' & B & _ & C).
        rewrite B. f_equal. apply C.
        -- intros E. destruct c; try discriminate. injection E as ->. apply N. apply (m_fired _ _ _ _ M w tid). eauto.
        -- destruct c; discriminate.
      * congruence.
      * intros tid -> _. destruct (F tid eq_refl) as (tm & A & B). cbn [event_of step] in SE. rewrite A, B in SE. injection SE as <- _.
        cbn [set_timer c_timers]. eexists. split; [apply nth_upd_same with (x := tm); unfold expire_pipe|reflexivity].
        destruct (klookup _ _) as [k|]; [|assumption]. now destruct (Nat.eqb _ _).
Qed.

Lemma sim_tick cfg z h a tid tm st x d w : sim cfg z h a -> nth_error (c_timers (shared z)) tid = Some tm ->
  tm_state tm <> TStopped -> (st = TFired \/ st = TDone) ->
  w = Callback tid ->
  (forall c i, at_ z w <> Holding c i) -> d <> Absent -> (forall c i, d <> Holding c i) ->
  (forall c, d = Waiting c -> c = CallExpire tid /\ st = TFired) -> (forall j, d <> Handling j) ->
  lins x = [] -> rets x = [] -> ran cfg (h ++ x) (tick st a tid) ->
  (forall v s, v <> w -> stage_of v h s -> stage_of v (h ++ x) s) ->
  stage_of w (h ++ x) match d with Waiting c => Called c | _ => Free end ->
  sim cfg {| shared := tick st (shared z) tid; mutex := mutex z; at_ := moves (at_ z) w d |} (h ++ x) (tick st a tid).
Proof.
  intros M HT NS HS -> NW DA DH DW DD LX RX R OT SW.
  assert (LR : lins (h ++ x) = lins h /\ rets (h ++ x) = rets h).
  { rewrite lins_app, rets_app, LX, RX. now rewrite !app_nil_r. }
  destruct LR as [L1 L2].
  pose proof (sim_link _ _ _ _ M) as LK. pose proof (link_timer _ _ _ _ _ LK HT NS) as HA.
  assert (LT : (tid < length (c_timers (shared z)))%nat) by (apply nth_error_Some; congruence).
  assert (LS : late st) by (unfold late; destruct HS; auto).
  split; cbn [shared mutex at_]; rewrite ?L1, ?L2.
  - exact R.
  - intros H. now destruct (m_free _ _ _ _ M H) as [-> ?].
  - intros v c i H. destruct (who_dec v (Callback tid)) as [->|N]; [rewrite moves_same in H; now apply DH in H|].
    rewrite moves_other in H by assumption. now apply (m_holder _ _ _ _ M) in H.
  - intros v H. destruct (m_held _ _ _ _ M v H) as (c & i & E). exists c, i. rewrite moves_other; [assumption|]. intros ->. now apply NW in E.
  - intros v c i H P. destruct (who_dec v (Callback tid)) as [->|N]; [rewrite moves_same in H; now apply DH in H|].
    rewrite moves_other in H by assumption. destruct (m_pre _ _ _ _ M v c i H P) as (A & B & C). split; [auto|]. split; [|assumption].
    now apply (pre_tick st a (shared z) c i tid tm).
  - intros v c i H P. destruct (who_dec v (Callback tid)) as [->|N]; [rewrite moves_same in H; now apply DH in H|].
    rewrite moves_other in H by assumption. destruct (m_post _ _ _ _ M v c i H P) as (o & A & B & C & LR). exists o. split; [auto|]. split; [|split; [|assumption]].
    + now apply ends_tick.
    + now apply (safe_tick st (shared z) tid tm).
  - intros v. pose proof (m_stage _ _ _ _ M v) as S. destruct (who_dec v (Callback tid)) as [->|N].
    + rewrite moves_same. destruct d; auto.
    + rewrite moves_other by assumption. destruct (at_ z v); auto.
  - intros j H. destruct (Nat.eq_dec j tid) as [->|NE].
    + rewrite (tick_same _ _ _ _ HT). eexists. split; [reflexivity|exact LS].
    + rewrite tick_other by assumption. apply (m_absent _ _ _ _ M). rewrite moves_other in H; congruence.
  - intros v j H. destruct (who_dec v (Callback tid)) as [->|N].
    + rewrite moves_same in H. destruct H as [H|(i & H & _)]; [|now apply DH in H].
      destruct (DW _ H) as [E ->]. injection E as ->. split; [reflexivity|].
      rewrite (tick_same _ _ _ _ HA). eexists. split; reflexivity.
    + rewrite moves_other in H by assumption. destruct (m_fired _ _ _ _ M v j H) as (-> & X). split; [reflexivity|].
      rewrite tick_other by congruence. exact X.
  - intros v j H. destruct (who_dec v (Callback tid)) as [->|N].
    + rewrite moves_same in H. destruct H as [H|(i & H & _)]; [now apply DD in H|now apply DH in H].
    + rewrite moves_other in H by assumption. destruct (m_expired _ _ _ _ M v j H) as (-> & X). split; [reflexivity|].
      rewrite tick_other by congruence. exact X.
Qed.

Lemma sim_step cfg z h a e : sim cfg z h a ->
  exists h2 a', erase h2 = snd (mstep cfg z e) /\ sim cfg (fst (mstep cfg z e)) (h ++ h2) a'.
Proof.
  intros M. assert (Stay : exists h2 a', erase h2 = [] /\ sim cfg z (h ++ h2) a').
  { exists [], a. rewrite app_nil_r. auto. }
  destruct e as [w c|w|w n|tid]; cbn [mstep].
  - destruct (at_ z w) eqn:HW; try exact Stay.
    destruct c as [g| | |tid]; try exact Stay.
    + exists [Calls w (CallCollect g)], a. split; [reflexivity|]. apply sim_invoke; auto. discriminate.
    + exists [Calls w CallClose], a. split; [reflexivity|]. apply sim_invoke; auto. discriminate.
    + exists [Calls w CallPipes], a. split; [reflexivity|]. apply sim_invoke; auto. discriminate.
  - destruct (at_ z w) as [| |c| |] eqn:HW; try exact Stay. destruct (mutex z) eqn:HM; [exact Stay|].
    exists [], a. split; [reflexivity|]. rewrite app_nil_r. now apply sim_acquire.
  - destruct (at_ z w) as [| |c|c i|tid] eqn:HW; try exact Stay.
    + destruct i as [| | | | | | | | | | | | | | |o];
        try (match type of HW with at_ z w = Holding c ?i =>
          destruct (sim_micro cfg z h a w c i n M HW) as (h2 & a' & X & Y); [discriminate|];
          destruct (micro cfg n (shared z) i) as [s1 i1]; cbn [fst snd] in *; eauto end).
      exists [Returns w c o], a. split; [reflexivity|]. now apply sim_unlock.
    + destruct (m_expired _ _ _ _ M w tid (or_introl HW)) as (-> & tm' & HA & HS).
      destruct (m_absent _ _ _ _ M tid) as (tm & HT & HL); [congruence|].
      assert (NS : tm_state tm <> TStopped) by (destruct HL as [E|[E|E]]; congruence).
      pose proof (sim_link _ _ _ _ M) as LK. pose proof (link_timer _ _ _ _ _ LK HT NS) as HA'.
      assert (tm' = tm) as -> by congruence. rewrite HT.
      set (o := if cf_handler cfg then _ else _). exists [Handled tid o], (tick TDone a tid). split; [reflexivity|].
      replace (set_timer (shared z) tid tm TDone) with (tick TDone (shared z) tid) by (unfold tick; now rewrite HT).
      cbn [fst]. apply sim_tick with (tm := tm); auto; try congruence.
      * apply (ran_more cfg h a _ (EvHandler tid) _ o); [apply M|reflexivity|]. cbn [step]. rewrite HA, HS. unfold tick. rewrite HA.
        unfold o. now rewrite (link_segs _ _ _ _ _ LK HT NS).
      * intros v st N S. now apply stage_other.
      * apply stage_other; [reflexivity|]. pose proof (m_stage _ _ _ _ M (Callback tid)) as S. now rewrite HW in S.
  - destruct (nth_error (c_timers (shared z)) tid) as [tm|] eqn:HT; [|exact Stay].
    destruct (tm_state tm) eqn:HS; try exact Stay.
    assert (NS : tm_state tm <> TStopped) by congruence.
    pose proof (sim_link _ _ _ _ M) as LK. pose proof (link_timer _ _ _ _ _ LK HT NS) as HA.
    assert (HB : at_ z (Callback tid) = Absent).
    { destruct (at_ z (Callback tid)) eqn:HB; [reflexivity|..]; destruct (m_absent _ _ _ _ M tid) as (x & A & B); try congruence;
        rewrite HT in A; injection A as <-; rewrite HS in B; destruct B as [B|[B|B]]; discriminate. }
    exists [Rang tid; Calls (Callback tid) (CallExpire tid)], (tick TFired a tid). split; [reflexivity|].
    replace (set_timer (shared z) tid tm TFired) with (tick TFired (shared z) tid) by (unfold tick; now rewrite HT).
    change [Rang tid; Calls (Callback tid) (CallExpire tid)] with ([Rang tid] ++ [Calls (Callback tid) (CallExpire tid)]).
    cbn [fst]. apply sim_tick with (tm := tm); auto; try congruence.
    + intros c E. injection E as <-. auto.
    + rewrite app_assoc. apply ran_same; [|reflexivity].
      apply (ran_more cfg h a _ (EvFire tid) _ ONone); [apply M|reflexivity|]. cbn [step]. rewrite HA, HS. unfold tick. now rewrite HA.
    + intros v st N S. rewrite app_assoc. apply stage_other; [apply about_calls; congruence|]. now apply stage_other.
    + rewrite app_assoc. apply stage_inv. apply stage_other; [reflexivity|].
      pose proof (m_stage _ _ _ _ M (Callback tid)) as S. now rewrite HB in S.
Qed.

Lemma sim_run cfg es z h a : sim cfg z h a ->
  exists h2 a', erase h2 = snd (mrun cfg z es) /\ sim cfg (fst (mrun cfg z es)) (h ++ h2) a'.
Proof.
  revert z h a. induction es as [|e es IH]; intros z h a M; cbn [mrun].
  - exists [], a. rewrite app_nil_r. auto.
  - destruct (sim_step cfg z h a e M) as (h1 & a1 & E1 & M1). destruct (mstep cfg z e) as [z1 o1]. cbn [fst snd] in *.
    destruct (IH z1 (h ++ h1) a1 M1) as (h2 & a2 & E2 & M2). destruct (mrun cfg z1 es) as [z2 o2]. cbn [fst snd] in *.
    exists (h1 ++ h2), a2. rewrite erase_app, E1, E2, app_assoc. auto.
Qed.
Lemma sim_orderly cfg z h a : sim cfg z h a -> orderly h.
Proof.
  intros M w. pose proof (m_stage _ _ _ _ M w) as S. destruct (at_ z w) as [| |c|c i|tid] eqn:E; eauto.
  destruct (post i) eqn:P.
  - destruct (m_post _ _ _ _ M w c i E P) as (o & A & _). eauto.
  - destruct (m_pre _ _ _ _ M w c i E P) as (A & _). eauto.
Qed.

(** ** The mutex is released *)
Definition rank (s : cstate) (i : pc) : nat :=
  match i with
  | AtClosed _ => 9 | AtLookup _ => 8 | AtSegment _ _ => 7 | AtStop _ _ => 6 | AtNew _ => 5 | AtPut _ _ => 4
  | AtCount _ _ => 3 | AtAfter _ _ => 2 | AtCleanup _ _ _ => 1 | AtDelete _ _ => 1
  | AtClose => 2 + length (c_pipes s) | AtStops rest => 1 + length rest
  | AtPipes => 1 | AtExpire _ => 2 | AtRemove _ _ => 1 | AtUnlock _ => 0
  end.
Lemma micro_rank cfg n s i : (forall o, i <> AtUnlock o) ->
  (rank (fst (micro cfg n s i)) (snd (micro cfg n s i)) < rank s i)%nat.
Proof.
  intros N. destruct i as [| | |p id| | | | | | | |rest| |j0|j m|]; cbn [micro].
  - destruct (c_closed s); [cbn; lia|]. destruct (tpdu_concat_info _) as [[[? ?] ?]|]; [|cbn; lia].
    destruct (_ <? 2); [cbn; lia|]. destruct (_ || _); [cbn; lia|]. destruct (pdu_key _ _ _). cbn. lia.
  - destruct (klookup _ _); cbn; lia.
  - destruct (nth_error (c_heap s) _) as [q|]; [|cbn; lia]. destruct (idx _ _) as [[?|]| | |]; cbn; lia.
  - destruct (nth_error (c_heap s) id) as [q|]; [|cbn; lia]. destruct (p_cleanup q) as [j|]; [|cbn; lia].
    destruct (stop_timer s j) as [s' b]. destruct b; cbn; lia.
  - unfold new_pipe. cbn. lia.
  - destruct (nth_error (c_heap s) _) as [q|]; cbn; lia.
  - destruct (nth_error (c_heap s) _) as [q|]; [|cbn; lia]. destruct (_ =? _); [cbn; lia|]. destruct (cf_timeout cfg); cbn; lia.
  - cbn; lia.
  - cbn; lia.
  - destruct (nth_error (c_heap s) _) as [q|]; cbn; lia.
  - destruct (c_closed s); cbn; lia.
  - destruct (take_nth n rest) as [[kv r]|] eqn:E; [|cbn; lia]. apply take_nth_perm, Permutation_length in E. cbn [length] in E. cbn. lia.
  - cbn; lia.
  - destruct (nth_error (c_timers s) j0); cbn; lia.
  - destruct (nth_error (c_timers s) j); cbn; lia.
  - now destruct (N o).
Qed.
Lemma rank_bound s c : (rank s (entry_pc c) <= 9 + length (c_pipes s))%nat.
Proof. destruct c; cbn; lia. Qed.

Definition running (cfg : ccfg) (z : sys) : Prop := exists h a, sim cfg z h a.
Lemma running_start cfg : running cfg start.
Proof. exists [], new_collector. apply sim_start. Qed.
Lemma running_step cfg z e : running cfg z -> running cfg (fst (mstep cfg z e)).
Proof. intros (h & a & M). destruct (sim_step cfg z h a e M) as (h2 & a' & _ & M'). now exists (h ++ h2), a'. Qed.
Lemma running_run cfg z es : running cfg z -> running cfg (fst (mrun cfg z es)).
Proof. intros (h & a & M). destruct (sim_run cfg es z h a M) as (h2 & a' & _ & M'). now exists (h ++ h2), a'. Qed.

(** While [w] holds the mutex the steps of others leave it where it is. *)
Lemma others cfg z w c i e : running cfg z -> at_ z w = Holding c i -> (forall n, e <> Go w n) ->
  at_ (fst (mstep cfg z e)) w = Holding c i /\ c_pipes (shared (fst (mstep cfg z e))) = c_pipes (shared z).
Proof.
  intros (h & a & M) HW NG. pose proof (m_holder _ _ _ _ M w _ _ HW) as HM.
  destruct e as [v d|v|v n|tid]; cbn [mstep].
  - destruct (at_ z v) eqn:HV; try (split; [exact HW|reflexivity]).
    assert (w <> v) by congruence.
    destruct d; cbn [fst at_ shared]; try (split; [exact HW|reflexivity]); rewrite moves_other by assumption; auto.
  - destruct (at_ z v) eqn:HV; try (split; [exact HW|reflexivity]). rewrite HM. auto.
  - assert (N : w <> v) by (intros ->; now apply (NG n)).
    destruct (at_ z v) as [| |d|d j|tid] eqn:HV; try (split; [exact HW|reflexivity]).
    + apply (m_holder _ _ _ _ M) in HV. congruence.
    + destruct (nth_error (c_timers (shared z)) tid) as [tm|]; [|auto]. cbn [fst at_ shared]. rewrite moves_other by assumption. auto.
  - destruct (nth_error (c_timers (shared z)) tid) as [tm|] eqn:HT; [|auto].
    destruct (tm_state tm) eqn:HS; auto. cbn [fst at_ shared]. rewrite moves_other; [auto|]. intros ->.
    destruct (m_absent _ _ _ _ M tid) as (x & A & B); [congruence|]. rewrite HT in A. injection A as <-. rewrite HS in B.
    destruct B as [B|[B|B]]; discriminate.
Qed.
Lemma mrun_cons cfg z e es : mrun cfg z (e :: es) =
  (fst (mrun cfg (fst (mstep cfg z e)) es), snd (mstep cfg z e) ++ snd (mrun cfg (fst (mstep cfg z e)) es)).
Proof. cbn [mrun]. destruct (mstep cfg z e) as [z1 h1]. cbn [fst snd]. now destruct (mrun cfg z1 es). Qed.
Lemma mrun_app cfg es es' : forall z, mrun cfg z (es ++ es') =
  (fst (mrun cfg (fst (mrun cfg z es)) es'), snd (mrun cfg z es) ++ snd (mrun cfg (fst (mrun cfg z es)) es')).
Proof.
  induction es as [|e es IH]; intros z.
  - cbn [app mrun fst snd]. now destruct (mrun cfg z es').
  - cbn [app]. rewrite !mrun_cons, IH. cbn [fst snd]. now rewrite app_assoc.
Qed.
Lemma go_holding cfg z w c i n : at_ z w = Holding c i -> (forall o, i <> AtUnlock o) ->
  mstep cfg z (Go w n) = ({| shared := fst (micro cfg n (shared z) i); mutex := mutex z;
    at_ := moves (at_ z) w (Holding c (snd (micro cfg n (shared z) i))) |}, []).
Proof.
  intros H N. cbn [mstep]. rewrite H. destruct i as [| | | | | | | | | | | | | | |o]; try (now destruct (N o)).
  all: now destruct (micro _ _ _ _).
Qed.
Lemma returns_within cfg w c es : forall z i, running cfg z -> at_ z w = Holding c i ->
  (rank (shared z) i < turns w es)%nat -> exists o, In (Returns w c o) (snd (mrun cfg z es)).
Proof.
  induction es as [|e es IH]; intros z i RZ HW HT; [cbn in HT; lia|]. rewrite mrun_cons. cbn [snd].
  assert (CASE : (exists n, e = Go w n) \/ (forall n, e <> Go w n) /\ turns w (e :: es) = turns w es).
  { destruct e as [v d|v|v n|tid]; try (right; split; [discriminate|reflexivity]).
    destruct (who_dec v w) as [->|N]; [left; now exists n|]. right. split; [congruence|].
    unfold turns. cbn [filter]. now rewrite who_eqb_neq by assumption. }
  destruct CASE as [(n & ->)|(NG & ET)].
  - assert (ET : turns w (Go w n :: es) = S (turns w es)) by (unfold turns; cbn [filter]; now rewrite who_eqb_refl).
    rewrite ET in HT. assert (U : (exists o, i = AtUnlock o) \/ forall o, i <> AtUnlock o).
    { destruct i; try (right; discriminate). left. eauto. }
    destruct U as [(o & ->)|NU].
    + exists o. apply in_or_app. left. cbn [mstep]. rewrite HW. now left.
    + pose proof (running_step cfg z (Go w n) RZ) as R1. rewrite (go_holding cfg z w c i n HW NU) in *. cbn [fst snd app] in *.
      pose proof (micro_rank cfg n (shared z) i NU) as MR.
      eapply IH; [exact R1|cbn [at_]; apply moves_same|]. cbn [shared]. lia.
  - destruct (others cfg z w c i e RZ HW NG) as [A B]. pose proof (running_step cfg z e RZ) as R1.
    destruct (IH (fst (mstep cfg z e)) i R1 A) as (o & HO).
    + rewrite ET in HT. destruct i; cbn [rank] in *; rewrite ?B; lia.
    + exists o. apply in_or_app. now right.
Qed.

(** Left to itself the holder returns; nobody else moves. *)
Lemma drive cfg w c : forall k z i, running cfg z -> at_ z w = Holding c i -> (rank (shared z) i = k)%nat ->
  let r := mrun cfg z (repeat (Go w 0) (S k)) in
  mutex (fst r) = None /\ (exists o, In (Returns w c o) (snd r)) /\ (forall v, v <> w -> at_ (fst r) v = at_ z v) /\
  (forall d j, at_ (fst r) w <> Holding d j) \/
  exists m, (m < k)%nat /\ let r := mrun cfg z (repeat (Go w 0) (S m)) in
  mutex (fst r) = None /\ (exists o, In (Returns w c o) (snd r)) /\ (forall v, v <> w -> at_ (fst r) v = at_ z v) /\
  (forall d j, at_ (fst r) w <> Holding d j).
Proof.
  induction k as [k IH] using lt_wf_ind. intros z i RZ HW RK r0.
  assert (U : (exists o, i = AtUnlock o) \/ forall o, i <> AtUnlock o).
  { destruct i; try (right; discriminate). left. eauto. }
  destruct U as [(o & ->)|NU].
  - cbn [rank] in RK. subst k. left. subst r0. cbn [repeat]. rewrite mrun_cons. cbn [mstep]. rewrite HW. cbn [fst snd mrun mutex at_].
    repeat split.
    + exists o. now left.
    + intros v N. now rewrite moves_other.
    + intros d j. rewrite moves_same. destruct c; discriminate.
  - pose proof (running_step cfg z (Go w 0) RZ) as R1.
    pose proof (go_holding cfg z w c i 0 HW NU) as EG. rewrite EG in R1. cbn [fst] in R1.
    pose proof (micro_rank cfg 0 (shared z) i NU) as MR. rewrite RK in MR.
    set (z1 := {| shared := _; mutex := _; at_ := _ |}) in *.
    assert (H1 : at_ z1 w = Holding c (snd (micro cfg 0 (shared z) i))) by (cbn [z1 at_]; apply moves_same).
    assert (G : exists m, (m < k)%nat /\ let r := mrun cfg z1 (repeat (Go w 0) (S m)) in
      mutex (fst r) = None /\ (exists o, In (Returns w c o) (snd r)) /\ (forall v, v <> w -> at_ (fst r) v = at_ z1 v) /\
      (forall d j, at_ (fst r) w <> Holding d j)).
    { destruct (IH _ MR z1 _ R1 H1 eq_refl) as [X|(m & LM & X)].
      - exists (rank (shared z1) (snd (micro cfg 0 (shared z) i))). split; [exact MR|exact X].
      - exists m. split; [|exact X]. cbn [z1 shared] in LM. lia. }
    destruct G as (m & LM & X). cbv zeta in X. destruct X as (X1 & (o & X2) & X3 & X4).
    assert (Y : mrun cfg z (repeat (Go w 0) (S (S m))) =
      (fst (mrun cfg z1 (repeat (Go w 0) (S m))), snd (mrun cfg z1 (repeat (Go w 0) (S m))))).
    { change (repeat (Go w 0) (S (S m))) with (Go w 0 :: repeat (Go w 0) (S m)). now rewrite mrun_cons, EG. }
    assert (Z : let r := mrun cfg z (repeat (Go w 0) (S (S m))) in
      mutex (fst r) = None /\ (exists o, In (Returns w c o) (snd r)) /\ (forall v, v <> w -> at_ (fst r) v = at_ z v) /\
      (forall d j, at_ (fst r) w <> Holding d j)).
    { cbv zeta. rewrite Y. cbn [fst snd]. repeat split; eauto.
      intros v N. rewrite X3 by assumption. cbn [z1 at_]. now rewrite moves_other. }
    destruct (Nat.eq_dec (S m) k) as [E|N].
    + left. subst r0. rewrite <- E. exact Z.
    + right. exists (S m). split; [lia|exact Z].
Qed.

Lemma drives cfg w c z i : running cfg z -> at_ z w = Holding c i ->
  exists m, (m <= rank (shared z) i)%nat /\ let r := mrun cfg z (repeat (Go w 0) (S m)) in
  mutex (fst r) = None /\ (exists o, In (Returns w c o) (snd r)) /\ (forall v, v <> w -> at_ (fst r) v = at_ z v).
Proof.
  intros RZ HW. destruct (drive cfg w c _ z i RZ HW eq_refl) as [(A & B & C & _)|(m & L & A & B & C & _)].
  - exists (rank (shared z) i). split; [lia|]. auto.
  - exists m. split; [lia|]. auto.
Qed.
Lemma progress cfg z w c : running cfg z -> at_ z w = Waiting c ->
  exists v n m, let es := repeat (Go v 0) n ++ [Acquire w] ++ repeat (Go w 0) m in
    exists o, In (Returns w c o) (snd (mrun cfg z es)).
Proof.
  intros RZ HW.
  assert (P : forall z, running cfg z -> at_ z w = Waiting c -> mutex z = None ->
    exists m o, In (Returns w c o) (snd (mrun cfg z ([Acquire w] ++ repeat (Go w 0) m)))).
  { clear z RZ HW. intros z RZ HW HM. pose proof (running_step cfg z (Acquire w) RZ) as R1.
    assert (E : mstep cfg z (Acquire w) =
      ({| shared := shared z; mutex := Some w; at_ := moves (at_ z) w (Holding c (entry_pc c)) |}, [])).
    { cbn [mstep]. now rewrite HW, HM. }
    rewrite E in R1. cbn [fst] in R1. set (z1 := {| shared := _; mutex := _; at_ := _ |}) in *.
    destruct (drives cfg w c z1 (entry_pc c) R1) as (m & _ & _ & (o & HO) & _); [cbn [z1 at_]; apply moves_same|].
    exists (S m), o. cbn [app]. rewrite mrun_cons, E. exact HO. }
  destruct (mutex z) as [v|] eqn:HM.
  - pose proof RZ as (h & a & M). destruct (m_held _ _ _ _ M v HM) as (d & i & HV).
    destruct (drives cfg v d z i RZ HV) as (n & _ & A & _ & C). cbv zeta in A, C.
    assert (N : w <> v) by congruence.
    destruct (P (fst (mrun cfg z (repeat (Go v 0) (S n))))) as (m & o & HO);
      [now apply running_run|rewrite C by assumption; assumption|assumption|].
    exists v, (S n), m. cbv zeta. exists o. rewrite mrun_app. cbn [snd]. apply in_or_app. right. exact HO.
  - destruct (P z RZ HW HM) as (m & o & HO). exists w, O, m. cbv zeta. exists o. exact HO.
Qed.

(** ** What is seen *)
Definition sub {A} (l l' : list A) : Prop := exists r, Permutation l' (l ++ r).
Lemma sub_trans {A} (l m n : list A) : sub l m -> sub m n -> sub l n.
Proof. intros [r H] [q K]. exists (r ++ q). rewrite app_assoc. now rewrite <- H. Qed.
Lemma nodup_left {A} (l r : list A) : NoDup (l ++ r) -> NoDup l.
Proof.
  induction l as [|x l IH]; intros H; [constructor|]. cbn [app] in H. inversion H as [|y k HI HN]; subst.
  constructor; [|auto]. intros X. apply HI, in_or_app. now left.
Qed.
Lemma sub_nodup {A} (l m : list A) : sub l m -> NoDup m -> NoDup l.
Proof. intros [r H] N. apply (Permutation_NoDup H) in N. now apply nodup_left in N. Qed.
Lemma sub_incl {A} (l m : list A) : sub l m -> incl l m.
Proof. intros [r H] x HX. apply (Permutation_in x (Permutation_sym H)). apply in_or_app. now left. Qed.
Lemma sub_app {A} (l m l' m' : list A) : sub l m -> sub l' m' -> sub (l ++ l') (m ++ m').
Proof.
  intros [r H] [q K]. exists (r ++ q). rewrite H, K, <- !app_assoc. apply Permutation_app_head.
  rewrite !app_assoc. apply Permutation_app_tail. apply Permutation_app_comm.
Qed.
Lemma sub_perm {A} (l m : list A) : Permutation l m -> sub l m.
Proof. intros H. exists []. rewrite app_nil_r. now symmetry. Qed.
Lemma sub_left {A} (l m : list A) : sub l (l ++ m).
Proof. now exists m. Qed.
Lemma sub_right {A} (l m : list A) : sub m (l ++ m).
Proof. exists l. apply Permutation_app_comm. Qed.
Lemma sub_nil {A} (l : list A) : sub [] l.
Proof. now exists l. Qed.
Lemma sub_flat {A B} (f : A -> list B) l m : sub l m -> sub (flat_map f l) (flat_map f m).
Proof. intros [r H]. exists (flat_map f r). rewrite <- flat_map_app. now apply Permutation_flat_map. Qed.

(** If what each goroutine did in [L] is the beginning of what it did in [P], then
    all of [L] is part of [P]. *)
Definition by_who {A} (w : who) (x : who * A) : bool := who_eqb (fst x) w.
Lemma prefixes {A} (L : list (who * A)) : forall P,
  (forall w, exists r, filter (by_who w) P = filter (by_who w) L ++ r) -> sub L P.
Proof.
  induction L as [|[w g] L IH]; intros P H; [apply sub_nil|].
  destruct (H w) as (r & E). cbn [filter] in E. change (by_who w (w, g)) with (who_eqb w w) in E. rewrite who_eqb_refl in E. cbn [app] in E.
  assert (S : exists P1 P2, P = P1 ++ (w, g) :: P2 /\ filter (by_who w) P1 = []).
  { clear -E. induction P as [|x P IH]; [discriminate|]. cbn [filter] in E. destruct (by_who w x) eqn:B.
    - exists [], P. injection E as -> _. auto.
    - destruct (IH E) as (P1 & P2 & -> & F). exists (x :: P1), P2. split; [reflexivity|]. cbn [filter]. now rewrite B. }
  destruct S as (P1 & P2 & -> & F1).
  destruct (IH (P1 ++ P2)) as (q & HQ).
  - intros v. destruct (H v) as (r' & E'). rewrite filter_app in E'. cbn [filter] in E'. rewrite filter_app.
    change (by_who v (w, g)) with (who_eqb w v) in E'. destruct (who_eqb w v) eqn:B; [|eauto].
    apply who_eqb_eq in B. subst v. rewrite F1 in E' |- *. cbn [app] in *. injection E' as E'. eauto.
  - exists q. cbn [app]. rewrite <- HQ. symmetry. apply Permutation_middle.
Qed.

Definition made (h : list item) : list (who * call) :=
  flat_map (fun x => match x with Calls w c => [(w, c)] | _ => [] end) h.
Definition took (h : list item) : list (who * call) :=
  flat_map (fun x => match x with Lin w c _ => [(w, c)] | _ => [] end) h.
Lemma made_app h h' : made (h ++ h') = made h ++ made h'.
Proof. apply flat_map_app. Qed.
Lemma took_app h h' : took (h ++ h') = took h ++ took h'.
Proof. apply flat_map_app. Qed.
Lemma stage_made w h st : stage_of w h st ->
  filter (by_who w) (made h) = filter (by_who w) (took h) ++ match st with Called c => [(w, c)] | _ => [] end.
Proof.
  induction 1 as [|h c S IH|h c o S IH|h c o S IH|h x st B S IH]; [reflexivity|..];
    rewrite made_app, took_app, !filter_app, IH.
  - change (made [Calls w c]) with [(w, c)]. change (took [Calls w c]) with (@nil (who * call)). cbn [filter].
    change (by_who w (w, c)) with (who_eqb w w). now rewrite who_eqb_refl, !app_nil_r.
  - change (made [Lin w c o]) with (@nil (who * call)). change (took [Lin w c o]) with [(w, c)]. cbn [filter].
    change (by_who w (w, c)) with (who_eqb w w). now rewrite who_eqb_refl, !app_nil_r.
  - change (made [Returns w c o]) with (@nil (who * call)). change (took [Returns w c o]) with (@nil (who * call)). cbn [filter].
    now rewrite !app_nil_r.
  - assert (E : filter (by_who w) (made [x]) = [] /\ filter (by_who w) (took [x]) = []).
    { destruct x as [v c|v c o|tid|tid o|v c o]; cbn [about] in B; cbn; unfold by_who; cbn; rewrite ?B; auto. }
    destruct E as [-> ->]. now rewrite !app_nil_r.
Qed.
Lemma took_made h : orderly h -> sub (took h) (made h).
Proof. intros O. apply prefixes. intros w. destruct (O w) as (st & S). rewrite (stage_made w h st S). eauto. Qed.

Lemma erase_flat {B} (f : item -> list B) h : (forall w c o, f (Lin w c o) = []) -> flat_map f (erase h) = flat_map f h.
Proof.
  intros F. induction h as [|x h IH]; [reflexivity|]. unfold erase. cbn [filter].
  destruct x as [v c|v c o|tid|tid o|v c o]; cbn [flat_map]; rewrite ?F; cbn [app]; now rewrite <- IH.
Qed.
Lemma erase_made h : made (erase h) = made h.
Proof. now apply erase_flat. Qed.
Lemma erase_rets h : rets (erase h) = rets h.
Proof. now apply erase_flat. Qed.
Lemma erase_came h : came_back (erase h) = came_back h.
Proof. now apply erase_flat. Qed.
Lemma erase_in h x : In x h -> (forall w c o, x <> Lin w c o) -> In x (erase h).
Proof. intros H N. apply filter_In. split; [assumption|]. destruct x; auto. now destruct (N w c o). Qed.
Definition collected (x : who * call) : list seg := match snd x with CallCollect g => [g] | _ => [] end.
Lemma given_made h : given h = flat_map collected (made h).
Proof.
  unfold given, made. induction h as [|x h IH]; [reflexivity|]. cbn [flat_map]. rewrite flat_map_app, <- IH.
  f_equal. now destruct x as [v []| | | |].
Qed.

Lemma all_taken_sub h : sub (all_taken (map fst (effects h)) (map snd (effects h))) (flat_map collected (took h)).
Proof.
  induction h as [|x h IH]; [apply sub_nil|].
  destruct x as [v c|v c o|tid|tid o|v c o]; try exact IH.
  change (effects (Lin v c o :: h)) with ((event_of c, o) :: effects h).
    change (took (Lin v c o :: h)) with ((v, c) :: took h). cbn [map fst snd all_taken flat_map]. apply sub_app; [|exact IH].
    unfold collected. cbn [snd]. destruct c as [g| | |tid]; cbn [event_of taken]; try apply sub_nil; try (destruct o; apply sub_nil).
    destruct o as [[d [[]|]|]| | |]; try apply sub_nil; now apply sub_perm.
Qed.
Definition outs (h : list item) : list seg := flat_map (fun o => returned o ++ handled o) (map snd (effects h)).
Definition back (x : who * call * output) : list seg := returned (snd x).
Lemma came_sub h : (exists r, lins h = rets h ++ r) -> sub (came_back h) (outs h).
Proof.
  intros [r LR].
  assert (A : sub (came_back h) (flat_map back (rets h) ++ flat_map (fun x => match x with Handled _ o => handled o | _ => [] end) h)).
  { clear LR. apply sub_perm. induction h as [|x h IH]; [reflexivity|].
    destruct x as [v c|v c o|tid|tid o|v c o]; cbn [came_back rets flat_map app]; fold (came_back h) (rets h); auto.
    - unfold back at 1. cbn [snd]. rewrite <- app_assoc. now apply Permutation_app_head.
    - rewrite IH. rewrite !app_assoc. apply Permutation_app_tail, Permutation_app_comm. }
  assert (B : sub (flat_map back (lins h) ++ flat_map (fun x => match x with Handled _ o => handled o | _ => [] end) h) (outs h)).
  { clear. induction h as [|x h IH]; [apply sub_nil|].
    destruct x as [v c|v c o|tid|tid o|v c o]; try exact IH.
    - unfold outs. cbn [effects flat_map map fst snd app lins]. fold (lins h) (effects h). fold (outs h).
      eapply sub_trans; [|apply sub_app; [apply sub_right|exact IH]].
      apply sub_perm. rewrite !app_assoc. apply Permutation_app_tail, Permutation_app_comm.
    - unfold outs. cbn [effects flat_map map fst snd app lins]. fold (lins h) (effects h). fold (outs h).
      unfold back at 1. cbn [snd]. rewrite <- app_assoc. apply sub_app; [apply sub_left|exact IH]. }
  eapply sub_trans; [exact A|]. eapply sub_trans; [|exact B]. rewrite LR, flat_map_app. apply sub_app; [apply sub_left|].
  now apply sub_perm.
Qed.

Lemma outs_split h : Permutation (outs h) (flat_map returned (map snd (effects h)) ++ flat_map handled (map snd (effects h))).
Proof.
  unfold outs. induction (map snd (effects h)) as [|o l IH]; [reflexivity|]. cbn [flat_map]. rewrite IH, <- !app_assoc.
  apply Permutation_app_head. rewrite !app_assoc. apply Permutation_app_tail, Permutation_app_comm.
Qed.

(** The answers of the sequential Collector to the calls, without the timers. *)
Definition lin_events (h : list item) : list (event * output) := map (fun x => (event_of (snd (fst x)), snd x)) (lins h).
Lemma parts_effects m h : parts m (map fst (effects h)) = parts m (map fst (lin_events h)).
Proof.
  unfold lin_events, lins, effects, parts. induction h as [|x h IH]; [reflexivity|].
  destruct x as [v c|v c o|tid|tid o|v c o]; cbn [flat_map app map fst snd]; try exact IH. now rewrite IH.
Qed.
Lemma replies_effects m h : replies m (map fst (effects h)) (map snd (effects h)) =
  replies m (map fst (lin_events h)) (map snd (lin_events h)).
Proof.
  unfold lin_events, lins, effects. induction h as [|x h IH]; [reflexivity|].
  destruct x as [v c|v c o|tid|tid o|v c o]; cbn [flat_map app map fst snd replies]; try exact IH.
  destruct c as [g| | |tid]; cbn [event_of replies]; try exact IH. now rewrite IH.
Qed.
Lemma answers_rets h : answers h = map (fun x => (event_of (snd (fst x)), snd x)) (rets h).
Proof.
  unfold answers, rets. induction h as [|x h IH]; [reflexivity|]. cbn [flat_map]. rewrite map_app, <- IH. f_equal. now destruct x.
Qed.
Lemma effects_in h e : In e (map fst (effects h)) ->
  (exists w c, In (w, c) (took h) /\ e = event_of c) \/ (exists tid, In (Rang tid) h /\ e = EvFire tid) \/ exists tid, e = EvHandler tid.
Proof.
  intros H. apply in_map_iff in H as ([e' o'] & <- & H). apply in_flat_map in H as (x & HX & H). cbn [fst].
  destruct x as [v c|v c o|tid|tid o|v c o]; try contradiction; destruct H as [H|[]]; injection H as <- <-.
  - right. left. eauto.
  - right. right. eauto.
  - left. exists v, c. split; [|reflexivity]. apply in_flat_map. eexists. split; [exact HX|now left].
Qed.
Lemma no_fire cfg m es : forall s, (forall tid, ~ In (EvFire tid) es) -> no_timeout cfg m s es.
Proof.
  induction es as [|e es IH]; intros s H; [exact I|]. cbn [no_timeout]. split.
  - destruct e; auto. exfalso. apply (H tid). now left.
  - apply IH. intros tid X. apply (H tid). now right.
Qed.
Lemma made_in h w c : In (w, c) (made h) <-> In (Calls w c) h.
Proof.
  unfold made. rewrite in_flat_map. split.
  - intros (x & HX & H). destruct x; try contradiction. destruct H as [H|[]]. injection H as -> ->. assumption.
  - intros H. exists (Calls w c). split; [assumption|now left].
Qed.

(** A timer that has fired stays so, with its pipe. *)
Lemma mstep_late cfg z e tid tm : nth_error (c_timers (shared z)) tid = Some tm -> late (tm_state tm) ->
  exists tm', nth_error (c_timers (shared (fst (mstep cfg z e)))) tid = Some tm' /\ late (tm_state tm') /\ tm_pipe tm' = tm_pipe tm.
Proof.
  intros H L. assert (K : exists tm', nth_error (c_timers (shared z)) tid = Some tm' /\ late (tm_state tm') /\ tm_pipe tm' = tm_pipe tm).
  { exists tm. auto. }
  assert (KS : forall j x st, nth_error (c_timers (shared z)) j = Some x -> late st ->
    exists tm', nth_error (c_timers (set_timer (shared z) j x st)) tid = Some tm' /\ late (tm_state tm') /\ tm_pipe tm' = tm_pipe tm).
  { intros j x st HX HL. cbn [set_timer c_timers]. destruct (Nat.eq_dec tid j) as [->|NE].
    - rewrite (nth_upd_same _ _ _ _ HX). eexists; split; [reflexivity|]. split; [exact HL|]. cbn [tm_pipe]. congruence.
    - rewrite nth_upd_other by assumption. exact K. }
  destruct e as [w c|w|w n|j]; cbn [mstep].
  - destruct (at_ z w); try exact K. now destruct c.
  - destruct (at_ z w); try exact K. now destruct (mutex z).
  - destruct (at_ z w) as [| |c|c i|j]; try exact K.
    + destruct i as [| | | | | | | | | | | | | | |o]; try exact K;
        match goal with |- context [micro cfg n (shared z) ?i] =>
          destruct (micro_late cfg n (shared z) i tid tm H L) as (tm' & X);
          destruct (micro cfg n (shared z) i) as [s1 i1]; cbn [fst shared] in *; eauto end.
    + destruct (nth_error (c_timers (shared z)) j) as [x|] eqn:HX; [|exact K]. cbn [fst shared]. apply KS; [assumption|unfold late; auto].
  - destruct (nth_error (c_timers (shared z)) j) as [x|] eqn:HX; [|exact K]. destruct (tm_state x); try exact K.
    cbn [fst shared]. apply KS; [assumption|unfold late; auto].
Qed.
Lemma mrun_late cfg es : forall z tid tm, nth_error (c_timers (shared z)) tid = Some tm -> late (tm_state tm) ->
  exists tm', nth_error (c_timers (shared (fst (mrun cfg z es)))) tid = Some tm' /\ late (tm_state tm') /\ tm_pipe tm' = tm_pipe tm.
Proof.
  induction es as [|e es IH]; intros z tid tm H L; [exists tm; auto|]. rewrite mrun_cons. cbn [fst].
  destruct (mstep_late cfg z e tid tm H L) as (x & A & B & C). destruct (IH _ _ _ A B) as (y & D & E & F).
  exists y. split; [assumption|]. split; [assumption|congruence].
Qed.
