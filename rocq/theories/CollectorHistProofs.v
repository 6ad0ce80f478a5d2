(** What histories of the Collector do to pipes and timers. *)
From Coq Require Import Permutation.
From Verif Require Import GoBase GoLemmas UserData Tpdu Address Collector SpecCollect CollectorProofs CollectorMsgProofs
  CollectorOrderProofs.

(** ** The effect of Collect *)

Inductive target (s : cstate) (key : bytes) (n : Z) (s0 : cstate) (id : nat) : Prop :=
| tg_fresh : new_pipe s key n = (s0, id) -> target s key n s0 id
| tg_plain p : klookup (c_pipes s) key = Some id -> nth_error (c_heap s) id = Some p -> p_cleanup p = None ->
    s0 = s -> target s key n s0 id
| tg_stop p tid tm : klookup (c_pipes s) key = Some id -> nth_error (c_heap s) id = Some p -> p_cleanup p = Some tid ->
    nth_error (c_timers s) tid = Some tm -> tm_state tm = TActive -> s0 = stopped s tid tm -> target s key n s0 id.

Lemma collect_effect cfg s g s' r : collect cfg s g = (s', r) ->
  (s' = s /\ forall d e, r = CReturn (Some d) e -> d = [Some g] /\ is_part g = false) \/
  exists n q ref key err s0 id p0,
    tpdu_concat_info (sg_pdu g) = Some (n, q, ref) /\ 2 <= n /\ 1 <= q <= n /\ pdu_key (sg_pdu g) n ref = (key, err) /\
    target s key n s0 id /\ nth_error (c_heap s0) id = Some p0 /\ nth_error (p_segs p0) (Z.to_nat (q - 1)) = Some None /\
    store cfg s0 id key n q g err = (s', r).
Proof.
  intros H.
  destruct (c_closed s) eqn:O; [unfold collect in H; rewrite O in H; injection H as <- <-; left; split; [reflexivity|discriminate]|].
  destruct (tpdu_concat_info (sg_pdu g)) as [[[n q] ref]|] eqn:EC;
    [|unfold collect in H; rewrite O, EC in H; injection H as <- <-; left; split; [reflexivity|];
      intros d e X; injection X as <- _; split; [reflexivity|]; unfold is_part; now rewrite EC].
  destruct (n <? 2) eqn:E2; [unfold collect in H; rewrite O, EC, E2 in H; injection H as <- <-; left; split; [reflexivity|];
      intros d e X; injection X as <- _; split; [reflexivity|]; unfold is_part; rewrite EC; lia|].
  destruct ((q <? 1) || (n <? q)) eqn:EQ;
    [unfold collect in H; rewrite O, EC, E2, EQ in H; injection H as <- <-; left; split; [reflexivity|discriminate]|].
  destruct (pdu_key (sg_pdu g) n ref) as [key err] eqn:EK.
  assert (R2 : 2 <= n) by lia. assert (RQ : 1 <= q <= n) by lia.
  assert (FR : (let '(s, id) := new_pipe s key n in store cfg s id key n q g err) = (s', r) -> exists s0 id p0,
    target s key n s0 id /\ nth_error (c_heap s0) id = Some p0 /\ nth_error (p_segs p0) (Z.to_nat (q - 1)) = Some None /\
    store cfg s0 id key n q g err = (s', r)).
  { intros HH. destruct (new_pipe s key n) as [s0 id] eqn:EN. exists s0, id. eexists.
    split; [now apply tg_fresh|]. split; [|split; [|exact HH]].
    - unfold new_pipe in EN. injection EN as <- <-. cbn [c_heap]. rewrite nth_error_app2 by lia. rewrite Nat.sub_diag. reflexivity.
    - cbn [p_segs]. apply nth_error_repeat. lia. }
  destruct (collect_cases cfg s g _ _ _ _ _ O EC R2 RQ EK)
    as [(_ & E)|[(id & p & LK & HP & CA)|(id & LK & HP & E)]].
  - rewrite E in H. right. destruct (FR H) as (s0 & id & p0 & A). exists n, q, ref, key, err, s0, id, p0. tauto.
  - destruct CA as [(old & _ & E)|[(HN & CA)|(HN & E)]];
      try (rewrite E in H; injection H as <- <-; left; split; [reflexivity|discriminate]).
    apply idx_nth in HN as (_ & HN). right.
    destruct CA as [(CN & E)|[(tid & tm & CS & HT & [(ES & E)|(_ & E)])|(tid & _ & _ & E)]]; rewrite E in H.
    + exists n, q, ref, key, err, s, id, p. repeat split; auto; try lia. now apply tg_plain with (p := p).
    + exists n, q, ref, key, err, (stopped s tid tm), id, p. repeat split; auto; try lia.
      now apply tg_stop with (p := p) (tid := tid) (tm := tm).
    + destruct (FR H) as (s0 & id0 & p0 & A). exists n, q, ref, key, err, s0, id0, p0. tauto.
    + destruct (FR H) as (s0 & id0 & p0 & A). exists n, q, ref, key, err, s0, id0, p0. tauto.
  - rewrite E in H. injection H as <- <-. left. split; [reflexivity|discriminate].
Qed.

Lemma target_heap s key n s0 id i p : target s key n s0 id -> nth_error (c_heap s) i = Some p ->
  nth_error (c_heap s0) i = Some p.
Proof.
  intros [H|p0 _ _ _ ->|p0 tid tm _ _ _ _ _ ->] HP; auto. unfold new_pipe in H. injection H as <- <-. cbn [c_heap].
  rewrite nth_error_app1; [assumption|]. apply nth_error_Some. congruence.
Qed.
Lemma target_timer s key n s0 id j tm : target s key n s0 id -> nth_error (c_timers s) j = Some tm ->
  tm_state tm <> TActive -> nth_error (c_timers s0) j = Some tm.
Proof.
  intros [H|p0 _ _ _ ->|p0 tid tm' _ _ _ HT HA ->] HJ NA; auto.
  - unfold new_pipe in H. injection H as <- <-. exact HJ.
  - cbn [stopped c_timers]. rewrite nth_upd_other; [assumption|]. intros ->. congruence.
Qed.
Lemma target_ids s key n s0 id i : target s key n s0 id -> In i (map snd (c_pipes s0)) -> In i (map snd (c_pipes s)) \/ i = id.
Proof.
  intros [H|p0 _ _ _ ->|p0 tid tm _ _ _ _ _ ->] HI; auto. unfold new_pipe in H. injection H as <- <-.
  cbn [c_pipes] in HI. apply snd_in in HI as (k & HI). apply in_kset in HI as [(_ & ->)|(HI & _)]; [auto|].
  left. now apply in_snd in HI.
Qed.

Lemma store_heap cfg s id key n q g err s' r p i : store cfg s id key n q g err = (s', r) ->
  nth_error (c_heap s) id = Some p ->
  exists c, nth_error (c_heap s') i = if Nat.eqb i id then Some {| p_cleanup := c;
    p_segs := upd (p_segs p) (Z.to_nat (q - 1)) (Some g); p_frags := p_frags p + 1 |} else nth_error (c_heap s) i.
Proof.
  intros H HP. unfold store in H. rewrite HP in H.
  destruct (p_frags p + 1 =? n); [|destruct (cf_timeout cfg)]; injection H as <- <-; cbn [c_heap];
    eexists; rewrite nth_upd, HP; reflexivity.
Qed.
Lemma store_timer cfg s id key n q g err s' r j tm : store cfg s id key n q g err = (s', r) ->
  nth_error (c_timers s) j = Some tm -> nth_error (c_timers s') j = Some tm.
Proof.
  intros H HJ. unfold store in H. destruct (nth_error (c_heap s) id) as [p|]; [|injection H as <- <-; assumption].
  destruct (p_frags p + 1 =? n); [|destruct (cf_timeout cfg)]; injection H as <- <-; cbn [c_timers]; auto.
  rewrite nth_error_app1; [assumption|]. apply nth_error_Some. congruence.
Qed.
Lemma store_ids cfg s id key n q g err s' r i : store cfg s id key n q g err = (s', r) ->
  In i (map snd (c_pipes s')) -> In i (map snd (c_pipes s)).
Proof.
  intros H HI. unfold store in H. destruct (nth_error (c_heap s) id) as [p|]; [|injection H as <- <-; assumption].
  destruct (p_frags p + 1 =? n); [|destruct (cf_timeout cfg)]; injection H as <- <-; cbn [c_pipes] in HI; auto.
  apply snd_in in HI as (k & HI). apply in_kdelete in HI as (HI & _). now apply in_snd in HI.
Qed.

(** ** Entries are only ever added *)

Definition grows (l l' : list (option seg)) : Prop :=
  length l' = length l /\ forall i g, nth_error l i = Some (Some g) -> nth_error l' i = Some (Some g).
Lemma grows_refl l : grows l l.
Proof. split; auto. Qed.
Lemma grows_trans a b c : grows a b -> grows b c -> grows a c.
Proof. intros (A & B) (C & D). split; [congruence|auto]. Qed.

Lemma collect_grows cfg s g s' r i p : collect cfg s g = (s', r) -> nth_error (c_heap s) i = Some p ->
  exists p', nth_error (c_heap s') i = Some p' /\ grows (p_segs p) (p_segs p').
Proof.
  intros H HP. destruct (collect_effect cfg s g s' r H) as [(-> & _)|(n & q & ref & key & err & s0 & id & p0 & _ & _ & _ & _ & TG & HP0 & HN & ST)].
  { exists p. auto using grows_refl. }
  pose proof (target_heap _ _ _ _ _ _ _ TG HP) as HP1.
  destruct (store_heap cfg s0 id key n q g err s' r p0 i ST HP0) as (c & E). rewrite E.
  destruct (Nat.eqb i id) eqn:EI; [|exists p; auto using grows_refl].
  apply Nat.eqb_eq in EI. subst i. assert (p0 = p) by congruence. subst p0. eexists. split; [reflexivity|].
  cbn [p_segs]. split; [apply upd_length|]. intros j x Hx. rewrite nth_upd_other; [assumption|]. intros ->. congruence.
Qed.

Lemma step_grows cfg s e s' o i p : Inv cfg None s -> step cfg s e = (s', o) -> nth_error (c_heap s) i = Some p ->
  exists p', nth_error (c_heap s') i = Some p' /\ grows (p_segs p) (p_segs p').
Proof.
  intros I H HP.
  assert (SAME : c_heap s' = c_heap s -> exists p', nth_error (c_heap s') i = Some p' /\ grows (p_segs p) (p_segs p')).
  { intros ->. exists p. auto using grows_refl. }
  destruct e as [g| | |tid|tid|tid]; cbn [step] in H.
  - destruct (collect cfg s g) as [s1 r] eqn:E. injection H as <- <-. now apply (collect_grows cfg s g s1 r).
  - injection H as <- <-. apply SAME. now destruct (inv_close cfg s I) as (_ & _ & _ & _ & _ & ->).
  - injection H as <- <-. auto.
  - destruct (nth_error (c_timers s) tid) as [tm|]; [destruct (tm_state tm)|]; injection H as <- <-; auto.
  - destruct (nth_error (c_timers s) tid) as [tm|]; [destruct (tm_state tm)|]; injection H as <- <-; auto. apply SAME.
    unfold expire_pipe. destruct (klookup _ _); [destruct (Nat.eqb _ _)|]; reflexivity.
  - destruct (nth_error (c_timers s) tid) as [tm|]; [destruct (tm_state tm)|]; injection H as <- <-; auto.
Qed.

Lemma run_grows cfg es : forall s i p, Inv cfg None s -> nth_error (c_heap s) i = Some p ->
  exists p', nth_error (c_heap (fst (run cfg s es))) i = Some p' /\ grows (p_segs p) (p_segs p').
Proof.
  induction es as [|e es IH]; intros s i p I HP; [exists p; auto using grows_refl|]. rewrite run_cons. cbn [fst].
  destruct (step cfg s e) as [s1 o] eqn:E. cbn [fst]. destruct (step_grows cfg s e s1 o i p I E HP) as (p1 & HP1 & G1).
  destruct (IH s1 i p1) as (p2 & HP2 & G2); [now apply (inv_step cfg s e s1 o I E)|assumption|].
  exists p2. split; [assumption|]. now apply (grows_trans _ (p_segs p1)).
Qed.

(** ** Pipes that no longer change *)

Definition late (st : tstate) : Prop := st = TFired \/ st = TExpired \/ st = TDone.
Definition frozen (s : cstate) (id : nat) : Prop :=
  (id < length (c_heap s))%nat /\
  (~ In id (map snd (c_pipes s)) \/
   exists j tm, nth_error (c_timers s) j = Some tm /\ tm_pipe tm = id /\ late (tm_state tm)).

Lemma late_step cfg s e s' o j tm : Inv cfg None s -> step cfg s e = (s', o) -> nth_error (c_timers s) j = Some tm ->
  late (tm_state tm) ->
  (nth_error (c_timers s') j = Some tm /\ (tm_state tm = TExpired -> e <> EvHandler j) /\ (tm_state tm = TFired -> e <> EvExpire j)) \/
  (e = EvExpire j /\ tm_state tm = TFired /\ nth_error (c_timers s') j =
      Some {| tm_pipe := tm_pipe tm; tm_key := tm_key tm; tm_state := TExpired |}) \/
  (e = EvHandler j /\ tm_state tm = TExpired /\ nth_error (c_timers s') j =
      Some {| tm_pipe := tm_pipe tm; tm_key := tm_key tm; tm_state := TDone |}).
Proof.
  intros I H HJ LT. assert (NA : tm_state tm <> TActive) by (destruct LT as [E|[E|E]]; rewrite E; discriminate).
  destruct e as [g| | |tid|tid|tid]; cbn [step] in H.
  - left. split; [|split; discriminate]. destruct (collect cfg s g) as [s1 r] eqn:E. injection H as <- <-.
    destruct (collect_effect cfg s g s1 r E) as [(-> & _)|(n & q & ref & key & err & s0 & id & p0 & _ & _ & _ & _ & TG & _ & _ & ST)]; [assumption|].
    apply (store_timer _ _ _ _ _ _ _ _ _ _ _ _ ST). now apply (target_timer _ _ _ _ _ _ _ TG).
  - left. split; [|split; discriminate]. injection H as <- <-. destruct (c_closed s) eqn:O; [unfold close; now rewrite O|].
    rewrite (close_shape cfg s I O). cbn [c_timers]. rewrite nth_error_map, HJ. cbn. f_equal. unfold quench.
    destruct (tm_state tm); congruence.
  - left. split; [|split; discriminate]. now injection H as <- <-.
  - left. split; [|split; discriminate].
    destruct (nth_error (c_timers s) tid) as [x|] eqn:HT; [|injection H as <- <-; assumption].
    destruct (tm_state x) eqn:ES; injection H as <- <-; auto. cbn [set_timer c_timers].
    rewrite nth_upd_other; [assumption|]. intros ->. congruence.
  - destruct (Nat.eq_dec tid j) as [->|NE].
    + rewrite HJ in H. destruct (tm_state tm) eqn:ES.
      3:{ right. left. split; [reflexivity|]. split; [reflexivity|]. injection H as <- <-.
          destruct (inv_expire cfg s j tm I HJ ES) as (_ & _ & _ & ET & _). cbn [set_timer c_timers]. rewrite ET.
          now apply nth_upd_same with (x := tm). }
      all: left; injection H as <- <-; split; [assumption|split; [|congruence]]; congruence.
    + left. split; [|split; congruence].
      destruct (nth_error (c_timers s) tid) as [x|] eqn:HT; [|injection H as <- <-; assumption].
      destruct (tm_state x) eqn:ES; injection H as <- <-; auto. cbn [set_timer c_timers].
      destruct (inv_expire cfg s tid x I HT ES) as (_ & _ & _ & ET & _). rewrite ET. now rewrite nth_upd_other by congruence.
  - destruct (Nat.eq_dec tid j) as [->|NE].
    + rewrite HJ in H. destruct (tm_state tm) eqn:ES.
      4:{ right. right. split; [reflexivity|]. split; [reflexivity|]. injection H as <- _. cbn [set_timer c_timers].
          now apply nth_upd_same with (x := tm). }
      all: left; injection H as <- <-; split; [assumption|split; [congruence|congruence]].
    + left. split; [|split; congruence].
      destruct (nth_error (c_timers s) tid) as [x|] eqn:HT; [|injection H as <- <-; assumption].
      destruct (tm_state x) eqn:ES; injection H as <- <-; auto. cbn [set_timer c_timers].
      now rewrite nth_upd_other by congruence.
Qed.

Lemma frozen_step cfg s e s' o id : Inv cfg None s -> frozen s id -> step cfg s e = (s', o) ->
  frozen s' id /\ pipe_segs s' id = pipe_segs s id.
Proof.
  intros I (LT & FZ) H.
  assert (LT' : (id < length (c_heap s'))%nat).
  { destruct (nth_error (c_heap s) id) as [p|] eqn:HP; [|apply nth_error_None in HP; lia].
    destruct (step_grows cfg s e s' o id p I H HP) as (p' & HP' & _). apply nth_error_Some. congruence. }
  assert (TT : (exists j tm, nth_error (c_timers s) j = Some tm /\ tm_pipe tm = id /\ late (tm_state tm)) ->
               exists j tm, nth_error (c_timers s') j = Some tm /\ tm_pipe tm = id /\ late (tm_state tm)).
  { intros (j & tm & HJ & HP & HL). exists j.
    destruct (late_step cfg s e s' o j tm I H HJ HL) as [(A & _)|[(_ & _ & A)|(_ & _ & A)]]; eexists; split; try exact A;
      split; auto; unfold late; cbn; auto. }
  assert (SAME : c_heap s' = c_heap s -> (forall i, In i (map snd (c_pipes s')) -> In i (map snd (c_pipes s))) ->
    frozen s' id /\ pipe_segs s' id = pipe_segs s id).
  { intros EH EP. split; [|unfold pipe_segs; now rewrite EH]. split; [assumption|]. destruct FZ as [F|F]; [left|right; auto].
    intros HI. now apply F, EP. }
  destruct e as [g| | |tid|tid|tid]; cbn [step] in H.
  - destruct (collect cfg s g) as [s1 r] eqn:E. injection H as <- <-.
    destruct (collect_effect cfg s g s1 r E) as [(-> & _)|(n & q & ref & key & err & s0 & id0 & p0 & _ & _ & _ & _ & TG & HP0 & HN & ST)]; [auto|].
    assert (NE : id <> id0).
    { intros <-. destruct TG as [H|p LK HP CN ->|p tid tm LK HP CS HT HA ->].
      - unfold new_pipe in H. injection H as _ H. lia.
      - apply klookup_in in LK. destruct FZ as [F|(j & x & HJ & HX & HL)]; [now apply in_snd in LK|].
        destruct (i_owner _ _ _ I _ _ _ _ _ LK HP HJ HX) as [S|S]; [|congruence].
        destruct HL as [L|[L|L]]; congruence.
      - apply klookup_in in LK. destruct FZ as [F|(j & x & HJ & HX & HL)]; [now apply in_snd in LK|].
        destruct (i_owner _ _ _ I _ _ _ _ _ LK HP HJ HX) as [S|S]; [destruct HL as [L|[L|L]]; congruence|].
        assert (j = tid) by congruence. subst j. assert (x = tm) by congruence. subst x. destruct HL as [L|[L|L]]; congruence. }
    destruct (store_heap cfg s0 id0 key n q g err s1 r p0 id ST HP0) as (c & EQ).
    apply Nat.eqb_neq in NE. rewrite NE in EQ. apply Nat.eqb_neq in NE.
    split.
    + split; [assumption|]. destruct FZ as [F|F]; [left|right; auto]. intros HI.
      apply (store_ids _ _ _ _ _ _ _ _ _ _ _ ST) in HI. apply (target_ids _ _ _ _ _ _ TG) in HI as [HI|HI]; contradiction.
    + destruct (nth_error (c_heap s) id) as [p|] eqn:HP; [|apply nth_error_None in HP; lia].
      unfold pipe_segs. rewrite EQ, HP, (target_heap _ _ _ _ _ _ _ TG HP). reflexivity.
  - injection H as <- <-. destruct (inv_close cfg s I) as (_ & _ & _ & _ & A & B). apply SAME; [assumption|]. now rewrite A.
  - injection H as <- <-. auto.
  - destruct (nth_error (c_timers s) tid) as [tm|]; [destruct (tm_state tm)|]; injection H as <- <-; auto.
  - destruct (nth_error (c_timers s) tid) as [tm|] eqn:HT; [destruct (tm_state tm) eqn:ES|]; injection H as <- <-; auto.
    apply SAME; [now destruct (inv_expire cfg s tid tm I HT ES) as (_ & _ & _ & _ & ?)|].
    cbn [set_timer c_pipes]. unfold expire_pipe. destruct (klookup _ _); [destruct (Nat.eqb _ _)|]; auto. cbn [c_pipes].
    intros i HI. apply snd_in in HI as (k & HI). apply in_kdelete in HI as (HI & _). now apply in_snd in HI.
  - destruct (nth_error (c_timers s) tid) as [tm|]; [destruct (tm_state tm)|]; injection H as <- <-; auto.
Qed.

Lemma frozen_run cfg es : forall s id, Inv cfg None s -> frozen s id ->
  frozen (fst (run cfg s es)) id /\ pipe_segs (fst (run cfg s es)) id = pipe_segs s id.
Proof.
  induction es as [|e es IH]; intros s id I FZ; [auto|]. rewrite run_cons. cbn [fst].
  destruct (step cfg s e) as [s1 o] eqn:E. cbn [fst]. destruct (frozen_step cfg s e s1 o id I FZ E) as (F1 & E1).
  destruct (IH s1 id) as (F2 & E2); [now apply (inv_step cfg s e s1 o I E)|assumption|]. split; [assumption|congruence].
Qed.

(** A completed message: its pipe is out of the map. *)
Lemma complete_frozen cfg s g s' d : Inv cfg None s -> collect cfg s g = (s', CReturn (Some d) None) -> is_part g = true ->
  exists id, frozen s' id /\ pipe_segs s' id = d.
Proof.
  intros I H HPT. destruct (collect_effect cfg s g s' _ H) as [(_ & F)|(n & q & ref & key & err & s0 & id & p0 & _ & _ & _ & _ & TG & HP0 & _ & ST)].
  { destruct (F d None eq_refl) as (_ & F2). congruence. }
  pose proof ST as ST'. unfold store in ST. rewrite HP0 in ST. exists id.
  assert (ND : NoDup (map snd (c_pipes s0)) /\ In (key, id) (c_pipes s0)).
  { destruct TG as [E|p LK HP CN ->|p tid tm LK HP CS HT HA ->].
    - unfold new_pipe in E. injection E as <- <-. cbn [c_pipes]. split; [|apply in_kset; auto]. unfold kset. cbn [map snd].
      constructor; [|apply kdelete_ids, I]. intros F. apply snd_in in F as (k & F). apply in_kdelete in F as (F & _).
      apply (inv_id cfg None s) in F; [lia|assumption].
    - split; [apply I|now apply klookup_in].
    - split; [apply I|now apply klookup_in]. }
  destruct ND as (ND & IN).
  destruct (p_frags p0 + 1 =? n); [|destruct (cf_timeout cfg); discriminate]. injection ST as <- <-.
  assert (HP1 : nth_error (c_heap s0) id = Some p0) by assumption.
  split.
  - split; cbn [c_heap].
    + rewrite upd_length. apply nth_error_Some. congruence.
    + left. cbn [c_pipes]. intros F. apply snd_in in F as (k & F). apply in_kdelete in F as (F & NE). apply NE.
      now apply (ids_inj _ _ _ _ ND F).
  - unfold pipe_segs. cbn [c_heap]. now rewrite (nth_upd_same _ _ _ _ HP0).
Qed.

(** ** The handler *)

Lemma calls_cons cfg s tid e es s1 o : step cfg s e = (s1, o) ->
  calls tid (e :: es) (o :: snd (run cfg s1 es)) =
  (if (match e with EvHandler j => Nat.eqb j tid | _ => false end)
   then (match o with OHandled d => [d] | _ => [] end) else []) ++ calls tid es (snd (run cfg s1 es)).
Proof.
  intros H. destruct e as [g| | |j|j|j]; destruct o as [r|mm|d|]; cbn [calls app]; try reflexivity;
    destruct (Nat.eqb j tid); reflexivity.
Qed.

Lemma handler_done cfg tid es : forall s tm, Inv cfg None s -> nth_error (c_timers s) tid = Some tm -> tm_state tm = TDone ->
  calls tid es (snd (run cfg s es)) = [].
Proof.
  induction es as [|e es IH]; intros s tm I HT ES; [reflexivity|]. rewrite run_cons. destruct (step cfg s e) as [s1 o] eqn:E.
  cbn [fst snd]. rewrite (calls_cons cfg s tid e es s1 o E).
  destruct (late_step cfg s e s1 o tid tm I E HT) as [(A & _)|[(_ & F & _)|(_ & F & _)]]; try congruence;
    [unfold late; auto|].
  rewrite (IH s1 tm); [|now apply (inv_step cfg s e s1 o I E)|assumption|assumption]. rewrite app_nil_r.
  destruct e as [g| | |j|j|j]; try reflexivity. destruct (Nat.eqb j tid) eqn:EJ; [|reflexivity].
  apply Nat.eqb_eq in EJ. subst j. cbn [step] in E. rewrite HT, ES in E. injection E as _ <-. reflexivity.
Qed.

Lemma handler_expired cfg tid es : cf_handler cfg = true -> forall s tm, Inv cfg None s ->
  nth_error (c_timers s) tid = Some tm -> tm_state tm = TExpired ->
  calls tid es (snd (run cfg s es)) = if existsb (fun e => match e with EvHandler j => Nat.eqb j tid | _ => false end) es
    then [pipe_segs s (tm_pipe tm)] else [].
Proof.
  intros HC. induction es as [|e es IH]; intros s tm I HT ES; [reflexivity|]. rewrite run_cons.
  destruct (step cfg s e) as [s1 o] eqn:E. cbn [fst snd]. rewrite (calls_cons cfg s tid e es s1 o E). cbn [existsb].
  pose proof (proj1 (inv_step cfg s e s1 o I E)) as I1.
  assert (FZ : frozen s (tm_pipe tm)).
  { split; [now apply (i_tpipe _ _ _ I tid)|]. right. exists tid, tm. unfold late. auto. }
  destruct (late_step cfg s e s1 o tid tm I E HT) as [(A & B & _)|[(_ & F & _)|(-> & _ & A)]]; try congruence;
    [unfold late; auto| |].
  - assert (EJ : (match e with EvHandler j => Nat.eqb j tid | _ => false end) = false).
    { destruct e as [g| | |j|j|j]; try reflexivity. apply Nat.eqb_neq. intros ->. now apply B. }
    rewrite EJ. cbn [orb app]. rewrite (IH s1 tm I1 A ES).
    now rewrite (proj2 (frozen_step cfg s e s1 o _ I FZ E)).
  - rewrite Nat.eqb_refl. cbn [orb]. rewrite (handler_done cfg tid es s1 _ I1 A eq_refl), app_nil_r.
    cbn [step] in E. rewrite HT, ES, HC in E. injection E as _ <-. reflexivity.
Qed.

(** A timer that has fired: its callback removes the pipe, then the handler gets
    what the pipe held when the timer fired. *)
Lemma handler_fired cfg tid es : cf_handler cfg = true -> forall s tm, Inv cfg None s ->
  nth_error (c_timers s) tid = Some tm -> tm_state tm = TFired ->
  calls tid es (snd (run cfg s es)) = if expires tid es then [pipe_segs s (tm_pipe tm)] else [].
Proof.
  intros HC. induction es as [|e es IH]; intros s tm I HT ES; [reflexivity|]. rewrite run_cons.
  destruct (step cfg s e) as [s1 o] eqn:E. cbn [fst snd]. rewrite (calls_cons cfg s tid e es s1 o E).
  pose proof (proj1 (inv_step cfg s e s1 o I E)) as I1.
  assert (FZ : frozen s (tm_pipe tm)).
  { split; [now apply (i_tpipe _ _ _ I tid)|]. right. exists tid, tm. unfold late. auto. }
  destruct (late_step cfg s e s1 o tid tm I E HT) as [(A & _ & B)|[(-> & _ & A)|(_ & F & _)]]; try congruence;
    [unfold late; auto| |].
  - assert (EJ : (if (match e with EvHandler j => Nat.eqb j tid | _ => false end)
      then (match o with OHandled d => [d] | _ => [] end) else []) = []).
    { destruct e as [g| | |j|j|j]; try reflexivity. destruct (Nat.eqb j tid) eqn:EJ; [|reflexivity].
      apply Nat.eqb_eq in EJ. subst j. cbn [step] in E. rewrite HT, ES in E. injection E as _ <-. reflexivity. }
    rewrite EJ. cbn [app]. rewrite (IH s1 tm I1 A ES), (proj2 (frozen_step cfg s e s1 o _ I FZ E)).
    destruct e as [g| | |j|j|j]; cbn [expires]; try reflexivity.
    replace (Nat.eqb j tid) with false; [reflexivity|]. symmetry. apply Nat.eqb_neq. intros ->. now apply B.
  - cbn [app expires]. rewrite Nat.eqb_refl, (handler_expired cfg tid es HC s1 _ I1 A eq_refl). cbn [tm_pipe].
    now rewrite (proj2 (frozen_step cfg s (EvExpire tid) s1 o _ I FZ E)).
Qed.

(** ** Every pipe that was ever made *)

Definition HInv (s : cstate) : Prop := forall id p, nth_error (c_heap s) id = Some p -> exists m, m_ok m /\ well m p.

Lemma hinv_step cfg s e s' o : Inv cfg None s -> MInv s -> HInv s -> supported_event e -> step cfg s e = (s', o) -> HInv s'.
Proof.
  intros I M HI SE H.
  assert (SAME : c_heap s' = c_heap s -> HInv s') by (intros E id p; rewrite E; apply HI).
  destruct e as [g| | |tid|tid|tid]; cbn [step] in H.
  - destruct (collect cfg s g) as [s1 r] eqn:E. injection H as <- <-.
    destruct (collect_effect cfg s g s1 r E) as [(-> & _)|(n & q & ref & key & err & s0 & id0 & p0 & HC & R2 & RQ & HK & TG & HP0 & HN & ST)]; [assumption|].
    destruct SE as (TY & SU). unfold is_part in SU. rewrite HC in SU. specialize (SU ltac:(lia)).
    destruct (part_message g n q ref TY SU HC R2) as (m & MO & <- & HS & HK'). rewrite HK in HK'. injection HK' as -> ->.
    assert (W0 : well m p0).
    { destruct TG as [EN|p LK HP CN ->|p tid tm LK HP CS HT HA ->].
      - unfold new_pipe in EN. injection EN as <- <-. cbn [c_heap] in HP0. rewrite nth_error_app2 in HP0 by lia.
        rewrite Nat.sub_diag in HP0. injection HP0 as <-. split; [apply repeat_length|]. cbn [p_frags p_segs].
        split; [now rewrite somes_repeat_none|]. intros i x Hx. apply nth_error_In, repeat_spec in Hx. discriminate.
      - apply klookup_in, M in LK. destruct (proj1 LK (key_nonempty _)) as (m2 & p2 & MO2 & EK & HP2 & W & _). apply key_inj in EK; [|assumption..].
        assert (p2 = p0) by congruence. now subst.
      - apply klookup_in, M in LK. destruct (proj1 LK (key_nonempty _)) as (m2 & p2 & MO2 & EK & HP2 & W & _). apply key_inj in EK; [|assumption..].
        cbn [stopped c_heap] in HP0. assert (p2 = p0) by congruence. now subst. }
    intros id p HP. destruct (store_heap cfg s0 id0 (key_of m) (m_total m) q g None s1 r p0 id ST HP0) as (c & EQ).
    rewrite EQ in HP. destruct (Nat.eqb id id0) eqn:EI.
    + injection HP as <-. exists m. split; [assumption|]. now apply well_upd.
    + destruct (nth_error (c_heap s) id) as [p1|] eqn:HP1.
      * rewrite (target_heap _ _ _ _ _ _ _ TG HP1) in HP. injection HP as <-. now apply (HI id).
      * exfalso. apply Nat.eqb_neq in EI. apply EI. destruct TG as [EN|p' _ _ _ ->|p' tid tm _ _ _ _ _ ->]; try (cbn in HP; congruence).
        unfold new_pipe in EN. injection EN as <- <-. cbn [c_heap] in HP. apply nth_error_None in HP1.
        assert (id < length (c_heap s ++ [{| p_cleanup := None; p_segs := repeat None (Z.to_nat (m_total m)); p_frags := 0 |}]))%nat
          by (apply nth_error_Some; congruence). rewrite app_length in *. cbn in *. lia.
  - injection H as <- <-. apply SAME. now destruct (inv_close cfg s I) as (_ & _ & _ & _ & _ & ->).
  - injection H as <- <-. auto.
  - destruct (nth_error (c_timers s) tid) as [tm|]; [destruct (tm_state tm)|]; injection H as <- <-; auto.
  - destruct (nth_error (c_timers s) tid) as [tm|]; [destruct (tm_state tm)|]; injection H as <- <-; auto. apply SAME.
    unfold expire_pipe. destruct (klookup _ _); [destruct (Nat.eqb _ _)|]; reflexivity.
  - destruct (nth_error (c_timers s) tid) as [tm|]; [destruct (tm_state tm)|]; injection H as <- <-; auto.
Qed.

Lemma hinv_run cfg es : forall s, Inv cfg None s -> MInv s -> HInv s -> Forall supported_event es -> HInv (fst (run cfg s es)).
Proof.
  induction es as [|e es IH]; intros s I M HI HF; [assumption|]. rewrite run_cons. cbn [fst].
  apply Forall_cons_iff in HF as (SE & HF). destruct (step cfg s e) as [s1 o] eqn:E. cbn [fst]. apply IH; auto.
  - now apply (inv_step cfg s e s1 o I E).
  - now apply (minv_step cfg s e s1 o I M (supported_typed e SE) E).
  - now apply (hinv_step cfg s e s1 o I M HI SE E).
Qed.
Lemma reach_hinv cfg s : reachable cfg supported_event s -> HInv s.
Proof.
  intros (es & HF & <-). apply hinv_run; auto using inv_new, minv_new. intros [|id] p HP; discriminate.
Qed.

(** Without the restriction to SUBMIT and DELIVER: a pipe holds parts of one message, or none of them. *)
Definition kind (p : pipe) : Prop := (exists m, m_ok m /\ well m p) \/ forall g, In (Some g) (p_segs p) -> ~ supported g.
Definition GInv (s : cstate) : Prop := forall id p, nth_error (c_heap s) id = Some p -> kind p.

Lemma ginv_step cfg s e s' o : Inv cfg None s -> MInv s -> GInv s -> typed_event e -> step cfg s e = (s', o) -> GInv s'.
Proof.
  intros I M HI TY H.
  assert (SAME : c_heap s' = c_heap s -> GInv s') by (intros E id p; rewrite E; apply HI).
  destruct e as [g| | |tid|tid|tid]; cbn [step] in H.
  - destruct (collect cfg s g) as [s1 r] eqn:E. injection H as <- <-.
    destruct (collect_effect cfg s g s1 r E) as [(-> & _)|(n & q & ref & key & err & s0 & id0 & p0 & HC & R2 & RQ & HK & TG & HP0 & HN & ST)]; [assumption|].
    assert (K : forall c, kind {| p_cleanup := c; p_segs := upd (p_segs p0) (Z.to_nat (q - 1)) (Some g); p_frags := p_frags p0 + 1 |}).
    { intros c. destruct (supported_dec g) as [SU|NS].
      - left. destruct (part_message g n q ref TY SU HC R2) as (m & MO & <- & HS & HK'). rewrite HK in HK'. injection HK' as -> ->.
        exists m. split; [exact MO|]. apply well_upd; try assumption; [|reflexivity].
        destruct TG as [EN|p LK HP CN ->|p tid tm LK HP CS HT HA ->].
        + unfold new_pipe in EN. injection EN as <- <-. cbn [c_heap] in HP0. rewrite nth_error_app2 in HP0 by lia.
          rewrite Nat.sub_diag in HP0. injection HP0 as <-. split; [apply repeat_length|]. cbn [p_frags p_segs].
          split; [now rewrite somes_repeat_none|]. intros i x Hx. apply nth_error_In, repeat_spec in Hx. discriminate.
        + apply klookup_in, M in LK. destruct (proj1 LK (key_nonempty _)) as (m2 & p2 & MO2 & EK & HP2 & W & _).
          apply key_inj in EK; [|assumption..]. assert (p2 = p0) by congruence. now subst.
        + apply klookup_in, M in LK. destruct (proj1 LK (key_nonempty _)) as (m2 & p2 & MO2 & EK & HP2 & W & _).
          apply key_inj in EK; [|assumption..]. cbn [stopped c_heap] in HP0. assert (p2 = p0) by congruence. now subst.
      - right. cbn [p_segs]. rewrite (unsupported_key g n ref NS) in HK. injection HK as <- <-.
        assert (U : forall x, In (Some x) (p_segs p0) -> ~ supported x).
        { destruct TG as [EN|p LK HP CN ->|p tid tm LK HP CS HT HA ->].
          - unfold new_pipe in EN. injection EN as <- <-. cbn [c_heap] in HP0. rewrite nth_error_app2 in HP0 by lia.
            rewrite Nat.sub_diag in HP0. injection HP0 as <-. cbn [p_segs]. intros x Hx. apply repeat_spec in Hx. discriminate.
          - apply klookup_in, M in LK. destruct (proj2 LK eq_refl) as (p2 & HP2 & _ & _ & U). assert (p2 = p0) by congruence. now subst.
          - apply klookup_in, M in LK. destruct (proj2 LK eq_refl) as (p2 & HP2 & _ & _ & U).
            cbn [stopped c_heap] in HP0. assert (p2 = p0) by congruence. now subst. }
        intros x Hx. apply In_nth_error in Hx as (j & Hx). apply nth_upd_inv in Hx as [(_ & Hx & _)|(_ & Hx)]; [congruence|].
        apply U. now apply nth_error_In in Hx. }
    intros id p HP. destruct (store_heap cfg s0 id0 key n q g err s1 r p0 id ST HP0) as (c & EQ).
    rewrite EQ in HP. destruct (Nat.eqb id id0) eqn:EI.
    + injection HP as <-. apply K.
    + destruct (nth_error (c_heap s) id) as [p1|] eqn:HP1.
      * rewrite (target_heap _ _ _ _ _ _ _ TG HP1) in HP. injection HP as <-. now apply (HI id).
      * exfalso. apply Nat.eqb_neq in EI. apply EI. destruct TG as [EN|p' _ _ _ ->|p' tid tm _ _ _ _ _ ->]; try (cbn in HP; congruence).
        unfold new_pipe in EN. injection EN as <- <-. cbn [c_heap] in HP. apply nth_error_None in HP1.
        assert (id < length (c_heap s ++ [{| p_cleanup := None; p_segs := repeat None (Z.to_nat n); p_frags := 0 |}]))%nat
          by (apply nth_error_Some; congruence). rewrite app_length in *. cbn in *. lia.
  - injection H as <- <-. apply SAME. now destruct (inv_close cfg s I) as (_ & _ & _ & _ & _ & ->).
  - injection H as <- <-. auto.
  - destruct (nth_error (c_timers s) tid) as [tm|]; [destruct (tm_state tm)|]; injection H as <- <-; auto.
  - destruct (nth_error (c_timers s) tid) as [tm|]; [destruct (tm_state tm)|]; injection H as <- <-; auto. apply SAME.
    unfold expire_pipe. destruct (klookup _ _); [destruct (Nat.eqb _ _)|]; reflexivity.
  - destruct (nth_error (c_timers s) tid) as [tm|]; [destruct (tm_state tm)|]; injection H as <- <-; auto.
Qed.
Lemma ginv_run cfg es : forall s, Inv cfg None s -> MInv s -> GInv s -> Forall typed_event es -> GInv (fst (run cfg s es)).
Proof.
  induction es as [|e es IH]; intros s I M HI HF; [assumption|]. rewrite run_cons. cbn [fst].
  apply Forall_cons_iff in HF as (SE & HF). destruct (step cfg s e) as [s1 o] eqn:E. cbn [fst]. apply IH; auto.
  - now apply (inv_step cfg s e s1 o I E).
  - now apply (minv_step cfg s e s1 o I M SE E).
  - now apply (ginv_step cfg s e s1 o I M HI SE E).
Qed.
Lemma reach_ginv cfg s : reachable cfg typed_event s -> GInv s.
Proof.
  intros (es & HF & <-). apply ginv_run; auto using inv_new, minv_new. intros [|id] p HP; discriminate.
Qed.

(** ** After Close *)

Lemma closed_step cfg s e s' o : Inv cfg None s -> step cfg s e = (s', o) -> c_closed s = true -> c_closed s' = true.
Proof.
  intros I H C. destruct e as [g| | |tid|tid|tid]; cbn [step] in H.
  - unfold collect in H. rewrite C in H. injection H as <- <-. assumption.
  - injection H as <- <-. now destruct (inv_close cfg s I) as (_ & _ & _ & ? & _).
  - now injection H as <- <-.
  - destruct (nth_error (c_timers s) tid) as [tm|]; [destruct (tm_state tm)|]; injection H as <- <-; auto.
  - destruct (nth_error (c_timers s) tid) as [tm|]; [destruct (tm_state tm)|]; injection H as <- <-; auto.
    unfold expire_pipe. destruct (klookup _ _); [destruct (Nat.eqb _ _)|]; auto.
  - destruct (nth_error (c_timers s) tid) as [tm|]; [destruct (tm_state tm)|]; injection H as <- <-; auto.
Qed.
Lemma closed_run cfg es : forall s, Inv cfg None s -> c_closed s = true -> c_closed (fst (run cfg s es)) = true.
Proof.
  induction es as [|e es IH]; intros s I C; [assumption|]. rewrite run_cons. cbn [fst].
  destruct (step cfg s e) as [s1 o] eqn:E. apply IH; [now apply (inv_step cfg s e s1 o I E)|].
  now apply (closed_step cfg s e s1 o I E).
Qed.
