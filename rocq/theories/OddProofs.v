(** The Collector seen from the parts of other types. *)
From Coq Require Import Permutation.
From Verif Require Import GoBase GoLemmas UserData Tpdu Address Collector SpecCollect CollectorProofs CollectorMsgProofs
  CollectorOrderProofs CollectorHistProofs SpecAlone AloneProofs CmdProofs SpecOdd.

Lemma odd_type_iff g : odd_type g = true <-> ~ supported g.
Proof. unfold odd_type, supported. destruct (Z.eqb_spec (tpdu_type (sg_pdu g)) SmsSubmit), (Z.eqb_spec (tpdu_type (sg_pdu g)) SmsDeliver); cbn; split; intros; try discriminate; tauto. Qed.
Lemma odd_part_iff g n i : odd_part g = Some (n, i) <->
  ~ supported g /\ 2 <= n /\ exists ref, tpdu_concat_info (sg_pdu g) = Some (n, i, ref).
Proof.
  unfold odd_part. rewrite <- odd_type_iff. destruct (tpdu_concat_info (sg_pdu g)) as [[[n' i'] ref]|].
  - destruct (Z.leb_spec 2 n'), (odd_type g); cbn [andb]; split; intros H'; try discriminate;
      try (destruct H' as (? & ? & r & E); injection E as -> -> ->; try discriminate; lia || reflexivity).
    injection H' as -> ->. split; [reflexivity|]. split; [lia|]. eauto.
  - split; [discriminate|]. now intros (_ & _ & r & E).
Qed.
Lemma has_odd_in l : has_odd l = true <-> exists g, In (Some g) l /\ ~ supported g.
Proof.
  unfold has_odd. rewrite existsb_exists. split.
  - intros ([g|] & H1 & H2); [|discriminate]. exists g. split; [exact H1|]. now apply odd_type_iff.
  - intros (g & H1 & H2). exists (Some g). split; [exact H1|]. now apply odd_type_iff.
Qed.
Lemma put_upd {A} (l : list (option A)) i g : 1 <= i -> i <= len l -> put l i g = upd l (Z.to_nat (i - 1)) (Some g).
Proof.
  intros H1 H2. unfold put, len in *. replace (Z.to_nat i) with (S (Z.to_nat (i - 1))) by lia.
  assert (L : (Z.to_nat (i - 1) < length l)%nat) by lia. clear H1 H2. revert L. generalize (Z.to_nat (i - 1)) as k.
  induction l as [|x l IH]; intros [|k] L; cbn [length] in L; try lia; [reflexivity|]. cbn [firstn skipn upd app].
  f_equal. apply IH. lia.
Qed.

(** The pile is the pipe without a key. *)
Lemma pile_key s k id : MInv s -> In (k, id) (c_pipes s) -> has_odd (pipe_segs s id) = true -> k = [].
Proof.
  intros M IN HP. apply has_odd_in in HP as (g & HG & NS). destruct (list_eq_dec Z.eq_dec k []) as [E|NK]; [exact E|].
  destruct (proj1 (M _ _ IN) NK) as (m & p & _ & _ & HP & (_ & _ & W) & _). rewrite (pipe_segs_nth _ _ _ HP) in HG.
  destruct (In_nth_error _ _ HG) as (j & HJ). apply W in HJ. destruct NS.
  destruct HJ as (_ & [(_ & A & _)|(_ & A & _)]); unfold supported; auto.
Qed.
Lemma pile_odd p : pile p -> has_odd (p_segs p) = true.
Proof.
  intros (F & G & U). apply has_odd_in. destruct (somes (p_segs p)) as [|g l] eqn:E; [cbn in F; lia|].
  exists g. assert (HI : In (Some g) (p_segs p)) by (apply somes_in; rewrite E; now left). auto.
Qed.
Lemma key_pile s id : MInv s -> klookup (c_pipes s) [] = Some id -> has_odd (pipe_segs s id) = true.
Proof.
  intros M LK. apply klookup_in in LK. destruct (proj2 (M _ _ LK) eq_refl) as (p & HP & PL).
  rewrite (pipe_segs_nth _ _ _ HP). now apply pile_odd.
Qed.

(** Collect fires no timer. *)
Lemma collect_fires cfg s g s' r j tm : collect cfg s g = (s', r) -> nth_error (c_timers s') j = Some tm ->
  tm_state tm = TFired -> nth_error (c_timers s) j = Some tm.
Proof.
  intros H HT HS. unfold collect in H.
  assert (ST : forall s0 id key n q err s1 r1, store cfg s0 id key n q g err = (s1, r1) ->
    nth_error (c_timers s1) j = Some tm -> nth_error (c_timers s0) j = Some tm).
  { clear - HS. intros s0 id key n q err s1 r1 H HT. unfold store in H. destruct (nth_error (c_heap s0) id); [|now injection H as <- <-].
    destruct (_ =? _); [now injection H as <- <-|]. destruct (cf_timeout cfg); injection H as <- <-; [|exact HT].
    cbn [c_timers] in HT. apply nth_error_snoc in HT as [HT| ->]; [exact HT|discriminate]. }
  destruct (c_closed s); [now injection H as <- <-|].
  destruct (tpdu_concat_info (sg_pdu g)) as [[[n q] ref]|]; [|now injection H as <- <-].
  destruct (n <? 2); [now injection H as <- <-|]. destruct (_ || _); [now injection H as <- <-|].
  destruct (pdu_key (sg_pdu g) n ref) as [key err].
  assert (FR : (let '(s, id) := new_pipe s key n in store cfg s id key n q g err) = (s', r) -> nth_error (c_timers s) j = Some tm).
  { unfold new_pipe. intros HH. exact (ST _ _ _ _ _ _ _ _ HH HT). }
  destruct (klookup _ _) as [id|]; [|auto]. destruct (nth_error (c_heap s) id) as [p|]; [|now injection H as <- <-].
  destruct (idx _ _) as [[o|]|?| |]; try (now injection H as <- <-).
  destruct (p_cleanup p) as [tid|]; [|exact (ST _ _ _ _ _ _ _ _ H HT)].
  unfold stop_timer in H. destruct (nth_error (c_timers s) tid) as [t|]; [|auto].
  destruct (tm_state t); auto. pose proof (ST _ _ _ _ _ _ _ _ H HT) as X. cbn [c_timers] in X.
  apply nth_upd_inv in X as [(_ & -> & _)|(_ & X)]; [discriminate|exact X].
Qed.

Section Odd.
Context (cfg : ccfg).

Definition osim (s : cstate) (r : o_state) : Prop :=
  c_closed s = o_closed r /\
  match o_pile r with
  | None => o_late r = false /\ klookup (c_pipes s) [] = None
  | Some l => exists id p, klookup (c_pipes s) [] = Some id /\ nth_error (c_heap s) id = Some p /\ p_segs p = l /\
      if o_late r then fired s id else live s id
  end.

Lemma osim_start : osim new_collector o_start.
Proof. repeat split. Qed.

(** Steps that do not concern the pile. *)
Lemma osim_other s e s' o r : Inv cfg None s -> MInv s -> typed_event e -> o_concerns s e = [] ->
  step cfg s e = (s', o) -> osim s r -> osim s' r.
Proof.
  intros I M TY CE H (S1 & S2).
  assert (FR : frame s s' [] -> c_closed s' = c_closed s ->
    (forall j tm, e = EvExpire j -> nth_error (c_timers s) j = Some tm -> tm_state tm = TFired ->
      klookup (c_pipes s) [] <> Some (tm_pipe tm)) -> osim s' r).
  { intros (F1 & F2) FC NE. split; [congruence|]. destruct (o_pile r) as [l|]; [|rewrite F1; exact S2].
    destruct S2 as (id & p & LK & HP & PS & LF). exists id, p. destruct (F2 id LK) as (F3 & F4). rewrite F1, F3.
    repeat (split; [assumption|]). destruct (o_late r); [|auto].
    destruct (fired_step cfg s e s' o id I H LF) as [F|(j & tm & E1 & E2 & E3 & E4)]; [exact F|].
    destruct (NE j tm E1 E2 E4). congruence. }
  destruct e as [g| | |tid|tid|tid]; cbn [step o_concerns] in *; try discriminate.
  - pose proof (collect_closed cfg s g) as CC. destruct (collect cfg s g) as [s1 rr] eqn:E. injection H as <- <-.
    apply FR; [|exact CC|discriminate]. apply (collect_frame cfg s g s1 rr [] I E). intros n q ref HC H2 F.
    destruct (supported_dec g) as [SU|NS].
    + destruct (part_message g n q ref TY SU HC H2) as (m & _ & _ & _ & HK). rewrite HK in F. cbn [fst] in F.
      exact (key_nonempty _ F).
    + assert (X : odd_part g = Some (n, q)) by (apply odd_part_iff; eauto). now rewrite X in CE.
  - injection H as <- <-. apply FR; [apply frame_refl|reflexivity|discriminate].
  - destruct (nth_error (c_timers s) tid) as [tm|] eqn:HT; [|injection H as <- <-; apply FR; [apply frame_refl|reflexivity|discriminate]].
    destruct (tm_state tm) eqn:ES; injection H as <- <-; try (apply FR; [apply frame_refl|reflexivity|discriminate]).
    apply FR; [|reflexivity|discriminate]. split; [reflexivity|]. intros id LK. split; [reflexivity|]. intros L j x Hx HP.
    cbn [set_timer c_timers] in Hx. apply nth_upd_inv in Hx as [(-> & -> & _)|(_ & Hx)]; [|now apply (L j)].
    cbn [tm_pipe] in HP. rewrite HP, (key_pile s id M LK) in CE. discriminate.
  - destruct (nth_error (c_timers s) tid) as [tm|] eqn:HT; [|injection H as <- <-; apply FR; [apply frame_refl|reflexivity|]].
    2:{ intros j tm E. injection E as <-. congruence. }
    destruct (tm_state tm) eqn:ES; injection H as <- <-;
      try (apply FR; [apply frame_refl|reflexivity|intros j t E; injection E as <-; intros; congruence]).
    assert (NE : klookup (c_pipes s) [] <> Some (tm_pipe tm)).
    { intros LK. rewrite (key_pile s _ M LK) in CE. cbn [andb] in CE.
      destruct (existsb (Nat.eqb (tm_pipe tm)) (map snd (pipes s))) eqn:EX; [discriminate|]. rewrite <- not_true_iff_false in EX.
      apply EX, existsb_exists. exists (tm_pipe tm). split; [|apply Nat.eqb_refl]. apply klookup_in in LK. now apply (in_map snd) in LK. }
    assert (EX : c_closed (expire_pipe s tm) = c_closed s /\ c_heap (expire_pipe s tm) = c_heap s /\ c_timers (expire_pipe s tm) = c_timers s /\
      klookup (c_pipes (expire_pipe s tm)) [] = klookup (c_pipes s) []).
    { unfold expire_pipe. destruct (klookup (c_pipes s) (tm_key tm)) as [id|] eqn:LK; [|auto].
      destruct (Nat.eqb id (tm_pipe tm)) eqn:EQ; [|auto]. apply Nat.eqb_eq in EQ. subst id. cbn. repeat (split; [reflexivity|]).
      apply klookup_kdelete_other. intros E. rewrite <- E in LK. contradiction. }
    destruct EX as (E0 & EH & ET & EP). apply FR.
    + split; [exact EP|]. intros id LK. cbn [set_timer c_heap]. rewrite EH. split; [reflexivity|]. intros L j x Hx HP.
      cbn [set_timer c_timers] in Hx. rewrite ET in Hx. apply nth_upd_inv in Hx as [(-> & -> & _)|(_ & Hx)]; [discriminate|now apply (L j)].
    + exact E0.
    + intros j t E. injection E as <-. intros HT'. congruence.
  - destruct (nth_error (c_timers s) tid) as [tm|] eqn:HT; [|injection H as <- <-; apply FR; [apply frame_refl|reflexivity|discriminate]].
    destruct (tm_state tm) eqn:ES; injection H as <- <-; try (apply FR; [apply frame_refl|reflexivity|discriminate]).
    apply FR; [|reflexivity|discriminate]. split; [reflexivity|]. intros id LK. split; [reflexivity|]. intros L j x Hx HP.
    cbn [set_timer c_timers] in Hx. apply nth_upd_inv in Hx as [(-> & -> & _)|(_ & Hx)]; [discriminate|now apply (L j)].
Qed.

Lemma osim_close s r : Inv cfg None s -> osim s r -> osim (close s) (fst (o_react r OClosed)).
Proof.
  intros I (S1 & S2). destruct (inv_close cfg s I) as (_ & _ & _ & C1 & C2 & C3). split; [exact C1|].
  cbn [o_react fst o_pile o_late]. rewrite C2, C3. destruct (o_pile r); [|exact S2].
  destruct S2 as (id & p & LK & HP & PS & LF). exists id, p. repeat (split; [assumption|]). destruct (o_late r).
  - destruct (fired_step cfg s EvClose (close s) ONone id I eq_refl LF) as [F|(j & tm & F & _)]; [exact F|discriminate].
  - now apply (close_live cfg).
Qed.

Lemma osim_late s tid tm r : Inv cfg None s -> MInv s -> nth_error (c_timers s) tid = Some tm -> tm_state tm = TActive ->
  has_odd (pipe_segs s (tm_pipe tm)) = true -> osim s r -> osim (set_timer s tid tm TFired) (fst (o_react r OLate)).
Proof.
  intros I M HT ES HP (S1 & S2). destruct (i_active _ _ _ I _ _ HT ES) as (_ & IN).
  pose proof (pile_key s _ _ M IN HP) as EK. rewrite EK in IN.
  pose proof (klookup_nodup _ _ _ (i_keys _ _ _ I) IN) as LK.
  split; [exact S1|]. cbn [o_react fst o_pile o_late]. destruct (o_pile r) as [l|]; [|destruct S2; congruence].
  destruct S2 as (id & p & LK' & HP' & PS & LF). exists id, p. repeat (split; [assumption|]).
  exists tid. eexists. cbn [set_timer c_timers]. split; [now apply nth_upd_same with (x := tm)|]. cbn. split; [congruence|reflexivity].
Qed.

Lemma osim_removed s tid tm r : Inv cfg None s -> MInv s -> nth_error (c_timers s) tid = Some tm -> tm_state tm = TFired ->
  has_odd (pipe_segs s (tm_pipe tm)) = true -> existsb (Nat.eqb (tm_pipe tm)) (map snd (pipes s)) = true -> osim s r ->
  osim (set_timer (expire_pipe s tm) tid tm TExpired) (fst (o_react r ORemoved)).
Proof.
  intros I M HT ES HP HX (S1 & S2).
  apply existsb_exists in HX as (id & HI & EQ). apply Nat.eqb_eq in EQ. subst id.
  apply in_map_iff in HI as ((k & id) & E & IN). cbn [snd] in E. subst id. unfold pipes in IN.
  pose proof (pile_key s _ _ M IN HP) as EK. rewrite EK in IN.
  pose proof (klookup_nodup _ _ _ (i_keys _ _ _ I) IN) as LK.
  destruct (proj2 (M _ _ IN) eq_refl) as (p & HH & _).
  assert (TK : tm_key tm = []).
  { destruct (i_owner _ _ _ I _ _ _ _ _ IN HH HT eq_refl) as [F|F]; [congruence|].
    destruct (i_cleanup _ _ _ I _ _ _ _ IN HH F) as (tm' & E & _ & K & _). congruence. }
  assert (EE : expire_pipe s tm = {| c_closed := c_closed s; c_pipes := kdelete (c_pipes s) [];
                 c_heap := c_heap s; c_timers := c_timers s |}).
  { unfold expire_pipe. rewrite TK, LK, Nat.eqb_refl. reflexivity. }
  rewrite EE. split; [exact S1|]. split; [reflexivity|]. cbn [set_timer c_pipes]. apply klookup_kdelete_same.
Qed.

(** A part. *)
Lemma osim_part s n i g s' o r : Inv cfg None s -> MInv s -> odd_part g = Some (n, i) -> step cfg s (EvCollect g) = (s', o) ->
  osim s r -> osim s' (fst (o_react r (OPart n i g))) /\ snd (o_react r (OPart n i g)) = [o].
Proof.
  intros I M HO H SIM. pose proof SIM as (S1 & S2). apply odd_part_iff in HO as (NS & N2 & ref & HC).
  cbn [step] in H. pose proof (collect_closed cfg s g) as CC. destruct (collect cfg s g) as [s1 rr] eqn:E. injection H as <- <-.
  cbn [fst] in CC. cbn [o_react]. rewrite <- S1.
  destruct (c_closed s) eqn:O.
  { unfold collect in E. rewrite O in E. injection E as <- <-. split; [exact SIM|reflexivity]. }
  destruct (negb ((1 <=? i) && (i <=? n))) eqn:RI.
  { unfold collect in E. rewrite O, HC in E. replace (n <? 2) with false in E by lia.
    replace ((i <? 1) || (n <? i)) with true in E by lia. injection E as <- <-. split; [exact SIM|reflexivity]. }
  assert (R : 1 <= i <= n) by lia.
  assert (NEW : forall p', rr = CReturn None (Some (ErrUnsupportedSmsType (tpdu_type (sg_pdu g)))) ->
    klookup (c_pipes s1) [] = Some (length (c_heap s)) -> nth_error (c_heap s1) (length (c_heap s)) = Some p' ->
    p_segs p' = upd (repeat None (Z.to_nat n)) (Z.to_nat (i - 1)) (Some g) ->
    osim s1 {| o_pile := Some (put (repeat None (Z.to_nat n)) i g); o_late := false; o_closed := false |} /\
    [OCollect (CReturn None (Some (ErrUnsupportedSmsType (tpdu_type (sg_pdu g)))))] = [OCollect rr]).
  { intros p' -> LK HP PS. split; [|reflexivity]. split; [exact CC|]. exists (length (c_heap s)), p'.
    split; [exact LK|]. split; [exact HP|]. split.
    { rewrite PS, put_upd; [reflexivity|lia|]. unfold len. rewrite repeat_length. lia. }
    intros j tm HT TP TS. apply (collect_fires cfg s g s1 _ j tm E HT) in TS. apply (i_tpipe _ _ _ I) in TS. lia. }
  destruct (collect_pile cfg s g n i ref s1 rr I M O NS HC N2 R E) as [(LK & ER & LK' & p' & HP & PS & _)|(id & p & LK & HP & PL & D)].
  { destruct (o_pile r) as [l|]; [destruct S2 as (id & p & F & _); congruence|]. now apply (NEW p'). }
  destruct (o_pile r) as [l|]; [|destruct S2; congruence]. destruct S2 as (id' & p' & LK' & HP' & PS & LF).
  assert (id' = id) by congruence. subst id'. assert (p' = p) by congruence. subst p'. subst l.
  pose proof (klookup_in _ _ _ LK) as IN.
  destruct D as [(LT & -> & ->)|[(old & HN & -> & ->)|(HN & D)]].
  { replace (len (p_segs p) <? i) with true by lia. split; [exact SIM|reflexivity]. }
  - assert (LE : (Z.to_nat (i - 1) < length (p_segs p))%nat) by (apply nth_error_Some; congruence).
    replace (len (p_segs p) <? i) with false by (unfold len; lia). rewrite (nth_error_nth _ _ _ HN). split; [exact SIM|reflexivity].
  - assert (LE : (Z.to_nat (i - 1) < length (p_segs p))%nat) by (apply nth_error_Some; congruence).
    replace (len (p_segs p) <? i) with false by (unfold len; lia). rewrite (nth_error_nth _ _ _ HN).
    rewrite !(put_upd (p_segs p)) by (unfold len; lia).
    assert (LN : len (somes (upd (p_segs p) (Z.to_nat (i - 1)) (Some g))) = p_frags p + 1).
    { unfold len. rewrite (Permutation_length (somes_upd _ _ g HN)). destruct PL as (-> & _). cbn [length]. lia. }
    rewrite LN. destruct D as [(tid & tm & PC & HT & TS & ER & LK2 & p2 & HP2 & PS2 & _)|(PC & D)].
    + assert (LT : o_late r = true).
      { destruct (o_late r); [reflexivity|]. exfalso. destruct (i_cleanup _ _ _ I _ _ _ _ IN HP PC) as (tm' & HT' & TP & _ & ST).
        assert (tm' = tm) by congruence. subst tm'. destruct ST as [ST|[ST|([F|F] & _)]]; try congruence; try discriminate.
        now apply (LF tid tm HT TP). }
      rewrite LT. now apply (NEW p2).
    + assert (LT : o_late r = false).
      { destruct (o_late r); [|reflexivity]. exfalso. destruct LF as (j & tm & HT & TP & TS).
        destruct (i_owner _ _ _ I _ _ _ _ _ IN HP HT TP) as [F|F]; [congruence|].
        destruct PC as [PC|(tid & tm' & PC & HT' & TS')]; congruence. }
      rewrite LT in *. destruct D as [(EN & LK2 & ->)|(EN & -> & LK2 & p2 & HP2 & PS2 & _)].
      * replace (p_frags p + 1 =? n) with true by lia. split; [|reflexivity]. split; [exact CC|]. split; [reflexivity|exact LK2].
      * replace (p_frags p + 1 =? n) with false by lia. split; [|reflexivity]. split; [exact CC|]. exists id, p2.
        repeat (split; [assumption|]). intros j tm HT TP TS. pose proof (collect_fires cfg s g s1 _ j tm E HT TS) as HT0.
        now apply (LF j tm HT0 TP).
Qed.

Lemma piled es : forall s r, Inv cfg None s -> MInv s -> Forall typed_event es -> osim s r ->
  odd_replies es (snd (run cfg s es)) = snd (o_reacts r (o_view cfg s es)) /\
  osim (fst (run cfg s es)) (fst (o_reacts r (o_view cfg s es))) /\
  Inv cfg None (fst (run cfg s es)) /\ MInv (fst (run cfg s es)).
Proof.
  induction es as [|e es IH]; intros s r I M SE SIM.
  { cbn. auto. }
  rewrite run_cons. destruct (step cfg s e) as [s1 o] eqn:E. cbn [fst snd].
  apply Forall_cons_iff in SE as (SE1 & SE).
  destruct (inv_step cfg s e s1 o I E) as (I1 & _). pose proof (minv_step cfg s e s1 o I M SE1 E) as M1.
  cbn [o_view]. rewrite E. cbn [fst].
  assert (NIL : o_concerns s e = [] -> odd_replies (e :: es) (o :: snd (run cfg s1 es)) = odd_replies es (snd (run cfg s1 es))).
  { destruct e as [g| | |?|?|?]; cbn [odd_replies o_concerns]; try reflexivity. now destruct (odd_part g) as [[? ?]|]. }
  assert (DONE : o_concerns s e = [] ->
    odd_replies (e :: es) (o :: snd (run cfg s1 es)) = snd (o_reacts r (o_concerns s e ++ o_view cfg s1 es)) /\
    osim (fst (run cfg s1 es)) (fst (o_reacts r (o_concerns s e ++ o_view cfg s1 es))) /\
    Inv cfg None (fst (run cfg s1 es)) /\ MInv (fst (run cfg s1 es))).
  { intros CE. rewrite (NIL CE), CE. cbn [app]. apply IH; auto. exact (osim_other s e s1 o r I M SE1 CE E SIM). }
  assert (ONE : forall me, o_concerns s e = [me] -> osim s1 (fst (o_react r me)) ->
    odd_replies (e :: es) (o :: snd (run cfg s1 es)) = snd (o_react r me) ++ odd_replies es (snd (run cfg s1 es)) ->
    odd_replies (e :: es) (o :: snd (run cfg s1 es)) = snd (o_reacts r (o_concerns s e ++ o_view cfg s1 es)) /\
    osim (fst (run cfg s1 es)) (fst (o_reacts r (o_concerns s e ++ o_view cfg s1 es))) /\
    Inv cfg None (fst (run cfg s1 es)) /\ MInv (fst (run cfg s1 es))).
  { intros me CE S1 RE. rewrite CE, RE. cbn [app o_reacts]. destruct (o_react r me) as [r1 os1]. cbn [fst snd] in *.
    destruct (IH s1 r1 I1 M1 SE S1) as (A & B & C). destruct (o_reacts r1 (o_view cfg s1 es)) as [r2 os2].
    cbn [fst snd] in *. rewrite A. auto. }
  destruct e as [g| | |tid|tid|tid]; try (now apply DONE).
  - cbn [o_concerns] in *. destruct (odd_part g) as [[n i]|] eqn:EO; [|now apply DONE].
    destruct (osim_part s n i g s1 o r I M EO E SIM) as (A & B). apply (ONE (OPart n i g)); [reflexivity|exact A|].
    rewrite B. cbn [odd_replies]. now rewrite EO.
  - apply (ONE OClosed); [reflexivity| |reflexivity]. cbn [step] in E. injection E as <- <-. now apply osim_close.
  - cbn [o_concerns step] in *. destruct (nth_error (c_timers s) tid) as [tm|] eqn:HT; [|now apply DONE].
    destruct (tm_state tm) eqn:ES; try (now apply DONE). destruct (has_odd (pipe_segs s (tm_pipe tm))) eqn:HP; [|now apply DONE].
    injection E as <- <-. apply (ONE OLate); [reflexivity| |reflexivity]. now apply osim_late.
  - cbn [o_concerns step] in *. destruct (nth_error (c_timers s) tid) as [tm|] eqn:HT; [|now apply DONE].
    destruct (tm_state tm) eqn:ES; try (now apply DONE).
    destruct (has_odd (pipe_segs s (tm_pipe tm)) && existsb (Nat.eqb (tm_pipe tm)) (map snd (pipes s))) eqn:HP; [|now apply DONE].
    apply andb_prop in HP as (HP & HX). injection E as <- <-. apply (ONE ORemoved); [reflexivity| |reflexivity]. now apply osim_removed.
Qed.
End Odd.
