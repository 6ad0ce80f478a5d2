(** Segments that arrive more than once. *)
From Coq Require Import Permutation.
From Verif Require Import GoBase GoLemmas UserData Tpdu Address Collector SpecCollect CollectorProofs CollectorMsgProofs
  CollectorOrderProofs CollectorHistProofs SpecAlone AloneProofs P_Alone SpecCopies.

(** Without a timeout of the message and without Close, what concerns it is its
    segments. *)
Lemma in_time_view cfg m : m_ok m -> forall es s r, Inv cfg None s -> MInv s -> Forall typed_event es -> sim m s r ->
  r_late r = false -> Forall (fun e => e <> EvClose) es -> no_timeout cfg m s es ->
  view cfg m s es = map part_of (parts m es).
Proof.
  intros MO. induction es as [|e es IH]; intros s r I M SE SIM LT NC NT; [reflexivity|].
  cbn [view parts flat_map]. fold (parts m es). rewrite map_app. cbn [no_timeout] in NT. destruct NT as (NT1 & NT).
  apply Forall_cons_iff in SE as (SE1 & SE). apply Forall_cons_iff in NC as (NC1 & NC).
  pose proof (alone cfg m MO [e] s r I M (Forall_cons _ SE1 (Forall_nil _)) SIM) as (_ & S1 & I1 & M1).
  rewrite run_cons in S1, I1, M1. destruct (step cfg s e) as [s1 o] eqn:E. cbn [fst snd run view] in *. rewrite app_nil_r in S1.
  assert (C : concerns m s e = map part_of (match e with
                     | EvCollect g => match seg_no m g with Some i => [(i, g)] | None => [] end
                     | _ => []
                     end)).
  { destruct e as [g| | |tid|tid|tid]; cbn [concerns]; try reflexivity.
    - now destruct (seg_no m g).
    - congruence.
    - destruct (nth_error (c_timers s) tid) as [tm|] eqn:HT; [|reflexivity]. destruct (tm_state tm) eqn:ES; try reflexivity.
      destruct (has_part m (pipe_segs s (tm_pipe tm))) eqn:HP; [|reflexivity]. exfalso.
      apply has_part_in in HP as (g & i & IN & HS). rewrite (NT1 tm g eq_refl ES IN) in HS. discriminate.
    - destruct (nth_error (c_timers s) tid) as [tm|] eqn:HT; [|reflexivity]. destruct (tm_state tm) eqn:ES; try reflexivity.
      destruct (has_part m (pipe_segs s (tm_pipe tm)) && existsb (Nat.eqb (tm_pipe tm)) (map snd (pipes s))) eqn:HP; [|reflexivity].
      exfalso. apply andb_prop in HP as (HP & HX). apply existsb_exists in HX as (id & HI & EQ). apply Nat.eqb_eq in EQ. subst id.
      apply in_map_iff in HI as ((k & id) & EI & IN). cbn [snd] in EI. subst id. unfold pipes in IN.
      pose proof (shown_key m s _ _ M IN HP) as EK. rewrite EK in IN.
      pose proof (klookup_nodup _ _ _ (i_keys _ _ _ I) IN) as LK.
      destruct SIM as (_ & _ & _ & [(_ & _ & AB)|(_ & id & p & (LK' & _) & _ & LF)]); [unfold absent in AB; congruence|].
      rewrite LT in LF. assert (tm_pipe tm = id) by congruence. exact (LF tid tm HT H ES). }
  rewrite C. f_equal. apply (IH s1 (fst (reacts m r (concerns m s e)))); auto. rewrite C.
  destruct e as [g| | |tid|tid|tid]; try exact LT. destruct (seg_no m g) as [i|]; [|exact LT].
  cbn [map reacts part_of fst snd react]. rewrite LT. destruct (r_closed r); [exact LT|].
  destruct (negb _); [exact LT|]. destruct (existsb _ _); [exact LT|]. now destruct (_ =? _).
Qed.

(** The machine hands out by rounds. *)
Lemma slot_some_in got j : (exists g, slot got j = Some g) <-> In j (map fst got).
Proof.
  rewrite <- existsb_fst. destruct (slot got j) as [g|] eqn:E.
  - split; [|eauto]. intros _. apply not_false_iff_true. intros F. apply slot_none in F. congruence.
  - apply slot_none in E. split; [intros (g & F); discriminate|congruence].
Qed.
Lemma slot_same_in a b j : slot a j = slot b j -> In j (map fst a) <-> In j (map fst b).
Proof. intros E. rewrite <- !slot_some_in. now rewrite E. Qed.

Definition since (m : message) (r : m_state) (ps : list (Z * seg)) : Prop :=
  numbered (Z.to_nat (m_total m)) (rev (r_got r)) /\ r_late r = false /\ r_closed r = false /\
  (forall j, 1 <= j <= m_total m -> slot (r_got r) j = slot ps j) /\ ~ covers (m_total m) ps.

Lemma numbered_covers m got : numbered (Z.to_nat (m_total m)) (rev got) ->
  (covers (m_total m) got <-> (Z.to_nat (m_total m) <= length got)%nat).
Proof.
  intros NU. split.
  - intros C.
    assert (L : (length (map Z.of_nat (seq 1 (Z.to_nat (m_total m)))) <= length (map fst got))%nat).
    { apply NoDup_incl_length.
      - apply FinFun.Injective_map_NoDup; [|apply seq_NoDup]. intros a b. lia.
      - intros x H. apply in_map_iff in H as (k & <- & H). apply in_seq in H. apply C. lia. }
    rewrite !map_length, seq_length in L. exact L.
  - intros L i Hi. destruct (in_dec Z.eq_dec i (map fst got)) as [|NI]; [assumption|]. exfalso.
    pose proof (numbered_few (Z.to_nat (m_total m)) i got NU ltac:(lia) NI). lia.
Qed.

Lemma covers_ext n a b : (forall j, 1 <= j <= n -> slot a j = slot b j) -> covers n a -> covers n b.
Proof. intros E C j Hj. apply (slot_same_in a b j (E j Hj)). now apply C. Qed.

Lemma in_order_ext n a b : (forall j, 1 <= j <= n -> slot a j = slot b j) -> in_order n a = in_order n b.
Proof. intros E. unfold in_order. apply map_ext_in. intros k Hk. apply in_seq in Hk. apply E. lia. Qed.

Lemma reacts_rounds m : 2 <= m_total m -> forall qs ps r, since m r ps ->
  rounds (m_total m) (ps ++ qs) (handed (snd (reacts m r (map part_of qs)))).
Proof.
  intros M2. induction qs as [|[i g] qs IH]; intros ps r (NU & LT & CL & SL & NC).
  { rewrite app_nil_r. cbn. now constructor. }
  assert (GO : forall r', since m r' (ps ++ [(i, g)]) ->
    rounds (m_total m) (ps ++ (i, g) :: qs) (handed (snd (reacts m r' (map part_of qs))))).
  { intros r' S'. pose proof (IH _ _ S') as H. now rewrite <- app_assoc in H. }
  cbn [map part_of fst snd reacts react]. rewrite CL.
  destruct (negb ((1 <=? i) && (i <=? m_total m))) eqn:RG.
  { destruct (reacts m r (map part_of qs)) as [r2 os] eqn:E. cbn [fst snd app handed flat_map].
    replace os with (snd (reacts m r (map part_of qs))) by (now rewrite E). apply GO.
    assert (SX : forall j, 1 <= j <= m_total m -> slot (r_got r) j = slot (ps ++ [(i, g)]) j).
    { intros j Hj. rewrite slot_app, slot_cons, <- SL by assumption. replace (i =? j) with false by lia. now destruct (slot (r_got r) j). }
    repeat split; auto; try apply NU. intros C. apply NC. apply (covers_ext _ (ps ++ [(i, g)])); [|exact C].
    intros j Hj. now rewrite <- SX, SL. }
  destruct (existsb (fun ig => fst ig =? i) (r_got r)) eqn:DU.
  { destruct (reacts m r (map part_of qs)) as [r2 os] eqn:E. cbn [fst snd app handed flat_map].
    replace os with (snd (reacts m r (map part_of qs))) by (now rewrite E). apply GO.
    apply existsb_fst in DU.
    assert (SX : forall j, 1 <= j <= m_total m -> slot (r_got r) j = slot (ps ++ [(i, g)]) j).
    { intros j Hj. rewrite slot_app, slot_cons, <- SL by assumption. destruct (Z.eqb_spec i j) as [<-|N].
      - apply slot_some_in in DU as (x & DU). now rewrite DU.
      - now destruct (slot (r_got r) j). }
    repeat split; auto; try apply NU. intros C. apply NC. apply (covers_ext _ (ps ++ [(i, g)])); [|exact C].
    intros j Hj. now rewrite <- SX, SL. }
  rewrite LT. assert (HI : 1 <= i <= m_total m) by lia.
  assert (NI : ~ In i (map fst (r_got r))) by (rewrite <- existsb_fst; congruence).
  assert (NU' : numbered (Z.to_nat (m_total m)) (rev ((i, g) :: r_got r))).
  { apply numbered_rev_cons. repeat split; auto; try apply NU; try lia. }
  assert (SX : forall j, 1 <= j <= m_total m -> slot ((i, g) :: r_got r) j = slot (ps ++ [(i, g)]) j).
  { intros j Hj. rewrite slot_app, !slot_cons, <- SL by assumption. destruct (Z.eqb_spec i j) as [<-|N].
    - destruct (slot (r_got r) i) eqn:F; [|reflexivity]. exfalso. apply NI. apply slot_some_in. eauto.
    - now destruct (slot (r_got r) j). }
  pose proof (numbered_few _ i (r_got r) NU ltac:(lia) NI) as FEW.
  pose proof (numbered_covers m _ NU') as CV. cbn [length] in CV.
  destruct (len (r_got r) + 1 =? m_total m) eqn:LN.
  - destruct (reacts m _ (map part_of qs)) as [r2 os] eqn:E. cbn [fst snd app handed flat_map].
    rewrite (in_order_ext _ _ _ SX). apply r_round.
    + exact NC.
    + apply (covers_ext _ ((i, g) :: r_got r)); [exact SX|]. apply CV. unfold len in LN. lia.
    + fold (handed os). match type of E with ?x = _ => replace os with (snd x) by (now rewrite E) end. apply (IH [] _).
      repeat split; auto; try constructor. intros C. now apply (C 1 ltac:(lia)).
  - destruct (reacts m _ (map part_of qs)) as [r2 os] eqn:E. cbn [fst snd app handed flat_map].
    match type of E with ?x = _ => replace os with (snd x) by (now rewrite E) end. apply GO.
    split; [exact NU'|]. split; [reflexivity|]. split; [reflexivity|]. split; [exact SX|].
    intros C. apply (covers_ext _ _ ((i, g) :: r_got r)) in C; [|intros j Hj; now rewrite SX]. apply CV in C. unfold len in LN. lia.
Qed.

(** However timers go, a number is handed out as often as it came, at most. *)
Lemma reacts_at_most m i : 1 <= i <= m_total m -> forall es r,
  numbered (Z.to_nat (m_total m)) (rev (r_got r)) ->
  (length (handed (snd (reacts m r es))) <=
   count_occ Z.eq_dec (flat_map (fun e => match e with MPart j _ => [j] | _ => [] end) es) i
   + (if in_dec Z.eq_dec i (map fst (r_got r)) then 1 else 0))%nat.
Proof.
  intros HI. induction es as [|e es IH]; intros r NU; [cbn; lia|].
  cbn [reacts flat_map]. rewrite count_occ_app. destruct (react m r e) as [r1 o] eqn:E.
  specialize (IH r1). destruct (reacts m r1 es) as [r2 os]. cbn [fst snd] in *. unfold handed at 1. rewrite flat_map_app, app_length.
  fold (handed o). fold (handed os).
  assert (NN : numbered (Z.to_nat (m_total m)) (rev [])) by (split; constructor).
  destruct e as [j g| | |]; cbn [react] in E.
  - destruct (r_closed r) eqn:CL; [injection E as <- <-; specialize (IH NU); cbn; lia|].
    destruct (negb ((1 <=? j) && (j <=? m_total m))) eqn:RG; [injection E as <- <-; specialize (IH NU); cbn; lia|].
    destruct (existsb (fun ig => fst ig =? j) (r_got r)) eqn:DU; [injection E as <- <-; specialize (IH NU); cbn; lia|].
    assert (NJ : ~ In j (map fst (r_got r))) by (rewrite <- existsb_fst; congruence).
    destruct (r_late r).
    + injection E as <- <-. cbn [r_got] in IH.
      assert (N1 : numbered (Z.to_nat (m_total m)) (rev [(j, g)])).
      { apply (proj2 (numbered_rev_cons _ j g [])). repeat split; auto; try constructor; lia. }
      specialize (IH N1). cbn [handed flat_map app length count_occ map fst] in *.
      destruct (in_dec Z.eq_dec i [j]) as [IN|N]; destruct (Z.eq_dec j i) as [EJ|NE]; try lia; exfalso; cbn [In] in *; tauto.
    + destruct (len (r_got r) + 1 =? m_total m) eqn:LN.
      * injection E as <- <-. specialize (IH NN). cbn [handed flat_map app length count_occ map fst r_got] in *.
        destruct (in_dec Z.eq_dec i []) as [[]|_] in IH. destruct (Z.eq_dec j i) as [->|N]; [lia|].
        assert (NU' : numbered (Z.to_nat (m_total m)) (rev ((j, g) :: r_got r))).
        { apply numbered_rev_cons. repeat split; auto; try apply NU; try lia. }
        assert (C : covers (m_total m) ((j, g) :: r_got r)) by (apply (numbered_covers m _ NU'); cbn [length]; unfold len in LN; lia).
        destruct (C i HI) as [F|IN]; [cbn in F; congruence|]. destruct (in_dec Z.eq_dec i (map fst (r_got r))); [lia|contradiction].
      * injection E as <- <-. cbn [r_got] in IH.
        assert (NU' : numbered (Z.to_nat (m_total m)) (rev ((j, g) :: r_got r))).
        { apply numbered_rev_cons. repeat split; auto; try apply NU; try lia. }
        specialize (IH NU'). cbn [handed flat_map app length count_occ map fst] in *.
        destruct (in_dec Z.eq_dec i (j :: map fst (r_got r))) as [IN|N]; destruct (Z.eq_dec j i) as [EJ|NE];
          destruct (in_dec Z.eq_dec i (map fst (r_got r))) as [IN'|N']; try lia; exfalso; cbn [In] in *; tauto.
  - injection E as <- <-. specialize (IH NU). cbn. exact IH.
  - injection E as <- <-. specialize (IH NN). cbn in *. lia.
  - injection E as <- <-. specialize (IH NU). cbn. exact IH.
Qed.

(** What is handed out is made of what came, a segment in each place. *)
Lemma reacts_handed m d : 2 <= m_total m -> forall es r, numbered (Z.to_nat (m_total m)) (rev (r_got r)) ->
  In d (handed (snd (reacts m r es))) ->
  exists got, d = in_order (m_total m) got /\ covers (m_total m) got /\
    forall p, In p got -> In p (r_got r) \/ In (MPart (fst p) (snd p)) es.
Proof.
  intros M2. induction es as [|e es IH]; intros r NU HD; [contradiction|].
  cbn [reacts] in HD. destruct (react m r e) as [r1 o] eqn:E. specialize (IH r1). destruct (reacts m r1 es) as [r2 os].
  cbn [snd] in HD, IH. unfold handed in HD. rewrite flat_map_app in HD. fold (handed o) in HD. fold (handed os) in HD.
  apply in_app_iff in HD.
  assert (NN : numbered (Z.to_nat (m_total m)) (rev [])) by (split; constructor).
  assert (LATER : numbered (Z.to_nat (m_total m)) (rev (r_got r1)) ->
    (forall p, In p (r_got r1) -> In p (r_got r) \/ MPart (fst p) (snd p) = e) -> In d (handed os) ->
    exists got, d = in_order (m_total m) got /\ covers (m_total m) got /\
      forall p, In p got -> In p (r_got r) \/ In (MPart (fst p) (snd p)) (e :: es)).
  { intros N1 SUB HO. destruct (IH N1 HO) as (got & A & B & C). exists got. split; [exact A|]. split; [exact B|].
    intros p Hp. destruct (C p Hp) as [X|X]; [|right; now right]. destruct (SUB p X) as [Y|Y]; [now left|right; left; congruence]. }
  destruct e as [j g| | |]; cbn [react] in E.
  - destruct (r_closed r); [injection E as <- <-; destruct HD as [[]|HD]; apply LATER; auto|].
    destruct (negb ((1 <=? j) && (j <=? m_total m))) eqn:RG; [injection E as <- <-; destruct HD as [[]|HD]; apply LATER; auto|].
    destruct (existsb (fun ig => fst ig =? j) (r_got r)) eqn:DU; [injection E as <- <-; destruct HD as [[]|HD]; apply LATER; auto|].
    assert (NJ : ~ In j (map fst (r_got r))) by (rewrite <- existsb_fst; congruence).
    assert (NU' : numbered (Z.to_nat (m_total m)) (rev ((j, g) :: r_got r))).
    { apply numbered_rev_cons. repeat split; auto; try apply NU; try lia. }
    destruct (r_late r).
    + injection E as <- <-. destruct HD as [[]|HD]. apply LATER; auto; cbn [r_got].
      * apply (proj2 (numbered_rev_cons _ j g [])). repeat split; auto; try constructor; lia.
      * intros p [<-|[]]. now right.
    + destruct (len (r_got r) + 1 =? m_total m) eqn:LN.
      * injection E as <- <-. destruct HD as [[<-|[]]|HD].
        -- exists ((j, g) :: r_got r). split; [reflexivity|]. split; [apply (numbered_covers m _ NU'); cbn [length]; unfold len in LN; lia|].
           intros p [<-|Hp]; [right; now left|now left].
        -- apply LATER; auto. intros p [].
      * injection E as <- <-. destruct HD as [[]|HD]. apply LATER; auto. intros p [<-|Hp]; auto.
  - injection E as <- <-. destruct HD as [[]|HD]. apply LATER; auto.
  - injection E as <- <-. destruct HD as [[]|HD]. apply LATER; auto. intros p [].
  - injection E as <- <-. destruct HD as [[]|HD]. apply LATER; auto.
Qed.

(** The segments told to the machine are those collected. *)
Lemma view_parts cfg m es : forall s,
  flat_map (fun e => match e with MPart j g => [(j, g)] | _ => [] end) (view cfg m s es) = parts m es.
Proof.
  induction es as [|e es IH]; intros s; [reflexivity|]. cbn [view parts flat_map]. rewrite flat_map_app, IH. f_equal.
  destruct e as [g| | |tid|tid|tid]; cbn [concerns]; try reflexivity.
  - now destruct (seg_no m g).
  - destruct (nth_error (c_timers s) tid) as [tm|]; [|reflexivity]. destruct (tm_state tm); try reflexivity.
    now destruct (has_part m _).
  - destruct (nth_error (c_timers s) tid) as [tm|]; [|reflexivity]. destruct (tm_state tm); try reflexivity.
    now destruct (_ && _).
Qed.

Lemma covers_mono n a b : covers n a -> covers n (a ++ b).
Proof. intros C i Hi. rewrite map_app. apply in_or_app. left. now apply C. Qed.
Lemma same_cut n (ps ps' : list (Z * seg)) p p' qs qs' : ps ++ p :: qs = ps' ++ p' :: qs' ->
  ~ covers n ps -> covers n (ps ++ [p]) -> ~ covers n ps' -> covers n (ps' ++ [p']) -> ps = ps' /\ p = p' /\ qs = qs'.
Proof.
  revert ps'. assert (G : forall (ps ps' : list (Z * seg)) p p' qs qs', (length ps < length ps')%nat -> ps ++ p :: qs = ps' ++ p' :: qs' ->
    exists x, ps' = (ps ++ [p]) ++ x).
  { clear. induction ps as [|a ps IH]; intros [|a' ps'] p p' qs qs' L E; cbn in *; try lia.
    - injection E as <- E. eauto.
    - injection E as <- E. destruct (IH ps' p p' qs qs' ltac:(lia) E) as (x & ->). eauto. }
  intros ps' E A B A' B'. destruct (lt_eq_lt_dec (length ps) (length ps')) as [[L|L]|L].
  - destruct (G _ _ _ _ _ _ L E) as (x & ->). exfalso. apply A'. now apply covers_mono.
  - revert ps' L E A' B'. clear A B. induction ps as [|a ps IH]; intros [|a' ps'] L E A' B'; try discriminate.
    + injection E as <- <-. auto.
    + injection E as <- E. injection L as L. assert (X : ps = ps' /\ p = p' /\ qs = qs').
      { clear - E L. revert ps' E L. induction ps as [|b ps IH]; intros [|b' ps'] E L; try discriminate.
        - injection E as <- <-. auto.
        - injection E as <- E. injection L as L. destruct (IH ps' E L) as (-> & -> & ->). auto. }
      destruct X as (-> & -> & ->). auto.
  - destruct (G _ _ _ _ _ _ L (eq_sym E)) as (x & ->). exfalso. apply A. now apply covers_mono.
Qed.
Lemma rounds_det n l ds : rounds n l ds -> forall ds', rounds n l ds' -> ds = ds'.
Proof.
  induction 1 as [ps A|ps p qs ds A B H IH]; intros ds' H'.
  - inversion H' as [|ps' p' qs' ds1 A' B' R E]; [reflexivity|]. subst. exfalso. apply A.
    change (p' :: qs') with ([p'] ++ qs'). rewrite app_assoc. now apply covers_mono.
  - remember (ps ++ p :: qs) as l eqn:EL. destruct H' as [l A'|ps' p' qs' ds1 A' B' R].
    + exfalso. subst l. apply A'. change (p :: qs) with ([p] ++ qs). rewrite app_assoc. now apply covers_mono.
    + destruct (same_cut n _ _ _ _ _ _ EL A' B' A B) as (-> & -> & ->). f_equal. now apply IH.
Qed.

Lemma replies_none m es : forall os, parts m es = [] -> replies m es os = [].
Proof.
  induction es as [|e es IH]; intros os H; [now destruct os|]. cbn [parts flat_map] in H. fold (parts m es) in H.
  apply app_eq_nil in H as (A & B). destruct os as [|o os]; [now destruct e|].
  destruct e as [g| | |?|?|?]; cbn [replies]; auto. destruct (seg_no m g); [discriminate|auto].
Qed.
