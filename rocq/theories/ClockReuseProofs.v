(** Lemmas for C94. *)
From Coq Require Import Permutation.
From Verif Require Import GoBase GoLemmas Address UserData Tpdu Collector SpecCollect CollectorProofs CollectorMsgProofs
  CollectorOrderProofs SpecAlone AloneProofs SpecClock ClockProofs.

Section Machine.
Context (m : message) (d : Z).

Definition told_at (q : t_state) (t : Z) (e : event) : t_state :=
  match e with
  | EvCollect g => match seg_no m g with Some i => fst (takes m (forgets d q t) t i g) | None => q end
  | EvClose => closes m q
  | _ => q
  end.
Fixpoint after (q : t_state) (h : list (Z * event)) : t_state :=
  match h with [] => q | (t, e) :: h' => after (told_at q t e) h' end.

Lemma timely_app h1 : forall q h2, timely m d q (h1 ++ h2) = timely m d q h1 ++ timely m d (after q h1) h2.
Proof.
  induction h1 as [|[t e] h1 IH]; intros q h2; [reflexivity|]. cbn [app timely after].
  destruct e as [g| | |?|?|?]; cbn [told_at]; try apply IH. destruct (seg_no m g) as [i|]; [|apply IH].
  destruct (takes m (forgets d q t) t i g) as [q1 o]. cbn [fst]. rewrite IH. apply app_assoc.
Qed.
Lemma after_app h1 : forall q h2, after q (h1 ++ h2) = after (after q h1) h2.
Proof. induction h1 as [|[t e] h1 IH]; intros q h2; [reflexivity|]. cbn [app after]. apply IH. Qed.

Lemma react_one r i g : exists o, snd (react m r (MPart i g)) = [o].
Proof. unfold react. destruct (r_closed r); [eexists; reflexivity|]. destruct (negb _); [eexists; reflexivity|].
  destruct (existsb _ _); [eexists; reflexivity|]. destruct (r_late r); [eexists; reflexivity|]. destruct (_ + 1 =? _); eexists; reflexivity. Qed.
Lemma timely_length h : forall q, length (timely m d q h) = length (arrivals m h).
Proof.
  induction h as [|[t e] h IH]; intros q; [reflexivity|]. rewrite arrivals_cons. cbn [timely].
  destruct e as [g| | |?|?|?]; cbn [app]; try apply IH. destruct (seg_no m g) as [i|]; [|apply IH].
  destruct (takes_react m (forgets d q t) t i g) as (T & _). destruct (react_one (t_held (forgets d q t)) i g) as (o & EO).
  rewrite EO in T. destruct (takes m (forgets d q t) t i g) as [q1 o1]. cbn [fst snd] in *. subst o1. cbn [app length]. now rewrite IH.
Qed.

(** What the machine with a clock holds after a history without Close: no more than
    was collected, and of that nothing too long ago. *)
Record kept (past : list (Z * event)) (q : t_state) : Prop := {
  k_open : r_closed (t_held q) = false;
  k_late : r_late (t_held q) = false;
  k_part : forall i g, In (i, g) (r_got (t_held q)) -> seg_no m g = Some i /\
    exists t, In (t, EvCollect g) past /\ t <= t_last q /\ t_last q <= t + (len (r_got (t_held q)) - 1) * d;
  k_last : r_got (t_held q) = [] \/ In (t_last q) (arrivals m past) }.

Lemma kept_start : kept [] t_start.
Proof. split; try reflexivity; [intros i g []|now left]. Qed.

Lemma arrivals_app h1 h2 : arrivals m (h1 ++ h2) = arrivals m h1 ++ arrivals m h2.
Proof. unfold arrivals. apply flat_map_app. Qed.

Lemma kept_forgets past q t : kept past q -> kept past (forgets d q t) /\
  (r_got (t_held (forgets d q t)) <> [] -> forgets d q t = q /\ t < t_last q + d).
Proof.
  intros K. unfold forgets. rewrite (k_open _ _ K). cbn [negb andb]. destruct (t_last q + d <=? t) eqn:E.
  - split; [|cbn; congruence]. split; try reflexivity; [intros i g []|now left].
  - split; [exact K|]. intros _. split; [reflexivity|lia].
Qed.

Lemma takes_cases q t i g : r_closed (t_held q) = false -> r_late (t_held q) = false ->
  let '(q', o) := takes m q t i g in
  (q' = q /\ exists err, o = [OCollect (CReturn None (Some err))]) \/
  (1 <= i <= m_total m /\ ~ In i (map fst (r_got (t_held q))) /\
   ((len (r_got (t_held q)) + 1 = m_total m /\ r_got (t_held q') = [] /\ r_late (t_held q') = false /\ r_closed (t_held q') = false /\
     o = [OCollect (CReturn (Some (in_order (m_total m) ((i, g) :: r_got (t_held q)))) None)]) \/
    (len (r_got (t_held q)) + 1 <> m_total m /\ q' = {| t_held := {| r_got := (i, g) :: r_got (t_held q); r_late := false; r_closed := false |}; t_last := t |} /\
     o = [OCollect (CReturn None None)]))).
Proof.
  intros KO KL. unfold takes, react. rewrite KO, KL.
  destruct (negb ((1 <=? i) && (i <=? m_total m))) eqn:E1.
  { left. rewrite Nat.eqb_refl. split; [now destruct q|eauto]. }
  destruct (existsb (fun ig => fst ig =? i) (r_got (t_held q))) eqn:E2.
  { left. rewrite Nat.eqb_refl. split; [now destruct q|eauto]. }
  assert (NI : ~ In i (map fst (r_got (t_held q)))).
  { intros X. apply in_map_iff in X as ([j x] & EJ & X). assert (F : existsb (fun ig => fst ig =? i) (r_got (t_held q)) = true); [|congruence].
    apply existsb_exists. exists (j, x). split; [assumption|]. cbn in *. lia. }
  assert (RG : 1 <= i <= m_total m) by lia.
  destruct (len (r_got (t_held q)) + 1 =? m_total m) eqn:E3; (right; split; [assumption|]; split; [assumption|]).
  - left. cbn [t_held r_got r_late r_closed]. repeat split. lia.
  - right. cbn [t_held r_got length]. split; [lia|]. split; [|reflexivity]. f_equal.
    destruct (Nat.eqb _ _) eqn:E4; [|reflexivity]. apply Nat.eqb_eq in E4. lia.
Qed.

Lemma kept_more past q te : kept past q -> (match snd te with EvClose => False | _ => True end) ->
  (forall t, In t (map fst past) -> t <= fst te) -> 0 < d -> kept (past ++ [te]) (told_at q (fst te) (snd te)).
Proof.
  intros K NC LE D. destruct te as [t e]. cbn [fst snd] in *.
  assert (SAME : kept (past ++ [(t, e)]) q).
  { constructor; [apply (k_open _ _ K)|apply (k_late _ _ K)| |].
    - intros i g Hi. destruct (k_part _ _ K i g Hi) as (SN & t' & A & B). split; [assumption|]. exists t'. split; [apply in_or_app; now left|assumption].
    - rewrite arrivals_app. destruct (k_last _ _ K); [now left|right; apply in_or_app; now left]. }
  destruct e as [g| | |?|?|?]; cbn [told_at]; try exact SAME; [|contradiction].
  destruct (seg_no m g) as [i|] eqn:SN; [|exact SAME].
  destruct (kept_forgets _ _ t SAME) as (KF & NF). set (f := forgets d q t) in *.
  pose proof (takes_cases f t i g (k_open _ _ KF) (k_late _ _ KF)) as C. destruct (takes m f t i g) as [q' o]. cbn [fst].
  destruct C as [(-> & _)|(_ & _ & [(_ & G & L & O & _)|(_ & -> & _)])]; [exact KF| |].
  - constructor; [exact O|exact L| |now left]. rewrite G. intros j x [].
  - split; try reflexivity; cbn [t_held r_got t_last].
    + intros j x [E|Hj].
      * injection E as <- <-. split; [assumption|]. exists t. split; [apply in_or_app; right; now left|].
        unfold len. cbn [length]. nia.
      * destruct (k_part _ _ KF j x Hj) as (SN' & t' & A & B & C). split; [assumption|]. exists t'. split; [assumption|].
        destruct NF as (EF & LT); [intros X; rewrite X in Hj; destruct Hj|]. rewrite EF in *. fold (len (r_got (t_held q))).
        assert (t' <= t). { apply in_app_or in A as [A|[A|[]]]; [|injection A; lia]. apply LE. apply in_map_iff. exists (t', EvCollect x). auto. }
        split; [assumption|]. unfold len in *. cbn [length]. nia.
    + right. rewrite arrivals_app. apply in_or_app. right. unfold arrivals. cbn [flat_map fst snd app]. rewrite SN. now left.
Qed.

Lemma closed_told q t e : r_closed (t_held q) = true -> r_closed (t_held (told_at q t e)) = true.
Proof.
  intros C. destruct e as [g| | |?|?|?]; cbn [told_at]; try assumption; [|reflexivity].
  destruct (seg_no m g) as [i|]; [|assumption]. unfold forgets. rewrite C. cbn [negb andb]. unfold takes, react. rewrite C.
  rewrite Nat.eqb_refl. exact C.
Qed.
Lemma closed_silent q t i g l err : r_closed (t_held q) = true -> snd (takes m (forgets d q t) t i g) <> [OCollect (CReturn (Some l) err)].
Proof. intros C. unfold forgets. rewrite C. cbn [negb andb]. unfold takes, react. rewrite C. cbn. congruence. Qed.

Lemma kept_run (P : timing) cfg h : 0 < d -> forall past q s st now, r_closed (t_held q) = true \/ kept past q ->
  (forall t, In t (map fst past) -> t <= now) -> keeps P cfg s st now h ->
  (r_closed (t_held (after q h)) = true \/ kept (past ++ h) (after q h)) /\
  (Forall (fun e => e <> EvClose) (map snd h) -> r_closed (t_held q) = false -> kept (past ++ h) (after q h)).
Proof.
  intros D. induction h as [|[t e] h IH]; intros past q s st now K LE KP; cbn [after].
  - rewrite app_nil_r. split; [assumption|]. intros _ O. destruct K; [congruence|assumption].
  - cbn [keeps] in KP. destruct KP as (LT & _ & KP). replace (past ++ (t, e) :: h) with ((past ++ [(t, e)]) ++ h) by now rewrite <- app_assoc.
    assert (LE1 : forall t', In t' (map fst past) -> t' <= t) by (intros t' Ht'; specialize (LE t' Ht'); lia).
    assert (STEP : e <> EvClose -> kept past q -> kept (past ++ [(t, e)]) (told_at q t e)).
    { intros NE K1. apply (kept_more past q (t, e) K1); auto. cbn [snd]. now destruct e. }
    assert (K1 : r_closed (t_held (told_at q t e)) = true \/ kept (past ++ [(t, e)]) (told_at q t e)).
    { destruct K as [K|K]; [left; now apply closed_told|]. destruct e; try (right; apply STEP; [discriminate|assumption]). left. reflexivity. }
    assert (LE2 : forall t', In t' (map fst (past ++ [(t, e)])) -> t' <= t).
    { intros t' Ht'. rewrite map_app in Ht'. apply in_app_or in Ht' as [Ht'|[<-|[]]]; [auto|cbn; lia]. }
    destruct (IH _ _ _ _ _ K1 LE2 KP) as (A & B). split; [exact A|]. intros NC O. inversion NC as [|? ? NC1 NC2]; subst. apply B; [assumption|].
    destruct K as [K|K]; [congruence|]. apply (k_open _ _ (STEP NC1 K)).
Qed.

(** A message whose segments come once each, close together, from an empty state on. *)
Lemma burst h : forall q, r_closed (t_held q) = false -> r_late (t_held q) = false -> r_got (t_held q) <> [] \/ t_held q = m_start ->
  Forall (fun e => e <> EvClose) (map snd h) ->
  (length (r_got (t_held q)) + length (parts m (map snd h)) = total m)%nat -> (length (r_got (t_held q)) < total m)%nat ->
  NoDup (map fst (r_got (t_held q)) ++ map fst (parts m (map snd h))) -> Forall (fun p => 1 <= fst p <= m_total m) (parts m (map snd h)) ->
  0 < m_total m -> close_together d ((if r_got (t_held q) then [] else [t_last q]) ++ arrivals m h) ->
  timely m d q h = repeat (OCollect (CReturn None None)) (length (parts m (map snd h)) - 1) ++
    [OCollect (CReturn (Some (in_order (m_total m) (rev (parts m (map snd h)) ++ r_got (t_held q)))) None)].
Proof.
  induction h as [|[t e] h IH]; intros q KO KL ST NC LN LT ND RG T0 CT; cbn [map snd] in *; [cbn in LN; lia|].
  rewrite parts_cons, arrivals_cons in *. inversion NC as [|? ? NC1 NC2]; subst.
  destruct e as [g| | |?|?|?]; cbn [app timely] in *; try (eapply IH; eassumption); [|congruence].
  destruct (seg_no m g) as [i|] eqn:SN; cbn [app] in *; [|eapply IH; eassumption].
  assert (HF : t_held (forgets d q t) = t_held q).
  { unfold forgets. destruct ST as [ST|ST].
    - destruct (r_got (t_held q)) as [|x l] eqn:EG; [congruence|]. cbn [app close_together] in CT. destruct CT as (CT & _).
      destruct (t_last q + d <=? t) eqn:E; [lia|]. now rewrite andb_false_r.
    - destruct (negb _ && _); [now rewrite ST|reflexivity]. }
  pose proof (takes_cases (forgets d q t) t i g) as C. rewrite HF in C. specialize (C KO KL).
  destruct (takes m (forgets d q t) t i g) as [q' o] eqn:ET. cbn [map fst length rev] in *.
  inversion RG as [|? ? RG1 RG2]; subst. cbn [fst] in RG1.
  assert (NI : ~ In i (map fst (r_got (t_held q)))).
  { intros X. apply NoDup_remove_2 in ND. apply ND. apply in_or_app. now left. }
  destruct C as [(EQ & err & EO)|(_ & _ & C)].
  { exfalso. destruct (takes_react m (forgets d q t) t i g) as (TR & _). rewrite ET, HF in TR. cbn [snd] in TR. rewrite EO in TR.
    unfold react in TR. rewrite KO, KL in TR.
    assert (negb ((1 <=? i) && (i <=? m_total m)) = false) as X1 by lia. rewrite X1 in TR.
    assert (existsb (fun ig => fst ig =? i) (r_got (t_held q)) = false) as X2.
    { apply not_true_is_false. intros X. apply existsb_exists in X as ([j x] & IN & E). apply NI. apply in_map_iff. exists (j, x). split; [cbn in *; lia|assumption]. }
    rewrite X2 in TR. destruct (_ + 1 =? _); discriminate. }
  assert (TT : Z.of_nat (total m) = m_total m) by (unfold total; lia).
  destruct C as [(E & G & _ & _ & ->)|(E & -> & ->)].
  - unfold len in E. assert (length (parts m (map snd h)) = 0)%nat as Z0 by lia.
    destruct (parts m (map snd h)) as [|? ?] eqn:EP; [|discriminate]. cbn [length Nat.sub repeat app rev].
    f_equal. assert (L0 : length (timely m d q' h) = 0%nat) by (rewrite timely_length, arrivals_parts, EP; reflexivity).
    now destruct (timely m d q' h).
  - unfold len in E. destruct (length (parts m (map snd h))) as [|k] eqn:EK; [lia|].
    rewrite (IH {| t_held := {| r_got := (i, g) :: r_got (t_held q); r_late := false; r_closed := false |}; t_last := t |});
      cbn [t_held r_got t_last r_late r_closed length map fst]; try assumption; try reflexivity; try lia.
    + cbn [Nat.sub]. rewrite Nat.sub_0_r. cbn [repeat app]. now rewrite <- app_assoc.
    + left. discriminate.
    + cbn [app]. apply NoDup_cons_iff. split; [apply NoDup_remove_2; exact ND|exact (NoDup_remove_1 _ _ _ ND)].
    + destruct (r_got (t_held q)); cbn [app] in CT; [exact CT|]. destruct CT as (_ & CT). exact CT.
Qed.
End Machine.

Lemma replies_app m es : forall os es' os', length os = length es -> replies m (es ++ es') (os ++ os') = replies m es os ++ replies m es' os'.
Proof.
  induction es as [|e es IH]; intros [|o os] es' os' L; try discriminate; [reflexivity|]. cbn [app replies]. injection L as L.
  destruct e as [g| | |?|?|?]; try now apply IH. destruct (seg_no m g); [cbn [app]; f_equal|]; now apply IH.
Qed.
Lemma keeps_split (P : timing) cfg h1 : forall s st now h2, keeps P cfg s st now (h1 ++ h2) -> keeps P cfg s st now h1.
Proof.
  induction h1 as [|[t e] h1 IH]; intros s st now h2 K; [exact I|]. cbn [app keeps] in *. destruct K as (A & B & K). eauto.
Qed.
