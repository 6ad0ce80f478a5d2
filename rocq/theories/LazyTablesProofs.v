(** Proofs about the lazily built tables. *)
From Verif Require Import GoBase GoLemmas CharsetTables Charset CharsetProofs SpecAlphabet
  AlphabetProofs LazyTables SpecLazy.

Lemma kind_eqb_eq a b : kind_eqb a b = true <-> a = b.
Proof. destruct a, b; cbn; split; congruence. Qed.
Lemma var_eqb_eq a b : var_eqb a b = true <-> a = b.
Proof.
  unfold var_eqb. destruct a as [k n], b as [k' n']. cbn [fst snd].
  rewrite andb_true_iff, kind_eqb_eq. split; [intros [-> H]; f_equal; lia|intros E; injection E as -> ->; split; [reflexivity|lia]].
Qed.
Lemma var_eqb_refl a : var_eqb a a = true. Proof. now apply var_eqb_eq. Qed.

Definition valid (v : var) : Prop :=
  0 <= snd v <= 13 /\ (snd v = 2 -> fst v = KExtDec \/ fst v = KExtEnc).
Lemma var_of_valid k n : valid (var_of k n).
Proof.
  unfold valid, var_of. destruct k;
  match goal with |- context [if ?b then _ else _] => destruct b eqn:E end; cbn [fst snd];
  (split; [lia|]); intros; first [lia | auto].
Qed.
Lemma var_of_kind k n : fst (var_of k n) = k.
Proof. unfold var_of. destruct k; match goal with |- context [if ?b then _ else _] => destruct b end; reflexivity. Qed.

Lemma lang_in n : 1 <= n <= 13 -> exists l, language_of n = Some l /\ (l = Spanish <-> n = 2).
Proof.
  apply (known_nli (fun n => exists l, language_of n = Some l /\ (l = Spanish <-> n = 2))).
  repeat (constructor; [eexists; split; [reflexivity|split; intros; try discriminate; try reflexivity; lia]|]).
  constructor.
Qed.
Lemma lang_out n : ~ 1 <= n <= 13 -> language_of n = None.
Proof.
  intros H. destruct (language_of n) eqn:E; [|reflexivity]. apply language_nli in E. lia.
Qed.
Lemma var_of_served k n : snd (var_of k n) = served_by k n.
Proof.
  unfold var_of, served_by.
  destruct (Z_le_gt_dec 1 n) as [A|A], (Z_le_gt_dec n 13) as [B|B].
  - destruct (lang_in n (conj A B)) as (l & -> & HS).
    destruct k; cbn [snd].
    + destruct (Z.eq_dec n 2) as [E|E].
      * rewrite (proj2 HS E). subst n. reflexivity.
      * btrue ((n =? 1) || ((3 <=? n) && (n <=? 13))). destruct l; try reflexivity. tauto.
    + btrue ((1 <=? n) && (n <=? 13)). destruct l; reflexivity.
    + destruct (Z.eq_dec n 2) as [E|E].
      * rewrite (proj2 HS E). subst n. reflexivity.
      * btrue ((n =? 1) || ((3 <=? n) && (n <=? 13))). destruct l; try reflexivity. tauto.
    + btrue ((1 <=? n) && (n <=? 13)). destruct l; reflexivity.
  - rewrite lang_out by lia. destruct k; match goal with |- context [if ?b then _ else _] => bfalse b end; reflexivity.
  - rewrite lang_out by lia. destruct k; match goal with |- context [if ?b then _ else _] => bfalse b end; reflexivity.
  - lia.
Qed.

(** The table that belongs in a variable. *)
Definition right (v : var) : list (Z * Z) := table_for (fst v) (snd v).
Lemma right_of k n : right (var_of k n) = table_for k n.
Proof.
  unfold right. rewrite var_of_kind.
  assert (D : ~ 1 <= n <= 13 \/ 1 <= n <= 13) by lia. destruct D as [O|O].
  { destruct (unknown_nli n O) as [D X]. unfold var_of.
    assert (E1 : new_encoder n = new_encoder 0).
    { unfold new_encoder, locking_table, nli_turkish, nli_portuguese, nli_bengali, nli_gujarati,
        nli_hindi, nli_kannada, nli_malayalam, nli_oriya, nli_punjabi, nli_tamil, nli_telugu, nli_urdu.
      repeat match goal with |- context [n =? ?c] => bfalse (n =? c) end. reflexivity. }
    assert (E2 : new_ext_encoder n = new_ext_encoder 0).
    { unfold new_ext_encoder. unfold new_ext_decoder in X. now rewrite X. }
    destruct k; match goal with |- context [if ?b then _ else _] => bfalse b end;
    cbn [snd table_for]; congruence. }
  unfold var_of. destruct k; cbn [table_for].
  - destruct ((n =? 1) || _) eqn:E; [reflexivity|]. assert (n = 2) by lia. subst. reflexivity.
  - btrue ((1 <=? n) && (n <=? 13)). reflexivity.
  - destruct ((n =? 1) || _) eqn:E; [reflexivity|]. assert (n = 2) by lia. subst. reflexivity.
  - btrue ((1 <=? n) && (n <=? 13)). reflexivity.
Qed.

Definition literal (v : var) : Prop := position v literals 0 <> None.
Lemma position_spec {A} v (l : list (var * A)) : forall i r, position v l i = Some r ->
  (i <= r)%nat /\ exists t, nth_error l (r - i) = Some (v, t).
Proof.
  induction l as [|[w t] l IH]; intros i r H; cbn [position] in H; [discriminate|].
  destruct (var_eqb v w) eqn:E.
  - injection H as <-. split; [lia|]. exists t. rewrite Nat.sub_diag. apply var_eqb_eq in E. now subst.
  - apply IH in H as [H1 (t' & H2)]. split; [lia|]. exists t'.
    replace (r - i)%nat with (S (r - S i)) by lia. exact H2.
Qed.
Lemma literals_right : Forall (fun p => snd p = right (fst p)) literals.
Proof. unfold literals. repeat (constructor; [reflexivity|]). constructor. Qed.

(** What a generator builds. *)
Lemma literal_dec n : 0 <= n <= 13 -> runes_for n = None -> n <> 2 -> literal (KDec, n).
Proof.
  unfold runes_for. intros R H H2.
  destruct (n =? 0) eqn:E0; [discriminate|]. destruct (n =? 1) eqn:E1; [discriminate|].
  destruct (n =? 3) eqn:E3; [discriminate|].
  pose proof (zrange_sweep 14 (fun n => match position (KDec, n) literals 0 with Some _ => true | None => n <=? 3 end)
     eq_refl n ltac:(lia)) as S. cbv beta in S. unfold literal.
  destruct (position _ _ _); [discriminate|lia].
Qed.
Lemma literal_ext n : 0 <= n <= 13 -> literal (KExtDec, n).
Proof.
  intros R.
  pose proof (zrange_sweep 14 (fun n => match position (KExtDec, n) literals 0 with Some _ => true | None => false end)
     eq_refl n ltac:(lia)) as S. cbv beta in S. unfold literal.
  destruct (position _ _ _); discriminate.
Qed.
Lemma runes_right n rs : runes_for n = Some rs ->
  generate_decoder_from_runes rs = new_decoder n /\ generate_encoder_from_runes rs = new_encoder n.
Proof.
  unfold runes_for. intros H.
  destruct (n =? 0) eqn:E0; [|destruct (n =? 1) eqn:E1; [|destruct (n =? 3) eqn:E3; [|discriminate]]];
  injection H as <-.
  - assert (n = 0) by lia. subst. split; reflexivity.
  - assert (n = 1) by lia. subst. split; reflexivity.
  - assert (n = 3) by lia. subst. split; reflexivity.
Qed.
Lemma dec_encoder n : 0 <= n <= 13 -> runes_for n = None -> n <> 2 ->
  generate_encoder (new_decoder n) = new_encoder n.
Proof.
  intros R H H2. unfold runes_for in H.
  destruct (n =? 0) eqn:E0; [discriminate|]. destruct (n =? 1) eqn:E1; [discriminate|].
  destruct (n =? 3) eqn:E3; [discriminate|].
  assert (E : n = 4 \/ n = 5 \/ n = 6 \/ n = 7 \/ n = 8 \/ n = 9 \/ n = 10 \/ n = 11 \/ n = 12 \/ n = 13) by lia.
  repeat (destruct E as [E|E]; [subst; reflexivity|]). subst; reflexivity.
Qed.

Lemma generate_some m v : valid v -> ~ literal v -> exists t, generate m v = Some t.
Proof.
  destruct v as [k n]. intros [R R2] HL. cbn [fst snd] in *. unfold generate. destruct k.
  - destruct (runes_for n) eqn:E; [cbn; eauto|]. exfalso. apply HL, literal_dec; try assumption.
    intros ->. destruct (R2 eq_refl); discriminate.
  - exfalso. now apply HL, literal_ext.
  - destruct (runes_for n); eauto.
  - eauto.
Qed.
Lemma generate_right m v t : valid v -> ~ literal v ->
  (forall w, literal w -> snd w = snd v -> content m w = Some (right w)) ->
  generate m v = Some t -> t = right v.
Proof.
  destruct v as [k n]. intros [R R2] HL HC H. unfold generate in H. cbn [fst snd] in *. destruct k.
  - destruct (runes_for n) eqn:E; [|discriminate]. cbn in H. injection H as <-.
    apply (runes_right _ _ E).
  - discriminate.
  - destruct (runes_for n) eqn:E.
    + injection H as <-. apply (runes_right _ _ E).
    + assert (N2 : n <> 2) by (intros ->; destruct (R2 eq_refl); discriminate).
      rewrite (HC (KDec, n) (literal_dec n R E N2) eq_refl) in H. injection H as <-.
      apply (dec_encoder n R E N2).
  - rewrite (HC (KExtDec, n) (literal_ext n R) eq_refl) in H. injection H as <-. reflexivity.
Qed.

(** * The invariant, for one language *)
Definition call_ok (own : list var) (m : lmem) (k : kind) (n : Z) (p : progress) : Prop :=
  match p with
  | Called => True
  | FoundNil => ~ literal (var_of k n)
  | Returning => vars m (var_of k n) <> None
  | Returned o => exists r, o = Some r /\ nth_error own r = Some (var_of k n)
  | Crashed => False
  end.
Record inv (requests : list (kind * Z)) (L : Z) (own : list var) (s : lstate) : Prop := {
  i_len : length own = length (maps (mem s));
  i_vars : forall v r, vars (mem s) v = Some r -> nth_error own r = Some v;
  i_maps : forall v r, nth_error own r = Some v -> snd v = L ->
             nth_error (maps (mem s)) r = Some (right v);
  i_lit : forall v, literal v -> vars (mem s) v <> None;
  i_calls : forall i k n p, nth_error (calls s) i = Some (k, n, p) ->
             nth_error requests i = Some (k, n) /\ call_ok own (mem s) k n p;
  i_all : length (calls s) = length requests
}.

Lemma set_nth_length {A} (l : list A) i x : length (set_nth l i x) = length l.
Proof. revert i. induction l as [|y l IH]; intros [|i]; cbn; auto. Qed.
Lemma set_nth_same {A} (l : list A) i x y : nth_error l i = Some y -> nth_error (set_nth l i x) i = Some x.
Proof. revert i. induction l as [|z l IH]; intros [|i]; cbn; try discriminate; auto. Qed.
Lemma set_nth_other {A} (l : list A) i j x : i <> j -> nth_error (set_nth l i x) j = nth_error l j.
Proof.
  revert i j. induction l as [|z l IH]; intros [|i] [|j] H; cbn; auto; try congruence.
Qed.

Lemma inv_init requests L : inv requests L (map fst literals)
  {| mem := lmem_init; calls := map (fun q => (fst q, snd q, Called)) requests |}.
Proof.
  constructor; cbn [mem calls lmem_init maps vars].
  - now rewrite !map_length.
  - intros v r H. apply position_spec in H as [_ (t & H)]. rewrite Nat.sub_0_r in H.
    rewrite nth_error_map, H. reflexivity.
  - intros v r H _. rewrite nth_error_map in H. rewrite nth_error_map.
    destruct (nth_error literals r) as [[w t]|] eqn:E; [|discriminate]. cbn in H. injection H as <-.
    cbn. f_equal. pose proof literals_right as F. rewrite Forall_forall in F.
    exact (F _ (nth_error_In _ _ E)).
  - intros v H. exact H.
  - intros i k n p H. rewrite nth_error_map in H.
    destruct (nth_error requests i) as [[k' n']|] eqn:E; [|discriminate]. cbn in H.
    injection H as <- <- <-. split; [reflexivity|exact I].
  - now rewrite map_length.
Qed.

Definition harmless (requests : list (kind * Z)) (L : Z) (e : levent) : Prop :=
  match e with
  | Step _ => True
  | Assign j _ _ => forall k n, nth_error requests j = Some (k, n) -> snd (var_of k n) <> L
  end.

Lemma call_ok_ext own own' m m' k n p :
  (forall r v, nth_error own r = Some v -> nth_error own' r = Some v) ->
  (forall v, vars m v <> None -> vars m' v <> None) ->
  call_ok own m k n p -> call_ok own' m' k n p.
Proof.
  intros HO HV. destruct p; cbn; auto. intros (r & -> & H). exists r. auto.
Qed.

Lemma inv_step requests L own s e : harmless requests L e -> inv requests L own s ->
  exists own', inv requests L own' (lstep s e).
Proof.
  intros HH I. destruct e as [i|j key x]; cbn [lstep].
  - destruct (nth_error (calls s) i) as [[[k n] p]|] eqn:Ei; [|exists own; exact I].
    destruct (i_calls _ _ _ _ I _ _ _ _ Ei) as [Eq Hp].
    set (v := var_of k n) in *.
    (* one new progress, same memory *)
    assert (KEEP : forall p', call_ok own (mem s) k n p' ->
      inv requests L own {| mem := mem s; calls := set_nth (calls s) i (k, n, p') |}).
    { intros p' Hp'. constructor; cbn [mem calls]; try apply I.
      - intros j k1 n1 p1 H1. destruct (Nat.eq_dec i j) as [<-|D].
        + rewrite (set_nth_same _ _ _ _ Ei) in H1. injection H1 as <- <- <-. auto.
        + rewrite set_nth_other in H1 by assumption. exact (i_calls _ _ _ _ I _ _ _ _ H1).
      - rewrite set_nth_length. apply I. }
    destruct p; cbn [call_step].
    + assert (HK : fst v = k) by apply var_of_kind.
      assert (RET : forall o, vars (mem s) v = o -> (forall r, o = Some r -> True) -> o <> None ->
                call_ok own (mem s) k n (Returned o)).
      { intros o Ho _ Hn. destruct o as [r|]; [|congruence]. exists r. split; [reflexivity|].
        apply (i_vars _ _ _ _ I). exact Ho. }
      assert (NIL : vars (mem s) v = None -> ~ literal v).
      { intros H HL. exact (i_lit _ _ _ _ I _ HL H). }
      destruct (fst v) eqn:Ek.
      2: { exists own. apply KEEP. apply RET; auto. apply (i_lit _ _ _ _ I).
           destruct v as [k0 n0] eqn:Ev. cbn [fst] in Ek. subst k0. apply literal_ext.
           pose proof (var_of_valid k n) as [R _]. fold v in R. rewrite Ev in R. exact R. }
      all: destruct (vars (mem s) v) as [r|] eqn:Er; exists own; apply KEEP; cbn [call_ok];
        [fold v; congruence | exact (NIL eq_refl)].
    + destruct (generate_some (mem s) v (var_of_valid k n) Hp) as (t & Ht). rewrite Ht.
      exists (own ++ [v]).
      assert (EX : forall r w, nth_error own r = Some w -> nth_error (own ++ [v]) r = Some w).
      { intros r w H. rewrite nth_error_app1; [exact H|]. apply nth_error_Some. congruence. }
      constructor; cbn [mem calls maps vars].
      * rewrite !app_length. cbn. now rewrite (i_len _ _ _ _ I).
      * intros w r H. destruct (var_eqb w v) eqn:E.
        -- injection H as <-. apply var_eqb_eq in E. subst w.
           rewrite nth_error_app2 by (rewrite (i_len _ _ _ _ I); lia).
           rewrite (i_len _ _ _ _ I), Nat.sub_diag. reflexivity.
        -- apply EX, (i_vars _ _ _ _ I), H.
      * intros w r H HL. destruct (Nat.lt_ge_cases r (length own)) as [A|A].
        -- rewrite nth_error_app1 in H by assumption.
           rewrite nth_error_app1 by (rewrite <- (i_len _ _ _ _ I); exact A).
           exact (i_maps _ _ _ _ I _ _ H HL).
        -- rewrite nth_error_app2 in H by assumption.
           rewrite nth_error_app2 by (rewrite <- (i_len _ _ _ _ I); exact A).
           rewrite <- (i_len _ _ _ _ I).
           destruct (r - length own)%nat; [|destruct n0; discriminate].
           cbn in H. injection H as <-. cbn. f_equal.
           apply (generate_right (mem s) v t (var_of_valid k n) Hp); [|exact Ht].
           intros w Hw HwL. unfold content.
           destruct (vars (mem s) w) as [q|] eqn:Eq'; [|exfalso; exact (i_lit _ _ _ _ I _ Hw Eq')].
           apply (i_maps _ _ _ _ I); [apply (i_vars _ _ _ _ I), Eq'|congruence].
      * intros w Hw. destruct (var_eqb w v); [discriminate|]. exact (i_lit _ _ _ _ I _ Hw).
      * intros j k1 n1 p1 H1. destruct (Nat.eq_dec i j) as [<-|D].
        -- rewrite (set_nth_same _ _ _ _ Ei) in H1. injection H1 as <- <- <-. split; [exact Eq|].
           cbn [call_ok vars]. fold v. rewrite var_eqb_refl. discriminate.
        -- rewrite set_nth_other in H1 by assumption.
           destruct (i_calls _ _ _ _ I _ _ _ _ H1) as [A B]. split; [exact A|].
           revert B. apply call_ok_ext; [exact EX|]. intros w Hw. cbn [vars].
           destruct (var_eqb w v); [discriminate|exact Hw].
      * rewrite set_nth_length. apply I.
    + exists own. apply KEEP. cbn [call_ok] in *. fold v in Hp.
      destruct (vars (mem s) v) as [r|] eqn:Er; [|congruence]. exists r. split; [reflexivity|].
      apply (i_vars _ _ _ _ I), Er.
    + exists own. apply KEEP. exact Hp.
    + destruct Hp.
  - destruct (nth_error (calls s) j) as [[[k n] p]|] eqn:Ej; [|exists own; exact I].
    destruct p as [| | |[r|]|]; try (exists own; exact I).
    destruct (nth_error (maps (mem s)) r) as [t|] eqn:Er; [|exists own; exact I].
    destruct (i_calls _ _ _ _ I _ _ _ _ Ej) as [Eq (r' & E & Ho)]. injection E as <-.
    exists own. constructor; cbn [mem calls maps vars]; try apply I.
    + rewrite set_nth_length. apply I.
    + intros v q Hq HL. destruct (Nat.eq_dec r q) as [<-|D].
      * exfalso. rewrite Ho in Hq. injection Hq as <-. exact (HH _ _ Eq HL).
      * rewrite set_nth_other by assumption. exact (i_maps _ _ _ _ I _ _ Hq HL).
Qed.

Lemma inv_run requests L es : Forall (harmless requests L) es ->
  exists own, inv requests L own (lrun requests es).
Proof.
  unfold lrun. intros H.
  assert (G : forall es s, Forall (harmless requests L) es -> (exists own, inv requests L own s) ->
    exists own, inv requests L own (fold_left lstep es s)).
  { clear es H. induction es as [|e es IH]; intros s H I; [exact I|]. cbn [fold_left].
    inversion H; subst. apply IH; [assumption|]. destruct I as [own I].
    eapply inv_step; eassumption. }
  apply G; [exact H|]. eexists. apply inv_init.
Qed.
Lemma lazy_returned requests L es i k n o :
  Forall (harmless requests L) es -> snd (var_of k n) = L ->
  nth_error (calls (lrun requests es)) i = Some (k, n, Returned o) ->
  exists r, o = Some r /\ nth_error (maps (mem (lrun requests es))) r = Some (table_for k n).
Proof.
  intros H HL Hi. destruct (inv_run requests L es H) as (own & I).
  destruct (i_calls _ _ _ _ I _ _ _ _ Hi) as [_ (r & -> & Ho)]. exists r. split; [reflexivity|].
  rewrite <- right_of. exact (i_maps _ _ _ _ I _ _ Ho HL).
Qed.
Lemma lazy_no_crash requests es i k n :
  nth_error (calls (lrun requests es)) i <> Some (k, n, Crashed).
Proof.
  (* a language nobody asks for: every assignment is harmless *)
  intros Hi. destruct (inv_run requests (-1) es) as (own & I).
  { rewrite Forall_forall. intros e _. destruct e as [j|j key x]; cbn; [exact I|].
    intros k0 n0 _. pose proof (var_of_valid k0 n0) as [R _]. lia. }
  destruct (i_calls _ _ _ _ I _ _ _ _ Hi) as [_ []].
Qed.

(** * Progress *)
Definition rank (p : progress) : nat :=
  match p with Called => 3 | FoundNil => 2 | Returning => 1 | Returned _ | Crashed => 0 end.
Lemma call_step_rank m v p : (rank (snd (call_step m v p)) <= rank p - 1)%nat.
Proof.
  destruct p; cbn [call_step rank snd]; try lia.
  - destruct (fst v); cbn [snd rank]; try lia; destruct (vars m v); cbn [snd rank]; lia.
  - destruct (generate m v); cbn [snd rank]; lia.
Qed.
Lemma progress_run es : forall s i k n p, nth_error (calls s) i = Some (k, n, p) ->
  exists p', nth_error (calls (fold_left lstep es s)) i = Some (k, n, p') /\
    (rank p' <= rank p - steps_of i es)%nat.
Proof.
  unfold steps_of. induction es as [|e es IH]; intros s i k n p H.
  - cbn. exists p. split; [exact H|lia].
  - cbn [fold_left filter]. destruct e as [j|j key x].
    + destruct (Nat.eqb_spec j i) as [->|D].
      * assert (H' : nth_error (calls (lstep s (Step i))) i =
                 Some (k, n, snd (call_step (mem s) (var_of k n) p))).
        { cbn [lstep]. rewrite H. destruct (call_step _ _ p) as [m p'] eqn:E. cbn [calls snd].
          now rewrite (set_nth_same _ _ _ _ H). }
        apply IH in H' as (p' & A & B). exists p'. split; [exact A|].
        pose proof (call_step_rank (mem s) (var_of k n) p). cbn [length]. lia.
      * apply IH. cbn [lstep]. destruct (nth_error (calls s) j) as [[[k1 n1] p1]|] eqn:Ej; [|exact H].
        destruct (call_step _ _ p1). cbn [calls]. now rewrite set_nth_other.
    + apply IH. cbn [lstep]. destruct (nth_error (calls s) j) as [[[k1 n1] [| | |[r|]|]]|]; try exact H.
      destruct (nth_error _ r); exact H.
Qed.
