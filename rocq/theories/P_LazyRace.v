(** * Data races on the built-in tables (C63)

    A variable that holds a table is read without a lock when a call starts and
    written without a lock when the table has been generated. *)
From Verif Require Import GoBase GoLemmas Charset LazyTables SpecAlphabet SpecLazy LazyTablesProofs.

(** Two goroutines that ask for the same table for the first time race: one is
    about to write the variable that the other is about to read. *)
Theorem C63_race_refuted : exists requests schedule i j k nli,
  let s := lrun requests (List.map Step schedule) in
  i <> j /\ nth_error (calls s) i = Some (k, nli, FoundNil) /\ nth_error (calls s) j = Some (k, nli, Called) /\
  vars (mem (lstep s (Step i))) (var_of k nli) <> vars (mem s) (var_of k nli).
Proof.
  exists [(KEnc, 0); (KEnc, 0)], [O], O, 1%nat, KEnc, 0. vm_compute. split; [discriminate|]. split; [reflexivity|]. split; [reflexivity|discriminate].
Qed.
Print Assumptions C63_race_refuted.

Definition settled (s : lstate) : Prop := forall i k n p, nth_error (calls s) i = Some (k, n, p) ->
  match p with Returning | Returned _ => k = KExtDec \/ vars (mem s) (var_of k n) <> None | _ => True end.
Lemma call_step_vars m v p w : vars m w <> None -> vars (fst (call_step m v p)) w <> None.
Proof.
  intros H. destruct p; cbn [call_step]; auto.
  - destruct (fst v); auto; now destruct (vars m v).
  - destruct (generate m v); auto. cbn [fst vars]. now destruct (var_eqb w v).
Qed.
Lemma settled_step s i : settled s -> settled (lstep s (Step i)).
Proof.
  intros H. cbn [lstep]. destruct (nth_error (calls s) i) as [[[k n] p]|] eqn:E; [|assumption].
  pose proof (call_step_vars (mem s) (var_of k n) p) as KV.
  assert (KP : match snd (call_step (mem s) (var_of k n) p) with
               | Returning | Returned _ => k = KExtDec \/ vars (fst (call_step (mem s) (var_of k n) p)) (var_of k n) <> None | _ => True end).
  { specialize (H _ _ _ _ E). destruct p as [| | |r|]; cbn [call_step] in *; auto.
    - rewrite var_of_kind. destruct k; cbn [fst snd]; auto;
        (destruct (vars (mem s) _) eqn:V; cbn [fst snd]; [right; congruence|exact I]).
    - destruct (generate _ _); cbn [fst snd vars]; [|exact I]. right. rewrite var_eqb_refl. discriminate. }
  destruct (call_step (mem s) (var_of k n) p) as [m p'] eqn:C. cbn [fst snd] in *.
  intros j k' n' q. cbn [calls mem]. destruct (Nat.eq_dec i j) as [->|N].
  - rewrite (set_nth_same _ _ _ _ E). intros Q. injection Q as <- <- <-. exact KP.
  - rewrite set_nth_other by assumption. intros Q. specialize (H _ _ _ _ Q). destruct q; auto; (destruct H as [H|H]; [now left|right; auto]).
Qed.
Lemma steps_app requests a b : lrun requests (List.map Step (a ++ b)) = fold_left lstep (List.map Step b) (lrun requests (List.map Step a)).
Proof. unfold lrun. now rewrite List.map_app, fold_left_app. Qed.
Lemma settled_steps l : forall s, settled s -> settled (fold_left lstep (List.map Step l) s).
Proof. induction l as [|i l IH]; intros s H; [assumption|]. cbn [List.map fold_left]. apply IH. now apply settled_step. Qed.

(** Nobody is about to write, and nobody will. *)
Definition calm (s : lstate) : Prop := forall i k n p, nth_error (calls s) i = Some (k, n, p) ->
  match p with FoundNil => False | Called => k = KExtDec \/ vars (mem s) (var_of k n) <> None | _ => True end.
Lemma calm_step s i : calm s -> mem (lstep s (Step i)) = mem s /\ calm (lstep s (Step i)).
Proof.
  intros H. cbn [lstep]. destruct (nth_error (calls s) i) as [[[k n] p]|] eqn:E; [|auto].
  assert (X : fst (call_step (mem s) (var_of k n) p) = mem s /\ (p = Called -> exists q, snd (call_step (mem s) (var_of k n) p) = q /\ q <> FoundNil /\ q <> Called)
              /\ (p <> Called -> snd (call_step (mem s) (var_of k n) p) <> FoundNil /\ snd (call_step (mem s) (var_of k n) p) <> Called)).
  { specialize (H _ _ _ _ E). destruct p as [| | |r|]; cbn [call_step] in *; try contradiction.
    - rewrite var_of_kind. destruct H as [->|V].
      + cbn. split; [reflexivity|]. split; [intros _; eexists; split; [reflexivity|]; split; discriminate|now intros []].
      + destruct k; cbn [fst snd]; try (destruct (vars (mem s) _); [|contradiction]); cbn [fst snd];
          (split; [reflexivity|]; split; [intros _; eexists; split; [reflexivity|]; split; discriminate|now intros []]).
    - cbn. split; [reflexivity|]. split; [discriminate|]. split; discriminate.
    - cbn. split; [reflexivity|]. split; [discriminate|]. split; discriminate.
    - cbn. split; [reflexivity|]. split; [discriminate|]. split; discriminate. }
  destruct (call_step (mem s) (var_of k n) p) as [m p']. cbn [fst snd] in X. destruct X as (-> & X1 & X2). cbn [mem]. split; [reflexivity|].
  assert (N : p' <> FoundNil /\ p' <> Called).
  { destruct p; try (apply X2; discriminate). destruct (X1 eq_refl) as (q & -> & A & B). auto. }
  intros j k' n' q. cbn [calls mem]. destruct (Nat.eq_dec i j) as [->|NE].
  - rewrite (set_nth_same _ _ _ _ E). intros Q. injection Q as <- <- <-. destruct p'; auto; now destruct N.
  - rewrite set_nth_other by assumption. exact (H j k' n' q).
Qed.

(** Once every table that is still to be asked for has been returned to somebody,
    and no call is half-way through, there are no writes any more: a program that
    asks for its tables once before it starts goroutines has no race. *)
Theorem C63_warm : forall requests before after,
  let s := lrun requests (List.map Step before) in
  (forall i k n p, nth_error (calls s) i = Some (k, n, p) ->
     (exists r, p = Returned r) \/
     (p = Called /\ exists j n' r, nth_error (calls s) j = Some (k, n', Returned r) /\ served_by k n' = served_by k n)) ->
  mem (lrun requests (List.map Step (before ++ after))) = mem s.
Proof.
  intros requests before after s H. rewrite steps_app. fold s.
  assert (ST : settled s).
  { apply settled_steps. intros i k n p E. cbn [calls] in E. apply nth_error_In in E. apply in_map_iff in E as (q & E & _).
    injection E as _ _ <-. exact I. }
  assert (CA : calm s).
  { intros i k n p E. destruct (H _ _ _ _ E) as [(r & ->)|(-> & j & n' & r & F & SB)]; [exact I|].
    specialize (ST _ _ _ _ F). cbn in ST. destruct ST as [K|V]; [now left|right].
    replace (var_of k n) with (var_of k n'); [assumption|].
    apply injective_projections; [now rewrite !var_of_kind|now rewrite !var_of_served]. }
  clear H ST. revert CA. generalize s. clear s. induction after as [|i l IH]; intros s CA; [reflexivity|].
  cbn [List.map fold_left]. destruct (calm_step s i CA) as (E & C). rewrite (IH _ C). exact E.
Qed.
Print Assumptions C63_warm.

(** Two encoders asked for once, then three goroutines. *)
Example C63_warm_instance :
  let requests := [(KEnc, 0); (KEnc, 4); (KEnc, 4); (KEnc, 2); (KExtDec, 5)] in
  let s := lrun requests (List.map Step [0; 0; 0; 1; 1; 1; 4]%nat) in
  List.map snd (calls s) = [Returned (Some 24%nat); Returned (Some 25%nat); Called; Called; Returned (Some 5%nat)] /\ served_by KEnc 2 = served_by KEnc 0.
Proof. vm_compute. auto. Qed.
