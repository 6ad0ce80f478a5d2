(** Lemmas about slices that share memory. *)
From Verif Require Import GoBase GoLemmas SafeLemmas Heap SpecHeap.

Lemma update_length {A} (l : list A) n x : length (update l n x) = length l.
Proof. revert n. induction l as [|y l IH]; intros [|n]; cbn; auto. Qed.
Lemma nth_update {A} (l : list A) n m x d : (n < length l)%nat ->
  nth m (update l n x) d = if (m =? n)%nat then x else nth m l d.
Proof.
  revert n m. induction l as [|y l IH]; intros [|n] [|m] H; cbn [update nth length Nat.eqb] in *; try lia; auto.
  apply IH. lia.
Qed.
Lemma update_out {A} (l : list A) n x : (length l <= n)%nat -> update l n x = l.
Proof. revert n. induction l as [|y l IH]; intros [|n] H; cbn in *; auto; [lia|]. f_equal. apply IH. lia. Qed.

Lemma nth_error_skipn {A} n (l : list A) i : nth_error (skipn n l) i = nth_error l (n + i).
Proof. revert l. induction n as [|n IH]; intros [|x l]; cbn [skipn Nat.add nth_error]; auto. now destruct i. Qed.
Lemma nth_error_firstn {A} n (l : list A) i : (i < n)%nat -> nth_error (firstn n l) i = nth_error l i.
Proof. revert l i. induction n as [|n IH]; intros [|x l] [|i] H; cbn; auto; try lia. apply IH. lia. Qed.

Lemma splice_length {A} (l : list A) n xs : (n + length xs <= length l)%nat -> length (splice l n xs) = length l.
Proof. intros H. unfold splice. rewrite !app_length, firstn_length, skipn_length. lia. Qed.

Lemma nth_error_splice {A} (l : list A) n xs i : (n + length xs <= length l)%nat ->
  nth_error (splice l n xs) i =
  if ((n <=? i) && (i <? n + length xs))%nat%bool then nth_error xs (i - n) else nth_error l i.
Proof.
  intros H. unfold splice. destruct (n <=? i)%nat eqn:E1; cbn [andb].
  - rewrite nth_error_app2 by (rewrite firstn_length; lia). rewrite firstn_length. replace (min n (length l)) with n by lia.
    destruct (i <? n + length xs)%nat eqn:E2.
    + now rewrite nth_error_app1 by lia.
    + rewrite nth_error_app2 by lia. rewrite nth_error_skipn. f_equal. lia.
  - rewrite nth_error_app1 by (rewrite firstn_length; lia). apply nth_error_firstn. lia.
Qed.

Lemma array_update {A} (h : heap A) a l b : (a < length h)%nat -> array (update h a l) b = if (b =? a)%nat then l else array h b.
Proof. intros H. unfold array. now apply nth_update. Qed.
Lemma array_app {A} (h : heap A) l b : (b < length h)%nat -> array (h ++ l) b = array h b.
Proof. intros H. unfold array. now rewrite app_nth1. Qed.
Lemma array_new {A} (h : heap A) l : array (h ++ [l]) (length h) = l.
Proof. unfold array. now rewrite app_nth2, Nat.sub_diag by lia. Qed.

(** Only cells in [P] may have changed; new arrays may have been added. *)
Definition only {A} (P : nat -> nat -> Prop) (h h' : heap A) : Prop :=
  (length h <= length h')%nat /\ forall a, (a < length h)%nat ->
    length (array h' a) = length (array h a) /\ forall i, ~ P a i -> nth_error (array h' a) i = nth_error (array h a) i.

Lemma only_refl {A} P (h : heap A) : only P h h.
Proof. split; auto. Qed.
Lemma only_trans {A} (P Q : nat -> nat -> Prop) (h1 h2 h3 : heap A) : only P h1 h2 -> only Q h2 h3 ->
  (forall a i, (a < length h1)%nat -> Q a i -> P a i) -> only P h1 h3.
Proof.
  intros (L1 & A1) (L2 & A2) H. split; [lia|]. intros a Ha. destruct (A1 a Ha) as (B1 & C1).
  destruct (A2 a ltac:(lia)) as (B2 & C2). split; [congruence|]. intros i Hi. rewrite C2; [now apply C1|]. auto.
Qed.
Lemma only_weaken {A} (P Q : nat -> nat -> Prop) (h1 h2 : heap A) : only P h1 h2 -> (forall a i, (a < length h1)%nat -> P a i -> Q a i) -> only Q h1 h2.
Proof. intros (L & A1) H. split; [assumption|]. intros a Ha. destruct (A1 a Ha) as (B & C). split; auto. Qed.

Lemma store_only {A} (h : heap A) a n xs : (a < length h)%nat -> (n + length xs <= length (array h a))%nat ->
  only (fun b i => b = a /\ (n <= i < n + length xs)%nat) h (store h a n xs).
Proof.
  intros Ha Hn. unfold store. split; [now rewrite update_length|]. intros b Hb. rewrite array_update by assumption.
  destruct (b =? a)%nat eqn:E; [|split; auto]. assert (b = a) as -> by lia. split; [now apply splice_length|].
  intros i Hi. rewrite nth_error_splice by assumption. bfalse ((n <=? i)%nat && (i <? n + length xs)%nat). reflexivity.
Qed.
Lemma array_store {A} (h : heap A) a n xs : (a < length h)%nat -> array (store h a n xs) a = splice (array h a) n xs.
Proof. intros H. unfold store. rewrite array_update by assumption. now rewrite Nat.eqb_refl. Qed.
Lemma store_length {A} (h : heap A) a n xs : length (store h a n xs) = length h.
Proof. apply update_length. Qed.

Lemma view_length {A} (h : heap A) s : ok_slice h s -> length (view h s) = s_len s.
Proof. intros (L & [C|(B & C)]); unfold view; rewrite firstn_length, skipn_length; lia. Qed.
Lemma nth_error_view {A} (h : heap A) s i : (i < s_len s)%nat -> nth_error (view h s) i = nth_error (array h (s_arr s)) (s_off s + i).
Proof. intros H. unfold view. rewrite nth_error_firstn by assumption. apply nth_error_skipn. Qed.

Lemma list_ext {A} (l m : list A) : (forall i, nth_error l i = nth_error m i) -> l = m.
Proof.
  revert m. induction l as [|x l IH]; intros [|y m] H; auto.
  - now specialize (H 0%nat).
  - now specialize (H 0%nat).
  - f_equal; [specialize (H 0%nat); cbn in H; congruence|]. apply IH. intros i. exact (H (S i)).
Qed.

Lemma only_ok {A} P (h h' : heap A) s : only P h h' -> ok_slice h s -> ok_slice h' s.
Proof.
  intros (L & H) (O & [C|(B & C)]); split; auto. right. split; [lia|]. destruct (H _ B) as (E & _). lia.
Qed.
Lemma only_view {A} (P : nat -> nat -> Prop) (h h' : heap A) s : only P h h' -> ok_slice h s -> (forall a i, covers s a i -> ~ P a i) ->
  view h' s = view h s.
Proof.
  intros HO HS HP. pose proof (view_length _ _ HS) as L1. pose proof (view_length _ _ (only_ok _ _ _ _ HO HS)) as L2.
  apply list_ext. intros i. destruct (i <? s_len s)%nat eqn:E.
  - rewrite !nth_error_view by lia. destruct HS as (O & [C|(B & C)]); [lia|]. destruct HO as (_ & H).
    destruct (H _ B) as (_ & X). apply X. apply HP. split; [reflexivity|lia].
  - rewrite !(proj2 (nth_error_None _ _)); [reflexivity|lia|lia].
Qed.

Definition behind (s : gslice) (n a i : nat) : Prop :=
  s_arr s = a /\ (s_off s + s_len s <= i < s_off s + s_len s + n)%nat /\ (s_len s + n <= s_cap s)%nat.

Lemma gappend_spec {A} grow (junk : A) h s xs h' s' : ok_slice h s -> gappend grow junk h s xs = (h', s') ->
  only (behind s (length xs)) h h' /\ ok_slice h' s' /\ view h' s' = view h s ++ xs /\
  s_len s' = (s_len s + length xs)%nat /\
  ((s_len s + length xs <= s_cap s)%nat /\ s_arr s' = s_arr s /\ s_off s' = s_off s /\ s_cap s' = s_cap s /\ length h' = length h \/
   (s_cap s < s_len s + length xs)%nat /\ s_arr s' = length h /\ s_off s' = 0%nat /\ length h' = S (length h)).
Proof.
  intros HS H. pose proof HS as (HL & HC). pose proof (view_length _ _ HS) as VL. unfold gappend in H. cbv zeta in H.
  destruct (s_len s + length xs <=? s_cap s)%nat eqn:E; injection H as <- <-; cbn [s_len s_cap s_arr s_off].
  - destruct xs as [|x xs0] eqn:EX.
    { cbn [length] in *. rewrite app_nil_r, Nat.add_0_r in *.
      assert (ES : store h (s_arr s) (s_off s + s_len s) [] = h).
      { unfold store, splice. cbn [length app]. rewrite Nat.add_0_r, firstn_skipn.
        destruct (s_arr s <? length h)%nat eqn:EA; [|apply update_out; lia].
        apply list_ext. intros i. destruct (nth_error h i) eqn:E1.
        - assert (i < length h)%nat by (apply nth_error_Some; congruence).
          rewrite (nth_error_nth' _ []) by (rewrite update_length; lia). rewrite nth_update by lia.
          destruct (i =? s_arr s)%nat eqn:E2; [|erewrite nth_error_nth; eauto].
          assert (i = s_arr s) as -> by lia. f_equal. unfold array. now apply nth_error_nth.
        - apply nth_error_None. rewrite update_length. now apply nth_error_None. }
      rewrite ES. replace {| s_arr := s_arr s; s_off := s_off s; s_len := s_len s; s_cap := s_cap s |} with s by now destruct s.
      split; [apply only_refl|]. split; [assumption|]. split; [reflexivity|]. split; [reflexivity|left; auto with arith]. }
    rewrite <- EX in *. assert (length xs <> 0%nat) by (subst; cbn; lia). clear EX.
    destruct HC as [HC|(HA & HC)]; [lia|].
    pose proof (store_only h (s_arr s) (s_off s + s_len s) xs HA ltac:(lia)) as O.
    assert (O' : only (behind s (length xs)) h (store h (s_arr s) (s_off s + s_len s) xs)).
    { eapply only_weaken; [exact O|]. intros a i _ (-> & R). split; [reflexivity|lia]. }
    set (s' := {| s_arr := s_arr s; s_off := s_off s; s_len := s_len s + length xs; s_cap := s_cap s |}).
    assert (OK' : ok_slice (store h (s_arr s) (s_off s + s_len s) xs) s').
    { split; [cbn; lia|]. right. cbn [s' s_arr s_off s_cap]. rewrite store_length, array_store, splice_length by lia. lia. }
    split; [exact O'|]. split; [exact OK'|]. split; [|split; [reflexivity|left; rewrite store_length; cbn [s' s_arr s_off s_cap]; repeat split; lia]].
    apply list_ext. intros i. pose proof (view_length _ _ OK') as VL'. cbn [s' s_len] in VL'.
    destruct (i <? s_len s + length xs)%nat eqn:EI.
    + rewrite nth_error_view by (cbn; lia). cbn [s' s_arr s_off]. rewrite array_store, nth_error_splice by lia.
      destruct (i <? s_len s)%nat eqn:E2.
      * bfalse ((s_off s + s_len s <=? s_off s + i)%nat && (s_off s + i <? s_off s + s_len s + length xs)%nat).
        rewrite nth_error_app1 by lia. now rewrite nth_error_view by lia.
      * btrue ((s_off s + s_len s <=? s_off s + i)%nat && (s_off s + i <? s_off s + s_len s + length xs)%nat).
        rewrite nth_error_app2 by lia. f_equal. lia.
    + rewrite !(proj2 (nth_error_None _ _)); [reflexivity|rewrite app_length; lia|lia].
  - set (slack := grow (s_cap s) (s_len s + length xs)%nat).
    split; [|split; [|split; [|split; [reflexivity|right; rewrite app_length; cbn [length]; repeat split; lia]]]].
    + split; [rewrite app_length; lia|]. intros a Ha. rewrite array_app by assumption. auto.
    + split; [cbn; lia|right]. cbn [s_arr s_off s_cap]. rewrite app_length, array_new. cbn [length].
      rewrite !app_length, repeat_length. lia.
    + unfold view at 1. cbn [s_arr s_off s_len]. rewrite array_new. cbn [skipn].
      rewrite app_assoc, firstn_app, app_length, VL, Nat.sub_diag. cbn [firstn]. rewrite app_nil_r.
      apply firstn_all2. rewrite app_length. lia.
Qed.
