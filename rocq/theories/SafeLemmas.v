(** Lemmas about the outcome of decoders: no panic, no divergence, error
    offsets within bounds, and insensitivity to what follows. *)
From Verif Require Import GoBase GoLemmas TpduError.

(** [r] is a value or an error, an offset in the error lying in [0..n]. *)
Definition err_within (n : Z) (e : gerr) : Prop :=
  match e with DecodeErr _ off _ => 0 <= off <= n | _ => True end.
Definition safe {A} (n : Z) (r : res A) : Prop :=
  match r with Ok _ => True | Err e => err_within n e | _ => False end.
(** The same, and errors are always located. *)
Definition located (n : Z) (e : gerr) : Prop :=
  exists f off inner, e = DecodeErr f off inner /\ 0 <= off <= n.
Definition safe_located {A} (n : Z) (r : res A) : Prop :=
  match r with Ok _ => True | Err e => located n e | _ => False end.

Lemma safe_located_safe {A} n (r : res A) : safe_located n r -> safe n r.
Proof. destruct r; cbn; try tauto. intros (f & o & i & -> & H). exact H. Qed.
Lemma safe_le {A} n m (r : res A) : safe n r -> n <= m -> safe m r.
Proof. destruct r as [?|e| |]; cbn; try tauto. destruct e; cbn; intros; try tauto; lia. Qed.
Lemma located_le n m e : located n e -> n <= m -> located m e.
Proof. intros (f & o & i & -> & H) L. exists f, o, i. split; [reflexivity|lia]. Qed.
Lemma new_decode_error_located f o e n m :
  err_within n e -> 0 <= o -> 0 <= n -> o + n <= m -> located m (new_decode_error f o e).
Proof.
  intros H Ho Hn Hm. destruct e; cbn [new_decode_error err_within] in *;
    (eexists; eexists; eexists; split; [reflexivity|lia]).
Qed.
Lemma on_err_located {A} (r : res A) f o n m :
  safe n r -> 0 <= o -> 0 <= n -> o + n <= m ->
  safe_located m (on_err r (new_decode_error f o)).
Proof.
  destruct r; cbn; intros; try tauto. now apply new_decode_error_located with (n := n).
Qed.
Lemma bind_safe {A B} n (m : res A) (k : A -> res B) :
  safe n m -> (forall x, m = Ok x -> safe n (k x)) -> safe n (bind m k).
Proof. destruct m; cbn; auto; tauto. Qed.
Lemma bind_safe_located {A B} n (m : res A) (k : A -> res B) :
  safe_located n m -> (forall x, m = Ok x -> safe_located n (k x)) -> safe_located n (bind m k).
Proof. destruct m; cbn; auto; tauto. Qed.

Lemma slice_app_l {A} (a b : list A) lo hi :
  0 <= lo <= hi -> hi <= len a -> slice (a ++ b) lo hi = slice a lo hi.
Proof.
  intros H1 H2. pose proof (len_nonneg b). rewrite !slice_ok; try (rewrite ?len_app; lia).
  f_equal. unfold len in *. rewrite skipn_app.
  rewrite firstn_app. rewrite skipn_length.
  replace (Z.to_nat (hi - lo) - (length a - Z.to_nat lo))%nat with 0%nat by lia.
  cbn [firstn]. apply app_nil_r.
Qed.
Lemma slice_bytes l lo hi r : Forall is_byte l -> slice l lo hi = Ok r -> Forall is_byte r.
Proof.
  intros H E. apply slice_inv in E as (_ & _ & ->). rewrite Forall_forall in *.
  intros x Hx. apply H. rewrite <- (firstn_skipn (Z.to_nat lo) l). apply in_or_app. right.
  rewrite <- (firstn_skipn (Z.to_nat (hi - lo)) (skipn _ l)). apply in_or_app. now left.
Qed.
Lemma slice_from_bytes l lo r : Forall is_byte l -> slice_from l lo = Ok r -> Forall is_byte r.
Proof. unfold slice_from. apply slice_bytes. Qed.
Lemma idx_byte l i x : Forall is_byte l -> idx l i = Ok x -> is_byte x.
Proof. intros H E. apply idx_In in E. rewrite Forall_forall in H. auto. Qed.
Lemma skipn_app_le {A} (a b : list A) n : (n <= length a)%nat -> skipn n (a ++ b) = skipn n a ++ b.
Proof. intros. rewrite skipn_app. now replace (n - length a)%nat with 0%nat by lia. Qed.
Lemma slice_from_app_l {A} (a b : list A) lo r :
  slice_from a lo = Ok r -> slice_from (a ++ b) lo = Ok (r ++ b).
Proof.
  intros H. apply slice_from_inv in H as (H & -> & _). pose proof (len_nonneg b).
  rewrite slice_from_ok by (rewrite len_app; lia). f_equal. apply skipn_app_le.
  unfold len in *; lia.
Qed.
(** Without the reductions done by [injection]. *)
Lemma ok_pair {A B} (a a' : A) (b b' : B) : Ok (a, b) = Ok (a', b') -> a = a' /\ b = b'.
Proof. intros H; injection H; auto. Qed.
Lemma ok_inj {A} (a a' : A) : Ok a = Ok a' -> a = a'.
Proof. intros H; injection H; auto. Qed.
