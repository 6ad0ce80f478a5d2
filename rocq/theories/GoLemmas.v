(** General lemmas about the base of the model. *)
From Verif Require Import GoBase.
From Coq Require Export ZifyBool ZifyNat ZifyN.
Ltac Zify.zify_post_hook ::= Z.div_mod_to_equations.

(** Decisive rewriting of a boolean test whose value [lia] can settle. *)
Ltac btrue b := replace b with true in * by (symmetry; lia).
Ltac bfalse b := replace b with false in * by (symmetry; lia).

Lemma len_nil {A} : len (@nil A) = 0. Proof. reflexivity. Qed.
Lemma len_cons {A} (x : A) l : len (x :: l) = 1 + len l.
Proof. unfold len; cbn [length]; lia. Qed.
Lemma len_app {A} (a b : list A) : len (a ++ b) = len a + len b.
Proof. unfold len; rewrite app_length; lia. Qed.
Lemma len_nonneg {A} (l : list A) : 0 <= len l.
Proof. unfold len; lia. Qed.
Lemma len_0_nil {A} (l : list A) : len l = 0 -> l = [].
Proof. destruct l; [reflexivity|]. rewrite len_cons. pose proof (len_nonneg l). lia. Qed.
Lemma len_eqb_nil {A} (l : list A) : (len l =? 0) = true -> l = [].
Proof. intros H; apply len_0_nil; lia. Qed.
Lemma len_map {A B} (f : A -> B) l : len (map f l) = len l.
Proof. unfold len; now rewrite map_length. Qed.
Lemma len_rev {A} (l : list A) : len (rev l) = len l.
Proof. unfold len; now rewrite rev_length. Qed.
Lemma len_repeat {A} (x : A) n : len (repeat x n) = Z.of_nat n.
Proof. unfold len; now rewrite repeat_length. Qed.
Lemma len_firstn {A} (l : list A) n :
  0 <= n <= len l -> len (firstn (Z.to_nat n) l) = n.
Proof. unfold len; intros; rewrite firstn_length; lia. Qed.
Lemma len_skipn {A} (l : list A) n :
  0 <= n <= len l -> len (skipn (Z.to_nat n) l) = len l - n.
Proof. unfold len; intros; rewrite skipn_length; lia. Qed.

Lemma idx_ok {A} (l : list A) i : 0 <= i < len l -> exists x, idx l i = Ok x /\ In x l.
Proof.
  intros H; unfold idx. destruct (i <? 0) eqn:E; [lia|].
  destruct (nth_error l (Z.to_nat i)) eqn:E2.
  - eexists; split; [reflexivity|]. eapply nth_error_In; eauto.
  - apply nth_error_None in E2. unfold len in H. lia.
Qed.

Lemma idx_range {A} (l : list A) i x : idx l i = Ok x -> 0 <= i < len l.
Proof.
  unfold idx. destruct (i <? 0) eqn:E; [discriminate|].
  destruct (nth_error l (Z.to_nat i)) eqn:E2; [|discriminate].
  intros _. assert (nth_error l (Z.to_nat i) <> None) by congruence.
  apply nth_error_Some in H. unfold len; lia.
Qed.

Lemma idx_In {A} (l : list A) i x : idx l i = Ok x -> In x l.
Proof.
  unfold idx. destruct (i <? 0); [discriminate|].
  destruct (nth_error l (Z.to_nat i)) eqn:E2; [|discriminate].
  intros H; injection H as <-. eapply nth_error_In; eauto.
Qed.

Lemma idx_not_err {A} (l : list A) i e : idx l i <> Err e.
Proof. unfold idx. destruct (i <? 0); [discriminate|]. destruct (nth_error _ _); discriminate. Qed.
Lemma idx_not_div {A} (l : list A) i : idx l i <> Diverge.
Proof. unfold idx. destruct (i <? 0); [discriminate|]. destruct (nth_error _ _); discriminate. Qed.
Lemma idx_panic {A} (l : list A) i : idx l i = Panic -> ~ (0 <= i < len l).
Proof. intros H R. destruct (idx_ok l i R) as (x & E & _). congruence. Qed.

Lemma idx_app_mid {A} (a : list A) x b : idx (a ++ x :: b) (len a) = Ok x.
Proof.
  unfold idx. pose proof (len_nonneg a). bfalse (len a <? 0).
  unfold len. rewrite Nat2Z.id. rewrite nth_error_app2 by lia.
  now rewrite Nat.sub_diag.
Qed.

Lemma idx_app_l {A} (a b : list A) i : 0 <= i < len a -> idx (a ++ b) i = idx a i.
Proof.
  intros H; unfold idx. destruct (i <? 0) eqn:E; [reflexivity|].
  rewrite nth_error_app1 by (unfold len in H; lia). reflexivity.
Qed.

Lemma idx_app_r {A} (a b : list A) i : len a <= i -> idx (a ++ b) i = idx b (i - len a).
Proof.
  intros H; unfold idx. pose proof (len_nonneg a).
  bfalse (i <? 0). bfalse (i - len a <? 0).
  rewrite nth_error_app2 by (unfold len in H; lia).
  now replace (Z.to_nat i - length a)%nat with (Z.to_nat (i - len a)) by (unfold len; lia).
Qed.

Lemma idx_0 {A} (x : A) l : idx (x :: l) 0 = Ok x.
Proof. reflexivity. Qed.

Lemma idx_succ {A} (x : A) l i : 0 < i -> idx (x :: l) i = idx l (i - 1).
Proof.
  intros. change (x :: l) with ([x] ++ l). rewrite idx_app_r; [reflexivity|].
  change (len [x]) with 1; lia.
Qed.

Lemma idx_nth {A} (l : list A) i d : 0 <= i < len l -> idx l i = Ok (nth (Z.to_nat i) l d).
Proof.
  intros H; unfold idx. bfalse (i <? 0).
  rewrite nth_error_nth' with (d := d) by (unfold len in H; lia). reflexivity.
Qed.

Lemma slice_ok {A} (l : list A) lo hi :
  0 <= lo <= hi -> hi <= len l ->
  slice l lo hi = Ok (firstn (Z.to_nat (hi - lo)) (skipn (Z.to_nat lo) l)).
Proof. intros; unfold slice. now btrue ((0 <=? lo) && (lo <=? hi) && (hi <=? len l)). Qed.

Lemma slice_inv {A} (l : list A) lo hi r :
  slice l lo hi = Ok r ->
  0 <= lo <= hi /\ hi <= len l /\ r = firstn (Z.to_nat (hi - lo)) (skipn (Z.to_nat lo) l).
Proof.
  unfold slice. destruct ((0 <=? lo) && (lo <=? hi) && (hi <=? len l)) eqn:E; [|discriminate].
  intros H; injection H as <-. repeat split; try reflexivity; lia.
Qed.

Lemma slice_len {A} (l : list A) lo hi r : slice l lo hi = Ok r -> len r = hi - lo.
Proof.
  intros H. apply slice_inv in H as (? & ? & ->).
  rewrite len_firstn; [reflexivity|]. rewrite len_skipn; lia.
Qed.

Lemma slice_app {A} (a b c : list A) lo hi :
  lo = len a -> hi = len a + len b -> slice (a ++ b ++ c) lo hi = Ok b.
Proof.
  intros -> ->. pose proof (len_nonneg a). pose proof (len_nonneg b). pose proof (len_nonneg c).
  rewrite slice_ok; [|lia|rewrite !len_app; lia].
  f_equal. unfold len. rewrite Nat2Z.id.
  rewrite skipn_app, skipn_all2, Nat.sub_diag by lia. cbn [app skipn].
  replace (Z.to_nat _) with (length b) by lia.
  rewrite firstn_app, firstn_all, Nat.sub_diag. cbn [firstn]. apply app_nil_r.
Qed.

Lemma slice_from_app {A} (a b : list A) lo : lo = len a -> slice_from (a ++ b) lo = Ok b.
Proof.
  intros ->. unfold slice_from.
  rewrite <- (app_nil_r b) at 1. apply slice_app; [reflexivity|apply len_app].
Qed.

Lemma slice_from_ok {A} (l : list A) lo :
  0 <= lo <= len l -> slice_from l lo = Ok (skipn (Z.to_nat lo) l).
Proof.
  intros; unfold slice_from. rewrite slice_ok by lia. f_equal.
  apply firstn_all2. rewrite skipn_length. unfold len in *; lia.
Qed.

Lemma slice_from_inv {A} (l : list A) lo r :
  slice_from l lo = Ok r -> 0 <= lo <= len l /\ r = skipn (Z.to_nat lo) l /\ len r = len l - lo.
Proof.
  intros H. assert (0 <= lo <= len l) as HR.
  { unfold slice_from in H. apply slice_inv in H. lia. }
  rewrite slice_from_ok in H by lia. injection H as <-. repeat split; try lia.
  apply len_skipn; lia.
Qed.

Lemma slice_not_err {A} (l : list A) lo hi e : slice l lo hi <> Err e.
Proof. unfold slice. destruct (_ && _ && _); discriminate. Qed.
Lemma slice_not_div {A} (l : list A) lo hi : slice l lo hi <> Diverge.
Proof. unfold slice. destruct (_ && _ && _); discriminate. Qed.

Lemma bind_ok {A B} (m : res A) (k : A -> res B) y :
  bind m k = Ok y -> exists x, m = Ok x /\ k x = Ok y.
Proof. destruct m; cbn; intros H; try discriminate. eauto. Qed.

Lemma on_err_ok {A} (m : res A) f y : on_err m f = Ok y -> m = Ok y.
Proof. destruct m; cbn; intros H; congruence. Qed.

(** Lifting of a computed check over a range. *)
Definition zrange (n : nat) : list Z := map Z.of_nat (seq 0 n).
Lemma zrange_In n x : 0 <= x < Z.of_nat n -> In x (zrange n).
Proof.
  intros H; unfold zrange. apply in_map_iff. exists (Z.to_nat x); split; [lia|].
  apply in_seq; lia.
Qed.
Lemma zrange_sweep n (f : Z -> bool) :
  forallb f (zrange n) = true -> forall x, 0 <= x < Z.of_nat n -> f x = true.
Proof. intros H x Hx. rewrite forallb_forall in H. apply H, zrange_In; assumption. Qed.
Lemma zrange_sweep2 n m (f : Z -> Z -> bool) :
  forallb (fun x => forallb (f x) (zrange m)) (zrange n) = true ->
  forall x y, 0 <= x < Z.of_nat n -> 0 <= y < Z.of_nat m -> f x y = true.
Proof.
  intros H x y Hx Hy. eapply zrange_sweep in H; eauto. eapply zrange_sweep in H; eauto.
Qed.

Lemma to_byte_id x : 0 <= x < 256 -> to_byte x = x.
Proof. unfold to_byte; intros; apply Z.mod_small; lia. Qed.
Lemma to_byte_range x : 0 <= to_byte x < 256.
Proof. unfold to_byte; lia. Qed.
Lemma shl8_spec s k : 0 <= k -> shl8 s k = (s * 2 ^ k) mod 256.
Proof.
  intros; unfold shl8. rewrite Z.shiftl_mul_pow2 by lia.
  change 255 with (Z.ones 8). rewrite Z.land_ones by lia. reflexivity.
Qed.

Lemma firstn_app_exact {A} (a b : list A) n : n = length a -> firstn n (a ++ b) = a.
Proof. intros ->. rewrite firstn_app, firstn_all, Nat.sub_diag; cbn. apply app_nil_r. Qed.
Lemma skipn_app_exact {A} (a b : list A) n : n = length a -> skipn n (a ++ b) = b.
Proof. intros ->. rewrite skipn_app, skipn_all, Nat.sub_diag. reflexivity. Qed.

Lemma flat_map_len_const {A B} (f : A -> list B) k l :
  (forall x, In x l -> length (f x) = k) -> length (flat_map f l) = (k * length l)%nat.
Proof.
  induction l; intros H; cbn; [lia|].
  rewrite app_length, IHl by (intros; apply H; now right). rewrite H by now left. lia.
Qed.
