(** [int(d.Hours())] is the number of whole hours as long as the rounding of
    float64 is finer than a nanosecond. *)
From Verif Require Import GoBase GoLemmas GoFloat ValidityPeriod.

Lemma round_even_bounds n d : 0 <= n -> 0 < d -> n / d <= round_even n d /\ 2 * d * round_even n d <= 2 * n + d.
Proof.
  intros Hn Hd. unfold round_even. pose proof (Z.div_mod n d ltac:(lia)) as E. pose proof (Z.mod_pos_bound n d Hd) as B.
  set (q := n / d) in *. set (r := n mod d) in *.
  destruct (2 * r <? d) eqn:C1; [split; nia|]. destruct (d <? 2 * r) eqn:C2; [split; nia|].
  destruct (Z.even q); split; nia.
Qed.

Lemma double_bounds n d k : 0 <= n -> 0 < d -> n < 2 ^ k * d -> 0 <= k <= 52 ->
  let '(m, e) := double_of n d in
  53 - k <= e /\ (n * 2 ^ e) / d <= m /\ 2 * d * m <= 2 * (n * 2 ^ e) + d.
Proof.
  intros Hn Hd HL Hk. unfold double_of. set (e0 := 52 - (Z.log2 n - Z.log2 d)).
  set (e := if n * 2 ^ e0 <? d * 2 ^ 52 then e0 + 1 else e0).
  assert (B0 : 52 - k <= e0).
  { subst e0. enough (Z.log2 n <= k + Z.log2 d) by lia. destruct (Z.eq_dec n 0) as [->|N].
    - change (Z.log2 0) with 0. pose proof (Z.log2_nonneg d). lia.
    - pose proof (Z.log2_spec d Hd) as [_ U]. apply Z.lt_succ_r. apply Z.log2_lt_pow2; [lia|].
      pose proof (Z.log2_nonneg d) as LD.
      eapply Z.lt_le_trans; [exact HL|]. apply Z.lt_le_incl.
      replace (Z.succ (k + Z.log2 d)) with (k + Z.succ (Z.log2 d)) by lia. rewrite Z.pow_add_r by lia.
      apply Z.mul_lt_mono_pos_l; [apply Z.pow_pos_nonneg; lia|exact U]. }
  assert (B : 53 - k <= e).
  { subst e. destruct (n * 2 ^ e0 <? d * 2 ^ 52) eqn:C; [lia|]. destruct (Z.eq_dec e0 (52 - k)) as [E|]; [|lia]. exfalso.
    rewrite E in C. assert (P : 2 ^ 52 = 2 ^ k * 2 ^ (52 - k)) by (rewrite <- Z.pow_add_r by lia; f_equal; lia).
    assert (0 < 2 ^ (52 - k)) by (apply Z.pow_pos_nonneg; lia). nia. }
  split; [exact B|]. assert (0 <= n * 2 ^ e) by (apply Z.mul_nonneg_nonneg; [lia|]; apply Z.pow_nonneg; lia).
  now apply round_even_bounds.
Qed.

(** m' / y is at most half a unit of it more than h + m / x, and m / x less than
    1 - 1 / u and half a unit of it. *)
Lemma far_enough u h m m' x y K T : 0 < u -> 0 < x -> 0 < y -> 0 < T -> T <= K * y -> T <= x ->
  u * (K + 1) < 2 * T -> 2 * u * m <= 2 * (u - 1) * x + u -> 2 * x * m' <= 2 * ((h * x + m) * y) + x ->
  m' < y * (h + 1).
Proof.
  intros Hu Hx Hy HT A B HU HM HM'.
  assert (Q1 : T * (u * x) <= u * K * (x * y)).
  { replace (u * K * (x * y)) with ((u * x) * (K * y)) by ring. rewrite Z.mul_comm. apply Z.mul_le_mono_nonneg_l; [nia|exact A]. }
  assert (Q2 : T * (u * y) <= u * (x * y)).
  { replace (u * (x * y)) with ((u * y) * x) by ring. rewrite Z.mul_comm. apply Z.mul_le_mono_nonneg_l; [nia|exact B]. }
  assert (XY : 0 < x * y) by nia.
  assert (Q3 : u * (K + 1) * (x * y) < 2 * T * (x * y)) by (apply Z.mul_lt_mono_pos_r; assumption).
  assert (Q : u * x + u * y < 2 * (x * y)).
  { apply (Z.mul_lt_mono_pos_l T); [exact HT|]. replace (T * (2 * (x * y))) with (2 * T * (x * y)) by ring.
    eapply Z.le_lt_trans; [|exact Q3]. replace (u * (K + 1) * (x * y)) with (u * K * (x * y) + u * (x * y)) by ring.
    rewrite Z.mul_add_distr_l. apply Z.add_le_mono; assumption. }
  assert (S1 : u * (2 * x * m') <= u * (2 * ((h * x + m) * y) + x)) by (apply Z.mul_le_mono_nonneg_l; lia).
  assert (S2 : (2 * u * m) * y <= (2 * (u - 1) * x + u) * y) by (apply Z.mul_le_mono_nonneg_r; lia).
  apply (Z.mul_lt_mono_pos_l (2 * u * x)); [nia|].
  replace (2 * u * x * m') with (u * (2 * x * m')) by ring.
  eapply Z.le_lt_trans; [exact S1|].
  replace (u * (2 * ((h * x + m) * y) + x)) with (2 * u * h * (x * y) + (2 * u * m) * y + u * x) by ring.
  replace (2 * u * x * (y * (h + 1))) with (2 * u * h * (x * y) + 2 * u * (x * y)) by ring.
  replace ((2 * (u - 1) * x + u) * y) with (2 * u * (x * y) - 2 * (x * y) + u * y) in S2 by ring. lia.
Qed.

Lemma in_units_exact u d k : 0 < u -> 0 <= k <= 40 -> u * (2 ^ k + 1) < 2 ^ 54 -> Z.abs d / u < 2 ^ k ->
  in_units u d = Z.quot d u.
Proof.
  intros Hu Hk HU HD. unfold in_units. set (h := Z.abs d / u) in *. set (p := Z.abs d mod u).
  assert (Hh : 0 <= h) by (apply Z.div_pos; lia).
  assert (Hp : 0 <= p < u) by (apply Z.mod_pos_bound; lia).
  pose proof (double_bounds p u 0 ltac:(lia) Hu ltac:(lia) ltac:(lia)) as B1.
  destruct (double_of p u) as [m e]. destruct B1 as (E1 & L1 & U1).
  assert (Pe : 0 < 2 ^ e) by (apply Z.pow_pos_nonneg; lia).
  assert (M0 : 0 <= m). { eapply Z.le_trans; [|exact L1]. apply Z.div_pos; [nia|lia]. }
  assert (ME : 2 * u * m <= 2 * (u - 1) * 2 ^ e + u) by nia.
  assert (G : forall j, 53 <= j -> u * (2 ^ k + 1) < 2 * 2 ^ j).
  { intros j Hj. eapply Z.lt_le_trans; [exact HU|]. change (2 ^ 54) with (2 * 2 ^ 53).
    apply Z.mul_le_mono_nonneg_l; [lia|]. apply Z.pow_le_mono_r; lia. }
  assert (Pk : 1 <= 2 ^ k) by (change 1 with (2 ^ 0); apply Z.pow_le_mono_r; lia).
  assert (M1 : m < 2 ^ e) by (specialize (G e ltac:(lia)); nia).
  set (N := h * 2 ^ e + m).
  assert (N0 : 0 <= N) by (subst N; apply Z.add_nonneg_nonneg; [apply Z.mul_nonneg_nonneg; lia|exact M0]).
  assert (N1 : N < 2 ^ k * 2 ^ e).
  { apply Z.lt_le_trans with ((h + 1) * 2 ^ e); [subst N; lia|]. apply Z.mul_le_mono_nonneg_r; lia. }
  pose proof (double_bounds N (2 ^ e) k N0 Pe N1 ltac:(lia)) as B2.
  destruct (double_of N (2 ^ e)) as [m' e']. destruct B2 as (E2 & L2 & U2).
  assert (Pe' : 0 < 2 ^ e') by (apply Z.pow_pos_nonneg; lia).
  assert (R : m' / 2 ^ e' = h).
  { apply Z.le_antisymm.
    - apply Z.lt_succ_r. apply Z.div_lt_upper_bound; [lia|]. rewrite <- Z.add_1_r.
      assert (A : 2 ^ 53 <= 2 ^ k * 2 ^ e') by (rewrite <- Z.pow_add_r by lia; apply Z.pow_le_mono_r; lia).
      assert (B : 2 ^ 53 <= 2 ^ e) by (apply Z.pow_le_mono_r; lia).
      change (2 ^ 54) with (2 * 2 ^ 53) in HU. apply (far_enough u h m m' (2 ^ e) (2 ^ e') (2 ^ k) (2 ^ 53)); try assumption; reflexivity.
    - apply Z.div_le_lower_bound; [lia|]. eapply Z.le_trans; [|exact L2]. apply Z.div_le_lower_bound; [lia|]. subst N.
      replace (2 ^ e * (2 ^ e' * h)) with (h * 2 ^ e * 2 ^ e') by ring. apply Z.mul_le_mono_nonneg_r; lia. }
  rewrite R. subst h. destruct (Z.sgn_spec d) as [[P ->]|[[<- ->]|[P ->]]].
  - rewrite Z.abs_eq by lia. rewrite Z.quot_div_nonneg by lia. lia.
  - rewrite Z.quot_0_l by lia. lia.
  - rewrite Z.abs_neq by lia. rewrite <- Z.quot_div_nonneg by lia. rewrite Z.quot_opp_l by lia. lia.
Qed.

(** Below 4096 hours all three are exact. *)
Lemma hms_exact d : Z.abs d < 4096 * ns_hour ->
  in_units ns_hour d = Z.quot d ns_hour /\ in_units ns_minute d = Z.quot d ns_minute /\ in_units ns_second d = Z.quot d ns_second.
Proof.
  intros H. assert (A : 0 <= Z.abs d) by lia.
  assert (U : ns_hour = 3600000000000 /\ ns_minute = 60000000000 /\ ns_second = 1000000000) by (repeat split).
  destruct U as (U1 & U2 & U3). rewrite U1 in H. rewrite U1, U2, U3. split; [|split].
  - apply (in_units_exact _ _ 12); [lia|lia|reflexivity|]. apply Z.div_lt_upper_bound; [lia|]. change (2 ^ 12) with 4096. lia.
  - apply (in_units_exact _ _ 18); [lia|lia|reflexivity|]. apply Z.div_lt_upper_bound; [lia|]. change (2 ^ 18) with 262144. lia.
  - apply (in_units_exact _ _ 24); [lia|lia|reflexivity|]. apply Z.div_lt_upper_bound; [lia|]. change (2 ^ 24) with 16777216. lia.
Qed.
