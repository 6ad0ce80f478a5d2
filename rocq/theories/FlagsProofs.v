(** Proofs about the data coding scheme and the flag setters. *)
From Verif Require Import GoBase GoLemmas Dcs FirstOctet SpecDcs UserData Tpdu ValidityPeriod SegmentProofs.

(** ** DCS: sweeps over all octets *)

Definition ores_eqb (r : res Z) (o : option Z) : bool :=
  match r, o with Ok a, Some b => a =? b | Err _, None => true | _, _ => false end.
Definition res_eqb (r s : res Z) : bool :=
  match r, s with Ok a, Ok b => a =? b | Err _, Err _ => true | _, _ => false end.

Definition group_eqb (a b : group) : bool :=
  match a, b with
  | General, General | ReservedGroup, ReservedGroup | Waiting7Bit, Waiting7Bit
  | WaitingUcs2, WaitingUcs2 | DataClass, DataClass => true
  | _, _ => false
  end.
Lemma group_eqb_eq a b : group_eqb a b = true -> a = b.
Proof. destruct a, b; cbn; congruence. Qed.

Definition opt_eqb (a b : option Z) : bool :=
  match a, b with Some x, Some y => x =? y | None, None => true | _, _ => false end.
Lemma opt_eqb_eq a b : opt_eqb a b = true -> a = b.
Proof. destruct a, b; cbn; try congruence. intros H. apply Z.eqb_eq in H. congruence. Qed.

Definition alpha_check (d : Z) : bool :=
  match dcs_alphabet d, alphabet_of d with
  | Ok a, Some b => a =? b
  | Err ErrInvalid, None => true
  | _, _ => false
  end.
Lemma alphabet_meaning d : is_byte d ->
  dcs_alphabet d = match alphabet_of d with Some a => Ok a | None => Err ErrInvalid end.
Proof.
  intros H. assert (C : alpha_check d = true).
  { revert d H. apply (zrange_sweep 256). vm_compute. reflexivity. }
  unfold alpha_check in C. destruct (dcs_alphabet d) as [a|e| |], (alphabet_of d); try discriminate.
  - f_equal. lia.
  - destruct e; discriminate.
  - destruct e; try discriminate. reflexivity.
Qed.

Definition class_check (d : Z) : bool :=
  match dcs_class d, class_of d with
  | Ok a, Some b => a =? b
  | Ok a, None => (a =? MClassUnknown) && match coding_group d with Waiting7Bit | WaitingUcs2 => true | _ => false end
  | Err ErrInvalid, None => match coding_group d with General | ReservedGroup => true | _ => false end
  | _, _ => false
  end.
Lemma class_meaning d : is_byte d ->
  dcs_class d = match class_of d with
                | Some c => Ok c
                | None => match coding_group d with
                          | Waiting7Bit | WaitingUcs2 => Ok MClassUnknown
                          | _ => Err ErrInvalid
                          end
                end.
Proof.
  intros H. assert (C : class_check d = true).
  { revert d H. apply (zrange_sweep 256). vm_compute. reflexivity. }
  unfold class_check in C. destruct (dcs_class d) as [a|e| |], (class_of d); try discriminate.
  - f_equal. lia.
  - destruct (coding_group d); try lia; f_equal; lia.
  - destruct e; discriminate.
  - destruct e; try discriminate. now destruct (coding_group d).
Qed.

Lemma compressed_meaning d : is_byte d -> dcs_compressed d = compressed d.
Proof.
  intros H. apply eqb_prop. revert d H.
  apply (zrange_sweep 256 (fun d => Bool.eqb (dcs_compressed d) (compressed d))). vm_compute. reflexivity.
Qed.

Definition with_alpha_check (d a : Z) : bool :=
  match dcs_with_alphabet d a with
  | Ok d' =>
      alphabet_expressible (coding_group d) a && (0 <=? d') && (d' <? 256) &&
      opt_eqb (alphabet_of d') (Some a) && opt_eqb (class_of d') (class_of d) &&
      group_eqb (coding_group d') (coding_group d) && Bool.eqb (compressed d') (compressed d) &&
      (d' / 16 =? d / 16)
  | Err ErrInvalid => negb (alphabet_expressible (coding_group d) a)
  | _ => false
  end.
Lemma with_alphabet_spec d a : is_byte d -> 0 <= a <= 2 ->
  if alphabet_expressible (coding_group d) a then
    exists d', dcs_with_alphabet d a = Ok d' /\ is_byte d' /\
      alphabet_of d' = Some a /\ class_of d' = class_of d /\ coding_group d' = coding_group d /\
      compressed d' = compressed d /\ d' / 16 = d / 16
  else dcs_with_alphabet d a = Err ErrInvalid.
Proof.
  intros H Ha. assert (C : with_alpha_check d a = true).
  { apply (zrange_sweep2 256 3); [vm_compute; reflexivity|exact H|lia]. }
  unfold with_alpha_check in C. destruct (dcs_with_alphabet d a) as [d'|e| |]; try discriminate.
  - repeat (apply andb_prop in C as (C & ?)). rewrite C. exists d'. split; [reflexivity|].
    split; [unfold is_byte; lia|]. repeat split.
    + now apply opt_eqb_eq.
    + now apply opt_eqb_eq.
    + now apply group_eqb_eq.
    + now apply eqb_prop.
    + lia.
  - destruct e; try discriminate. now destruct (alphabet_expressible _ _).
Qed.

Definition with_class_check (d c : Z) : bool :=
  match dcs_with_class d c with
  | Ok d' =>
      class_expressible (coding_group d) && (0 <=? d') && (d' <? 256) &&
      opt_eqb (class_of d') (Some c) && opt_eqb (alphabet_of d') (alphabet_of d) &&
      group_eqb (coding_group d') (coding_group d) && Bool.eqb (compressed d') (compressed d) &&
      (d' / 32 =? d / 32) && (d' / 4 mod 4 =? d / 4 mod 4)
  | Err ErrInvalid => negb (class_expressible (coding_group d))
  | _ => false
  end.
Lemma with_class_spec d c : is_byte d -> 0 <= c <= 3 ->
  if class_expressible (coding_group d) then
    exists d', dcs_with_class d c = Ok d' /\ is_byte d' /\
      class_of d' = Some c /\ alphabet_of d' = alphabet_of d /\ coding_group d' = coding_group d /\
      compressed d' = compressed d /\ d' / 32 = d / 32 /\ d' / 4 mod 4 = d / 4 mod 4
  else dcs_with_class d c = Err ErrInvalid.
Proof.
  intros H Ha. assert (C : with_class_check d c = true).
  { apply (zrange_sweep2 256 4); [vm_compute; reflexivity|exact H|lia]. }
  unfold with_class_check in C. destruct (dcs_with_class d c) as [d'|e| |]; try discriminate.
  - repeat (apply andb_prop in C as (C & ?)). rewrite C. exists d'. split; [reflexivity|].
    split; [unfold is_byte; lia|]. repeat split.
    + now apply opt_eqb_eq.
    + now apply opt_eqb_eq.
    + now apply group_eqb_eq.
    + now apply eqb_prop.
    + lia.
    + lia.
  - destruct e; try discriminate. now destruct (class_expressible _).
Qed.

(** ** Bits *)

Lemma byte_testbit_hi x n : is_byte x -> 8 <= n -> Z.testbit x n = false.
Proof.
  intros H Hn. destruct (Z.eq_dec x 0) as [->|NZ]; [apply Z.bits_0|].
  apply Z.bits_above_log2; [unfold is_byte in H; lia|].
  assert (Z.log2 x < 8); [|lia]. apply Z.log2_lt_pow2; unfold is_byte in H; lia.
Qed.

Ltac bits_const n :=
  destruct (Z.ltb_spec n 0) as [?|?]; [rewrite !Z.testbit_neg_r by lia; reflexivity|];
  assert (n = 0 \/ n = 1 \/ n = 2 \/ n = 3 \/ n = 4 \/ n = 5 \/ n = 6 \/ n = 7 \/ 8 <= n)
    as [->|[->|[->|[->|[->|[->|[->|[->|?]]]]]]]] by lia.

Lemma lor_bit x k : 0 <= k -> same_bits_except [k] x (Z.lor x (2 ^ k)) /\ Z.testbit (Z.lor x (2 ^ k)) k = true.
Proof.
  intros Hk. split.
  - intros n H. rewrite Z.lor_spec. rewrite Z.pow2_bits_eqb by lia.
    replace (k =? n) with false by (cbn in H; lia). apply orb_false_r.
  - rewrite Z.lor_spec, Z.pow2_bits_true by lia. apply orb_true_r.
Qed.

Lemma testbit_pow2 k x : 0 <= k -> negb (Z.land x (2 ^ k) =? 0) = Z.testbit x k.
Proof.
  intros Hk. destruct (Z.testbit x k) eqn:E.
  - destruct (Z.land x (2 ^ k) =? 0) eqn:F; [|reflexivity]. apply Z.eqb_eq in F.
    assert (Z.testbit (Z.land x (2 ^ k)) k = false) by (rewrite F; apply Z.bits_0).
    rewrite Z.land_spec, E, Z.pow2_bits_true in H by lia. discriminate.
  - assert (Z.land x (2 ^ k) = 0) as ->; [|reflexivity].
    apply Z.bits_inj'. intros n Hn. rewrite Z.land_spec, Z.pow2_bits_eqb, Z.bits_0 by lia.
    destruct (k =? n) eqn:F; [|apply andb_false_r]. apply Z.eqb_eq in F. subst. now rewrite E.
Qed.


Lemma andnot8_ldiff x m : is_byte x -> 0 <= m < 256 -> andnot8 x m = Z.ldiff x m.
Proof.
  intros Hx Hm. unfold andnot8. apply Z.bits_inj'. intros n Hn. rewrite Z.land_spec, Z.ldiff_spec.
  destruct (Z.leb_spec 8 n).
  - now rewrite byte_testbit_hi.
  - f_equal. replace (255 - m) with (Z.ldiff 255 m).
    + rewrite Z.ldiff_spec. replace (Z.testbit 255 n) with true; [apply andb_true_l|].
      change 255 with (Z.ones 8). rewrite Z.ones_spec_low by lia. reflexivity.
    + symmetry. apply Z.sub_nocarry_ldiff. apply Z.bits_inj'. intros k Hk.
      rewrite Z.ldiff_spec, Z.bits_0. destruct (Z.leb_spec 8 k).
      * rewrite byte_testbit_hi; [reflexivity|assumption|lia].
      * change 255 with (Z.ones 8). rewrite Z.ones_spec_low by lia. apply andb_false_r.
Qed.

Lemma andnot_bit x k : is_byte x -> 0 <= k < 8 ->
  same_bits_except [k] x (andnot8 x (2 ^ k)) /\ Z.testbit (andnot8 x (2 ^ k)) k = false.
Proof.
  intros Hx Hk. assert (2 ^ k < 2 ^ 8) by (apply Z.pow_lt_mono_r; lia).
  rewrite andnot8_ldiff; [|assumption|split; [apply Z.pow_nonneg; lia|exact H]]. split.
  - intros n Hn. rewrite Z.ldiff_spec, Z.pow2_bits_eqb by lia.
    replace (k =? n) with false by (cbn in Hn; lia). apply andb_true_r.
  - rewrite Z.ldiff_spec, Z.pow2_bits_true by lia. apply andb_false_r.
Qed.

(** Two-bit fields, by sweeping. *)
Lemma bits8_eq x y l : is_byte x -> is_byte y ->
  forallb (fun n => existsb (Z.eqb n) l || Bool.eqb (Z.testbit y n) (Z.testbit x n)) (zrange 8) = true ->
  same_bits_except l x y.
Proof.
  intros Hx Hy H n Hn. destruct (Z.leb_spec 8 n); [now rewrite !byte_testbit_hi|].
  destruct (Z.ltb_spec n 0); [now rewrite !Z.testbit_neg_r|].
  pose proof (zrange_sweep 8 _ H n ltac:(lia)) as C. cbn beta in C.
  apply orb_prop in C as [C|C]; [|now apply eqb_prop].
  apply existsb_exists in C as (m & Hm & E). apply Z.eqb_eq in E. congruence.
Qed.

Definition with_mti_check (f m : Z) : bool :=
  let f' := fo_with_mti f m in
  (0 <=? f') && (f' <? 256) && (fo_mti f' =? m) &&
  forallb (fun n => existsb (Z.eqb n) [0; 1] || Bool.eqb (Z.testbit f' n) (Z.testbit f n)) (zrange 8).
Lemma with_mti_spec f m : is_byte f -> 0 <= m <= 3 ->
  is_byte (fo_with_mti f m) /\ fo_mti (fo_with_mti f m) = m /\ same_bits_except [0; 1] f (fo_with_mti f m).
Proof.
  intros Hf Hm. assert (C : with_mti_check f m = true).
  { apply (zrange_sweep2 256 4); [vm_compute; reflexivity|exact Hf|lia]. }
  unfold with_mti_check in C. cbv zeta in C. repeat (apply andb_prop in C as (C & ?)).
  assert (is_byte (fo_with_mti f m)) by (unfold is_byte; lia).
  split; [assumption|]. split; [lia|]. now apply bits8_eq.
Qed.

Definition with_vpf_check (f v : Z) : bool :=
  let f' := fo_with_vpf f v in
  (0 <=? f') && (f' <? 256) && (fo_vpf f' =? v) &&
  forallb (fun n => existsb (Z.eqb n) [3; 4] || Bool.eqb (Z.testbit f' n) (Z.testbit f n)) (zrange 8).
Lemma with_vpf_spec f v : is_byte f -> 0 <= v <= 3 ->
  is_byte (fo_with_vpf f v) /\ fo_vpf (fo_with_vpf f v) = v /\ same_bits_except [3; 4] f (fo_with_vpf f v).
Proof.
  intros Hf Hm. assert (C : with_vpf_check f v = true).
  { apply (zrange_sweep2 256 4); [vm_compute; reflexivity|exact Hf|lia]. }
  unfold with_vpf_check in C. cbv zeta in C. repeat (apply andb_prop in C as (C & ?)).
  assert (is_byte (fo_with_vpf f v)) by (unfold is_byte; lia).
  split; [assumption|]. split; [lia|]. now apply bits8_eq.
Qed.

(** SetVP masks the shifted format, so that formats above 3 lose their high bits. *)
Lemma set_vp_fo f v : is_byte f -> is_byte v ->
  Z.lor (andnot8 f FoVPFMask) (Z.land (shl8 v FoVPFShift) FoVPFMask) = fo_with_vpf f (v mod 4).
Proof.
  intros Hf Hv. unfold fo_with_vpf. f_equal.
  assert (C : forallb (fun v => Z.land (shl8 v FoVPFShift) FoVPFMask =? shl8 (v mod 4) FoVPFShift) (zrange 256) = true)
    by (vm_compute; reflexivity).
  pose proof (zrange_sweep 256 _ C v Hv) as E. cbn beta in E. lia.
Qed.
