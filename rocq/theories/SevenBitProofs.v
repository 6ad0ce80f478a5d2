(** Lemmas for C01-C03: 7-bit packing. *)
From Verif Require Import GoBase GoLemmas SevenBit SpecBits.

Lemma bits_length n x : length (bits n x) = n.
Proof. unfold bits. now rewrite map_length, seq_length. Qed.

Definition beq_bits (a b : list bool) : bool :=
  if list_eq_dec bool_dec a b then true else false.
Lemma beq_bits_ok a b : beq_bits a b = true -> a = b.
Proof. unfold beq_bits. destruct (list_eq_dec _ _ _); [trivial|discriminate]. Qed.

(** One packing step, checked for all residues and septets. *)
Definition pack_step_ok (k r s : Z) : bool :=
  implb (r <? 2 ^ (k + 1))
    (let o := Z.land (Z.lor r (shl8 s (k + 1))) 255 in
     let r' := ushr s (8 - (k + 1)) in
     beq_bits (bits 8 o ++ bits (Z.to_nat k) r')
              (bits (Z.to_nat (k + 1)) r ++ bits 7 s)
     && (0 <=? o) && (o <? 256) && (0 <=? r') && (r' <? 2 ^ k)).

Lemma pack_step_sweep :
  forallb (fun k => forallb (fun r => forallb (pack_step_ok k r) (zrange 128))
                            (zrange 128)) (zrange 7) = true.
Proof. vm_compute. reflexivity. Qed.

Lemma pack_step k r s :
  1 <= k <= 7 -> 0 <= r < 2 ^ k -> is_septet s ->
  let o := Z.land (Z.lor r (shl8 s k)) 255 in
  let r' := ushr s (8 - k) in
  bits 8 o ++ bits (Z.to_nat (k - 1)) r' = bits (Z.to_nat k) r ++ bits 7 s
  /\ is_byte o /\ 0 <= r' < 2 ^ (k - 1).
Proof.
  intros Hk Hr Hs o r'. unfold is_septet in Hs.
  assert (2 ^ k <= 2 ^ 7) by (apply Z.pow_le_mono_r; lia).
  change (2 ^ 7) with 128 in *.
  pose proof (zrange_sweep _ _ pack_step_sweep (k - 1) ltac:(lia)) as H1.
  pose proof (zrange_sweep _ _ H1 r ltac:(lia)) as H2.
  pose proof (zrange_sweep _ _ H2 s ltac:(lia)) as H3.
  unfold pack_step_ok in H3. replace (k - 1 + 1) with k in H3 by lia.
  fold o r' in H3. btrue (r <? 2 ^ k). cbn [implb] in H3.
  rewrite !andb_true_iff in H3. destruct H3 as ((((Hb & ?) & ?) & ?) & ?).
  apply beq_bits_ok in Hb. split; [exact Hb|]. unfold is_byte. lia.
Qed.

Definition fin_ok (k r : Z) : bool :=
  implb (r <? 2 ^ k)
    (beq_bits (bits 8 r) (bits (Z.to_nat k) r ++ repeat false (Z.to_nat (8 - k)))).
Lemma fin_sweep :
  forallb (fun k => forallb (fin_ok k) (zrange 128)) (zrange 8) = true.
Proof. vm_compute. reflexivity. Qed.
Lemma fin_bits k r : 1 <= k <= 7 -> 0 <= r < 2 ^ k ->
  bits 8 r = bits (Z.to_nat k) r ++ repeat false (Z.to_nat (8 - k)).
Proof.
  intros. assert (2 ^ k <= 2 ^ 7) by (apply Z.pow_le_mono_r; lia).
  change (2 ^ 7) with 128 in *.
  pose proof (zrange_sweep2 _ _ _ fin_sweep k r ltac:(lia) ltac:(lia)) as Hf.
  unfold fin_ok in Hf. btrue (r <? 2 ^ k). now apply beq_bits_ok.
Qed.

(** The residue invariant of the packing loop. *)
Lemma pack_loop_bits u : Forall is_septet u ->
  forall r k, 0 <= k <= 7 -> 0 <= r < 2 ^ k ->
  Forall is_byte (pack_loop u r k) /\
  exists pad, (pad < 8)%nat /\
    octet_bits (pack_loop u r k) = bits (Z.to_nat k) r ++ septet_bits u ++ repeat false pad.
Proof.
  induction 1 as [|s u Hs Hu IH]; intros r k Hk Hr; cbn [pack_loop].
  - destruct (k =? 0) eqn:E; cbn [negb].
    + split; [constructor|]. exists O. assert (k = 0) by lia; subst.
      split; [lia|reflexivity].
    + assert (2 ^ k <= 2 ^ 7) by (apply Z.pow_le_mono_r; lia).
      change (2 ^ 7) with 128 in *.
      split; [repeat constructor; lia|].
      exists (Z.to_nat (8 - k)). split; [lia|].
      unfold octet_bits; cbn [flat_map septet_bits].
      rewrite app_nil_r. apply fin_bits; lia.
  - destruct (k =? 0) eqn:E.
    + assert (k = 0) by lia; subst.
      destruct (IH s 7 ltac:(lia) ltac:(unfold is_septet in Hs; lia)) as (HB & pad & Hp & Hb).
      split; [exact HB|]. exists pad; split; [exact Hp|].
      rewrite Hb. cbn [septet_bits flat_map]. change (bits (Z.to_nat 0) r) with (@nil bool).
      rewrite <- app_assoc. reflexivity.
    + destruct (pack_step k r s ltac:(lia) Hr Hs) as (Hstep & Ho & Hr').
      destruct (IH _ (k - 1) ltac:(lia) Hr') as (HB & pad & Hp & Hb).
      split; [constructor; assumption|]. exists pad; split; [exact Hp|].
      unfold octet_bits in *. cbn [flat_map septet_bits].
      rewrite Hb. rewrite (app_assoc (bits 8 _)), Hstep.
      fold (septet_bits u). rewrite <- !app_assoc. reflexivity.
Qed.

Lemma bits_zero n : bits n 0 = repeat false n.
Proof.
  unfold bits. rewrite (map_ext _ (fun _ => false)) by (intros; apply Z.testbit_0_l).
  generalize O. induction n; intros; cbn; [reflexivity|]. now rewrite IHn.
Qed.

Lemma pack7bit_bits u fill : Forall is_septet u -> 0 <= fill <= 6 -> u <> [] ->
  Forall is_byte (pack7bit u fill) /\
  exists pad, (pad < 8)%nat /\
    octet_bits (pack7bit u fill) =
      repeat false (Z.to_nat fill) ++ septet_bits u ++ repeat false pad.
Proof.
  intros Hu Hf Hne. unfold pack7bit.
  destruct (len u =? 0) eqn:E; [apply len_eqb_nil in E; contradiction|].
  destruct (pack_loop_bits u Hu 0 fill ltac:(lia) ltac:(lia)) as (HB & pad & Hp & Hb).
  split; [exact HB|]. exists pad. rewrite bits_zero in Hb. auto.
Qed.

Lemma pack7bit_byte u fill : Forall is_septet u -> 0 <= fill <= 6 ->
  Forall is_byte (pack7bit u fill).
Proof.
  intros. destruct u; [constructor|]. apply pack7bit_bits; try assumption. discriminate.
Qed.

Lemma octet_bits_length p : length (octet_bits p) = (8 * length p)%nat.
Proof. unfold octet_bits. apply flat_map_len_const. intros; apply bits_length. Qed.
Lemma septet_bits_length u : length (septet_bits u) = (7 * length u)%nat.
Proof. unfold septet_bits. apply flat_map_len_const. intros; apply bits_length. Qed.

(** The number of octets, and of padding bits. *)
Lemma pack7bit_pad u fill pad : Forall is_septet u -> 0 <= fill <= 6 ->
  octet_bits (pack7bit u fill) =
      repeat false (Z.to_nat fill) ++ septet_bits u ++ repeat false pad ->
  8 * len (pack7bit u fill) = fill + 7 * len u + Z.of_nat pad.
Proof.
  intros Hu Hf Hb. apply (f_equal (@length bool)) in Hb.
  rewrite octet_bits_length, !app_length, !repeat_length, septet_bits_length in Hb.
  unfold len. lia.
Qed.

Lemma pack7bit_len u fill : Forall is_septet u -> 0 <= fill <= 6 -> u <> [] ->
  len (pack7bit u fill) = (fill + 7 * len u + 7) / 8.
Proof.
  intros Hu Hf Hne. destruct (pack7bit_bits u fill Hu Hf Hne) as (_ & pad & Hp & Hb).
  apply pack7bit_pad in Hb; try assumption. lia.
Qed.

(** One unpacking step. *)
Definition unpack_step_ok (k r o : Z) : bool :=
  implb (r <? 2 ^ k)
    (let s := Z.land (Z.lor r (shl8 o k)) 127 in
     (0 <=? s) && (s <? 128) &&
     if k =? 6 then
       let s2 := ushr o 1 in
       beq_bits (bits 7 s ++ bits 7 s2) (bits 6 r ++ bits 8 o) && (0 <=? s2) && (s2 <? 128)
     else
       let r' := ushr o (8 - (k + 1)) in
       beq_bits (bits 7 s ++ bits (Z.to_nat (k + 1)) r')
                (bits (Z.to_nat k) r ++ bits 8 o)
       && (0 <=? r') && (r' <? 2 ^ (k + 1))).

Lemma unpack_step_sweep :
  forallb (fun k => forallb (fun r => forallb (unpack_step_ok k r) (zrange 256))
                            (zrange 64)) (zrange 7) = true.
Proof. vm_compute. reflexivity. Qed.

Lemma unpack_step k r o : 0 <= k <= 6 -> 0 <= r < 2 ^ k -> is_byte o ->
  unpack_step_ok k r o = true.
Proof.
  intros Hk Hr Ho. unfold is_byte in Ho.
  assert (2 ^ k <= 2 ^ 6) by (apply Z.pow_le_mono_r; lia). change (2 ^ 6) with 64 in *.
  pose proof (zrange_sweep _ _ unpack_step_sweep k ltac:(lia)) as H1.
  pose proof (zrange_sweep _ _ H1 r ltac:(lia)) as H2.
  exact (zrange_sweep _ _ H2 o ltac:(lia)).
Qed.

Lemma of_bits_bits7 : forallb (fun s => of_bits (bits 7 s) =? s) (zrange 128) = true.
Proof. vm_compute. reflexivity. Qed.
Lemma of_bits_septet s : is_septet s -> of_bits (bits 7 s) = s.
Proof.
  intros H. pose proof (zrange_sweep _ _ of_bits_bits7 s H) as E. lia.
Qed.

Lemma cut7_cons s l : is_septet s -> cut7 (bits 7 s ++ l) = s :: cut7 l.
Proof.
  intros H. rewrite <- (of_bits_septet s H) at 2.
  unfold bits; cbn [seq map]. reflexivity.
Qed.

Lemma cut7_septets u l : Forall is_septet u -> cut7 (septet_bits u ++ l) = u ++ cut7 l.
Proof.
  induction 1 as [|s u Hs Hu IH]; [reflexivity|].
  cbn [septet_bits flat_map]. rewrite <- app_assoc, cut7_cons by assumption.
  fold (septet_bits u). now rewrite IH.
Qed.

Lemma cut7_short l : (length l < 7)%nat -> cut7 l = [].
Proof.
  intros H. do 7 (destruct l as [|? l]; [reflexivity|]). cbn in H; lia.
Qed.

Lemma unpack_loop_bits p : Forall is_byte p ->
  forall r k, 0 <= k <= 6 -> 0 <= r < 2 ^ k ->
  unpack_loop p r k = cut7 (bits (Z.to_nat k) r ++ octet_bits p)
  /\ Forall is_septet (unpack_loop p r k).
Proof.
  induction 1 as [|o p Ho Hp IH]; intros r k Hk Hr; cbn [unpack_loop].
  - split; [|constructor]. rewrite cut7_short; [reflexivity|].
    rewrite app_length, bits_length. cbn. lia.
  - pose proof (unpack_step k r o Hk Hr Ho) as Hs. unfold unpack_step_ok in Hs.
    btrue (r <? 2 ^ k). cbn [implb] in Hs.
    set (s := Z.land (Z.lor r (shl8 o k)) 127) in *. cbn zeta.
    cbn [octet_bits flat_map]. fold (octet_bits p).
    destruct (k =? 6) eqn:E.
    + assert (k = 6) by lia; subst k. change (Z.to_nat 6) with 6%nat.
      rewrite !andb_true_iff in Hs. destruct Hs as ((Hs1 & Hs2) & ((Hb & ?) & ?)).
      apply beq_bits_ok in Hb.
      rewrite app_assoc, <- Hb, <- app_assoc.
      assert (is_septet s) by (unfold is_septet; lia).
      assert (is_septet (ushr o 1)) by (unfold is_septet; lia).
      rewrite !cut7_cons by assumption.
      destruct (IH 0 0 ltac:(lia) ltac:(lia)) as (IH1 & IH2).
      rewrite IH1. split; [reflexivity|]. rewrite IH1 in IH2. do 2 (constructor; [assumption|]). exact IH2.
    + rewrite !andb_true_iff in Hs. destruct Hs as ((Hs1 & Hs2) & ((Hb & ?) & ?)).
      apply beq_bits_ok in Hb.
      rewrite app_assoc, <- Hb, <- app_assoc.
      assert (is_septet s) by (unfold is_septet; lia).
      rewrite cut7_cons by assumption.
      destruct (IH (ushr o (8 - (k + 1))) (k + 1) ltac:(lia) ltac:(lia)) as (IH1 & IH2).
      rewrite IH1. split; [reflexivity|]. rewrite IH1 in IH2. constructor; assumption.
Qed.

Lemma cut7_tl a l : length a = 7%nat -> cut7 (a ++ l) = of_bits a :: cut7 l.
Proof.
  intros H. do 7 (destruct a as [|? a]; [discriminate|]). destruct a; [|discriminate].
  reflexivity.
Qed.

Lemma unpack7bit_spec p fill : Forall is_byte p -> 0 <= fill <= 6 ->
  unpack7bit p fill = cut7 (skipn (Z.to_nat fill) (octet_bits p))
  /\ Forall is_septet (unpack7bit p fill).
Proof.
  intros Hp Hf. unfold unpack7bit.
  destruct (len p =? 0) eqn:E.
  { apply len_eqb_nil in E; subst p. cbn [octet_bits flat_map].
    rewrite skipn_nil. split; [reflexivity|constructor]. }
  destruct (0 <? fill) eqn:E2.
  - bfalse (fill =? 0). cbn [negb].
    destruct (unpack_loop_bits p Hp 0 (7 - fill) ltac:(lia) ltac:(lia)) as (H1 & H2).
    assert (Hl : (8 <= length (octet_bits p))%nat).
    { rewrite octet_bits_length. unfold len in E. lia. }
    rewrite <- (firstn_skipn (Z.to_nat fill) (octet_bits p)) in H1 at 1.
    rewrite app_assoc, cut7_tl in H1.
    2:{ rewrite app_length, bits_length, firstn_length. lia. }
    rewrite H1 in *. cbn [tl]. split; [reflexivity|]. now inversion H2.
  - assert (fill = 0) by lia; subst. cbn [Z.eqb negb].
    destruct (unpack_loop_bits p Hp 0 0 ltac:(lia) ltac:(lia)) as (H1 & H2).
    rewrite H1 in *. split; [reflexivity|assumption].
Qed.

(** C01. *)
Lemma unpack_pack u fill : Forall is_septet u -> 0 <= fill <= 6 ->
  unpack7bit (pack7bit u fill) fill =
    u ++ (if (negb (len u =? 0)) && ((fill + 7 * len u) mod 8 =? 1) then [0] else []).
Proof.
  intros Hu Hf. destruct u as [|s u'] eqn:Eu; [reflexivity|]. rewrite <- Eu in *.
  assert (Hne : u <> []) by congruence.
  destruct (pack7bit_bits u fill Hu Hf Hne) as (HB & pad & Hp & Hb).
  pose proof (pack7bit_pad u fill pad Hu Hf Hb) as Hl.
  destruct (unpack7bit_spec _ fill HB Hf) as (-> & _). rewrite Hb.
  rewrite skipn_app_exact by now rewrite repeat_length.
  rewrite cut7_septets by assumption. f_equal.
  assert (len u <> 0) by (intros E; apply len_0_nil in E; contradiction).
  bfalse (len u =? 0). cbn [negb andb].
  destruct ((fill + 7 * len u) mod 8 =? 1) eqn:E1.
  - assert (pad = 7%nat) by lia; subst. reflexivity.
  - apply cut7_short. rewrite repeat_length. lia.
Qed.

(** Unpacking then packing: the octets come back when there is no residue. *)
Lemma unpack7bit_len p fill : Forall is_byte p -> 0 <= fill <= 6 -> p <> [] ->
  len (unpack7bit p fill) = (8 * len p - fill) / 7.
Proof.
  intros Hp Hf Hne. destruct (unpack7bit_spec p fill Hp Hf) as (-> & _).
  assert (Hc : forall n l, (length l < n)%nat -> len (cut7 l) = len l / 7).
  { induction n as [|n IH]; [intros; lia|]. intros l Hl.
    destruct (Nat.lt_ge_cases (length l) 7) as [Hs|Hs].
    - rewrite cut7_short by assumption. rewrite len_nil. unfold len. lia.
    - rewrite <- (firstn_skipn 7 l) at 1. rewrite cut7_tl by (rewrite firstn_length; lia).
      rewrite len_cons, IH by (rewrite skipn_length; lia).
      unfold len. rewrite skipn_length. lia. }
  rewrite (Hc _ _ (Nat.lt_succ_diag_r _)).
  unfold len. rewrite skipn_length, octet_bits_length.
  destruct p; [contradiction|]. cbn [length]. lia.
Qed.
