(** Lemmas for C03. *)
From Verif Require Import GoBase GoLemmas SevenBit SpecBits SevenBitProofs SpecUssd.

Lemma set_last_app f a x : set_last f (a ++ [x]) = a ++ [f x].
Proof.
  induction a as [|y a IH]; [reflexivity|]. cbn [app set_last].
  destruct (a ++ [x]) eqn:E; [now destruct a|]. rewrite <- E in *. now rewrite IH.
Qed.

Lemma octet_bits_app a b : octet_bits (a ++ b) = octet_bits a ++ octet_bits b.
Proof. unfold octet_bits. apply flat_map_app. Qed.
Lemma septet_bits_app a b : septet_bits (a ++ b) = septet_bits a ++ septet_bits b.
Proof. unfold septet_bits. apply flat_map_app. Qed.

Lemma of_bits_byte : forallb (fun s => of_bits (bits 8 s) =? s) (zrange 256) = true.
Proof. vm_compute. reflexivity. Qed.
Lemma of_bits_octet s : is_byte s -> of_bits (bits 8 s) = s.
Proof. intros H. pose proof (zrange_sweep _ _ of_bits_byte s H). lia. Qed.

(** Suffixes of equal length of equal lists. *)
Lemma app_suffix {A} (a b c d : list A) :
  a ++ b = c ++ d -> length b = length d -> a = c /\ b = d.
Proof.
  intros H Hl. assert (length a = length c).
  { apply (f_equal (@length A)) in H. rewrite !app_length in H. lia. }
  revert c H H0. induction a; destruct c; cbn; intros; try discriminate.
  - subst. auto.
  - injection H as -> H. destruct (IHa c H ltac:(lia)) as [-> ->]. auto.
Qed.

Lemma app_suffix_long {A} (a b c d : list A) :
  a ++ b = c ++ d -> (length b <= length d)%nat ->
  b = skipn (length d - length b) d.
Proof.
  intros H Hl. rewrite <- (firstn_skipn (length d - length b) d) in H.
  rewrite app_assoc in H. apply app_suffix in H as [_ H].
  - exact H.
  - rewrite skipn_length. lia.
Qed.

(** The packed form of a non-empty string ends with the bits of the last
    septets and the padding. *)
Lemma pack_tail u fill m : Forall is_septet u -> 0 <= fill <= 6 -> u <> [] -> m = (len u - fill) mod 8 ->
  Forall is_byte (pack7bit u fill) /\ pack7bit u fill <> [] /\
  octet_bits (pack7bit u fill) = repeat false (Z.to_nat fill) ++ septet_bits u ++ repeat false (Z.to_nat m) /\
  8 * len (pack7bit u fill) = fill + 7 * len u + m.
Proof.
  intros Hu Hf Hne Hm.
  destruct (pack7bit_bits u fill Hu Hf Hne) as (HB & pad & Hp & Hb).
  pose proof (pack7bit_pad u fill pad Hu Hf Hb) as Hl.
  assert (pad = Z.to_nat m) by lia. subst pad.
  repeat split; try assumption; try lia.
  intros E. rewrite E in Hl. change (len (@nil Z)) with 0 in Hl.
  assert (len u <> 0) by (intros E2; apply len_0_nil in E2; contradiction).
  pose proof (len_nonneg u). lia.
Qed.

(** The last octet, from the last septet, when there is padding. *)
Definition last1_ok (m l pl : Z) : bool := pl =? l / 2 ^ (m - 1).
Lemma last_octet_pad :
  forallb (fun m => forallb (fun l =>
    of_bits (skipn (Z.to_nat m) (bits 7 l ++ repeat false (Z.to_nat (m + 1))))
      =? l / 2 ^ m) (zrange 128)) (zrange 7) = true.
Proof. vm_compute. reflexivity. Qed.

Lemma last_octet_nopad :
  forallb (fun s => forallb (fun l =>
    of_bits (skipn 6 (bits 7 s ++ bits 7 l)) =? s / 64 + 2 * l)
    (zrange 128)) (zrange 128) = true.
Proof. vm_compute. reflexivity. Qed.

Lemma last_pad y u l p pl m :
  y ++ octet_bits (p ++ [pl]) = septet_bits (u ++ [l]) ++ repeat false (Z.to_nat m) ->
  is_byte pl -> is_septet l -> 1 <= m <= 7 -> pl = l / 2 ^ (m - 1).
Proof.
  intros H Hpl Hl Hm. rewrite octet_bits_app, septet_bits_app in H.
  unfold octet_bits at 2 in H. unfold septet_bits at 2 in H. cbn [flat_map] in H.
  rewrite !app_nil_r, <- app_assoc, app_assoc in H.
  apply app_suffix_long in H; rewrite ?app_length, ?bits_length, ?repeat_length in *; [|lia].
  replace (7 + Z.to_nat m - 8)%nat with (Z.to_nat (m - 1)) in H by lia.
  pose proof (zrange_sweep2 _ _ _ last_octet_pad (m - 1) l ltac:(lia) Hl) as E.
  cbn beta in E. replace (m - 1 + 1) with m in E by lia.
  rewrite <- H, of_bits_octet in E by assumption. lia.
Qed.

Lemma last_nopad y u s l p pl :
  y ++ octet_bits (p ++ [pl]) = septet_bits (u ++ [s; l]) ->
  is_byte pl -> is_septet s -> is_septet l -> pl = s / 64 + 2 * l.
Proof.
  intros H Hpl Hs Hl. rewrite octet_bits_app, septet_bits_app in H.
  unfold octet_bits at 2 in H. unfold septet_bits at 2 in H. cbn [flat_map] in H.
  rewrite !app_nil_r, app_assoc in H.
  apply app_suffix_long in H; rewrite ?app_length, ?bits_length, ?repeat_length in *; [|lia].
  replace (7 + 7 - 8)%nat with 6%nat in H by lia.
  pose proof (zrange_sweep2 _ _ _ last_octet_nopad s l Hs Hl) as E. cbn beta in E.
  rewrite <- H, of_bits_octet in E by assumption. lia.
Qed.

(** The last octet but one. *)
Definition pl2_ok (m s l : Z) : bool :=
  (* window of 8 bits starting at bit [m - 2] of s ++ l, m >= 2 *)
  of_bits (firstn 8 (skipn (Z.to_nat m) (bits 7 s ++ bits 7 l)))
    =? s / 2 ^ m + (l mod 2 ^ (m + 1)) * 2 ^ (7 - m).
Lemma pl2_sweep :
  forallb (fun m => forallb (fun s => forallb (pl2_ok m s) (zrange 128)) (zrange 128))
    (zrange 6) = true.
Proof. vm_compute. reflexivity. Qed.

Definition pl2_low_ok (m r s : Z) : bool :=
  of_bits (firstn 8 (skipn (Z.to_nat (5 + m)) (bits 7 r ++ bits 7 s)))
    =? r / 2 ^ (5 + m) + (s mod 2 ^ (6 + m)) * 2 ^ (2 - m).
Lemma pl2_low_sweep :
  forallb (fun m => forallb (fun s => forallb (pl2_low_ok m s) (zrange 128)) (zrange 128))
    (zrange 2) = true.
Proof. vm_compute. reflexivity. Qed.

Lemma last2_window (a w : list bool) q pl k :
  a ++ bits 8 q ++ bits 8 pl = w -> is_byte q -> (length w = length a + 16)%nat ->
  k = length a -> q = of_bits (firstn 8 (skipn k w)).
Proof.
  intros <- Hq Hl ->. rewrite skipn_app_exact by reflexivity.
  rewrite firstn_app_exact by now rewrite bits_length.
  now rewrite of_bits_octet.
Qed.

Lemma last2_suffix y p q pl (w x : list bool) :
  y ++ octet_bits (p ++ [q; pl]) = x ++ w -> is_byte q -> (16 <= length w)%nat ->
  q = of_bits (firstn 8 (skipn (length w - 16) w)).
Proof.
  intros H Hq Hl. rewrite octet_bits_app in H.
  unfold octet_bits at 2 in H. cbn [flat_map] in H. rewrite app_nil_r, app_assoc in H.
  assert (L16 : length (bits 8 q ++ bits 8 pl) = 16%nat)
    by now rewrite app_length, !bits_length.
  apply app_suffix_long in H; [|lia]. rewrite L16 in H. rewrite <- H.
  rewrite firstn_app_exact by now rewrite bits_length. now rewrite of_bits_octet.
Qed.

Lemma q_high y u s l p q pl m :
  y ++ octet_bits (p ++ [q; pl]) = septet_bits (u ++ [s; l]) ++ repeat false (Z.to_nat m) ->
  is_byte q -> is_septet s -> is_septet l -> 2 <= m <= 7 ->
  q = s / 2 ^ (m - 2) + (l mod 2 ^ (m - 1)) * 2 ^ (9 - m).
Proof.
  intros H Hq Hs Hl Hm. rewrite septet_bits_app, <- app_assoc in H.
  unfold septet_bits at 2 in H. cbn [flat_map] in H. rewrite app_nil_r in H.
  apply last2_suffix in H; try assumption.
  2:{ rewrite !app_length, !bits_length, repeat_length. lia. }
  rewrite !app_length, !bits_length, repeat_length in H.
  replace (7 + 7 + Z.to_nat m - 16)%nat with (Z.to_nat (m - 2)) in H by lia.
  rewrite skipn_app, firstn_app, skipn_length, app_length, !bits_length in H.
  replace (8 - (7 + 7 - Z.to_nat (m - 2)))%nat with O in H by lia.
  rewrite firstn_O, app_nil_r in H.
  pose proof (zrange_sweep _ _ pl2_sweep (m - 2) ltac:(lia)) as E.
  apply (zrange_sweep2 _ _ _) with (x := s) (y := l) in E; [|assumption..].
  unfold pl2_ok in E. rewrite <- H in E.
  replace (m - 2 + 1) with (m - 1) in E by lia. replace (7 - (m - 2)) with (9 - m) in E by lia.
  lia.
Qed.

Lemma q_low y u r s l p q pl m :
  y ++ octet_bits (p ++ [q; pl]) = septet_bits (u ++ [r; s; l]) ++ repeat false (Z.to_nat m) ->
  is_byte q -> is_septet r -> is_septet s -> is_septet l -> 0 <= m <= 1 ->
  q = r / 2 ^ (5 + m) + (s mod 2 ^ (6 + m)) * 2 ^ (2 - m).
Proof.
  intros H Hq Hr Hs Hl Hm. rewrite septet_bits_app, <- app_assoc in H.
  unfold septet_bits at 2 in H. cbn [flat_map] in H. rewrite app_nil_r in H.
  apply last2_suffix in H; try assumption.
  2:{ rewrite !app_length, !bits_length, repeat_length. lia. }
  rewrite !app_length, !bits_length, repeat_length in H.
  replace (7 + (7 + 7) + Z.to_nat m - 16)%nat with (Z.to_nat (5 + m)) in H by lia.
  rewrite (app_assoc (bits 7 r)), <- (app_assoc (bits 7 r ++ bits 7 s)) in H.
  rewrite skipn_app, firstn_app, skipn_length, app_length, !bits_length in H.
  replace (8 - (7 + 7 - Z.to_nat (5 + m)))%nat with O in H by lia.
  rewrite firstn_O, app_nil_r in H.
  pose proof (zrange_sweep _ _ pl2_low_sweep m ltac:(lia)) as E.
  apply (zrange_sweep2 _ _ _) with (x := r) (y := s) in E; [|assumption..].
  unfold pl2_low_ok in E. rewrite <- H in E. lia.
Qed.

Lemma lor_cr_m : forallb (fun x => (Z.shiftr (Z.lor x 26) 1 =? 13)) (zrange 2) = true.
Proof. vm_compute. reflexivity. Qed.

Definition cr7_ok (l : Z) : bool :=
  beq_bits (bits 8 (Z.lor (l / 64) 26)) (skipn 6 (bits 7 l) ++ bits 7 13).
Lemma cr7_sweep : forallb cr7_ok (zrange 128) = true.
Proof. vm_compute. reflexivity. Qed.

(** The spare seven bits of the last octet take the filler. *)
Lemma fill_cr7 x u l p pl :
  octet_bits (p ++ [pl]) = x ++ septet_bits (u ++ [l]) ++ repeat false 7 ->
  pl = l / 64 -> is_septet l ->
  octet_bits (p ++ [Z.lor pl 26]) = x ++ septet_bits (u ++ [l]) ++ bits 7 13.
Proof.
  intros H E Hl.
  rewrite octet_bits_app, septet_bits_app in *.
  unfold octet_bits at 2. unfold octet_bits at 2 in H.
  unfold septet_bits at 2. unfold septet_bits at 2 in H. cbn [flat_map] in *.
  rewrite !app_nil_r in *.
  pose proof (zrange_sweep _ _ cr7_sweep l Hl) as C. apply beq_bits_ok in C.
  rewrite E, C. rewrite <- (firstn_skipn 6 (bits 7 l)) in H.
  rewrite (app_assoc (septet_bits u)), <- (app_assoc (septet_bits u ++ _)), (app_assoc x) in H.
  apply app_suffix in H as [H _].
  2:{ now rewrite app_length, skipn_length, !bits_length, repeat_length. }
  rewrite <- (firstn_skipn 6 (bits 7 l)) at 2. rewrite H. now rewrite <- !app_assoc.
Qed.

Lemma removelast_snoc {A} (a : list A) x : removelast (a ++ [x]) = a.
Proof. rewrite removelast_app by discriminate. apply app_nil_r. Qed.
Lemma last_snoc {A} (a : list A) x d : last (a ++ [x]) d = x.
Proof. apply last_last. Qed.

Lemma nth2_snoc (a : list Z) q x : nth (length (a ++ [q; x]) - 2) (a ++ [q; x]) 0 = q.
Proof.
  rewrite app_length. cbn [length]. replace (length a + 2 - 2)%nat with (length a) by lia.
  rewrite app_nth2 by lia. now rewrite Nat.sub_diag.
Qed.

Lemma len_pos_ne {A} (a : list A) : 0 < len a -> a <> [].
Proof. intros H ->. change (len (@nil A)) with 0 in H. lia. Qed.

Lemma len_removelast {A} (a : list A) : a <> [] -> len (removelast a) = len a - 1.
Proof.
  intros H. destruct (exists_last H) as (b & x & ->).
  rewrite removelast_snoc, len_app, len_cons. change (len (@nil A)) with 0. lia.
Qed.

Lemma rev_snoc2 {A} (a : list A) s l : rev (a ++ [s; l]) = l :: s :: rev a.
Proof. now rewrite rev_app_distr. Qed.
Lemma rev_snoc3 {A} (a : list A) r s l : rev (a ++ [r; s; l]) = l :: s :: r :: rev a.
Proof. now rewrite rev_app_distr. Qed.

Lemma ussd_bad_len u v : len v <> len u -> len v <> len u + 1 -> ~ (v = u \/ v = u ++ [cr]).
Proof.
  intros H1 H2 [-> | ->]; [congruence|].
  rewrite len_app in H2. change (len [cr]) with 1 in H2. congruence.
Qed.

Lemma snoc_cases {A} (u : list A) : u <> [] -> exists a l, u = a ++ [l].
Proof. intros H. destruct (exists_last H) as (a & l & ->). eauto. Qed.

Lemma Forall_snoc {A} (P : A -> Prop) a l : Forall P (a ++ [l]) <-> Forall P a /\ P l.
Proof.
  rewrite Forall_app. split; intros [H1 H2]; split; auto.
  now inversion H2.
Qed.

Lemma shiftr1_div x : Z.shiftr x 1 = x / 2.
Proof. now rewrite Z.shiftr_div_pow2 by lia. Qed.

Definition touched_ok (pl : Z) : bool := eqb (Z.land pl 254 =? 0) (pl <? 2).
Lemma touched_sweep : forallb touched_ok (zrange 256) = true.
Proof. vm_compute. reflexivity. Qed.
Lemma touched pl : is_byte pl -> (Z.land pl 254 =? 0) = (pl <? 2).
Proof.
  intros H. pose proof (zrange_sweep _ _ touched_sweep pl H) as E.
  apply eqb_prop in E. exact E.
Qed.
Lemma land7 n : Z.land n 7 = n mod 8.
Proof. change 7 with (Z.ones 3). now rewrite Z.land_ones by lia. Qed.

Lemma drop_test (p : list Z) pl :
  (1 <? len (p ++ [pl])) = (0 <? len p).
Proof. rewrite len_app. change (len [pl]) with 1. pose proof (len_nonneg p). lia. Qed.

Definition drop (p : list Z) (pl : Z) : bool :=
  (1 <? len (p ++ [pl])) &&
  ((pl / 2 =? 13) || ((pl =? 13) && (nth (length (p ++ [pl]) - 2) (p ++ [pl]) 0 / 2 =? 13))).

Lemma unpack_ussd_eq p pl fill :
  unpack7bit_ussd (p ++ [pl]) fill =
  if drop p pl then removelast (unpack7bit (p ++ [pl]) fill) else unpack7bit (p ++ [pl]) fill.
Proof.
  unfold unpack7bit_ussd, drop. rewrite last_snoc, !shiftr1_div. reflexivity.
Qed.

(** Two zero septets in front, so that there always is a last but two. *)
Lemma two_more (a : list Z) : exists c, [0; 0] ++ a = c ++ [nth 1 (rev a) 0; nth 0 (rev a) 0].
Proof.
  generalize (rev_involutive a). generalize (rev a). intros b <-. destruct b as [|s [|r t]].
  - now exists [].
  - now exists [0].
  - exists ([0; 0] ++ rev t). cbn [rev nth]. now rewrite <- !app_assoc.
Qed.
Lemma Forall_nth0 (l : list Z) k : Forall is_septet l -> is_septet (nth k l 0).
Proof.
  intros H. destruct (nth_in_or_default k l 0) as [I| ->]; [|unfold is_septet; lia].
  rewrite Forall_forall in H. now apply H.
Qed.
Ltac powers := repeat match goal with
  | H : context [2 ^ ?k] |- _ => let v := eval vm_compute in (2 ^ k) in change (2 ^ k) with v in H
  | |- context [2 ^ ?k] => let v := eval vm_compute in (2 ^ k) in change (2 ^ k) with v end.

Lemma ussd_exact u fill : u <> [] -> Forall is_septet u -> 0 <= fill <= 6 ->
  (ussd_spoiled fill u = false -> unpack7bit_ussd (pack7bit_ussd u fill) fill = u) /\
  (ussd_spoiled fill u = true ->
     let v := unpack7bit_ussd (pack7bit_ussd u fill) fill in ~ (v = u \/ v = u ++ [cr])).
Proof.
  intros Hne Hu Hf.
  destruct (pack_tail u fill ((len u - fill) mod 8) Hu Hf Hne eq_refl) as (HB & HpN & Hbits & Hlen).
  pose proof (unpack_pack u fill Hu Hf) as HUP.
  unfold pack7bit_ussd.
  destruct (snoc_cases _ HpN) as (b & pl & Ep). rewrite Ep in *. clear HpN.
  apply Forall_snoc in HB as [HBb Hpl].
  assert (Hlb : len (b ++ [pl]) = len b + 1) by (rewrite len_app; reflexivity).
  pose proof (len_nonneg b).
  bfalse (len (b ++ [pl]) =? 0).
  rewrite last_snoc, set_last_app, touched, land7 by assumption.
  destruct (snoc_cases _ Hne) as (a & l & Eu).
  assert (Hlu : len u = len a + 1) by (rewrite Eu, len_app; reflexivity).
  pose proof (len_nonneg a).
  assert (Hl : is_septet l) by (rewrite Eu in Hu; apply Forall_snoc in Hu; tauto).
  assert (Ha : Forall is_septet a) by (rewrite Eu in Hu; apply Forall_snoc in Hu; tauto).
  assert (Elast : last u 0 = l) by (rewrite Eu; apply last_snoc). rewrite Elast.
  assert (Erev : rev u = l :: rev a) by (rewrite Eu; now rewrite rev_app_distr).
  set (m := (len u - fill) mod 8) in *. assert (Hm : 0 <= m < 8) by lia.
  unfold ussd_spoiled. change (Z.of_nat (length u)) with (len u). fold m.
  rewrite Erev. cbv zeta.
  bfalse (len u =? 0). cbn [negb andb] in HUP.
  (* the octets with two zero septets in front *)
  destruct (two_more a) as (c & Ec).
  assert (Hs : is_septet (nth 0 (rev a) 0)) by (apply Forall_nth0; now apply Forall_rev).
  assert (Hr : is_septet (nth 1 (rev a) 0)) by (apply Forall_nth0; now apply Forall_rev).
  revert Hs Hr Ec. generalize (nth 0 (rev a) 0) (nth 1 (rev a) 0). intros s r Hs Hr Ec.
  set (y := repeat false (14 - Z.to_nat fill)).
  assert (Hy : y ++ octet_bits (b ++ [pl]) = septet_bits (c ++ [r; s; l]) ++ repeat false (Z.to_nat m)).
  { replace (c ++ [r; s; l]) with ([0; 0] ++ u).
    2:{ rewrite Eu. change [r; s; l] with ([r; s] ++ [l]). now rewrite !app_assoc, Ec. }
    rewrite septet_bits_app, Hbits, app_assoc. unfold y. rewrite <- repeat_app, <- app_assoc.
    replace (14 - Z.to_nat fill + Z.to_nat fill)%nat with 14%nat by lia. reflexivity. }
  clearbody y.
  assert (Hy1 : y ++ octet_bits (b ++ [pl]) = septet_bits ((c ++ [r; s]) ++ [l]) ++ repeat false (Z.to_nat m))
    by (rewrite <- app_assoc; exact Hy).
  assert (Hy2 : y ++ octet_bits (b ++ [pl]) = septet_bits ((c ++ [r]) ++ [s; l]) ++ repeat false (Z.to_nat m))
    by (rewrite <- app_assoc; exact Hy).
  destruct (Z.eq_dec m 7) as [E7|N7].
  - (* seven spare bits *)
    btrue (m =? 7).
    assert (Epl : pl = l / 64).
    { change 64 with (2 ^ (7 - 1)). eapply last_pad with (m := 7); [rewrite <- E7; exact Hy1|assumption|assumption|lia]. }
    unfold is_septet, is_byte in *.
    btrue (pl <? 2). cbn [andb].
    destruct (Z.eqb_spec l 0) as [L0|L0]; cbn [negb].
    + split; [discriminate|intros _]. rewrite L0. change (0 =? cr) with false. rewrite andb_false_r.
      rewrite unpack_ussd_eq, HUP.
      assert (Hd : drop b pl = false).
      { unfold drop. bfalse (pl / 2 =? 13). bfalse (pl =? 13). cbn. now rewrite andb_false_r. }
      rewrite Hd. btrue ((fill + 7 * len u) mod 8 =? 1).
      intros [E|E].
      * apply (f_equal (@len Z)) in E. rewrite len_app in E. change (len [0]) with 1 in E. lia.
      * apply app_inv_head in E. discriminate.
    + split; [intros _|discriminate].
      change (Z.shiftl cr 1) with 26.
      rewrite unpack_ussd_eq.
      assert (Hd : drop b (Z.lor pl 26) = true).
      { unfold drop. rewrite len_app. change (len [Z.lor pl 26]) with 1.
        btrue (1 <? len b + 1). pose proof (zrange_sweep _ _ lor_cr_m pl ltac:(lia)) as E.
        cbn beta in E. rewrite shiftr1_div in E. now rewrite E. }
      rewrite Hd. rewrite E7, Eu in Hbits.
      pose proof (fill_cr7 _ a l b pl Hbits Epl Hl) as F.
      assert (HB' : Forall is_byte (b ++ [Z.lor pl 26])).
      { apply Forall_snoc. split; [assumption|]. unfold is_byte.
        assert (C : pl = 0 \/ pl = 1) by lia. destruct C as [-> | ->]; cbn; lia. }
      destruct (unpack7bit_spec _ fill HB' ltac:(lia)) as (-> & _).
      rewrite F, skipn_app_exact by (now rewrite repeat_length). rewrite cut7_septets by now rewrite <- Eu.
      change (bits 7 13) with (bits 7 13 ++ []). rewrite cut7_cons by (unfold is_septet; lia).
      change (cut7 []) with (@nil Z). now rewrite removelast_snoc, Eu.
  - bfalse (m =? 7). bfalse ((fill + 7 * len u) mod 8 =? 1). rewrite app_nil_r in HUP.
    assert (HD : drop b pl = true -> len (unpack7bit_ussd (b ++ [pl]) fill) = len u - 1).
    { intros D. rewrite unpack_ussd_eq, D, HUP. now apply len_removelast. }
    assert (HND : drop b pl = false -> unpack7bit_ussd (b ++ [pl]) fill = u).
    { intros D. now rewrite unpack_ussd_eq, D, HUP. }
    destruct (Z.eq_dec m 0) as [E0|N0].
    + (* no spare bits *)
      btrue (m =? 0).
      assert (Epl : pl = s / 64 + 2 * l).
      { eapply last_nopad; [rewrite Hy2, E0; apply app_nil_r|assumption..]. }
      unfold is_septet, is_byte in Hs, Hr, Hl, Hpl.
      replace ((pl <? 2) && negb (l =? 0)) with false by lia.
      destruct ((len u mod 8 =? 0) && (l =? cr)) eqn:EA.
      * (* a filler octet *)
        change cr with 13 in EA. assert (fill = 0) by lia. assert (l = 13) by lia. subst fill.
        bfalse (l =? 6). cbn [andb orb]. change (0 <? 0) with false. cbn [andb]. split; [intros _|discriminate].
        rewrite unpack_ussd_eq.
        assert (Hd : drop (b ++ [pl]) cr = true).
        { unfold drop. rewrite <- app_assoc. cbn [app]. rewrite nth2_snoc. change cr with 13.
          btrue (pl / 2 =? 13). rewrite len_app. change (len [pl; 13]) with 2.
          btrue (1 <? len b + 2). reflexivity. }
        rewrite Hd.
        assert (HB' : Forall is_byte ((b ++ [pl]) ++ [cr])).
        { rewrite !Forall_snoc. change cr with 13. unfold is_byte. repeat split; try assumption; lia. }
        destruct (unpack7bit_spec _ 0 HB' ltac:(lia)) as (-> & _). cbn [Z.to_nat skipn].
        rewrite octet_bits_app, Hbits, E0. cbn [Z.to_nat repeat app]. rewrite app_nil_r.
        rewrite cut7_septets by assumption.
        change (cut7 (octet_bits [cr])) with [13]. apply removelast_snoc.
      * assert (ED : drop b pl = ((0 <? fill) && (1 <? len u) && (l =? 13)) || ((l =? 6) && (s =? 70) && (64 <=? r))).
        { destruct b as [|b0 b'] eqn:Eb.
          - change (len (@nil Z)) with 0 in *. assert (len u = 1) by lia. assert (a = []) by (apply len_0_nil; lia). subst a.
            assert (r = 0) as ->.
            { change ([0; 0] ++ []) with ([] ++ [0; 0]) in Ec. apply app_suffix in Ec as [_ Ec]; [|reflexivity]. now injection Ec. }
            unfold drop. change (1 <? len ([] ++ [pl])) with false. bfalse (1 <? len u). rewrite !andb_false_r. reflexivity.
          - rewrite <- Eb in *. assert (Nb : b <> []) by (rewrite Eb; discriminate). clear Eb.
            destruct (snoc_cases b Nb) as (b1 & q & Eb).
            rewrite Eb in *. apply Forall_snoc in HBb as [_ Hq].
            assert (Eq : q = r / 2 ^ (5 + 0) + (s mod 2 ^ (6 + 0)) * 2 ^ (2 - 0)).
            { eapply q_low with (l := l) (p := b1) (pl := pl) (y := y) (u := c); try assumption; try lia.
              rewrite <- app_assoc in Hy. cbn [app] in Hy. rewrite Hy, E0. reflexivity. }
            unfold drop. rewrite <- app_assoc. cbn [app]. rewrite nth2_snoc.
            rewrite len_app. change (len [q; pl]) with 2. pose proof (len_nonneg b1).
            change cr with 13 in EA. assert (Lq : len (b1 ++ [q]) = len b1 + 1) by (rewrite len_app; reflexivity).
            rewrite Hlb, Lq in Hlen.
            btrue (1 <? len b1 + 2). btrue (1 <? len u).
            assert (EA' : (0 <? fill) && true && (l =? 13) = (l =? 13)) by lia. rewrite EA'.
            clear - Eq Epl Hl Hs Hr Hq. powers.
            cbn [andb]. destruct (Z.eqb_spec l 13); [btrue (pl / 2 =? 13); reflexivity|]. bfalse (pl / 2 =? 13). cbn [orb].
            destruct (Z.eqb_spec pl 13), (Z.eqb_spec l 6); cbn [andb]; try lia. }
        rewrite <- ED. split; intros D.
        -- now apply HND.
        -- apply ussd_bad_len; rewrite (HD D); lia.
    + (* one to six spare bits *)
      bfalse (m =? 0).
      assert (Epl : pl = l / 2 ^ (m - 1)).
      { eapply last_pad with (m := m); [exact Hy1|assumption|assumption|lia]. }
      unfold is_septet, is_byte in Hs, Hr, Hl, Hpl.
      assert (C : m = 1 \/ m = 2 \/ m = 3 \/ m = 4 \/ m = 5 \/ m = 6) by lia.
      assert (HT : (pl <? 2) && negb (l =? 0) = (0 <? l) && (l <? 2 ^ m)).
      { clear - C Epl Hl. clearbody m.
        destruct C as [-> | [-> | [-> | [-> | [-> | ->]]]]]; powers; lia. }
      rewrite HT. destruct ((0 <? l) && (l <? 2 ^ m)) eqn:ET.
      * cbn [orb]. split; [discriminate|intros _]. change (Z.shiftl cr 1) with 26.
        assert (Hpl2 : 0 <= pl < 2) by lia.
        assert (HB' : Forall is_byte (b ++ [Z.lor pl 26])).
        { apply Forall_snoc. split; [assumption|]. unfold is_byte.
          assert (Cp : pl = 0 \/ pl = 1) by lia. destruct Cp as [-> | ->]; cbn; lia. }
        destruct b as [|b0 b'].
        -- (* one octet *)
           change (len (@nil Z)) with 0 in *.
           assert (len u = 1) by lia.
           assert (fill = 0) by lia. subst fill.
           assert (m = 1) by lia.
           assert (a = []) by (apply len_0_nil; lia). subst a. cbn [app] in Eu.
           rewrite H2 in ET. change (2 ^ 1) with 2 in ET.
           assert (l = 1) by lia. assert (pl = 1).
           { rewrite Epl, H2, H3. reflexivity. }
           rewrite H4, Eu, H3. cbn. intros [?|?]; discriminate.
        -- assert (Hd : drop (b0 :: b') (Z.lor pl 26) = true).
           { unfold drop. rewrite drop_test, len_cons. pose proof (len_nonneg b'). btrue (0 <? 1 + len b').
             pose proof (zrange_sweep _ _ lor_cr_m pl ltac:(lia)) as E.
             cbn beta in E. rewrite shiftr1_div in E. now rewrite E. }
           rewrite unpack_ussd_eq, Hd.
           assert (EL : len (unpack7bit ((b0 :: b') ++ [Z.lor pl 26]) fill) = len u).
           { rewrite unpack7bit_len by (try assumption; try lia; discriminate).
             rewrite len_app. change (len [Z.lor pl 26]) with 1. lia. }
           apply ussd_bad_len; rewrite len_removelast; rewrite ?EL; try lia;
             intros E; rewrite E in EL; change (len (@nil Z)) with 0 in EL; lia.
      * cbn [orb]. destruct ((len u mod 8 =? 0) && (l =? cr)) eqn:EA.
        -- (* a filler octet that is not wanted *)
           change cr with 13 in *. assert (L13 : l = 13) by lia.
           assert (M : m = 8 - fill) by lia.
           btrue (0 <? fill). btrue (len u mod 8 =? 0). btrue (l =? 13). cbn [andb orb]. split; [discriminate|intros _].
           assert (M23 : m = 2 \/ m = 3).
           { rewrite L13 in ET. clear - C ET Hf M. clearbody m. destruct C as [-> | [-> | [-> | [-> | [-> | ->]]]]]; powers; lia. }
           assert (HB' : Forall is_byte ((b ++ [pl]) ++ [13])).
           { rewrite !Forall_snoc. unfold is_byte. repeat split; try assumption; lia. }
           rewrite unpack_ussd_eq.
           assert (Hd : drop (b ++ [pl]) 13 = false).
           { unfold drop. rewrite <- app_assoc. cbn [app]. rewrite nth2_snoc.
             assert (pl < 26) by (rewrite Epl, L13; clearbody m; destruct M23 as [-> | ->]; powers; lia).
             bfalse (pl / 2 =? 13). change (13 / 2 =? 13) with false. rewrite ?andb_false_r. reflexivity. }
           rewrite Hd.
           destruct (unpack7bit_spec _ fill HB' Hf) as (-> & _).
           rewrite octet_bits_app, Hbits, <- !app_assoc, skipn_app_exact by (now rewrite repeat_length).
           rewrite cut7_septets by assumption.
           assert (X : exists z, z <> 13 /\ cut7 (repeat false (Z.to_nat m) ++ octet_bits [13]) = [z]).
           { clear - M23. clearbody m. destruct M23 as [-> | ->]; eexists; (split; [|vm_compute; reflexivity]); discriminate. }
           destruct X as (z & Nz & ->). intros [E|E].
           ++ apply (f_equal (@len Z)) in E. rewrite len_app in E. change (len [z]) with 1 in E. lia.
           ++ apply app_inv_head in E. injection E as E. contradiction.
        -- change cr with 13 in EA.
           replace ((0 <? fill) && (len u mod 8 =? 0) && (l =? 13)) with false by lia. cbn [orb].
           assert (ED : drop b pl = (8 <? fill + 7 * len u) &&
             ((l / 2 ^ m =? 13) || ((l =? 13 * 2 ^ (m - 1)) && (s / 2 ^ (m - 1) =? 13)))).
           { unfold drop. destruct b as [|b0 b'] eqn:Eb.
             - change (len (@nil Z)) with 0 in *. bfalse (8 <? fill + 7 * len u). reflexivity.
             - rewrite <- Eb in *. assert (Nb : b <> []) by (rewrite Eb; discriminate). clear Eb.
               destruct (snoc_cases b Nb) as (b1 & q & Eb).
               rewrite Eb in *. apply Forall_snoc in HBb as [_ Hq].
               rewrite <- app_assoc in *. cbn [app] in *. rewrite nth2_snoc.
               rewrite !len_app in *. change (len [q; pl]) with 2 in *. change (len [q]) with 1 in *. pose proof (len_nonneg b1).
               btrue (1 <? len b1 + 2). btrue (8 <? fill + 7 * len u). cbn [andb].
               destruct (Z.eq_dec m 1) as [M1|M1].
               + assert (Eq : q = r / 2 ^ (5 + 1) + (s mod 2 ^ (6 + 1)) * 2 ^ (2 - 1)).
                 { eapply q_low with (l := l) (p := b1) (pl := pl) (y := y) (u := c); try assumption; try lia. rewrite Hy, M1. reflexivity. }
                 rewrite M1 in *. unfold is_byte in Hq. clear - Eq Epl Hl Hs Hr. powers. lia.
               + assert (Eq : q = s / 2 ^ (m - 2) + (l mod 2 ^ (m - 1)) * 2 ^ (9 - m)).
                 { eapply q_high with (u := c ++ [r]) (p := b1) (pl := pl) (y := y); try assumption; try lia. }
                 clear - C M1 Epl Hl Hs Eq. clearbody m.
                 destruct C as [-> | [-> | [-> | [-> | [-> | ->]]]]]; powers; lia. }
           rewrite <- ED. split; intros D.
           ++ now apply HND.
           ++ apply ussd_bad_len; rewrite (HD D); lia.
Qed.
