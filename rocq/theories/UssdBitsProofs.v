(** Proofs about the bits of USSD packing (for P_Ussd.v). *)
From Coq Require Import ZArith List Bool Lia ZifyBool.
Import ListNotations.
From Verif Require Import GoBase GoLemmas SevenBit SpecBits SevenBitProofs SafeLemmas SpecUssd UssdProofs SpecUssdBits MarshalProofs.
Local Open Scope Z_scope.

Ltac Zify.zify_post_hook ::= Z.to_euclidean_division_equations.

Lemma spare_eq fill u : spare fill u = (len u - fill) mod 8.
Proof. unfold spare. change (Z.of_nat (length u)) with (len u). lia. Qed.

Lemma wire_differs (p b : list Z) (t1 t2 x : list bool) :
  octet_bits p = x ++ t1 -> t1 <> t2 -> octet_bits p <> x ++ t2.
Proof. intros E N F. apply N. apply (app_inv_head x). congruence. Qed.

Lemma last_octet_differs b q1 q2 : is_byte q1 -> is_byte q2 -> q1 <> q2 -> octet_bits (b ++ [q1]) <> octet_bits (b ++ [q2]).
Proof.
  intros H1 H2 N E. rewrite !octet_bits_app in E. apply app_inv_head in E.
  apply N. assert (X : [q1] = [q2]) by (apply octet_bits_fun; auto). now injection X.
Qed.

Lemma septet_13_false : septet_bits [13] ++ [false] = octet_bits [13].
Proof. reflexivity. Qed.

Lemma ussd_pack_bits u fill : u <> [] -> Forall is_septet u -> 0 <= fill <= 6 ->
  (ussd_wire fill u (pack7bit_ussd u fill) <-> ussd_misfilled fill u = false).
Proof.
  intros Hne Hu Hf.
  destruct (pack_tail u fill ((len u - fill) mod 8) Hu Hf Hne eq_refl) as (HB & HpN & Hbits & Hlen).
  unfold pack7bit_ussd, ussd_wire, ussd_tail, ussd_misfilled. rewrite !spare_eq. change (Z.of_nat (length u)) with (len u).
  destruct (snoc_cases _ HpN) as (b & pl & Ep). rewrite Ep in *. clear HpN.
  pose proof HB as HBw.
  apply Forall_snoc in HB as [HBb Hpl].
  assert (Hlb : len (b ++ [pl]) = len b + 1) by (rewrite len_app; reflexivity).
  pose proof (len_nonneg b).
  bfalse (len (b ++ [pl]) =? 0).
  rewrite last_snoc, set_last_app, touched, land7 by assumption.
  destruct (snoc_cases _ Hne) as (a & l & Eu).
  assert (Hlu : len u = len a + 1) by (rewrite Eu, len_app; reflexivity).
  pose proof (len_nonneg a).
  assert (Hl : is_septet l) by (rewrite Eu in Hu; apply Forall_snoc in Hu; tauto).
  assert (Ha : Forall is_septet a) by (rewrite Eu in Hu; apply Forall_snoc in Hu; tauto).
  assert (Elast : last u 0 = l) by (rewrite Eu; apply last_snoc). rewrite Elast.
  set (m := (len u - fill) mod 8) in *. assert (Hm : 0 <= m < 8) by lia.
  cbv zeta.
  destruct (two_more a) as (c & Ec).
  assert (Hs : is_septet (nth 0 (rev a) 0)) by (apply Forall_nth0; now apply Forall_rev).
  assert (Hr : is_septet (nth 1 (rev a) 0)) by (apply Forall_nth0; now apply Forall_rev).
  revert Hs Hr Ec. generalize (nth 0 (rev a) 0) (nth 1 (rev a) 0). intros s r Hs Hr Ec.
  set (y := repeat false (14 - Z.to_nat fill)).
  assert (Hy : y ++ octet_bits (b ++ [pl]) = septet_bits (c ++ [r; s; l]) ++ repeat false (Z.to_nat m)).
  { replace (c ++ [r; s; l]) with ([0; 0] ++ u).
    2:{ rewrite Eu. change [r; s; l] with ([r; s] ++ [l]). now rewrite !app_assoc, Ec. }
    rewrite septet_bits_app, Hbits, app_assoc. unfold y. rewrite <- repeat_app, <- app_assoc.
    replace (14 - Z.to_nat fill + Z.to_nat fill)%nat with 14%nat by lia. reflexivity. }
  clearbody y.
  assert (Hy1 : y ++ octet_bits (b ++ [pl]) = septet_bits ((c ++ [r; s]) ++ [l]) ++ repeat false (Z.to_nat m))
    by (rewrite <- app_assoc; exact Hy).
  assert (Hy2 : y ++ octet_bits (b ++ [pl]) = septet_bits ((c ++ [r]) ++ [s; l]) ++ repeat false (Z.to_nat m))
    by (rewrite <- app_assoc; exact Hy).
  change (Z.shiftl cr 1) with 26. change cr with 13.
  assert (HB26 : pl < 2 -> Forall is_byte (b ++ [Z.lor pl 26]) /\ is_byte (Z.lor pl 26) /\ Z.lor pl 26 <> pl).
  { intros Lt. unfold is_byte in Hpl. assert (B : is_byte (Z.lor pl 26) /\ Z.lor pl 26 <> pl).
    { assert (C : pl = 0 \/ pl = 1) by lia. unfold is_byte. destruct C as [-> | ->]; cbn; lia. }
    split; [|exact B]. apply Forall_snoc. tauto. }
  destruct (Z.eq_dec m 7) as [E7|N7].
  - btrue (m =? 7).
    assert (Epl : pl = l / 64).
    { change 64 with (2 ^ (7 - 1)). eapply last_pad with (m := 7); [rewrite <- E7; exact Hy1|assumption|assumption|lia]. }
    unfold is_septet in Hl. assert (pl < 2) by lia. unfold is_byte in Hpl.
    btrue (pl <? 2). bfalse (m <? 7). bfalse (m =? 0). rewrite ?andb_false_r, ?orb_false_r. cbn [andb orb].
    destruct (Z.eqb_spec l 0) as [L0|L0]; cbn [negb].
    + split; [|discriminate]. intros [_ W]. exfalso. revert W. rewrite L0. change (0 =? 13) with false. rewrite andb_false_r.
      rewrite Hbits, !app_assoc, E7. intros W. apply app_inv_head in W. discriminate.
    + split; [reflexivity|intros _]. split; [apply HB26; lia|].
      rewrite E7, Eu in Hbits. rewrite (fill_cr7 _ a l b pl Hbits Epl Hl), <- Eu, <- ?app_assoc. reflexivity.
  - bfalse (m =? 7). btrue (m <? 7). cbn [andb orb]. rewrite andb_true_r.
    destruct (Z.eq_dec m 0) as [E0|N0].
    + btrue (m =? 0). bfalse (0 <? m). cbn [andb orb]. rewrite andb_true_r.
      assert (Epl : pl = s / 64 + 2 * l).
      { eapply last_nopad; [rewrite Hy2, E0; apply app_nil_r|assumption..]. }
      unfold is_septet in Hl, Hs.
      replace ((pl <? 2) && negb (l =? 0)) with false by lia.
      destruct (Z.eqb_spec l 13) as [L|L].
      * rewrite !andb_true_r. destruct (Z.eqb_spec fill 0) as [F0|F0].
        -- btrue (len u mod 8 =? 0). bfalse (0 <? fill). split; [reflexivity|intros _].
           split; [apply Forall_snoc; split; [assumption|unfold is_byte; lia]|].
           rewrite octet_bits_app, Hbits, E0, <- septet_13_false. cbn [Z.to_nat repeat]. rewrite !app_assoc, app_nil_r. reflexivity.
        -- bfalse (len u mod 8 =? 0). btrue (0 <? fill). split; [|discriminate]. intros [_ W]. exfalso. revert W.
           rewrite Hbits, E0, !app_assoc. intros W. rewrite <- !app_assoc in W. rewrite !app_assoc in W. 
           rewrite <- (app_assoc _ (septet_bits [13])) in W. apply app_inv_head in W. discriminate.
      * rewrite !andb_false_r. split; [reflexivity|intros _]. split; [assumption|]. exact Hbits.
    + bfalse (m =? 0). btrue (0 <? m). cbn [andb orb].
      assert (Epl : pl = l / 2 ^ (m - 1)).
      { eapply last_pad with (m := m); [exact Hy1|assumption|assumption|lia]. }
      unfold is_septet in Hl.
      assert (C : m = 1 \/ m = 2 \/ m = 3 \/ m = 4 \/ m = 5 \/ m = 6) by lia.
      assert (HT : (pl <? 2) && negb (l =? 0) = (0 <? l) && (l <? 2 ^ m)).
      { clear - C Epl Hl. clearbody m.
        destruct C as [-> | [-> | [-> | [-> | [-> | ->]]]]]; powers; lia. }
      rewrite HT. destruct ((0 <? l) && (l <? 2 ^ m)) eqn:ET; cbn [orb].
      * split; [|discriminate]. intros [_ W]. exfalso. rewrite <- Hbits in W.
        destruct (HB26 ltac:(lia)) as (_ & B1 & B2). now apply last_octet_differs in W.
      * destruct ((len u mod 8 =? 0) && (l =? 13)) eqn:EA.
        -- assert (EF : (0 <? fill) && (l =? 13) && (len u mod 8 =? 0) = true) by lia. rewrite EF.
           split; [|discriminate]. intros [_ W]. exfalso. rewrite <- Hbits in W. rewrite octet_bits_app in W.
           apply (f_equal (@length bool)) in W. rewrite app_length in W. cbn in W. lia.
        -- split; [|intros _; split; [assumption|exact Hbits]]. intros _. lia.
Qed.

Lemma ussd_unpack_bits u fill p : u <> [] -> Forall is_septet u -> 0 <= fill <= 6 -> ussd_wire fill u p ->
  unpack7bit_ussd p fill = if ussd_misread fill u then removelast u else u.
Proof.
  intros Hne Hu Hf [Wp W].
  destruct (pack_tail u fill ((len u - fill) mod 8) Hu Hf Hne eq_refl) as (HB & HpN & Hbits & Hlen).
  pose proof (unpack_pack u fill Hu Hf) as HUP.
  unfold ussd_tail in W. unfold ussd_misread. rewrite !spare_eq in *. change (Z.of_nat (length u)) with (len u).
  destruct (snoc_cases _ HpN) as (b & pl & Ep). rewrite Ep in *. clear HpN.
  pose proof HB as HBw.
  apply Forall_snoc in HB as [HBb Hpl].
  assert (Hlb : len (b ++ [pl]) = len b + 1) by (rewrite len_app; reflexivity).
  pose proof (len_nonneg b).
  destruct (snoc_cases _ Hne) as (a & l & Eu).
  assert (Hlu : len u = len a + 1) by (rewrite Eu, len_app; reflexivity).
  pose proof (len_nonneg a).
  assert (Hl : is_septet l) by (rewrite Eu in Hu; apply Forall_snoc in Hu; tauto).
  assert (Ha : Forall is_septet a) by (rewrite Eu in Hu; apply Forall_snoc in Hu; tauto).
  assert (Elast : last u 0 = l) by (rewrite Eu; apply last_snoc). rewrite Elast in *.
  assert (Erev : rev u = l :: rev a) by (rewrite Eu; now rewrite rev_app_distr).
  set (m := (len u - fill) mod 8) in *. assert (Hm : 0 <= m < 8) by lia.
  rewrite Erev. cbn [nth]. cbv zeta.
  bfalse (len u =? 0). cbn [negb andb] in HUP.
  destruct (two_more a) as (c & Ec).
  assert (Hs : is_septet (nth 0 (rev a) 0)) by (apply Forall_nth0; now apply Forall_rev).
  assert (Hr : is_septet (nth 1 (rev a) 0)) by (apply Forall_nth0; now apply Forall_rev).
  revert Hs Hr Ec. generalize (nth 0 (rev a) 0) (nth 1 (rev a) 0). intros s r Hs Hr Ec.
  set (y := repeat false (14 - Z.to_nat fill)).
  assert (Hy : y ++ octet_bits (b ++ [pl]) = septet_bits (c ++ [r; s; l]) ++ repeat false (Z.to_nat m)).
  { replace (c ++ [r; s; l]) with ([0; 0] ++ u).
    2:{ rewrite Eu. change [r; s; l] with ([r; s] ++ [l]). now rewrite !app_assoc, Ec. }
    rewrite septet_bits_app, Hbits, app_assoc. unfold y. rewrite <- repeat_app, <- app_assoc.
    replace (14 - Z.to_nat fill + Z.to_nat fill)%nat with 14%nat by lia. reflexivity. }
  clearbody y.
  assert (Hy1 : y ++ octet_bits (b ++ [pl]) = septet_bits ((c ++ [r; s]) ++ [l]) ++ repeat false (Z.to_nat m))
    by (rewrite <- app_assoc; exact Hy).
  assert (Hy2 : y ++ octet_bits (b ++ [pl]) = septet_bits ((c ++ [r]) ++ [s; l]) ++ repeat false (Z.to_nat m))
    by (rewrite <- app_assoc; exact Hy).
  destruct (Z.eq_dec m 7) as [E7|N7].
  - btrue (m =? 7). replace (m =? 7) with true in W by lia.
    assert (Epl : pl = l / 64).
    { change 64 with (2 ^ (7 - 1)). eapply last_pad with (m := 7); [rewrite <- E7; exact Hy1|assumption|assumption|lia]. }
    unfold is_septet, is_byte in *.
    rewrite E7, Eu in Hbits.
    pose proof (fill_cr7 _ a l b pl Hbits Epl Hl) as F.
    assert (HB' : Forall is_byte (b ++ [Z.lor pl 26])).
    { apply Forall_snoc. split; [assumption|]. unfold is_byte.
      assert (C : pl = 0 \/ pl = 1) by lia. destruct C as [-> | ->]; cbn; lia. }
    assert (E : p = b ++ [Z.lor pl 26]).
    { apply octet_bits_fun; [assumption..|]. rewrite W, F, Eu. reflexivity. }
    rewrite E, unpack_ussd_eq.
    assert (Hd : drop b (Z.lor pl 26) = true).
    { unfold drop. rewrite len_app. change (len [Z.lor pl 26]) with 1.
      btrue (1 <? len b + 1). pose proof (zrange_sweep _ _ lor_cr_m pl ltac:(lia)) as E'.
      cbn beta in E'. rewrite shiftr1_div in E'. now rewrite E'. }
    rewrite Hd.
    destruct (unpack7bit_spec _ fill HB' ltac:(lia)) as (-> & _).
    rewrite F, skipn_app_exact by (now rewrite repeat_length). rewrite cut7_septets by now rewrite <- Eu.
    change (bits 7 13) with (bits 7 13 ++ []). rewrite cut7_cons by (unfold is_septet; lia).
    change (cut7 []) with (@nil Z). now rewrite removelast_snoc, Eu.
  - bfalse (m =? 7). replace (m =? 7) with false in W by lia.
    bfalse ((fill + 7 * len u) mod 8 =? 1). rewrite app_nil_r in HUP.
    destruct (Z.eq_dec m 0) as [E0|N0].
    + btrue (m =? 0). replace (m =? 0) with true in W by lia.
      assert (Epl : pl = s / 64 + 2 * l).
      { eapply last_nopad; [rewrite Hy2, E0; apply app_nil_r|assumption..]. }
      unfold is_septet, is_byte in Hs, Hr, Hl, Hpl.
      destruct (Z.eqb_spec l 13) as [L|L]; cbn [andb] in W.
      * bfalse (l =? 6). cbn [andb].
        assert (HB' : Forall is_byte ((b ++ [pl]) ++ [13])).
        { rewrite !Forall_snoc. unfold is_byte. repeat split; try assumption; lia. }
        assert (E : p = (b ++ [pl]) ++ [13]).
        { apply octet_bits_fun; [assumption..|]. rewrite W, (octet_bits_app _ [13]), Hbits, E0, <- septet_13_false.
          cbn [Z.to_nat repeat]. rewrite !app_assoc, app_nil_r. reflexivity. }
        rewrite E, unpack_ussd_eq.
        assert (Hd : drop (b ++ [pl]) 13 = true).
        { unfold drop. rewrite <- app_assoc. cbn [app]. rewrite nth2_snoc.
          btrue (pl / 2 =? 13). rewrite len_app. change (len [pl; 13]) with 2.
          btrue (1 <? len b + 2). reflexivity. }
        rewrite Hd.
        destruct (unpack7bit_spec _ fill HB' ltac:(lia)) as (-> & _).
        rewrite octet_bits_app, Hbits, E0. cbn [Z.to_nat repeat app]. rewrite app_nil_r, <- app_assoc, skipn_app_exact by (now rewrite repeat_length).
        rewrite cut7_septets by assumption.
        change (cut7 (octet_bits [13])) with [13]. apply removelast_snoc.
      * assert (E : p = b ++ [pl]).
        { apply octet_bits_fun; [assumption..|]. rewrite W, Hbits. reflexivity. }
        rewrite E, unpack_ussd_eq, HUP.
        assert (ED : drop b pl = (l =? 6) && (s =? 70) && (64 <=? r)).
        { destruct b as [|b0 b'] eqn:Eb.
          - change (len (@nil Z)) with 0 in *. assert (len u = 1) by lia. assert (a = []) by (apply len_0_nil; lia). subst a.
            assert (r = 0) as ->.
            { change ([0; 0] ++ []) with ([] ++ [0; 0]) in Ec. apply app_suffix in Ec as [_ Ec]; [|reflexivity]. now injection Ec. }
            unfold drop. change (1 <? len ([] ++ [pl])) with false. rewrite !andb_false_r. reflexivity.
          - rewrite <- Eb in *. assert (Nb : b <> []) by (rewrite Eb; discriminate). clear Eb.
            destruct (snoc_cases b Nb) as (b1 & q & Eb).
            rewrite Eb in *. apply Forall_snoc in HBb as [_ Hq].
            assert (Eq : q = r / 2 ^ (5 + 0) + (s mod 2 ^ (6 + 0)) * 2 ^ (2 - 0)).
            { eapply q_low with (l := l) (p := b1) (pl := pl) (y := y) (u := c); try assumption; try lia.
              rewrite <- app_assoc in Hy. cbn [app] in Hy. rewrite Hy, E0. reflexivity. }
            unfold drop. rewrite <- app_assoc. cbn [app]. rewrite nth2_snoc.
            rewrite len_app. change (len [q; pl]) with 2. pose proof (len_nonneg b1).
            btrue (1 <? len b1 + 2).
            clear - L Eq Epl Hl Hs Hr Hq. powers.
            cbn [andb]. bfalse (pl / 2 =? 13). cbn [orb].
            destruct (Z.eqb_spec pl 13), (Z.eqb_spec l 6); cbn [andb]; try lia. }
        now rewrite ED.
    + bfalse (m =? 0). replace (m =? 0) with false in W by lia. cbn [andb] in W.
      assert (E : p = b ++ [pl]).
      { apply octet_bits_fun; [assumption..|]. rewrite W, Hbits. reflexivity. }
      rewrite E, unpack_ussd_eq, HUP.
      assert (Epl : pl = l / 2 ^ (m - 1)).
      { eapply last_pad with (m := m); [exact Hy1|assumption|assumption|lia]. }
      unfold is_septet, is_byte in Hs, Hr, Hl, Hpl.
      assert (C : m = 1 \/ m = 2 \/ m = 3 \/ m = 4 \/ m = 5 \/ m = 6) by lia.
      assert (ED : drop b pl = (8 <? fill + 7 * len u) &&
        ((l / 2 ^ m =? 13) || ((l =? 13 * 2 ^ (m - 1)) && (s / 2 ^ (m - 1) =? 13)))).
      { clear E W Wp HUP HBw Hbits. unfold drop. destruct b as [|b0 b'] eqn:Eb.
        - change (len (@nil Z)) with 0 in *. bfalse (8 <? fill + 7 * len u). reflexivity.
        - rewrite <- Eb in *. assert (Nb : b <> []) by (rewrite Eb; discriminate). clear Eb.
          destruct (snoc_cases b Nb) as (b1 & q & Eb).
          rewrite Eb in *. apply Forall_snoc in HBb as [_ Hq].
          rewrite <- app_assoc in *. cbn [app] in *. rewrite nth2_snoc.
          rewrite !len_app in *. change (len [q; pl]) with 2 in *. change (len [q]) with 1 in *. pose proof (len_nonneg b1).
          btrue (1 <? len b1 + 2). btrue (8 <? fill + 7 * len u). cbn [andb].
          destruct (Z.eq_dec m 1) as [M1|M1].
          + assert (Eq : q = r / 2 ^ (5 + 1) + (s mod 2 ^ (6 + 1)) * 2 ^ (2 - 1)).
            { eapply q_low with (l := l) (p := b1) (pl := pl) (y := y) (u := c); try assumption; try lia. rewrite Hy, M1. reflexivity. }
            rewrite M1 in *. unfold is_byte in Hq. clear - Eq Epl Hl Hs Hr. powers. lia.
          + assert (Eq : q = s / 2 ^ (m - 2) + (l mod 2 ^ (m - 1)) * 2 ^ (9 - m)).
            { eapply q_high with (u := c ++ [r]) (p := b1) (pl := pl) (y := y); try assumption; try lia. }
            clear - C M1 Epl Hl Hs Eq. clearbody m.
            destruct C as [-> | [-> | [-> | [-> | [-> | ->]]]]]; powers; lia. }
      now rewrite ED.
Qed.
