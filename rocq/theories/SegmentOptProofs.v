(** Segmentation: units are never split, the division is optimal, and Segment
    terminates. *)
From Verif Require Import GoBase GoLemmas SpecText SpecSegment UtfProofs UssdProofs Charset CharsetProofs
  Gsm7 Dcs FirstOctet UserData Tpdu Segment SegmentProofs.

(** ** Greedy grouping of units *)
Inductive greedy (bs : Z) : list (list Z) -> list (list (list Z)) -> Prop :=
| g_last us : us <> [] -> len (concat us) <= bs -> greedy bs us [us]
| g_cut us1 u us2 gs : us1 <> [] -> len (concat us1) <= bs ->
    bs < len (concat us1) + len u -> greedy bs (u :: us2) gs ->
    greedy bs (us1 ++ u :: us2) (us1 :: gs).

Lemma greedy_concat bs us gs : greedy bs us gs -> concat gs = us.
Proof. induction 1; cbn [concat]; [apply app_nil_r|]. now rewrite IHgreedy. Qed.

Lemma greedy_optimal bs us gs : greedy bs us gs -> forall p ds,
  concat ds = p ++ us -> Forall (fun d => len (concat d) <= bs) ds ->
  (length gs <= length ds)%nat.
Proof.
  induction 1 as [us NE L|us1 u us2 gs NE L1 L2 G IH]; intros p ds HC HF.
  - destruct ds; cbn; [|lia]. cbn in HC. symmetry in HC. apply app_eq_nil in HC as [_ ->]. contradiction.
  - destruct ds as [|d ds].
    { cbn in HC. symmetry in HC. apply app_eq_nil in HC as [_ HC].
      apply app_eq_nil in HC as [-> _]. contradiction. }
    inversion HF as [|? ? Hd HF']; subst. cbn [concat length] in *.
    apply le_n_S.
    assert (HP : exists p', concat ds = p' ++ u :: us2).
    { destruct (Nat.le_gt_cases (length d) (length (p ++ us1))) as [Hl|Hl].
      - exists (skipn (length d) (p ++ us1)).
        transitivity (skipn (length d) (d ++ concat ds)).
        { now rewrite skipn_app_exact. }
        rewrite HC, app_assoc, skipn_app.
        replace (length d - length (p ++ us1))%nat with 0%nat by lia. reflexivity.
      - exfalso.
        assert (E : d = (p ++ us1 ++ [u]) ++ skipn (length (p ++ us1 ++ [u])) d).
        { rewrite <- (firstn_skipn (length (p ++ us1 ++ [u])) d) at 1. f_equal.
          transitivity (firstn (length (p ++ us1 ++ [u])) (d ++ concat ds)).
          - rewrite firstn_app.
            replace (length (p ++ us1 ++ [u]) - length d)%nat with 0%nat.
            + now rewrite firstn_O, app_nil_r.
            + rewrite !app_length in *. cbn [length] in *. lia.
          - rewrite HC. replace (p ++ us1 ++ u :: us2) with ((p ++ us1 ++ [u]) ++ us2)
              by (rewrite <- !app_assoc; reflexivity).
            now apply firstn_app_exact. }
        rewrite E in Hd. rewrite !concat_app in Hd. cbn [concat] in Hd.
        rewrite !len_app in Hd. cbn in Hd.
        pose proof (len_nonneg (concat p)).
        pose proof (len_nonneg (concat (skipn (length (p ++ us1 ++ [u])) d))).
        change (len (@nil Z)) with 0 in Hd. lia. }
    destruct HP as (p' & HP). eapply IH; eauto.
Qed.

(** ** The loops compute the greedy grouping *)
Definition adj_spec (adj : list Z -> Z -> res Z) (U : list Z -> Prop) (bs : Z) : Prop :=
  forall us1 us' u us2, Forall U (us1 ++ us' ++ u :: us2) ->
  len (concat us') <= bs < len (concat us') + len u ->
  forall b, adj (concat (us1 ++ us' ++ u :: us2)) (len (concat us1) + bs) = Ok b ->
  b = len (concat us1) + len (concat us').

Lemma split_units bs (us : list (list Z)) : bs < len (concat us) -> 0 <= bs -> exists us' u us2,
  us = us' ++ u :: us2 /\ len (concat us') <= bs < len (concat us') + len u.
Proof.
  revert bs. induction us as [|u us IH]; intros bs H H0; cbn [concat] in H.
  - change (len (@nil Z)) with 0 in H. lia.
  - rewrite len_app in H. destruct (Z.lt_ge_cases bs (len u)) as [L|L].
    + exists [], u, us. cbn. change (len (@nil Z)) with 0. split; [reflexivity|lia].
    + destruct (IH (bs - len u)) as (us' & v & us2 & -> & E); [lia|lia|].
      exists (u :: us'), v, us2. split; [reflexivity|]. cbn [concat]. rewrite len_app. lia.
Qed.

Lemma gloop_greedy adj U bs : adj_spec adj U bs -> 0 <= bs ->
  forall fuel us1 us cs, us <> [] -> Forall U (us1 ++ us) ->
  gloop adj fuel (concat (us1 ++ us)) bs (len (concat us1)) (len (concat us1) + bs) = Ok cs ->
  exists gs, greedy bs us gs /\ cs = map (@concat Z) gs.
Proof.
  intros HA H0. induction fuel; intros us1 us cs NE HF H; [discriminate|].
  pose proof H as Hfull. cbn [gloop] in H.
  destruct (_ <? _) eqn:E.
  - assert (bs < len (concat us)) as Hl by (rewrite concat_app, len_app in E; lia).
    destruct (split_units bs us Hl H0) as (us' & u & us2 & -> & Hu).
    apply bind_ok in H as (b & Hb & H). apply bind_ok in H as (c & Hc & H).
    apply bind_ok in H as (rest & Hr & H). injection H as <-.
    pose proof (HA us1 us' u us2 HF Hu b Hb) as Eb. subst b.
    assert (us' <> []) as NE'.
    { intros ->. change (len (concat (@nil (list Z)))) with 0 in *.
      rewrite Z.add_0_r in *.
      eapply (gloop_stuck adj _ bs (len (concat us1))); eauto; lia. }
    assert (c = concat us') as ->.
    { rewrite !concat_app in Hc. rewrite slice_app in Hc by reflexivity. congruence. }
    destruct (IHfuel (us1 ++ us') (u :: us2) rest) as (gs & G & ->).
    + discriminate.
    + now rewrite <- app_assoc.
    + rewrite <- app_assoc. rewrite concat_app with (l1 := us1) (l2 := us'), len_app. exact Hr.
    + exists (us' :: gs). split; [|reflexivity]. constructor; auto; lia.
  - apply bind_ok in H as (c & Hc & H). injection H as <-.
    rewrite concat_app, slice_from_app in Hc by reflexivity. injection Hc as <-.
    exists [us]. split; [|reflexivity]. constructor; [assumption|].
    rewrite concat_app, len_app in E. lia.
Qed.

(** ** The three alphabets *)
Lemma unit7_last us : Forall gsm7_unit us -> us <> [] ->
  exists p c, concat us = p ++ [c] /\ c <> 27.
Proof.
  intros HF NE. destruct (snoc_cases us NE) as (us' & v & ->).
  apply Forall_app in HF as [_ HF]. inversion HF as [|? ? (c & Hc & Hv) _]; subst.
  rewrite concat_app. cbn [concat]. rewrite app_nil_r.
  destruct Hv as [->| ->].
  - exists (concat us'), c. auto.
  - exists (concat us' ++ [27]), c. rewrite <- app_assoc. auto.
Qed.

Lemma adj7_spec bs : 1 <= bs -> adj_spec adj7 gsm7_unit bs.
Proof.
  intros H1 us1 us' u us2 HF Hu b Hb. unfold adj7 in Hb.
  assert (HU : gsm7_unit u).
  { apply Forall_app in HF as [_ HF]. apply Forall_app in HF as [_ HF]. now inversion HF. }
  destruct HU as (c & Hc & Eu).
  assert (Hcase : len (concat us') = bs \/ (len (concat us') = bs - 1 /\ u = [27; c])).
  { destruct Eu as [->| ->].
    - change (len [c]) with 1 in Hu. left. lia.
    - change (len [27; c]) with 2 in Hu.
      assert (len (concat us') = bs \/ len (concat us') = bs - 1) as [E|E] by lia; auto. }
  destruct Hcase as [E|[E ->]].
  - assert (us' <> []) as NE.
    { intros ->. change (len (concat (@nil (list Z)))) with 0 in E. lia. }
    assert (HF' : Forall gsm7_unit us').
    { apply Forall_app in HF as [_ HF]. now apply Forall_app in HF as [HF _]. }
    destruct (unit7_last us' HF' NE) as (p & x & Ep & Hx).
    rewrite !concat_app, Ep in Hb.
    replace (concat us1 ++ (p ++ [x]) ++ concat (u :: us2))
      with ((concat us1 ++ p) ++ x :: concat (u :: us2)) in Hb by (rewrite <- !app_assoc; reflexivity).
    replace (len (concat us1) + bs - 1) with (len (concat us1 ++ p)) in Hb.
    2:{ rewrite len_app. rewrite <- E, Ep, len_app. change (len [x]) with 1. lia. }
    rewrite idx_app_mid in Hb. cbn [bind] in Hb. unfold esc in Hb.
    replace (x =? 27) with false in Hb by lia. cbn [bind] in Hb. injection Hb as <-. lia.
  - rewrite !concat_app in Hb. cbn [concat] in Hb.
    rewrite app_assoc in Hb. cbn [app] in Hb.
    replace (len (concat us1) + bs - 1) with (len (concat us1 ++ concat us')) in Hb
      by (rewrite len_app; lia).
    rewrite idx_app_mid in Hb. cbn [bind] in Hb. change (27 =? esc) with true in Hb. cbv iota in Hb.
    rewrite <- concat_app in Hb.
    destruct (us1 ++ us') as [|v vs] eqn:EV.
    + apply app_eq_nil in EV as [-> ->].
      change (len (concat (@nil (list Z)))) with 0 in *.
      assert (bs = 1) as -> by lia. discriminate Hb.
    + assert (HF' : Forall gsm7_unit (us1 ++ us')).
      { rewrite app_assoc in HF. now apply Forall_app in HF as [HF _]. }
      rewrite <- EV in Hb.
      destruct (unit7_last (us1 ++ us') HF') as (p & x & Ep & Hx); [congruence|].
      assert (EL : len (concat us1) + len (concat us') = len p + 1).
      { rewrite <- len_app, <- concat_app, Ep, len_app. reflexivity. }
      rewrite Ep, <- app_assoc in Hb. cbn [app] in Hb.
      replace (len (concat us1) + bs - 2) with (len p) in Hb by lia.
      rewrite idx_app_mid in Hb. cbn [bind] in Hb. unfold esc in Hb.
      replace (x =? 27) with false in Hb by lia. cbn [bind negb] in Hb. cbv iota in Hb. injection Hb as <-. rewrite len_app. change (len [x]) with 1. lia.
Qed.

Definition unit8 (u : list Z) : Prop := exists c, u = [c].
Lemma adj8_spec bs : adj_spec adj8 unit8 bs.
Proof.
  intros us1 us' u us2 HF Hu b Hb. injection Hb as <-.
  assert (HU : unit8 u).
  { apply Forall_app in HF as [_ HF]. apply Forall_app in HF as [_ HF]. now inversion HF. }
  destruct HU as (c & ->). change (len [c]) with 1 in Hu. lia.
Qed.
Lemma units8 (msg : list Z) : Forall unit8 (map (fun c => [c]) msg) /\ concat (map (fun c => [c]) msg) = msg.
Proof.
  induction msg as [|c msg [I1 I2]]; [split; constructor|]. cbn [map concat app]. split.
  - constructor; [now exists c|assumption].
  - now f_equal.
Qed.

(** UTF-16BE characters. *)
Definition unitU (u : list Z) : Prop := exists r us, utf16_char r us /\ be_units us u.

Lemma unitU_whole us : Forall unitU us -> exists rs, utf16be rs (concat us).
Proof.
  induction 1 as [|u us (r & w & Hr & Hw) HF (rs & ws & I1 & I2)].
  - exists [], []. split; constructor.
  - exists (r :: rs), (w ++ ws). split; [now constructor|]. cbn [concat]. now apply be_units_app.
Qed.
Lemma whole_unitU rs s : utf16be rs s -> exists us, Forall unitU us /\ concat us = s.
Proof.
  intros (w & Ht & Hb). revert s Hb. induction Ht as [|r u rs us Hc Ht IH]; intros s Hb.
  - inversion Hb; subst. exists []. split; constructor.
  - assert (exists s1 s2, s = s1 ++ s2 /\ be_units u s1 /\ be_units us s2) as (s1 & s2 & -> & B1 & B2).
    { clear - Hb. revert s Hb. induction u as [|x u IH]; intros s Hb.
      - exists [], s. repeat split; [constructor|exact Hb].
      - cbn [app] in Hb. apply be_units_inv in Hb as (h & l & s' & -> & Hh & Hl & E & Hb).
        destruct (IH s' Hb) as (s1 & s2 & -> & B1 & B2).
        exists (h :: l :: s1), s2. repeat split; [|exact B2]. constructor; assumption. }
    destruct (IH s2 B2) as (vs & HF & <-). exists (s1 :: vs). split; [|reflexivity].
    constructor; [|exact HF]. exists r, u. auto.
Qed.

(** A unit is one non-surrogate pair of octets, or a high then a low surrogate. *)
Lemma unitU_inv u : unitU u ->
  (exists h l, u = [h; l] /\ ~ (55296 <= h * 256 + l < 57344)) \/
  (exists h l h' l', u = [h; l; h'; l'] /\ 55296 <= h * 256 + l < 56320 /\
                     56320 <= h' * 256 + l' < 57344).
Proof.
  intros (r & us & Hc & Hb). destruct Hc as [r Hs Hr|hi lo Hhi Hlo].
  - left. apply be_units_inv in Hb as (h & l & s' & -> & Hh & Hl & E & Hb).
    inversion Hb; subst. exists h, l. split; [reflexivity|]. unfold scalar in Hs. lia.
  - right. apply be_units_inv in Hb as (h & l & s' & -> & Hh & Hl & E & Hb).
    apply be_units_inv in Hb as (h' & l' & s'' & -> & Hh' & Hl' & E' & Hb).
    inversion Hb; subst. exists h, l, h', l'. split; [reflexivity|]. lia.
Qed.

Lemma unitU_even us : Forall unitU us -> len (concat us) mod 2 = 0.
Proof.
  induction 1 as [|u us Hu HF IH]; [reflexivity|]. cbn [concat]. rewrite len_app.
  destruct (unitU_inv u Hu) as [(h & l & -> & _)|(h & l & h' & l' & -> & _)].
  - change (len [h; l]) with 2. lia.
  - change (len [h; l; h'; l']) with 4. lia.
Qed.

Lemma unitU_last us : Forall unitU us -> us <> [] ->
  exists p h l, concat us = p ++ [h; l] /\ ~ (55296 <= h * 256 + l < 56320).
Proof.
  intros HF NE. destruct (snoc_cases us NE) as (us' & v & ->).
  apply Forall_app in HF as [_ HF]. inversion HF as [|? ? Hv _]; subst.
  rewrite concat_app. cbn [concat]. rewrite app_nil_r.
  destruct (unitU_inv v Hv) as [(h & l & -> & Hn)|(h & l & h' & l' & -> & H1 & H2)].
  - exists (concat us'), h, l. split; [reflexivity|lia].
  - exists (concat us' ++ [h; l]), h', l'. rewrite <- app_assoc. split; [reflexivity|lia].
Qed.

Lemma adjU_at p h l q : adjU (p ++ h :: l :: q) (len p + 2) =
  Ok (if (55296 <=? h * 256 + l) && (h * 256 + l <? 56320) then len p else len p + 2).
Proof.
  unfold adjU. replace (len p + 2 - 2) with (len p) by lia.
  replace (len p + 2 - 1) with (len (p ++ [h])) by (rewrite len_app; change (len [h]) with 1; lia).
  pose proof (len_nonneg p). pose proof (len_nonneg q).
  rewrite slice_ok; [|lia|rewrite len_app, !len_cons; lia]. cbn [bind].
  rewrite idx_app_mid. cbn [bind].
  replace (p ++ h :: l :: q) with ((p ++ [h]) ++ l :: q) by (rewrite <- app_assoc; reflexivity).
  rewrite idx_app_mid. cbn [bind]. reflexivity.
Qed.

Lemma adjU_spec bs : 2 <= bs -> bs mod 2 = 0 -> adj_spec adjU unitU bs.
Proof.
  intros H1 H2 us1 us' u us2 HF Hu b Hb.
  assert (HU : unitU u).
  { apply Forall_app in HF as [_ HF]. apply Forall_app in HF as [_ HF]. now inversion HF. }
  assert (HF' : Forall unitU us').
  { apply Forall_app in HF as [_ HF]. now apply Forall_app in HF as [HF _]. }
  pose proof (unitU_even us' HF') as Hev.
  assert (Hcase : len (concat us') = bs \/ (len (concat us') = bs - 2 /\
    exists h l q, u = h :: l :: q /\ 55296 <= h * 256 + l < 56320)).
  { destruct (unitU_inv u HU) as [(h & l & -> & Hn)|(h & l & h' & l' & -> & S1 & S2)].
    - change (len [h; l]) with 2 in Hu. lia.
    - change (len [h; l; h'; l']) with 4 in Hu.
      assert (len (concat us') = bs \/ len (concat us') = bs - 2) as [E|E] by lia; [auto|].
      right. split; [exact E|]. exists h, l, [h'; l']. auto. }
  destruct Hcase as [E|[E (h & l & q & -> & S)]].
  - assert (us' <> []) as NE.
    { intros ->. change (len (concat (@nil (list Z)))) with 0 in E. lia. }
    destruct (unitU_last us' HF' NE) as (p & h & l & Ep & Hx).
    rewrite !concat_app, Ep in Hb.
    replace (concat us1 ++ (p ++ [h; l]) ++ concat (u :: us2))
      with ((concat us1 ++ p) ++ h :: l :: concat (u :: us2)) in Hb by (rewrite <- !app_assoc; reflexivity).
    assert (EL : len (concat us1) + bs = len (concat us1 ++ p) + 2).
    { rewrite len_app. rewrite <- E, Ep, len_app. change (len [h; l]) with 2. lia. }
    rewrite EL, adjU_at in Hb. injection Hb as <-.
    bfalse ((55296 <=? h * 256 + l) && (h * 256 + l <? 56320)). lia.
  - rewrite !concat_app in Hb. cbn [concat] in Hb.
    rewrite app_assoc in Hb. cbn [app] in Hb.
    replace (len (concat us1) + bs) with (len (concat us1 ++ concat us') + 2) in Hb
      by (rewrite len_app; lia).
    rewrite adjU_at in Hb. injection Hb as <-.
    btrue ((55296 <=? h * 256 + l) && (h * 256 + l <? 56320)). rewrite len_app. reflexivity.
Qed.

(** ** Chunks *)
Definition unit_of (alpha : Z) : list Z -> Prop :=
  if alpha =? AlphaUCS2 then unitU else if alpha =? Alpha8Bit then unit8 else gsm7_unit.

Lemma chunk_greedy msg alpha bs us cs : msg <> [] -> concat us = msg ->
  Forall (unit_of alpha) us -> chunk msg alpha bs = Ok cs ->
  exists gs, greedy (bs_of alpha bs) us gs /\ cs = map (@concat Z) gs.
Proof.
  intros NE <- HF H. pose proof (len_ne_nil _ NE) as NZ.
  destruct (chunk_ok _ _ _ _ NZ H) as (Hb & _ & _).
  rewrite chunk_gloop in H by exact NZ. apply bind_ok in H as (_ & _ & H).
  eapply (gloop_greedy (adj_of alpha) (unit_of alpha) (bs_of alpha bs)) with (us1 := []) in H;
    [exact H| |lia| |exact HF].
  - unfold adj_of, unit_of, bs_of in *. destruct (alpha =? AlphaUCS2) eqn:EU.
    + apply adjU_spec; lia.
    + destruct (alpha =? Alpha8Bit); [apply adj8_spec|apply adj7_spec; lia].
  - intros ->. now apply NE.
Qed.

(** Blocks made of whole characters of the alphabet. *)
Definition whole_of (alpha : Z) (s : list Z) : Prop :=
  exists us, Forall (unit_of alpha) us /\ concat us = s.

Lemma greedy_units bs (U : list Z -> Prop) us gs : greedy bs us gs -> Forall U us -> Forall (Forall U) gs.
Proof.
  intros G HF. rewrite <- (greedy_concat _ _ _ G) in HF. clear G us.
  induction gs as [|g gs IH]; [constructor|]. cbn [concat] in HF. apply Forall_app in HF as [H1 H2].
  constructor; auto.
Qed.

Lemma chunk_whole msg alpha bs cs : msg <> [] -> whole_of alpha msg ->
  chunk msg alpha bs = Ok cs -> Forall (whole_of alpha) cs.
Proof.
  intros NE (us & HF & HC) H.
  destruct (chunk_greedy _ _ _ _ _ NE HC HF H) as (gs & G & ->).
  pose proof (greedy_units _ _ _ _ G HF) as HG. clear - HG.
  induction HG; [constructor|]. cbn [map]. constructor; [|assumption]. eexists; eauto.
Qed.

Lemma concat_concat_map {A} (l : list (list (list A))) :
  concat (concat l) = concat (map (@concat A) l).
Proof. induction l; [reflexivity|]. cbn [concat map]. now rewrite concat_app, IHl. Qed.

Lemma chunk_optimal msg alpha bs cs blocks : msg <> [] ->
  chunk msg alpha bs = Ok cs -> division (whole_of alpha) (bs_of alpha bs) msg blocks ->
  (length cs <= length blocks)%nat.
Proof.
  intros NE H (HC & HF).
  assert (exists ds, map (@concat Z) ds = blocks /\ Forall (Forall (unit_of alpha)) ds /\
          Forall (fun d => len (concat d) <= bs_of alpha bs) ds) as (ds & HM & H1 & H2).
  { clear - HF. induction HF as [|b bl ((us & Hu & Ec) & Hl) HF (ds & HM & H1 & H2)].
    - exists []. repeat split; constructor.
    - exists (us :: ds). cbn [map]. rewrite HM, Ec. split; [reflexivity|].
      split; constructor; auto. now rewrite Ec. }
  assert (HC' : concat (concat ds) = msg).
  { rewrite concat_concat_map, HM. exact HC. }
  assert (HU : Forall (unit_of alpha) (concat ds)).
  { clear - H1. induction H1; [constructor|]. cbn [concat]. now apply Forall_app. }
  destruct (chunk_greedy _ _ _ _ _ NE HC' HU H) as (gs & G & ->).
  rewrite map_length. rewrite <- HM, map_length.
  eapply greedy_optimal with (p := []); eauto.
Qed.

(** ** C14, C15 *)
Lemma whole_7 alpha s : alpha = Alpha7Bit -> (whole_of alpha s <-> gsm7_whole s).
Proof. intros ->. reflexivity. Qed.
Lemma whole_U s : whole_of AlphaUCS2 s <-> utf16_whole s.
Proof.
  split.
  - intros (us & HF & <-). now apply unitU_whole.
  - intros (rs & H). now apply whole_unitU in H.
Qed.
Lemma whole_8 s : whole_of Alpha8Bit s.
Proof. exists (map (fun c => [c]) s). apply units8. Qed.

Lemma segment_whole t msg cfg segs : segment t msg cfg = Ok segs ->
  whole_of (dcs_alpha (DCS t)) msg ->
  forall s, In s segs -> whole_of (dcs_alpha (DCS t)) (UD s).
Proof.
  intros H HW s Hs.
  destruct (segment_cases _ _ _ _ H) as [(-> & ->)|[(NE & L & ->)|(NE & L & cs & Hc & ->)]].
  - destruct Hs.
  - destruct Hs as [<-|[]]. now rewrite with_mr_UD, set_UDf_UD.
  - pose proof (chunk_whole _ _ _ _ NE HW Hc) as HF. rewrite Forall_forall in HF. apply HF.
    rewrite <- (make_segments_UD (multi_template t (sc_wide cfg)) cfg (seg_ref cfg) (len cs) cs 0%nat).
    now apply in_map.
Qed.

Lemma segment_optimal t msg cfg segs blocks cap : segment t msg cfg = Ok segs ->
  division (whole_of (dcs_alpha (DCS t))) cap msg blocks ->
  (forall s, In s segs -> cap <= ud_block_size s) ->
  (length segs <= length blocks)%nat.
Proof.
  intros H (HC & HF) HB.
  destruct (segment_cases _ _ _ _ H) as [(-> & ->)|[(NE & L & ->)|(NE & L & cs & Hc & E)]].
  - cbn. lia.
  - destruct blocks; cbn; [|lia]. cbn in HC. congruence.
  - rewrite E, make_segments_length.
    eapply chunk_optimal; [exact NE|exact Hc|]. split; [exact HC|].
    unfold multi_size. rewrite bs_of_block.
    assert (cap <= multi_size t (sc_wide cfg)) as Hcap.
    { destruct cs as [|c cs].
      - pose proof (chunk_ok _ _ _ _ (len_ne_nil _ NE) Hc) as (_ & EC & _). cbn in EC. congruence.
      - rewrite E in HB. cbn [make_segments] in HB. specialize (HB _ (or_introl eq_refl)).
        now rewrite make_segment_size in HB. }
    eapply Forall_impl; [|exact HF]. cbn. intros b (Hw & Hl). split; [exact Hw|].
    unfold multi_size, len in *. lia.
Qed.

(** Optimality for arbitrary septets, by comparing positions. *)
Lemma gloop_ahead adj msg bs (legal : Z -> Prop) :
  (forall e b, adj msg e = Ok b -> b <= e) ->
  (forall e b p, adj msg e = Ok b -> legal p -> p <= e -> p <= b) ->
  forall fuel a a' cs blocks, 0 <= a' <= a -> a < len msg ->
  gloop adj fuel msg bs a (a + bs) = Ok cs ->
  concat blocks = skipn (Z.to_nat a') msg ->
  Forall (fun b => len b <= bs) blocks ->
  (forall b1 b2, blocks = b1 ++ b2 -> legal (a' + len (concat b1))) ->
  (length cs <= length blocks)%nat.
Proof.
  intros HA HL. induction fuel; intros a a' cs blocks Ha Hl H HC HF HG; [discriminate|].
  assert (NE : blocks <> []).
  { intros ->. cbn in HC. pose proof (len_skipn msg a' ltac:(lia)) as E. rewrite <- HC in E.
    change (len (@nil Z)) with 0 in E. lia. }
  destruct blocks as [|b1 bl]; [contradiction|]. inversion HF as [|? ? Hb1 HF']; subst.
  cbn [gloop] in H. destruct (a + bs <? len msg) eqn:E.
  - apply bind_ok in H as (b & Hb & H). apply bind_ok in H as (c & Hc & H).
    apply bind_ok in H as (rest & Hr & H). injection H as <-. cbn [length]. apply le_n_S.
    pose proof (HA _ _ Hb) as Hle.
    pose proof (HG [b1] bl eq_refl) as HG1. cbn [concat] in HG1. rewrite app_nil_r in HG1.
    pose proof (HL _ _ _ Hb HG1 ltac:(lia)) as Hp.
    pose proof (len_nonneg b1) as Hn.
    apply IHfuel with (a := b) (a' := a' + len b1) (blocks := bl); try assumption; try lia.
    + transitivity (skipn (length b1) (b1 ++ concat bl)); [now rewrite skipn_app_exact|].
      cbn [concat] in HC. rewrite HC, skipn_plus. f_equal. unfold len; lia.
    + intros c1 c2 ->. specialize (HG (b1 :: c1) c2 eq_refl). cbn [concat] in HG.
      rewrite len_app in HG. now replace (a' + len b1 + len (concat c1)) with (a' + (len b1 + len (concat c1))) by lia.
  - apply bind_ok in H as (c & Hc & H). injection H as <-. cbn. lia.
Qed.

Definition pair_unit (u : list Z) : Prop := (exists c, c <> 27 /\ u = [c]) \/ (exists c, u = [27; c]).

Lemma adj7_legal us1 us2 e b : Forall pair_unit us1 ->
  adj7 (concat us1 ++ concat us2) e = Ok b -> len (concat us1) <= e -> len (concat us1) <= b.
Proof.
  intros HF H Hle. unfold adj7 in H.
  destruct (Z.eq_dec (len (concat us1)) e) as [E|NE].
  2:{ apply bind_ok in H as (x & _ & H). apply bind_ok in H as (y & _ & H). injection H as <-.
      destruct y; lia. }
  subst e. destruct us1 as [|u0 us0]; [discriminate H|].
  destruct (snoc_cases (u0 :: us0) ltac:(discriminate)) as (us' & v & EV). rewrite EV in *.
  apply Forall_app in HF as [_ HF]. inversion HF as [|? ? Hv _]; subst.
  rewrite concat_app in *. cbn [concat] in *. rewrite app_nil_r in *.
  destruct Hv as [(c & Hc & ->)|(c & ->)].
  - rewrite <- app_assoc in H. cbn [app] in H. rewrite len_app in *. change (len [c]) with 1 in *.
    replace (len (concat us') + 1 - 1) with (len (concat us')) in H by lia.
    rewrite idx_app_mid in H. cbn [bind] in H. unfold esc in H.
    replace (c =? 27) with false in H by lia. cbn [bind] in H. injection H as <-. lia.
  - rewrite len_app in *. change (len [27; c]) with 2 in *.
    replace (len (concat us') + 2 - 2) with (len (concat us')) in H by lia.
    replace (len (concat us') + 2 - 1) with (len (concat us' ++ [27])) in H
      by (rewrite len_app; change (len [27]) with 1; lia).
    replace ((concat us' ++ [27; c]) ++ concat us2) with ((concat us' ++ [27]) ++ c :: concat us2) in H
      by (rewrite <- !app_assoc; reflexivity).
    rewrite idx_app_mid in H. cbn [bind] in H.
    rewrite <- app_assoc in H. cbn [app] in H. rewrite idx_app_mid in H. cbn [bind] in H.
    change (27 =? esc) with true in H. cbn [negb] in H.
    destruct (c =? esc); cbn [bind] in H; injection H as <-; lia.
Qed.

Lemma chunk7_optimal msg bs cs blocks : msg <> [] ->
  chunk msg Alpha7Bit bs = Ok cs -> division gsm7_pairs bs msg blocks ->
  (length cs <= length blocks)%nat.
Proof.
  intros NE H (HC & HF). pose proof (len_ne_nil _ NE) as NZ. pose proof (len_nonneg msg) as Hn.
  rewrite chunk_gloop in H by exact NZ.
  apply bind_ok in H as (_ & _ & H). change (bs_of Alpha7Bit bs) with bs in H.
  change (adj_of Alpha7Bit) with adj7 in H.
  eapply gloop_ahead with (a' := 0) (blocks := blocks)
    (legal := fun p => exists us1 us2, Forall pair_unit us1 /\
       msg = concat us1 ++ concat us2 /\ p = len (concat us1)) in H; try lia; auto.
  - apply adj7_le.
  - intros e b p Hb (us1 & us2 & H1 & H2 & ->) Hp. rewrite H2 in Hb. eapply adj7_legal; eauto.
  - eapply Forall_impl; [|exact HF]. intros b [_ Hb]. exact Hb.
  - assert (HW : forall bl, Forall (fun b => gsm7_pairs b /\ Z.of_nat (length b) <= bs) bl ->
      exists us, Forall pair_unit us /\ concat us = concat bl).
    { induction 1 as [|b bl ((us & H1 & <-) & _) _ (us' & I1 & I2)]; [exists []; auto|].
      exists (us ++ us'). split; [now apply Forall_app|]. now rewrite concat_app, I2. }
    intros b1 b2 ->. apply Forall_app in HF as [HF1 HF2].
    destruct (HW _ HF1) as (us1 & U1 & E1). destruct (HW _ HF2) as (us2 & U2 & E2).
    exists us1, us2. split; [exact U1|]. rewrite E1, E2. split; [|lia].
    now rewrite <- concat_app.
Qed.

Lemma segment_optimal7 t msg cfg segs blocks cap : segment t msg cfg = Ok segs ->
  dcs_alpha (DCS t) = Alpha7Bit ->
  division gsm7_pairs cap msg blocks ->
  (forall s, In s segs -> cap <= ud_block_size s) ->
  (length segs <= length blocks)%nat.
Proof.
  intros H HA (HC & HF) HB.
  destruct (segment_cases _ _ _ _ H) as [(-> & ->)|[(NE & L & ->)|(NE & L & cs & Hc & E)]].
  - cbn. lia.
  - destruct blocks; cbn; [|lia]. cbn in HC. congruence.
  - rewrite E, make_segments_length. rewrite HA in Hc.
    eapply chunk7_optimal; [exact NE|exact Hc|]. split; [exact HC|].
    assert (cap <= multi_size t (sc_wide cfg)) as Hcap.
    { destruct cs as [|c cs].
      - pose proof (chunk_ok _ _ _ _ (len_ne_nil _ NE) Hc) as (_ & EC & _). cbn in EC. congruence.
      - rewrite E in HB. cbn [make_segments] in HB. specialize (HB _ (or_introl eq_refl)).
        now rewrite make_segment_size in HB. }
    eapply Forall_impl; [|exact HF]. cbn. intros b (Hw & Hl). split; [exact Hw|]. lia.
Qed.

(** GSM 7-bit encoded text without U+001B is made of whole units. *)
Lemma encode_runes_whole e d rs s :
  tables_ok (gd_set d) (ge_set e) -> tables_ok (gd_ext d) (ge_ext e) ->
  gsm7_encode_runes e rs = Ok s -> ~ In 27 rs -> gsm7_whole s.
Proof.
  intros HT HX. revert s. induction rs as [|r rs IH]; intros s H HN; cbn [gsm7_encode_runes] in H.
  - injection H as <-. exists []. split; constructor.
  - assert (Hr : r <> 27) by (intros ->; apply HN; now left).
    assert (HN' : ~ In 27 rs) by (intros HI; apply HN; now right).
    destruct (assoc (ge_set e) r) as [g|] eqn:E1; [|destruct (assoc (ge_ext e) r) as [g|] eqn:E2;
      [|discriminate]].
    + apply bind_ok in H as (s' & E & H). injection H as <-.
      destruct (IH s' E HN') as (us & HF & <-).
      exists ([g] :: us). split; [|reflexivity]. constructor; [|exact HF].
      exists g. split; [|now left]. intros ->. apply Hr. now apply (tk_esc _ _ HT _ _ E1).
    + apply bind_ok in H as (s' & E & H). injection H as <-.
      destruct (IH s' E HN') as (us & HF & <-).
      exists ([27; g] :: us). split; [|reflexivity]. constructor; [|exact HF].
      exists g. split; [|now right]. intros ->. apply Hr. now apply (tk_esc _ _ HX _ _ E2).
Qed.

Lemma gsm7_encode_whole l s msg septets : Forall is_byte msg -> ~ In 27 msg ->
  gsm7_encode (gsm7_new_encoder l s) msg = Ok septets -> gsm7_whole septets.
Proof.
  intros HB HN HE.
  pose proof (new_set_ok l s false) as HT. pose proof (new_ext_ok l s false) as HX.
  pose proof (encode_accept_valid _ _ _ _ HB HT HX HE) as HV.
  eapply encode_runes_whole; eauto. now rewrite (utf8_text_27 _ _ HV).
Qed.

(** ** C19 *)
Lemma gloop_total adj msg bs :
  (forall a, 0 <= a -> a + bs < len msg -> exists b, adj msg (a + bs) = Ok b /\ a < b <= a + bs) ->
  forall fuel a, 0 <= a <= len msg -> (Z.to_nat (len msg - a) < fuel)%nat ->
  exists cs, gloop adj fuel msg bs a (a + bs) = Ok cs.
Proof.
  intros HA. induction fuel; intros a Ha Hf; [lia|]. cbn [gloop].
  destruct (a + bs <? len msg) eqn:E.
  - destruct (HA a ltac:(lia) ltac:(lia)) as (b & -> & Hb). cbn [bind].
    rewrite slice_ok by lia. cbn [bind].
    destruct (IHfuel b ltac:(lia) ltac:(lia)) as (cs & ->). cbn [bind]. eauto.
  - rewrite slice_from_ok by lia. cbn [bind]. eauto.
Qed.

Lemma adj_of_total alpha msg bs : largest_unit alpha <= bs -> forall a, 0 <= a -> a + bs < len msg ->
  exists b, adj_of alpha msg (a + bs) = Ok b /\ a < b <= a + bs.
Proof.
  unfold largest_unit, adj_of, AlphaUCS2, Alpha8Bit. intros Hb a Ha Hl.
  destruct (alpha =? 2); [|destruct (alpha =? 1)].
  - unfold adjU. rewrite slice_ok by lia. cbn [bind].
    destruct (idx_ok msg (a + bs - 2) ltac:(lia)) as (h & -> & _). cbn [bind].
    destruct (idx_ok msg (a + bs - 1) ltac:(lia)) as (l & -> & _). cbn [bind].
    eexists; split; [reflexivity|]. destruct (_ && _); lia.
  - unfold adj8. eexists; split; [reflexivity|lia].
  - unfold adj7.
    destruct (idx_ok msg (a + bs - 1) ltac:(lia)) as (h & -> & _). cbn [bind].
    destruct (idx_ok msg (a + bs - 2) ltac:(lia)) as (l & -> & _). cbn [bind].
    destruct (h =? esc); cbn [bind]; (eexists; split; [reflexivity|]).
    + destruct (negb _); lia.
    + lia.
Qed.

Lemma chunk_total alpha msg bs : largest_unit alpha <= bs_of alpha bs ->
  exists cs, chunk msg alpha bs = Ok cs.
Proof.
  intros Hb. destruct (Z.eq_dec (len msg) 0) as [E|NZ].
  - apply len_0_nil in E as ->. unfold chunk, chunkU, chunk8, chunk7.
    destruct (alpha =? AlphaUCS2), (alpha =? Alpha8Bit); cbn; eauto.
  - rewrite chunk_gloop by exact NZ.
    assert (1 <= bs_of alpha bs) as Hb'.
    { unfold largest_unit in Hb. destruct (alpha =? 2), (alpha =? 1); lia. }
    pose proof (len_nonneg msg) as Hn.
    unfold chunk_prologue, godiv. bfalse (bs_of alpha bs =? 0). cbn [bind].
    rewrite Z.quot_div_nonneg by lia.
    replace (1 + len msg / bs_of alpha bs <? 0) with false.
    2:{ symmetry. pose proof (Z.div_pos (len msg) (bs_of alpha bs)). lia. }
    cbn [bind]. apply gloop_total; [|lia|unfold len; lia].
    now apply adj_of_total.
Qed.

Lemma multi_block t wide :
  ud_block_size (set_udh t (Some (ies (UDH t) ++ [new_ie wide 0 0 0]))) = multi_size t wide.
Proof.
  rewrite ud_block_size_eq. unfold multi_size.
  dtpdu t; cbn [set_udh set_UDHf set_PI set_FO FCS DCS UDH FO Direction ies] in *.
  rewrite udhl_app. cbn [udhl]. rewrite new_ie_len, Z.add_0_r.
  unfold tpdu_type in *; cbn [set_udh set_UDHf set_PI set_FO FCS DCS UDH FO Direction] in *.
  unfold fo_mti in *. now rewrite fo_mti_or.
Qed.

Lemma segment_total t msg cfg :
  largest_unit (dcs_alpha (DCS t)) <= multi_size t (sc_wide cfg) \/ len msg <= ud_block_size t ->
  exists segs, segment t msg cfg = Ok segs.
Proof.
  intros H. unfold segment. destruct (len msg =? 0); [eauto|].
  destruct (len msg <=? ud_block_size t) eqn:E; [eauto|].
  destruct H as [H|H]; [|lia].
  rewrite multi_block.
  replace (DCS (set_UDHf _ _)) with (DCS t) by (now dtpdu t).
  destruct (chunk_total (dcs_alpha (DCS t)) msg (multi_size t (sc_wide cfg))) as (cs & ->).
  - unfold multi_size in *. now rewrite bs_of_block.
  - cbn [bind]. eauto.
Qed.

(** Too small a block makes some message fail. *)
Lemma segment_fails t cfg : multi_size t (sc_wide cfg) < largest_unit (dcs_alpha (DCS t)) ->
  exists msg, Forall is_byte msg /\ forall segs, segment t msg cfg <> Ok segs.
Proof.
  intros H.
  set (n := S (S (S (S (Z.to_nat (ud_block_size t)))))).
  set (msg := (if dcs_alpha (DCS t) =? 2 then [216; 0] else [27]) ++ repeat 0 n).
  assert (ud_block_size t + 3 < len msg) as Hlen.
  { unfold msg. rewrite len_app, len_repeat. subst n.
    destruct (_ =? _); [change (len [216; 0]) with 2|change (len [27]) with 1]; lia. }
  exists msg. split.
  { unfold msg. apply Forall_app. split.
    - destruct (_ =? _); repeat (constructor; [unfold is_byte; lia|]); constructor.
    - apply Forall_forall. intros x Hx. apply repeat_spec in Hx as ->. unfold is_byte; lia. }
  intros segs HS.
  pose proof (multi_size_le t (sc_wide cfg)) as Hms.
  destruct (segment_cases _ _ _ _ HS) as [(E & _)|[(_ & L & _)|(NE & L & cs & Hc & _)]].
  - unfold msg in E. destruct (_ =? _) in E; discriminate.
  - lia.
  - destruct (chunk_ok _ _ _ _ (len_ne_nil _ NE) Hc) as (Hb & _ & _).
    rewrite chunk_gloop in Hc by (now apply len_ne_nil).
    apply bind_ok in Hc as (_ & _ & Hc). revert Hc Hb.
    unfold multi_size in *. rewrite bs_of_block.
    set (bs := block_size _ _ _ _) in *. intros Hc Hb.
    unfold largest_unit, adj_of, AlphaUCS2, Alpha8Bit in *.
    destruct (dcs_alpha (DCS t) =? 2) eqn:EU.
    + assert (bs = 2) as EB.
      { assert (bs mod 2 = 0); [|lia]. unfold bs.
        pose proof (bs_of_block (tpdu_type t) (FCS t) (DCS t) (udhl (ies (UDH t)) + concat_len (sc_wide cfg))) as EE.
        unfold bs_of, AlphaUCS2 in EE. rewrite EU in EE. lia. }
      rewrite EB in Hc.
      eapply (gloop_stuck adjU msg 2 0); [| |exact Hc]; [|lia].
      unfold msg. exact (adjU_at [] 216 0 (repeat 0 n)).
    + destruct (dcs_alpha (DCS t) =? 1) eqn:E8; [lia|].
      assert (bs = 1) as EB by lia. rewrite EB in Hc.
      cbn [gloop] in Hc. replace (0 + 1 <? len msg) with true in Hc by lia.
      unfold msg in Hc at 1. discriminate Hc.
Qed.

Lemma multi_size_room t wide : tpdu_type t <= SmsCommand -> 0 <= tpdu_type t ->
  udhl (ies (UDH t)) <= 119 -> 4 <= multi_size t wide.
Proof.
  intros H1 H2 H3. unfold multi_size, block_size.
  pose proof (udhl_nonneg (ies (UDH t))) as H4. set (hl := udhl (ies (UDH t)) + concat_len wide).
  assert (5 <= hl <= 125) as Hh by (unfold hl, concat_len; destruct wide; lia). clearbody hl.
  unfold SmsSubmit, SmsDeliver, SmsCommand, SmsSubmitReport, SmsDeliverReport, SmsStatusReport in *.
  set (bs := if (tpdu_type t =? 3) || (tpdu_type t =? 0) then 140 else _).
  assert (131 <= bs) as Hbs.
  { unfold bs. repeat match goal with |- context [if ?b then _ else _] => destruct b eqn:? end; lia. }
  clearbody bs. cbv zeta.
  destruct (dcs_alpha (DCS t) =? Alpha7Bit).
  - bfalse (hl =? 0). rewrite !Z.quot_div_nonneg by lia. lia.
  - btrue (0 <? hl). destruct (dcs_alpha (DCS t) =? AlphaUCS2); lia.
Qed.

Lemma largest_unit_4 alpha : largest_unit alpha <= 4.
Proof. unfold largest_unit. destruct (alpha =? 2), (alpha =? 1); lia. Qed.
