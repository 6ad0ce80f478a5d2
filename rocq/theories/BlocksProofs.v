(** Lemmas for C81: what Segment returns is what [SpecBlocks] describes. *)
From Verif Require Import GoBase GoLemmas SafeLemmas SpecDcs Gsm7 Dcs UserData Tpdu Segment SegmentProofs SpecSegTpdu SpecTpdu SpecDecode DecodeProofs
  SegmentFitProofs SpecBlocks.

(** ** Where to cut *)
Lemma last_two (l : list Z) : 2 <= len l -> exists p h x, l = p ++ [h; x].
Proof.
  intros H. destruct (exists_last (l := l)) as (q & x & ->); [intros ->; cbn in H; lia|].
  rewrite len_app in H. change (len [x]) with 1 in H. destruct (exists_last (l := q)) as (p & h & ->); [intros ->; cbn in H; lia|].
  exists p, h, x. now rewrite <- app_assoc.
Qed.

Lemma snoc_case (l : list Z) : l = [] \/ exists p x, l = p ++ [x].
Proof. destruct l as [|y l]; [now left|right]. destruct (exists_last (l := y :: l)) as (p & x & E); [discriminate|]. now exists p, x. Qed.

Lemma idx_last (p : list Z) x rest : idx ((p ++ [x]) ++ rest) (len (p ++ [x]) - 1) = Ok x.
Proof. rewrite <- app_assoc. cbn [app]. rewrite len_app. change (len [x]) with 1. replace (len p + 1 - 1) with (len p) by lia. apply idx_app_mid. Qed.
Lemma idx_last2 (p : list Z) h x rest : idx ((p ++ [h; x]) ++ rest) (len (p ++ [h; x]) - 2) = Ok h.
Proof. rewrite <- app_assoc. cbn [app]. rewrite len_app. change (len [h; x]) with 2. replace (len p + 2 - 2) with (len p) by lia. apply idx_app_mid. Qed.
Lemma idx_last1 (p : list Z) h x rest : idx ((p ++ [h; x]) ++ rest) (len (p ++ [h; x]) - 1) = Ok x.
Proof. change [h; x] with ([h] ++ [x]). rewrite app_assoc. apply idx_last. Qed.
Lemma slice_last2 (p : list Z) h x rest : slice ((p ++ [h; x]) ++ rest) (len (p ++ [h; x]) - 2) (len (p ++ [h; x])) = Ok [h; x].
Proof. rewrite <- app_assoc. rewrite len_app. change (len [h; x]) with 2. apply slice_app; [lia|change (len [h; x]) with 2; lia]. Qed.

Lemma adjU_eq p h x rest : adjU ((p ++ [h; x]) ++ rest) (len (p ++ [h; x])) =
  Ok (if (55296 <=? 256 * h + x) && (256 * h + x <? 56320) then len (p ++ [h; x]) - 2 else len (p ++ [h; x])).
Proof.
  unfold adjU. rewrite slice_last2, idx_last2, idx_last1. cbn [bind]. unfold surrHighStart, surrLowStart.
  now replace (h * 256 + x) with (256 * h + x) by lia.
Qed.

Lemma adj_torn alpha before rest : torn alpha before -> half alpha < len before ->
  adj_of alpha (before ++ rest) (len before) = Ok (len before - half alpha).
Proof.
  intros H. unfold adj_of, half, AlphaUCS2, Alpha8Bit. destruct H as [p h l -> HS|p A1 A2 NQ]; intros HL.
  - cbn [Z.eqb Pos.eqb]. rewrite adjU_eq. now btrue ((55296 <=? 256 * h + l) && (256 * h + l <? 56320)).
  - bfalse (alpha =? 2). bfalse (alpha =? 1). rewrite len_app in HL. change (len [27]) with 1 in HL.
    destruct (exists_last (l := p)) as (q & x & ->); [intros ->; cbn in HL; lia|].
    unfold adj7. rewrite idx_last. cbn [bind]. change (27 =? esc) with true. cbv iota.
    rewrite <- (app_assoc q). cbn [app]. rewrite idx_last2. cbn [bind].
    unfold esc. destruct (x =? 27) eqn:E; [|reflexivity]. apply Z.eqb_eq in E. subst x. exfalso. now apply (NQ q).
Qed.

Lemma adj_whole alpha before rest : ~ torn alpha before -> half alpha <= len before ->
  adj_of alpha (before ++ rest) (len before) = Ok (len before).
Proof.
  intros H HL. unfold adj_of, half, AlphaUCS2, Alpha8Bit in *. destruct (alpha =? 2) eqn:E2; [|destruct (alpha =? 1) eqn:E1; [reflexivity|]].
  - destruct (last_two _ HL) as (p & h & l & ->). rewrite adjU_eq.
    destruct ((55296 <=? 256 * h + l) && (256 * h + l <? 56320)) eqn:E; [|reflexivity]. exfalso. apply H. constructor; lia.
  - destruct (exists_last (l := before)) as (p & x & ->); [intros ->; cbn in HL; lia|].
    unfold adj7. rewrite idx_last. cbn [bind]. unfold esc. destruct (x =? 27) eqn:E; [|reflexivity]. apply Z.eqb_eq in E. subst x.
    destruct p as [|y p0] eqn:EP; [exfalso; apply H; change [] with (@nil Z ++ []); apply (torn_escape alpha []); try lia; intros q Q; destruct q; discriminate|].
    rewrite <- EP in *. destruct (exists_last (l := p)) as (q & z & ->); [congruence|]. clear EP.
    rewrite <- (app_assoc q). cbn [app]. rewrite idx_last2. cbn [bind]. destruct (z =? 27) eqn:EZ; [reflexivity|].
    exfalso. apply H. constructor; try lia. intros q' Q. apply app_inj_tail in Q as [_ ->]. discriminate EZ.
Qed.

Lemma torn_dec alpha before : torn alpha before \/ ~ torn alpha before.
Proof.
  destruct (Z.eq_dec alpha 2) as [A|A]; [|destruct (Z.eq_dec alpha 1) as [B|B]].
  - destruct (Z_lt_dec (len before) 2) as [L|L].
    + right. intros H. destruct H as [p h l _ _|p A1 _ _]; [|contradiction]. rewrite len_app in L. change (len [h; l]) with 2 in L. pose proof (len_nonneg p). lia.
    + destruct (last_two before) as (p & h & l & ->); [lia|].
      destruct ((55296 <=? 256 * h + l) && (256 * h + l <? 56320)) eqn:E; [left; constructor; lia|right].
      intros H. inversion H as [p' h' l' _ HS EQ|p' A1 _ _ EQ]; [|contradiction].
      change [h'; l'] with ([h'] ++ [l']) in EQ. change [h; l] with ([h] ++ [l]) in EQ. rewrite !app_assoc in EQ. apply app_inj_tail in EQ as [EQ ->].
      apply app_inj_tail in EQ as [_ ->]. lia.
  - right. intros H. destruct H; lia.
  - destruct (snoc_case before) as [-> |(p & x & ->)]; [right; intros H; inversion H as [p h l X|p X1 X2 X3 EQ]; [lia|destruct p; discriminate]|].
    assert (Y : x <> 27 -> ~ torn alpha (p ++ [x])).
    { intros NE H. inversion H as [p' h l X|p' X1 X2 X3 EQ]; [lia|]. apply app_inj_tail in EQ as [_ EQ]. congruence. }
    destruct (Z.eq_dec x 27) as [-> |NE]; [|right; now apply Y].
    destruct (snoc_case p) as [-> |(q & z & ->)]; [left; constructor; try assumption; intros q Q; destruct q; discriminate|].
    destruct (Z.eq_dec z 27) as [-> |NZ].
    + right. intros H. inversion H as [p' h l X|p' X1 X2 X3 EQ]; [lia|]. apply app_inj_tail in EQ as [EQ _]. now apply (X3 q).
    + left. constructor; try assumption. intros q' Q. apply app_inj_tail in Q as [_ Q]. congruence.
Qed.

Lemma adj_torn_short alpha before rest : torn alpha before -> len before = half alpha ->
  adj_of alpha (before ++ rest) (len before) = Ok 0 \/ adj_of alpha (before ++ rest) (len before) = Panic.
Proof.
  intros H. unfold adj_of, half, AlphaUCS2, Alpha8Bit. destruct H as [p h l -> HS|p A1 A2 NQ]; intros HL.
  - cbn [Z.eqb Pos.eqb] in *. rewrite adjU_eq. btrue ((55296 <=? 256 * h + l) && (256 * h + l <? 56320)). left. f_equal. lia.
  - bfalse (alpha =? 2). bfalse (alpha =? 1). rewrite len_app in HL. change (len [27]) with 1 in HL.
    assert (E : p = []) by (apply len_0_nil; lia). subst p. right. reflexivity.
Qed.

Lemma split_at (l : list Z) n : 0 <= n <= len l -> exists a b, l = a ++ b /\ len a = n.
Proof.
  intros H. exists (firstn (Z.to_nat n) l), (skipn (Z.to_nat n) l). split; [symmetry; apply firstn_skipn|].
  unfold len in *. rewrite firstn_length. lia.
Qed.
Lemma split_end (l : list Z) n : 0 <= n <= len l -> exists a b, l = a ++ b /\ len b = n.
Proof.
  intros H. destruct (split_at l (len l - n)) as (a & b & -> & E); [lia|]. exists a, b. split; [reflexivity|]. rewrite len_app in E. lia.
Qed.

Section Loop.
Variables (alpha bs : Z).
Hypothesis even : alpha = 2 -> bs mod 2 = 0.

Lemma half_le : 0 < bs -> half alpha <= bs.
Proof. intros H. unfold half. destruct (alpha =? 2) eqn:E; [|lia]. apply Z.eqb_eq in E. specialize (even E). lia. Qed.
Lemma half_pos : 0 < half alpha.
Proof. unfold half. destruct (alpha =? 2); lia. Qed.

Lemma gloop_blocks : 0 < bs -> forall fuel done rest cs, rest <> [] ->
  gloop (adj_of alpha) fuel (done ++ rest) bs (len done) (len done + bs) = Ok cs -> blocks alpha bs done rest cs.
Proof.
  intros HB. pose proof (half_le HB) as HH. pose proof half_pos as HP. induction fuel as [|fuel IH]; intros done rest cs NE H; cbn [gloop] in H; [discriminate|].
  pose proof (len_nonneg done) as LD. pose proof (len_nonneg rest) as LR.
  destruct (len done + bs <? len (done ++ rest)) eqn:E.
  - rewrite len_app in E. destruct (split_at rest bs) as (b & rest' & -> & Lb); [lia|]. rewrite len_app in E.
    assert (NR : rest' <> []) by (intros ->; cbn in E; lia).
    assert (EL : len done + bs = len (done ++ b)) by (rewrite len_app; lia). rewrite EL in H at 1. rewrite app_assoc in H.
    destruct (torn_dec alpha (done ++ b)) as [T|T].
    + destruct (Z_lt_dec (half alpha) (len (done ++ b))) as [L|L].
      * rewrite (adj_torn _ _ _ T L) in H. cbn [bind] in H. destruct (split_end b (half alpha)) as (b0 & x & -> & Lx); [lia|].
        rewrite len_app in Lb. replace (len (done ++ b0 ++ x) - half alpha) with (len (done ++ b0)) in H by (rewrite !len_app; lia).
        rewrite <- !app_assoc in H. rewrite (slice_app done b0) in H by (rewrite ?len_app; lia). cbn [bind] in H.
        apply bind_ok in H as (more & HM & H). apply ok_inj in H as <-.
        destruct b0 as [|y b1] eqn:EB.
        { exfalso. rewrite app_nil_r in HM. cbn [app] in *.
          revert HM. apply gloop_stuck; [|rewrite !len_app; change (len (@nil Z)) with 0 in *; lia].
          replace (len done + bs) with (len (done ++ x)) by (rewrite len_app; change (len (@nil Z)) with 0 in Lb; lia).
          rewrite app_assoc. rewrite (adj_torn _ _ _ T); [f_equal; rewrite len_app; lia|]. exact L. }
        rewrite <- EB in *. rewrite <- !app_assoc. apply bl_less; try assumption; try lia; [congruence|].
        apply IH; [intros X; apply app_eq_nil in X as [_ X]; contradiction|]. rewrite <- app_assoc. exact HM.
      * assert (EH : len (done ++ b) = half alpha) by (rewrite len_app in *; lia).
        destruct (adj_torn_short alpha (done ++ b) rest' T EH) as [EA|EA]; rewrite EA in H; cbn [bind] in H; [|discriminate].
        exfalso. apply bind_ok in H as (c & Hc & H). apply bind_ok in H as (more & HM & _).
        assert (ED : len done = 0) by (rewrite len_app in EH; lia). rewrite Z.add_0_l in HM.
        assert (X : 0 + bs = len (done ++ b)) by (rewrite len_app; lia).
        revert HM. rewrite <- (Z.add_0_l bs) at 2. apply gloop_stuck; [rewrite X; exact EA|rewrite X, !len_app; lia].
    + rewrite (adj_whole _ _ _ T) in H by (rewrite len_app; lia). cbn [bind] in H.
      rewrite <- app_assoc in H. rewrite (slice_app done b) in H by (rewrite ?len_app; lia). cbn [bind] in H.
      apply bind_ok in H as (more & HM & H). apply ok_inj in H as <-. rewrite app_assoc in HM.
      apply bl_full; try assumption; [intros ->; cbn in Lb; lia|]. apply IH; assumption.
  - rewrite slice_from_app in H by reflexivity. cbn [bind] in H. apply ok_inj in H as <-. apply bl_last; [exact NE|]. rewrite len_app in E. lia.
Qed.

Lemma blocks_gloop done rest cs : blocks alpha bs done rest cs ->
  forall fuel, (length rest < fuel)%nat -> gloop (adj_of alpha) fuel (done ++ rest) bs (len done) (len done + bs) = Ok cs.
Proof.
  pose proof half_pos as HP.
  induction 1 as [done rest NE L|done b rest cs NB L T NR _ IH|done b x rest cs NB Lx L T NR _ IH]; intros [|fuel] HF; try lia; cbn [gloop].
  - rewrite len_app. bfalse (len done + bs <? len done + len rest). now rewrite slice_from_app.
  - assert (0 < len b) by (destruct b; [congruence|rewrite len_cons; pose proof (len_nonneg b); lia]).
    assert (0 < len rest) by (destruct rest; [congruence|rewrite len_cons; pose proof (len_nonneg rest); lia]).
    pose proof (len_nonneg done). pose proof half_le as HH.
    replace (len done + bs <? len (done ++ b ++ rest)) with true by (symmetry; apply Z.ltb_lt; rewrite !len_app; lia).
    replace (len done + bs) with (len (done ++ b)) by (rewrite len_app; lia). rewrite (app_assoc done b rest) at 1.
    rewrite (adj_whole _ _ _ T) by (rewrite len_app; lia). cbn [bind]. rewrite (slice_app done b) by (rewrite ?len_app; lia). cbn [bind].
    rewrite app_assoc, IH; [reflexivity|]. rewrite app_length in HF. destruct b; [congruence|]. cbn [length] in HF. lia.
  - assert (0 < len b) by (destruct b; [congruence|rewrite len_cons; pose proof (len_nonneg b); lia]).
    assert (0 < len rest) by (destruct rest; [congruence|rewrite len_cons; pose proof (len_nonneg rest); lia]).
    pose proof (len_nonneg done). pose proof half_le as HH.
    replace (len done + bs <? len (done ++ b ++ x ++ rest)) with true by (symmetry; apply Z.ltb_lt; rewrite !len_app; lia).
    replace (len done + bs) with (len (done ++ b ++ x)) by (rewrite !len_app; lia).
    replace (done ++ b ++ x ++ rest) with ((done ++ b ++ x) ++ rest) at 1 by (now rewrite <- !app_assoc).
    rewrite (adj_torn _ _ _ T) by (rewrite !len_app; lia). cbn [bind].
    replace (len (done ++ b ++ x) - half alpha) with (len (done ++ b)) by (rewrite !len_app; lia).
    rewrite (slice_app done b) by (rewrite ?len_app; lia). cbn [bind].
    rewrite (app_assoc done b), IH; [reflexivity|]. rewrite !app_length in *. destruct b; [congruence|]. cbn [length] in HF. lia.
Qed.

Lemma blocks_cap done rest cs : blocks alpha bs done rest cs -> 0 < bs.
Proof.
  destruct 1 as [done rest NE L|done b rest cs NB L|done b x rest cs NB Lx L].
  - destruct rest; [congruence|]. rewrite len_cons in L. pose proof (len_nonneg rest). lia.
  - destruct b; [congruence|]. rewrite len_cons in L. pose proof (len_nonneg b). lia.
  - destruct b; [congruence|]. rewrite len_cons in L. pose proof (len_nonneg b). pose proof (len_nonneg x). lia.
Qed.
End Loop.

Lemma chunk_blocks msg alpha bs cs : msg <> [] -> bs_of alpha bs = bs ->
  (chunk msg alpha bs = Ok cs <-> blocks alpha bs [] msg cs).
Proof.
  intros NE HBS. assert (HE : alpha = 2 -> bs mod 2 = 0).
  { intros ->. unfold bs_of, AlphaUCS2 in HBS. cbn [Z.eqb Pos.eqb] in HBS. lia. }
  pose proof (len_ne_nil _ NE) as HL. pose proof (len_nonneg msg). split.
  - intros H1. pose proof (chunk_ok _ _ _ _ HL H1) as (HB & _). rewrite chunk_gloop in H1 by exact HL. rewrite HBS in *.
    apply bind_ok in H1 as (u & _ & H1). exact (gloop_blocks alpha bs HE HB _ [] msg cs NE H1).
  - intros HB. pose proof (blocks_cap _ _ _ _ _ HB) as HP. rewrite chunk_gloop by exact HL. rewrite HBS.
    unfold chunk_prologue, godiv. bfalse (bs =? 0). cbn [bind]. pose proof (Z.quot_pos (len msg) bs ltac:(lia) HP). bfalse (1 + Z.quot (len msg) bs <? 0). cbn [bind].
    apply (blocks_gloop alpha bs HE [] msg cs HB). lia.
Qed.

(** ** How much a TPDU holds *)
Definition is_direction (mo : bool) (t : tpdu) : Prop := Direction t = (if mo then 1 else 0).

Lemma type_of (mo : bool) t : is_direction mo t -> is_byte (FO t) -> tpdu_type t = 2 * (FO t mod 4) + (if mo then 1 else 0).
Proof.
  intros HD HF. unfold tpdu_type, sms_type, FirstOctet.fo_mti. rewrite HD. change FirstOctet.FoMTIMask with (Z.ones 2). rewrite Z.land_ones by lia. change (2 ^ 2) with 4.
  set (m := FO t mod 4). assert (0 <= m < 4) by (unfold m; lia). assert (D : m = 0 \/ m = 1 \/ m = 2 \/ m = 3) by lia.
  destruct D as [-> |[-> |[-> | ->]]]; destruct mo; reflexivity.
Qed.

Lemma most_octets_type (mo : bool) t : is_direction mo t -> is_byte (FO t) ->
  most_octets mo (FO t) (FCS t) =
  (if (tpdu_type t =? SmsSubmit) || (tpdu_type t =? SmsDeliver) then 140
   else if tpdu_type t =? SmsCommand then 146
   else if tpdu_type t =? SmsSubmitReport then (if FCS t =? 0 then 152 else 151)
   else if tpdu_type t =? SmsDeliverReport then (if FCS t =? 0 then 159 else 158)
   else if tpdu_type t =? SmsStatusReport then 131
   else 0).
Proof.
  intros HD HF. rewrite (type_of mo t HD HF). unfold most_octets.
  set (m := FO t mod 4). assert (0 <= m < 4) by (unfold m; lia). assert (D : m = 0 \/ m = 1 \/ m = 2 \/ m = 3) by lia.
  destruct D as [-> |[-> |[-> | ->]]]; destruct mo; reflexivity.
Qed.

Lemma most_octets_pos mo fo fcs : 0 <= most_octets mo fo fcs.
Proof.
  unfold most_octets. pose proof (Z.mod_pos_bound fo 4 eq_refl). set (m := fo mod 4) in *. assert (D : m = 0 \/ m = 1 \/ m = 2 \/ m = 3) by lia.
  destruct D as [-> |[-> |[-> | ->]]]; destruct mo, (fcs =? 0); lia.
Qed.

Lemma elements_len l : len (elements l) = udhl l.
Proof. induction l as [|i l IH]; [reflexivity|]. cbn [elements udhl]. rewrite !len_cons, len_app, IH. unfold ie_len. lia. Qed.

Lemma room_block (mo : bool) t hl h : is_direction mo t -> is_byte (FO t) -> is_byte (DCS t) -> 0 <= hl -> h = (if hl =? 0 then 0 else 1 + hl) ->
  room_in mo t h = block_size (tpdu_type t) (FCS t) (DCS t) hl.
Proof.
  intros HD HF HB H0 ->. unfold room_in, block_size. rewrite <- (most_octets_type mo t HD HF), (alphabet_in_computed _ HB).
  set (m := most_octets mo (FO t) (FCS t)). assert (0 <= m) by apply most_octets_pos. clearbody m. set (a := alphabet_in t). unfold room, Alpha7Bit, AlphaUCS2. cbv zeta.
  assert (RA : a = 0 \/ a = 1 \/ a = 2).
  { unfold a, alphabet_in. pose proof (EncodeProofs.dcs_alpha_spec _ HB) as E. pose proof (alphabet_in_computed _ HB) as E2. rewrite E in E2. unfold alphabet_in in E2.
    rewrite <- E2. destruct (alphabet_of (DCS t)) as [[|[p|[p|p|]|]|p]|]; lia. }
  rewrite (Z.quot_div_nonneg (m * 8)) by lia. rewrite (Z.quot_div_nonneg ((hl + 1) * 8 + 6)) by lia.
  destruct RA as [-> |[-> | ->]]; cbn [Z.eqb Pos.eqb]; destruct (hl =? 0) eqn:E, (0 <? hl) eqn:E2; try lia.
Qed.

Lemma room_one (mo : bool) t : is_direction mo t -> is_byte (FO t) -> is_byte (DCS t) ->
  room_in mo t (header_size (ies (UDH t))) = ud_block_size t.
Proof.
  intros HD HF HB. rewrite ud_block_size_eq. apply room_block; auto; [apply udhl_nonneg|].
  destruct (ies (UDH t)) as [|i l]; [reflexivity|]. unfold header_size. rewrite elements_len.
  destruct (udhl (i :: l) =? 0) eqn:E; [|reflexivity]. apply Z.eqb_eq, udhl_0 in E. discriminate.
Qed.
Lemma room_many (mo : bool) t (wide : bool) : is_direction mo t -> is_byte (FO t) -> is_byte (DCS t) ->
  room_in mo t (1 + len (elements (ies (UDH t))) + if wide then 6 else 5) = multi_size t wide.
Proof.
  intros HD HF HB. unfold multi_size. pose proof (udhl_nonneg (ies (UDH t))). apply room_block; auto; [unfold concat_len; destruct wide; lia|].
  rewrite elements_len. unfold concat_len. destruct wide; [bfalse (udhl (ies (UDH t)) + 6 =? 0)|bfalse (udhl (ies (UDH t)) + 5 =? 0)]; lia.
Qed.

Lemma blocks_some alpha cap done rest cs : blocks alpha cap done rest cs -> rest <> [].
Proof. destruct 1 as [d r X|d b r cs' X|d b x r cs' X]; [exact X| |]; intros E; apply app_eq_nil in E as [E _]; contradiction. Qed.

(** ** The TPDUs *)
Lemma inherits_fun t cfg m k s s' : inherits t cfg m k s -> inherits t cfg m k s' -> UD s = UD s' -> s = s'.
Proof.
  intros H H' HU. unfold inherits in *.
  destruct s as [a1 a2 a3 a4 a5 a6 a7 a8 a9 a10 a11 a12 a13 a14 a15 a16 a17 a18], s' as [b1 b2 b3 b4 b5 b6 b7 b8 b9 b10 b11 b12 b13 b14 b15 b16 b17 b18].
  cbn [Direction FO OA FCS MR CT MN DA RA PI SCTS DT ST PID DCS VP UDH UD] in *.
  destruct H as (-> & -> & -> & -> & -> & -> & -> & -> & -> & -> & -> & -> & -> & -> & H).
  destruct H' as (-> & -> & -> & -> & -> & -> & -> & -> & -> & -> & -> & -> & -> & -> & H'). subst.
  destruct m as [[ref n]|].
  - destruct H as (-> & -> & i & -> & H), H' as (-> & -> & i' & -> & H').
    assert (i = i') as ->; [|reflexivity]. destruct i as [x y], i' as [x' y']. cbn [ie_id ie_data] in *.
    destruct (sc_wide cfg); destruct H as [-> ->], H' as [-> ->]; reflexivity.
  - destruct H as (-> & -> & ->), H' as (-> & -> & ->). reflexivity.
Qed.

Lemma nth_map_UD segs k s : nth_error segs k = Some s -> nth_error (map UD segs) k = Some (UD s).
Proof. apply map_nth_error. Qed.
Lemma parts_fun t cfg m segs segs' : map UD segs = map UD segs' ->
  (forall k s, nth_error segs k = Some s -> inherits t cfg m k s) ->
  (forall k s, nth_error segs' k = Some s -> inherits t cfg m k s) -> segs = segs'.
Proof.
  intros E H H'. enough (forall n, nth_error segs n = nth_error segs' n) as X.
  { revert segs' E H H' X. clear. induction segs as [|s segs IH]; intros [|s' segs'] E H H' X; try discriminate; [reflexivity|].
    pose proof (X 0%nat) as X0. cbn in X0. injection X0 as ->. f_equal.
    cbn [map] in E. assert (E' : map UD segs = map UD segs') by congruence. clear - X.
    revert segs' X. induction segs as [|a segs IH]; intros [|b segs'] X; try reflexivity.
    - specialize (X 1%nat). discriminate.
    - specialize (X 1%nat). discriminate.
    - pose proof (X 1%nat) as X1. cbn in X1. injection X1 as ->. f_equal. apply IH. intros [|n]; [reflexivity|]. exact (X (S (S n))). }
  intros n. destruct (nth_error segs n) as [s|] eqn:EN, (nth_error segs' n) as [s'|] eqn:EN'.
  - f_equal. apply (inherits_fun t cfg m n); [now apply H|now apply H'|].
    apply nth_map_UD in EN. apply nth_map_UD in EN'. congruence.
  - exfalso. apply nth_map_UD in EN. apply nth_error_None in EN'. rewrite E in EN.
    assert (n < length (map UD segs'))%nat by (apply nth_error_Some; congruence). rewrite map_length in *. lia.
  - exfalso. apply nth_map_UD in EN'. apply nth_error_None in EN. rewrite <- E in EN'.
    assert (n < length (map UD segs))%nat by (apply nth_error_Some; congruence). rewrite map_length in *. lia.
  - reflexivity.
Qed.

Lemma segment_one t msg cfg : msg <> [] -> len msg <= ud_block_size t ->
  segment t msg cfg = Ok [with_mr (sc_mr cfg) 0 (set_UDf t msg)].
Proof. intros NE L. unfold segment. pose proof (len_ne_nil _ NE). bfalse (len msg =? 0). btrue (len msg <=? ud_block_size t). reflexivity. Qed.

Lemma segment_many t msg cfg cs : msg <> [] -> ud_block_size t < len msg -> chunk msg (dcs_alpha (DCS t)) (multi_size t (sc_wide cfg)) = Ok cs ->
  segment t msg cfg = Ok (make_segments (multi_template t (sc_wide cfg)) cfg (seg_ref cfg) (len cs) 0 cs).
Proof.
  intros NE L HC. unfold segment. pose proof (len_ne_nil _ NE). bfalse (len msg =? 0). bfalse (len msg <=? ud_block_size t). cbv zeta.
  replace (DCS (set_UDHf _ _)) with (DCS t) by (now dtpdu t).
  assert (ES : ud_block_size (set_udh t (Some (ies (UDH t) ++ [new_ie (sc_wide cfg) 0 0 0]))) = multi_size t (sc_wide cfg)).
  { rewrite ud_block_size_eq. unfold multi_size.
    dtpdu t; cbn [set_udh set_UDHf set_PI set_FO FCS DCS UDH FO Direction tpdu_type ies].
    rewrite udhl_app. cbn [udhl]. rewrite new_ie_len, Z.add_0_r.
    unfold tpdu_type; cbn [set_udh set_UDHf set_PI set_FO FCS DCS UDH FO Direction].
    unfold FirstOctet.fo_mti. now rewrite fo_mti_or. }
  rewrite ES, HC. reflexivity.
Qed.

Lemma segmented_iff (mo : bool) t msg cfg segs : is_direction mo t -> is_byte (FO t) -> is_byte (DCS t) ->
  (segment t msg cfg = Ok segs <-> segmented mo t cfg msg segs).
Proof.
  intros HD HF HB. pose proof (room_one mo t HD HF HB) as R1. pose proof (room_many mo t (sc_wide cfg) HD HF HB) as R2.
  pose proof (alphabet_in_computed _ HB) as EA.
  assert (BS : bs_of (dcs_alpha (DCS t)) (multi_size t (sc_wide cfg)) = multi_size t (sc_wide cfg)) by apply bs_of_block.
  split.
  - intros H. pose proof (segment_inherits _ _ _ _ H) as HI.
    destruct (segment_cases _ _ _ _ H) as [(-> & ->)|[(NE & L & E)|(NE & L & cs & Hc & E)]].
    + constructor.
    + rewrite E in *. apply sg_one; [exact NE|lia| |now rewrite with_mr_UD, set_UDf_UD].
      specialize (HI 0%nat _ eq_refl). revert HI. btrue (len msg <=? ud_block_size t). auto.
    + assert (EU : map UD segs = cs) by (rewrite E; apply make_segments_UD).
      apply (sg_many _ _ _ _ cs _ (match sc_cr cfg with Some f => f 0%nat | None => 1 end)); [lia| |reflexivity|exact EU|].
      * rewrite R2, <- EA. apply chunk_blocks; assumption.
      * intros k s Hk. specialize (HI k s Hk). revert HI. bfalse (len msg <=? ud_block_size t).
        replace (len segs) with (len cs) by (rewrite <- EU; unfold len; now rewrite map_length). auto.
  - intros H. destruct H as [|msg s NE L HI HU|msg cs segs ref L HBl -> HU HI].
    + reflexivity.
    + rewrite R1 in L. rewrite (segment_one _ _ _ NE L). do 2 f_equal.
      pose proof (segment_inherits _ _ _ _ (segment_one t msg cfg NE L) 0%nat _ eq_refl) as HI'. revert HI'. btrue (len msg <=? ud_block_size t). intros HI'.
      apply (inherits_fun _ _ _ _ _ _ HI' HI). now rewrite with_mr_UD, set_UDf_UD.
    + pose proof (blocks_some _ _ _ _ _ HBl) as NE.
      rewrite R1 in L. rewrite R2, <- EA in HBl. apply chunk_blocks in HBl; [|exact NE|exact BS].
      pose proof (segment_many _ _ _ _ NE L HBl) as HS. rewrite HS. f_equal.
      pose proof (segment_inherits _ _ _ _ HS) as HI'. revert HI'. bfalse (len msg <=? ud_block_size t). intros HI'.
      apply (parts_fun t cfg (Some (match sc_cr cfg with Some f => f 0%nat | None => 1 end, len cs))).
      * rewrite make_segments_UD. now symmetry.
      * intros k s Hk. specialize (HI' k s Hk). revert HI'. replace (len (make_segments _ _ _ _ _ _)) with (len cs) by (unfold len; now rewrite make_segments_length). auto.
      * exact HI.
Qed.
