(** Lemmas for C78: frames of PDU mode. *)
From Verif Require Import GoBase GoLemmas SafeLemmas Utf UtfProofs Semioctet DigitsProofs TpduError Address PduMode PduModeProofs
  SpecText SpecBits SpecDigits SpecTpdu SpecWire WireProofs SpecPdu MarshalProofs.

(** ** Semi-octets *)
Lemma digits_app p q : digits_of (p ++ q) = digits_of p ++ digits_of q.
Proof. unfold digits_of, nibbles. now rewrite flat_map_app, filter_app, map_app. Qed.
Definition octet_digits (o : Z) : bytes := digits_of [o].
Lemma loop_step dlen o src out ri : is_byte o -> len out < dlen ->
  semi_decode_loop dlen (o :: src) out ri =
    if dlen <? len (out ++ digits_of [o]) then Err SemiMissingFill
    else semi_decode_loop dlen src (out ++ digits_of [o]) (ri + 1).
Proof.
  intros Hb L. cbn [semi_decode_loop]. replace (negb (len out <? dlen)) with false by lia.
  destruct (nibble_div o Hb) as (E1 & E2 & R1 & R2). rewrite E1, E2.
  destruct (digit_any _ R1) as (D1 & F1), (digit_any _ R2) as (D2 & F2). rewrite D1, D2. cbn [bind].
  rewrite digits_cons. change (digits_of []) with (@nil Z). rewrite app_nil_r.
  assert (S1 : forall d : Z, len [d] = 1) by reflexivity. assert (S0 : len (@nil Z) = 0) by reflexivity.
  destruct (no_filler (o mod 16)).
  - rewrite F1 by reflexivity. cbn [negb]. set (d1 := nth (Z.to_nat (o mod 16)) semi_alphabet 0) in *.
    destruct (no_filler (o / 16)).
    + rewrite F2 by reflexivity. cbn [negb]. set (d2 := nth (Z.to_nat (o / 16)) semi_alphabet 0) in *.
      rewrite andb_true_r, !len_app, !S1. rewrite <- app_assoc. cbn [app].
      destruct (len out + 1 =? dlen) eqn:Q; [now replace (dlen <? len out + (1 + 1)) with true by lia|].
      replace (len out + 1 <? dlen) with true by lia. now replace (dlen <? len out + (1 + 1)) with false by lia.
    + change (fillF =? fillF) with true. cbn [negb]. rewrite andb_false_r, app_nil_r, len_app, S1.
      now replace (dlen <? len out + 1) with false by lia.
  - change (fillF =? fillF) with true. cbn [negb app].
    destruct (no_filler (o / 16)).
    + rewrite F2 by reflexivity. cbn [negb]. set (d2 := nth (Z.to_nat (o / 16)) semi_alphabet 0) in *.
      rewrite andb_true_r, !len_app, !S1. replace (len out =? dlen) with false by lia. replace (len out <? dlen) with true by lia.
      now replace (dlen <? len out + 1) with false by lia.
    + change (fillF =? fillF) with true. cbn [negb]. rewrite andb_false_r, app_nil_r.
      now replace (dlen <? len out) with false by lia.
Qed.
Lemma loop_full dlen src out ri : dlen <= len out -> semi_decode_loop dlen src out ri = Ok (out, ri).
Proof. intros L. destruct src; cbn [semi_decode_loop]; now replace (negb (len out <? dlen)) with true by lia. Qed.
(** Of octets before room runs out, all are read. *)
Lemma loop_reads dlen p : Forall is_byte p -> forall rest out ri, (forall p' o p2, p = p' ++ o :: p2 -> len out + len (digits_of p') < dlen) ->
  len out + len (digits_of p) <= dlen ->
  semi_decode_loop dlen (p ++ rest) out ri = semi_decode_loop dlen rest (out ++ digits_of p) (ri + len p).
Proof.
  induction 1 as [|o p Hb Hp IH]; intros rest out ri Hlt Hle.
  - change (digits_of []) with (@nil Z). change (len (@nil Z)) with 0. now rewrite app_nil_r, Z.add_0_r.
  - change (o :: p) with ([o] ++ p) in *. rewrite digits_app, len_app in Hle. pose proof (len_nonneg (digits_of p)).
    assert (L : len out < dlen). { specialize (Hlt [] o p eq_refl). change (digits_of []) with (@nil Z) in Hlt. change (len (@nil Z)) with 0 in Hlt. lia. }
    rewrite <- app_assoc. cbn [app]. rewrite loop_step by assumption. rewrite len_app. replace (dlen <? len out + len (digits_of [o])) with false by lia.
    rewrite IH.
    + change (o :: p) with ([o] ++ p). rewrite digits_app, app_assoc, len_app. f_equal. change (len [o]) with 1. lia.
    + intros p' o' p2 E. rewrite len_app. specialize (Hlt (o :: p') o' p2 ltac:(cbn [app]; now rewrite E)).
      change (o :: p') with ([o] ++ p') in Hlt. rewrite digits_app, len_app in Hlt. lia.
    + rewrite len_app. lia.
Qed.
Lemma digits_prefix p q : len (digits_of p) <= len (digits_of (p ++ q)).
Proof. rewrite digits_app, len_app. pose proof (len_nonneg (digits_of q)). lia. Qed.
Lemma semi_read_complete room src r : Forall is_byte src -> semi_read room src r -> semi_decode room src = r.
Proof.
  intros HB [p rest E L R M|p o rest E L]; subst src; unfold semi_decode.
  - apply Forall_app in HB as (Hp & _).
    assert (G : forall p' o p2, p = p' ++ o :: p2 -> len (@nil Z) + len (digits_of p') < room).
    { intros p' o p2 E. destruct (exists_last (l := o :: p2) ltac:(discriminate)) as (q & z & Ez). rewrite Ez, app_assoc in E.
      specialize (M _ _ E). pose proof (digits_prefix p' q). change (len (@nil Z)) with 0. lia. }
    rewrite loop_reads by (try assumption; change (len (@nil Z)) with 0; lia). cbn [app].
    destruct (Z.eq_dec (len (digits_of p)) room) as [X|X]; [rewrite loop_full by lia; reflexivity|].
    rewrite (R ltac:(lia)). cbn [semi_decode_loop]. now destruct (negb _).
  - apply Forall_app in HB as (Hp & Ho). apply Forall_cons_iff in Ho as (Ho & _).
    rewrite loop_reads; try assumption.
    + cbn [app]. rewrite loop_step by (try assumption; lia). rewrite <- digits_app. now replace (room <? len (digits_of (p ++ [o]))) with true by lia.
    + intros p' o' p2 ->. pose proof (digits_prefix p' (o' :: p2)). change (len (@nil Z)) with 0. lia.
    + change (len (@nil Z)) with 0. lia.
Qed.
Lemma semi_read_exists room src : 0 <= room -> exists r, semi_read room src r.
Proof.
  intros R. induction src as [|o src IH] using rev_ind.
  - exists (Ok (digits_of [], len (@nil Z))). apply sr_digits with (rest := []); try easy. intros p' o E. now destruct p'.
  - destruct IH as (r & [p rest E L RE M|p o' rest E L]).
    + destruct (Z.eq_dec (len (digits_of p)) room) as [X|X].
      * exists (Ok (digits_of p, len p)). apply sr_digits with (rest := rest ++ [o]); [now rewrite E, app_assoc|lia|lia|exact M].
      * rewrite (RE ltac:(lia)), app_nil_r in E. subst src. destruct (Z_lt_le_dec room (len (digits_of (p ++ [o])))) as [Y|Y].
        -- exists (Err SemiMissingFill). apply sr_fill with p o []; [reflexivity|lia].
        -- exists (Ok (digits_of (p ++ [o]), len (p ++ [o]))). apply sr_digits with (rest := []); [now rewrite app_nil_r|lia|easy|].
           intros p' o' E. apply app_inj_tail in E as (<- & _). lia.
    + exists (Err SemiMissingFill). apply sr_fill with p o' (rest ++ [o]); [rewrite E; now rewrite <- app_assoc|exact L].
Qed.
Lemma semi_read_iff room src r : 0 <= room -> Forall is_byte src -> (semi_decode room src = r <-> semi_read room src r).
Proof.
  intros R HB. split; [|now apply semi_read_complete]. intros <-. destruct (semi_read_exists room src R) as (r & H).
  now rewrite (semi_read_complete _ _ _ HB H).
Qed.

(** ** Hexadecimal *)
Lemma hex_char_iff c v : from_hex_char c = Some v <-> hex_char v c.
Proof.
  unfold from_hex_char, in_range, hex_char. split.
  - destruct ((48 <=? c) && (c <=? 57)) eqn:A; [intros H; assert (v = c - 48) by congruence; lia|].
    destruct ((97 <=? c) && (c <=? 102)) eqn:B; [intros H; assert (v = c - 87) by congruence; lia|].
    destruct ((65 <=? c) && (c <=? 70)) eqn:C; [intros H; assert (v = c - 55) by congruence; lia|discriminate].
  - intros H. destruct ((48 <=? c) && (c <=? 57)) eqn:A; [f_equal; lia|].
    destruct ((97 <=? c) && (c <=? 102)) eqn:B; [f_equal; lia|].
    destruct ((65 <=? c) && (c <=? 70)) eqn:C; [f_equal; lia|exfalso; lia].
Qed.
Lemma no_hex_iff c : from_hex_char c = None <-> no_hex c.
Proof.
  unfold no_hex. split.
  - intros N v H. apply hex_char_iff in H. congruence.
  - intros N. destruct (from_hex_char c) as [v|] eqn:E; [|reflexivity]. apply hex_char_iff in E. now apply N in E.
Qed.
Lemma is_hex c : (exists v, from_hex_char c = Some v) <-> ~ no_hex c.
Proof.
  rewrite <- no_hex_iff. destruct (from_hex_char c) as [v|]; split.
  - intros _. discriminate.
  - eauto.
  - intros (v & E). discriminate.
  - intros H. now destruct H.
Qed.
Lemma pairs_ind (P : bytes -> Prop) : P [] -> (forall c, P [c]) -> (forall c d s, P s -> P (c :: d :: s)) -> forall s, P s.
Proof.
  intros H0 H1 H2 s. assert (P s /\ forall c, P (c :: s)) as (A & _); [|exact A].
  induction s as [|c s (IH1 & IH2)]; split; auto.
Qed.
Lemma hex_text_iff s : forall b, hex_decode s = Ok b <-> hex_text b s.
Proof.
  induction s as [|c|c d s IH] using pairs_ind; intros b; cbn [hex_decode].
  - split; [intros H; apply ok_inj in H as <-; constructor|]. now inversion 1.
  - split; [destruct (from_hex_char c); discriminate|inversion 1].
  - split.
    + destruct (from_hex_char c) as [x|] eqn:E1; [|discriminate]. destruct (from_hex_char d) as [y|] eqn:E2; [|discriminate].
      intros H. apply bind_ok in H as (r & H1 & H2). apply ok_inj in H2 as <-. apply IH in H1. replace (x * 16 + y) with (16 * x + y) by lia.
      constructor; [now apply hex_char_iff|now apply hex_char_iff|exact H1].
    + intros H. inversion H as [|x y cx cy o s' HX HY HT]; subst. apply hex_char_iff in HX, HY. apply IH in HT.
      rewrite HX, HY, HT. cbn [bind]. f_equal. f_equal. lia.
Qed.
Lemma hex_refused_complete s : forall e, hex_refused s e -> hex_decode s = Err e.
Proof.
  induction s as [|c|c d s IH] using pairs_ind; intros e [ds x rest E F N|F O]; cbn [hex_decode].
  - now destruct ds.
  - cbn in O. lia.
  - destruct ds as [|y [|z ds]]; cbn [app] in E; try discriminate. injection E; intros; subst. apply no_hex_iff in N. now rewrite N.
  - apply Forall_cons_iff in F as (F & _). apply is_hex in F as (v & ->). reflexivity.
  - destruct ds as [|y [|z ds]]; cbn [app] in E.
    + injection E; intros; subst. apply no_hex_iff in N. now rewrite N.
    + injection E; intros; subst. apply Forall_cons_iff in F as (F & _). apply is_hex in F as (v & ->). apply no_hex_iff in N. now rewrite N.
    + injection E; intros E' -> ->. apply Forall_cons_iff in F as (F1 & F). apply Forall_cons_iff in F as (F2 & F).
      apply is_hex in F1 as (v1 & ->), F2 as (v2 & ->). rewrite (IH (HexInvalidByte x)); [reflexivity|]. now apply (hr_char s ds x rest).
  - apply Forall_cons_iff in F as (F1 & F). apply Forall_cons_iff in F as (F2 & F).
    apply is_hex in F1 as (v1 & ->), F2 as (v2 & ->). rewrite !len_cons in O. rewrite (IH HexLength); [reflexivity|]. apply hr_odd; [exact F|lia].
Qed.
Lemma hex_refused_exists s e : hex_decode s = Err e -> hex_refused s e.
Proof.
  intros H. assert (G : Forall (fun d => ~ no_hex d) s \/ exists ds c rest, s = ds ++ c :: rest /\ Forall (fun d => ~ no_hex d) ds /\ no_hex c).
  { clear H. induction s as [|c s IH]; [now left|]. destruct (from_hex_char c) as [v|] eqn:E.
    - assert (A : ~ no_hex c) by (apply is_hex; eauto). destruct IH as [IH|(ds & c' & rest & -> & F & N)].
      + left. now constructor.
      + right. exists (c :: ds), c', rest. repeat split; [now constructor|exact N].
    - right. exists [], c, s. repeat split; [constructor|now apply no_hex_iff]. }
  assert (U : forall e', hex_refused s e' -> hex_refused s e).
  { intros e' R. pose proof (hex_refused_complete s e' R) as X. rewrite H in X. assert (e = e') as -> by congruence. exact R. }
  destruct G as [F|(ds & c & rest & E & F & N)]; [|apply (U (HexInvalidByte c)); now apply hr_char with ds rest].
  destruct (Z.eq_dec (len s mod 2) 1) as [O|O]; [apply (U HexLength); now apply hr_odd|]. exfalso.
  assert (X : exists b, hex_decode s = Ok b); [|destruct X; congruence]. clear H U. revert F O.
  induction s as [|c|c d s IH] using pairs_ind; intros F O; cbn [hex_decode].
  - eauto.
  - cbn in O. lia.
  - apply Forall_cons_iff in F as (F1 & F). apply Forall_cons_iff in F as (F2 & F).
    apply is_hex in F1 as (v1 & ->), F2 as (v2 & ->). rewrite !len_cons in O. destruct (IH F ltac:(lia)) as (b & ->). cbn [bind]. eauto.
Qed.
Lemma hex_encode_is b : Forall is_byte b -> hex_text b (hex_encode b) /\ Forall lower (hex_encode b).
Proof.
  intros HB. split; [apply hex_text_iff, hex_roundtrip, HB|]. apply Forall_flat_map. rewrite Forall_forall in *. intros o I. specialize (HB o I).
  unfold is_byte in HB. unfold lower, hex_digit. repeat constructor; destruct (_ <? 10) eqn:X; lia.
Qed.
Lemma hex_text_lower b s : hex_text b s -> Forall lower s -> s = hex_encode b.
Proof.
  induction 1 as [|x y cx cy o s HX HY HT IH]; intros L; [reflexivity|]. apply Forall_cons_iff in L as (L1 & L). apply Forall_cons_iff in L as (L2 & L).
  change (hex_encode (16 * x + y :: o)) with (hex_digit ((16 * x + y) / 16) :: hex_digit ((16 * x + y) mod 16) :: hex_encode o).
  rewrite <- (IH L). unfold hex_char, lower in *. replace ((16 * x + y) / 16) with x by lia. replace ((16 * x + y) mod 16) with y by lia.
  f_equal; [|f_equal]; unfold hex_digit; destruct (_ <? 10) eqn:X; lia.
Qed.
Lemma hex_text_bytes b s : hex_text b s -> Forall is_byte b.
Proof. induction 1 as [|x y cx cy o s HX HY HT IH]; constructor; [|exact IH]. unfold hex_char, is_byte in *. lia. Qed.

(** ** Frames *)
Lemma digits_double p : Forall is_byte p -> semi_decode (len p * 2) p = Ok (digits_of p, len p).
Proof.
  intros HB. apply semi_read_complete; [exact HB|]. pose proof (digits_len p). apply sr_digits with (rest := []); [now rewrite app_nil_r|lia|easy|].
  intros p' o ->. pose proof (digits_len p'). rewrite len_app. change (len [o]) with 1. lia.
Qed.
Lemma smsc_read n toa p rest : Forall is_byte p -> 0 < n -> len p = n - 1 ->
  pdu_unmarshal ((n :: toa :: p) ++ rest) = Ok {| p_smsc := {| a_toa := toa; a_addr := digits_of p |}; p_tpdu := rest |}.
Proof.
  intros HB N L. unfold pdu_unmarshal, pdu_unmarshal_into, smsc_unmarshal. pose proof (len_nonneg p). pose proof (len_nonneg rest).
  cbn [app]. rewrite !len_cons, len_app. replace (_ <? 1) with false by lia. change (idx (n :: toa :: p ++ rest) 0) with (Ok n). cbn [bind].
  replace (n =? 0) with false by lia. replace (_ <? 2) with false by lia. change (idx (n :: toa :: p ++ rest) 1) with (Ok toa). cbn [bind].
  replace (_ <? 2 + (n - 1)) with false by lia.
  rewrite (slice_app [n; toa] p rest) by (change (len [n; toa]) with 2; lia). cbn [bind]. replace ((n - 1) * 2) with (len p * 2) by lia.
  rewrite digits_double by exact HB. cbn [on_err bind].
  change (n :: toa :: p ++ rest) with ((n :: toa :: p) ++ rest). rewrite slice_from_app by (rewrite !len_cons; lia). reflexivity.
Qed.
Lemma smsc_none rest : pdu_unmarshal (0 :: rest) = Ok {| p_smsc := {| a_toa := 0; a_addr := [] |}; p_tpdu := rest |}.
Proof.
  unfold pdu_unmarshal, pdu_unmarshal_into, smsc_unmarshal.
  rewrite len_cons. pose proof (len_nonneg rest). replace (1 + len rest <? 1) with false by lia.
  rewrite idx_0. cbn [bind]. change (0 =? 0) with true. cbv iota. cbn [bind].
  rewrite (slice_from_app [0] rest) by reflexivity. reflexivity.
Qed.
Lemma frame_complete p src : Forall is_byte src -> frame p src -> pdu_unmarshal src = Ok p.
Proof.
  intros HB (q & Q & ->). destruct p as [a tp]. cbn [p_smsc p_tpdu] in *. inversion Q as [E|n toa dp N L]; subst.
  - apply smsc_none.
  - apply Forall_app in HB as (HB & _). apply Forall_cons_iff in HB as (_ & HB). apply Forall_cons_iff in HB as (_ & HB). now apply smsc_read.
Qed.
Lemma frame_refused_complete src e : frame_refused src e -> pdu_unmarshal src = Err e.
Proof.
  intros [|n N|n toa p L]; unfold pdu_unmarshal, pdu_unmarshal_into, smsc_unmarshal.
  - reflexivity.
  - change (len [n] <? 1) with false. change (idx [n] 0) with (Ok n). cbn [bind]. replace (n =? 0) with false by lia. reflexivity.
  - rewrite !len_cons. pose proof (len_nonneg p). replace (_ <? 1) with false by lia. change (idx (n :: toa :: p) 0) with (Ok n). cbn [bind].
    replace (n =? 0) with false by lia. replace (_ <? 2) with false by lia. change (idx (n :: toa :: p) 1) with (Ok toa). cbn [bind].
    replace (_ <? 2 + (n - 1)) with true by lia. reflexivity.
Qed.
Lemma frame_or_refused src : Forall is_byte src -> (exists p, frame p src) \/ exists e, frame_refused src e.
Proof.
  intros HB. destruct src as [|n [|toa r]].
  - right. eexists. constructor.
  - destruct (Z.eq_dec n 0) as [->|N]; [|right; eexists; now constructor]. left. exists zero_pdu. exists [0]. split; [constructor|reflexivity].
  - apply Forall_cons_iff in HB as (Hn & HB). unfold is_byte in Hn. destruct (Z.eq_dec n 0) as [->|N].
    { left. exists {| p_smsc := {| a_toa := 0; a_addr := [] |}; p_tpdu := toa :: r |}. exists [0]. split; [constructor|reflexivity]. }
    destruct (Z_lt_le_dec (len r) (n - 1)) as [L|L]; [right; eexists; now constructor|]. left.
    exists {| p_smsc := {| a_toa := toa; a_addr := digits_of (firstn (Z.to_nat (n - 1)) r) |}; p_tpdu := skipn (Z.to_nat (n - 1)) r |}.
    exists (n :: toa :: firstn (Z.to_nat (n - 1)) r). split.
    + constructor; [lia|]. unfold len in *. rewrite firstn_length. lia.
    + cbn [p_tpdu app]. now rewrite firstn_skipn.
Qed.
Lemma frame_iff src p : Forall is_byte src -> (pdu_unmarshal src = Ok p <-> frame p src).
Proof.
  intros HB. split; [|now apply frame_complete]. intros H. destruct (frame_or_refused src HB) as [(p' & F)|(e & F)].
  - pose proof (frame_complete p' src HB F) as E. rewrite H in E. apply ok_inj in E as ->. exact F.
  - apply frame_refused_complete in F. congruence.
Qed.
Lemma frame_refused_iff src e : Forall is_byte src -> (pdu_unmarshal src = Err e <-> frame_refused src e).
Proof.
  intros HB. split; [|now apply frame_refused_complete]. intros H. destruct (frame_or_refused src HB) as [(p' & F)|(e' & F)].
  - pose proof (frame_complete p' src HB F) as E. congruence.
  - pose proof (frame_refused_complete _ _ F) as E. rewrite H in E. assert (e = e') as -> by congruence. exact F.
Qed.
Lemma semi_packed_digits ds q : semi_packed ds q -> Forall is_semi_digit ds.
Proof.
  induction 1 as [|c H|c1 c2 ds p H1 H2 P IH].
  - constructor.
  - apply Forall_cons; [apply nth_In; exact H|constructor].
  - apply Forall_cons; [apply nth_In; exact H1|]. apply Forall_cons; [apply nth_In; exact H2|exact IH].
Qed.
Lemma written_complete p r : frame_written p r -> pdu_marshal p = r.
Proof.
  destruct p as [[toa ad] tp]. intros [E|q N P|ds d rest E F D]; cbn [p_smsc p_tpdu a_addr a_toa] in *; unfold pdu_marshal, smsc_marshal; cbn [p_smsc p_tpdu a_addr a_toa].
  - subst ad. reflexivity.
  - assert (Forall is_semi_digit ad) as FA by (eapply semi_packed_digits; exact P).
    destruct (semi_roundtrip ad FA) as (q' & E & L & _ & P' & _). rewrite E. cbn [on_err bind].
    rewrite (semi_packed_fun _ _ _ P P'). assert (0 < len ad) by (destruct ad as [|x ad]; [now destruct N|rewrite len_cons; pose proof (len_nonneg ad); lia]).
    replace (len q' =? 0) with false by lia. unfold to_byte. reflexivity.
  - subst ad. rewrite semi_encode_err by assumption. reflexivity.
Qed.
Lemma written_exists p : exists r, frame_written p r.
Proof.
  destruct (digits_split (a_addr (p_smsc p))) as [F|(ds & d & rest & E & F & N)]; [|eexists; eapply fw_digit; eassumption].
  destruct (a_addr (p_smsc p)) as [|d ds] eqn:E; [eexists; now apply fw_none|].
  destruct (semi_roundtrip _ F) as (q & _ & _ & _ & P & _). eexists. apply (fw_number p q); rewrite E; [discriminate|exact P].
Qed.
Lemma written_iff p r : pdu_marshal p = r <-> frame_written p r.
Proof.
  split; [|apply written_complete]. intros <-. destruct (written_exists p) as (r & H). now rewrite (written_complete _ _ H).
Qed.

(** ** Read, written and read again *)
Lemma digits_semi p : Forall is_byte p -> Forall is_semi_digit (digits_of p).
Proof.
  intros HB. unfold digits_of. apply Forall_map, Forall_forall. intros c I. apply filter_In in I as (I & N).
  unfold nibbles in I. apply in_flat_map in I as (o & I & J). rewrite Forall_forall in HB. specialize (HB o I). unfold is_byte in HB.
  unfold no_filler in N. apply nth_In. cbn. cbn in J. lia.
Qed.
Lemma frame_again src p : Forall is_byte src -> pdu_unmarshal src = Ok p ->
  exists b, pdu_marshal p = Ok b /\ Forall is_byte b /\
    (pdu_unmarshal b = Ok p <-> a_addr (p_smsc p) <> [] \/ a_toa (p_smsc p) = 0).
Proof.
  intros HB H. apply (frame_iff _ _ HB) in H as (q & Q & ->). apply Forall_app in HB as (HQ & HT). destruct p as [a tp]. cbn [p_smsc p_tpdu] in *.
  inversion Q as [E|n toa dp N L]; subst; cbn [a_toa a_addr].
  - exists (0 :: tp). split; [reflexivity|]. split; [constructor; [unfold is_byte; lia|exact HT]|]. rewrite smsc_none. split; auto.
  - apply Forall_cons_iff in HQ as (Hn & HQ). apply Forall_cons_iff in HQ as (Ht & HQ). unfold is_byte in Hn.
    destruct (digits_of dp) as [|d ds] eqn:E.
    + exists (0 :: tp). split; [reflexivity|]. split; [constructor; [unfold is_byte; lia|exact HT]|]. rewrite smsc_none. split.
      * intros X. right. apply ok_inj in X. injection X as X. congruence.
      * intros [X| ->]; [now destruct X|reflexivity].
    + assert (LE : len (d :: ds) <= 508) by (rewrite <- E; pose proof (digits_len dp); lia).
      assert (F : Forall is_semi_digit (d :: ds)) by (rewrite <- E; now apply digits_semi).
      destruct (pdu_roundtrip zero_pdu toa (d :: ds) tp ltac:(discriminate) F LE) as (b & M & B & R).
      exists b. split; [exact M|]. split; [now apply B|]. split; [intros _; now left|]. intros _. exact R.
Qed.
