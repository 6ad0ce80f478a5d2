(** Lemmas about the top-level package: completeness, counters, Decode. *)
From Verif Require Import GoBase GoLemmas SafeLemmas Utf Ucs2 UtfProofs SpecText Charset Gsm7 Dcs FirstOctet
  UserData Tpdu Segment SegmentProofs SegmentFitProofs SpecSegTpdu Sms SpecSelect SpecDcs UserDataProofs
  FlagsProofs SpecSms.

(** ** IsCompleteMessage *)
Lemma complete_loop_iff n r : forall segs i,
  complete_loop segs n r i = true <->
  forall k s, nth_error segs k = Some s -> tpdu_concat_info s = Some (n, i + Z.of_nat k + 1, r).
Proof.
  induction segs as [|s segs IH]; intros i.
  { split; [|reflexivity]. intros _ [|k] s H; discriminate. }
  cbn [complete_loop]. split.
  - intros H. destruct (tpdu_concat_info s) as [[[a b] c]|] eqn:E; [|discriminate].
    destruct (a =? n) eqn:E1; [|discriminate]. destruct (c =? r) eqn:E2; [|discriminate].
    destruct (b =? i + 1) eqn:E3; [|discriminate]. cbn [negb] in H.
    intros [|k] s' Hk; cbn [nth_error] in Hk.
    + injection Hk as <-. rewrite E. do 2 f_equal; [f_equal|]; lia.
    + rewrite (proj1 (IH _) H k s' Hk). do 3 f_equal. lia.
  - intros H. rewrite (H 0%nat s eq_refl). rewrite !Z.eqb_refl.
    replace (i + Z.of_nat 0 + 1 =? i + 1) with true by lia. cbn [negb].
    apply IH. intros k s' Hk. rewrite (H (S k) s' Hk). do 3 f_equal. lia.
Qed.

Lemma is_complete_iff segs : is_complete_message segs = true <-> complete segs.
Proof.
  destruct segs as [|s segs].
  { split; [discriminate|]. intros [(s & H & _)|(H & _)]; congruence. }
  unfold is_complete_message, complete. destruct (tpdu_concat_info s) as [[[n q] r]|] eqn:E.
  - split.
    + intros H. destruct (n =? len (s :: segs)) eqn:EN; [|discriminate]. cbn [negb] in H.
      right. split; [discriminate|]. exists r. intros k s' Hk.
      rewrite (proj1 (complete_loop_iff _ _ _ _) H k s' Hk).
      replace (len (s :: segs)) with n by lia. reflexivity.
    + intros [(s' & H & HN)|(_ & ref & H)]; [injection H as -> ->; congruence|].
      pose proof (H 0%nat s eq_refl) as H0. rewrite E in H0. injection H0 as -> -> ->.
      rewrite Z.eqb_refl. cbn [negb]. apply complete_loop_iff. intros k s' Hk.
      rewrite (H k s' Hk). do 3 f_equal.
  - split.
    + intros H. left. exists s. split; [|exact E]. f_equal. apply len_0_nil. rewrite len_cons in H. lia.
    + intros [(s' & H & HN)|(_ & ref & H)]; [injection H as -> ->; reflexivity|].
      pose proof (H 0%nat s eq_refl) as H0. congruence.
Qed.

(** ** Counters *)
Lemma wrap64_id x : - 2 ^ 63 <= x < 2 ^ 63 -> wrap64 x = x.
Proof. unfold wrap64. intros H. rewrite Z.mod_small; lia. Qed.
Lemma wrap64_range x : - 2 ^ 63 <= wrap64 x < 2 ^ 63.
Proof. unfold wrap64. pose proof (Z.mod_pos_bound (x + 2 ^ 63) (2 ^ 64)). lia. Qed.
Lemma wrap64_eq x : exists k, wrap64 x = x + k * 2 ^ 64.
Proof.
  exists (- ((x + 2 ^ 63) / 2 ^ 64)). unfold wrap64.
  pose proof (Z.div_mod (x + 2 ^ 63) (2 ^ 64)). lia.
Qed.
Lemma wrap64_add x y : wrap64 (wrap64 x + y) = wrap64 (x + y).
Proof.
  destruct (wrap64_eq x) as [k ->]. unfold wrap64.
  replace (x + k * 2 ^ 64 + y + 2 ^ 63) with (x + y + 2 ^ 63 + k * 2 ^ 64) by lia.
  now rewrite Z.mod_add by lia.
Qed.
Lemma wrap64_mod256 x : wrap64 x mod 256 = x mod 256.
Proof.
  destruct (wrap64_eq x) as [k ->].
  replace (x + k * 2 ^ 64) with (x + (k * 2 ^ 56) * 256) by lia. apply Z.mod_add. lia.
Qed.
Lemma wrap64_add256 x y z : wrap64 x + y = z -> z mod 256 = (x + y) mod 256.
Proof. intros <-. now rewrite <- Zplus_mod_idemp_l, wrap64_mod256, Zplus_mod_idemp_l. Qed.
Lemma counter_nth_eq : forall i c, counter_nth c i = wrap64 (c + 1 + Z.of_nat i).
Proof.
  induction i as [|i IH]; intros c; cbn [counter_nth].
  - unfold counter_count. f_equal. lia.
  - rewrite IH. unfold counter_count.
    replace (wrap64 (c + 1) + 1 + Z.of_nat i) with (wrap64 (c + 1) + (1 + Z.of_nat i)) by lia.
    rewrite wrap64_add. f_equal. lia.
Qed.
Lemma counter_after_eq : forall n c, wrap64 c = c -> counter_after c n = wrap64 (c + Z.of_nat n).
Proof.
  induction n as [|n IH]; intros c Hc; cbn [counter_after].
  - rewrite Z.add_0_r. now rewrite Hc.
  - unfold counter_count. rewrite IH by (apply wrap64_id, wrap64_range).
    rewrite wrap64_add. f_equal. lia.
Qed.
Lemma wrap64_inj x i j : 0 <= i < 2 ^ 64 -> 0 <= j < 2 ^ 64 -> wrap64 (x + i) = wrap64 (x + j) -> i = j.
Proof.
  intros Hi Hj H. destruct (wrap64_eq (x + i)) as [a Ea]. destruct (wrap64_eq (x + j)) as [b Eb].
  rewrite Ea, Eb in H. assert (i - j = (b - a) * 2 ^ 64) by lia.
  assert (b - a = 0) by nia. lia.
Qed.
Lemma counts_nth : forall sched c k th, nth_error sched k = Some th ->
  nth_error (counts c sched) k = Some (th, wrap64 (c + 1 + Z.of_nat k)).
Proof.
  induction sched as [|t0 sched IH]; intros c [|k] th H; try discriminate; cbn [counts nth_error] in *.
  - injection H as ->. unfold counter_count. do 3 f_equal. lia.
  - rewrite (IH _ _ _ H). unfold counter_count.
    replace (wrap64 (c + 1) + 1 + Z.of_nat k) with (wrap64 (c + 1) + (1 + Z.of_nat k)) by lia.
    rewrite wrap64_add. do 3 f_equal. lia.
Qed.
Lemma counts_length : forall sched c, length (counts c sched) = length sched.
Proof. induction sched; intros; cbn [counts length]; auto. Qed.

(** ** The shape of Encode *)
Lemma with_options_counters opts : forall e,
  e_msg_count (with_options e opts) = e_msg_count e /\ e_concat_ref (with_options e opts) = e_concat_ref e.
Proof.
  induction opts as [|o opts IH]; intros e; [split; reflexivity|].
  unfold with_options in *. cbn [fold_left]. rewrite !(proj1 (IH _)), !(proj2 (IH _)).
  destruct o; split; reflexivity.
Qed.
Lemma encoder_encode_ok e msg opts segs e' : encoder_encode e msg opts = Ok (segs, e') ->
  exists t ud, encode_prepare (with_options e opts) msg = Ok (t, ud) /\
    segment t ud (encoder_seg_cfg e) = Ok segs /\ e' = advance e segs.
Proof.
  unfold encoder_encode. intros H. fold (with_options e opts) in H.
  apply bind_ok in H as ([t ud] & HP & H). apply bind_ok in H as (pdus & HS & H).
  apply ok_pair in H as [<- <-]. exists t, ud. split; [exact HP|]. split; [|reflexivity].
  rewrite <- HS. unfold encoder_seg_cfg. destruct (with_options_counters opts e) as [-> ->]. reflexivity.
Qed.

(** MR and the concatenation element of each TPDU. *)
Lemma encode_counters e msg opts segs e' : encoder_encode e msg opts = Ok (segs, e') ->
  (forall k s, nth_error segs k = Some s -> MR s = (e_msg_count e + 1 + Z.of_nat k) mod 256) /\
  (1 < len segs -> forall k s, nth_error segs k = Some s -> exists l, UDH s = Some (l ++
     [{| ie_id := 0; ie_data := [(e_concat_ref e + 1) mod 256; len segs mod 256; (Z.of_nat k + 1) mod 256] |}])) /\
  e' = advance e segs.
Proof.
  intros H. destruct (encoder_encode_ok _ _ _ _ _ H) as (t & ud & _ & HS & ->).
  split; [|split; [|reflexivity]].
  - intros k s Hk. pose proof (segment_inherits _ _ _ _ HS k s Hk) as HI. unfold inherits in HI.
    destruct HI as (_ & _ & _ & _ & _ & _ & _ & _ & _ & _ & _ & _ & _ & HM & _).
    rewrite HM. cbn [encoder_seg_cfg sc_mr]. rewrite counter_nth_eq, wrap64_mod256. reflexivity.
  - intros HL k s Hk. pose proof (segment_inherits _ _ _ _ HS k s Hk) as HI. unfold inherits in HI.
    destruct HI as (_ & _ & _ & _ & _ & _ & _ & _ & _ & _ & _ & _ & _ & _ & HX).
    destruct (len ud <=? ud_block_size t) eqn:EL.
    + destruct (segment_lossless _ _ _ _ HS) as (_ & _ & HN).
      assert (length segs <= 1)%nat by (apply HN; left; lia). unfold len in HL. lia.
    + destruct HX as (_ & _ & i & HU & HI). cbn [encoder_seg_cfg sc_wide sc_cr counter_nth] in HI.
      destruct HI as [HI1 HI2]. exists (ies (UDH t)). rewrite HU. do 3 f_equal.
      destruct i as [id d]; cbn [ie_id ie_data] in *. subst. unfold counter_count.
      now rewrite wrap64_mod256.
Qed.

Definition counters_ok (e : sms_encoder) : Prop :=
  wrap64 (e_msg_count e) = e_msg_count e /\ wrap64 (e_concat_ref e) = e_concat_ref e.
Lemma advance_counters e segs : counters_ok e ->
  e_msg_count (advance e segs) = wrap64 (e_msg_count e + len segs) /\
  e_concat_ref (advance e segs) = wrap64 (e_concat_ref e + (if multi_part segs then 1 else 0)) /\
  counters_ok (advance e segs).
Proof.
  intros [H1 H2]. unfold counters_ok, advance, multi_part; cbn [e_msg_count e_concat_ref].
  rewrite counter_after_eq by exact H1. split; [reflexivity|].
  destruct (1 <? len segs); unfold counter_count.
  - split; [reflexivity|]. split; apply wrap64_id, wrap64_range.
  - rewrite Z.add_0_r. split; [now rewrite H2|]. split; [apply wrap64_id, wrap64_range|exact H2].
Qed.

Lemma session_counters calls : forall e out e', counters_ok e -> session e calls = (out, e') ->
  (forall k s, nth_error (concat out) k = Some s -> MR s = (e_msg_count e + 1 + Z.of_nat k) mod 256) /\
  (forall j segs, nth_error (filter multi_part out) j = Some segs ->
     forall k s, nth_error segs k = Some s -> exists l, UDH s = Some (l ++
     [{| ie_id := 0; ie_data := [(e_concat_ref e + 1 + Z.of_nat j) mod 256; len segs mod 256; (Z.of_nat k + 1) mod 256] |}])) /\
  e_msg_count e' = wrap64 (e_msg_count e + len (concat out)) /\
  e_concat_ref e' = wrap64 (e_concat_ref e + len (filter multi_part out)).
Proof.
  induction calls as [|[msg opts] calls IH]; intros e out e' HK H; cbn [session] in H.
  { injection H as <- <-. cbn. destruct HK as [K1 K2]. rewrite !Z.add_0_r, K1, K2.
    split; [|split]; [| |split; reflexivity]; intros [|k]; discriminate. }
  destruct (encoder_encode e msg opts) as [[pdus e1]| | |] eqn:E; try (eapply IH; eassumption).
  destruct (session e1 calls) as [out1 e2] eqn:ES. injection H as <- <-.
  destruct (encode_counters _ _ _ _ _ E) as (HM & HC & ->).
  destruct (advance_counters e pdus HK) as (A1 & A2 & A3).
  destruct (IH _ _ _ A3 ES) as (I1 & I2 & I3 & I4). clear IH.
  cbn [concat filter]. split; [|split; [|split]].
  - intros k s Hk. destruct (Nat.lt_ge_cases k (length pdus)) as [L|L].
    + rewrite nth_error_app1 in Hk by exact L. now apply HM.
    + rewrite nth_error_app2 in Hk by exact L. rewrite (I1 _ _ Hk), A1.
      rewrite <- Z.add_assoc, <- Zplus_mod_idemp_l, wrap64_mod256, Zplus_mod_idemp_l. f_equal.
      unfold len. lia.
  - destruct (multi_part pdus) eqn:EM.
    + intros [|j] segs Hj; cbn [nth_error] in Hj.
      * injection Hj as <-. intros k s Hk. rewrite Z.add_0_r. apply HC; [|exact Hk]. unfold multi_part in EM. lia.
      * intros k s Hk. destruct (I2 _ _ Hj k s Hk) as (l & EU). exists l. rewrite EU, A2.
        rewrite (wrap64_add256 (e_concat_ref e + 1) (1 + Z.of_nat j)) by lia.
        replace (e_concat_ref e + 1 + (1 + Z.of_nat j)) with (e_concat_ref e + 1 + Z.of_nat (S j)) by lia. reflexivity.
    + intros j segs Hj k s Hk. destruct (I2 _ _ Hj k s Hk) as (l & EU). exists l. rewrite EU, A2.
      rewrite (wrap64_add256 (e_concat_ref e + 0) (1 + Z.of_nat j)) by lia.
      replace (e_concat_ref e + 0 + (1 + Z.of_nat j)) with (e_concat_ref e + 1 + Z.of_nat j) by lia. reflexivity.
  - rewrite I3, A1, wrap64_add, len_app. f_equal. lia.
  - rewrite I4, A2, wrap64_add. f_equal. destruct (multi_part pdus); [rewrite len_cons|]; lia.
Qed.

(** ** Decode of UCS-2 *)
Definition ucs2_tpdu (s : tpdu) : Prop :=
  tpdu_alphabet s = Ok AlphaUCS2 /\ Forall is_byte (UD s) /\ len (UD s) mod 2 = 0.

Lemma utf8_of_app a b : utf8_of (a ++ b) = utf8_of a ++ utf8_of b.
Proof. apply flat_map_app. Qed.
Lemma alphabet_alpha d a : dcs_alphabet d = Ok a -> dcs_alpha d = a.
Proof. unfold dcs_alphabet. destruct (snd _); congruence. Qed.

Definition u2_outcome (d : ucs2_result) : res bytes :=
  match u2_err d with None => Ok (utf8_of (u2_runes d)) | Some e => Err e end.

Lemma decode_loop_ucs2 opts : forall segs, Forall ucs2_tpdu segs ->
  decode_loop (map Some segs) None opts = u2_outcome (ucs2_loop (concat (map UD segs))) /\
  forall h l, is_byte h -> is_byte l -> is_surrogate (h * 256 + l) = true ->
  decode_loop (map Some segs) (Some [h; l]) opts = u2_outcome (ucs2_loop (h :: l :: concat (map UD segs))).
Proof.
  induction segs as [|s segs IH]; intros HF.
  { split; [reflexivity|]. intros h l _ _ HS. cbn [map decode_loop concat ucs2_loop]. rewrite HS. reflexivity. }
  inversion HF as [|? ? (HA & HB & HE) HF']; subst. destruct (IH HF') as [IH1 IH2]. clear IH HF.
  assert (HD : forall ud, Forall is_byte ud -> len ud mod 2 = 0 ->
    match dd_err (decode_user_data ud (ies (UDH s)) (dcs_alpha (DCS s)) opts) with
    | None => rest <- decode_loop (map Some segs) None opts ;;
              Ok (dd_text (decode_user_data ud (ies (UDH s)) (dcs_alpha (DCS s)) opts) ++ rest)
    | Some (Ucs2DanglingSurrogate b) =>
              rest <- decode_loop (map Some segs) (Some b) opts ;;
              Ok (dd_text (decode_user_data ud (ies (UDH s)) (dcs_alpha (DCS s)) opts) ++ rest)
    | Some e => Err e
    end = u2_outcome (ucs2_loop (ud ++ concat (map UD segs)))).
  { intros ud HUB HUE. rewrite (alphabet_alpha _ _ HA). unfold decode_user_data.
    rewrite Z.eqb_refl. cbn [dd_err dd_text]. rewrite ucs2_decode_loop by exact HUE.
    destruct (ucs2_loop_err ud HUB HUE) as [E|(s0 & h & l & -> & ES & EE & ED)].
    - rewrite E, IH1. rewrite ucs2_loop_app by assumption. unfold u2_outcome. cbn [u2_err u2_runes].
      destruct (u2_err (ucs2_loop (concat _))); cbn [bind]; [reflexivity|]. now rewrite utf8_of_app.
    - rewrite EE. cbv iota beta. apply Forall_app in HUB as [_ HB2].
      assert (is_byte h) by (inversion HB2; assumption).
      assert (is_byte l) by (inversion HB2 as [|? ? ? HB3]; inversion HB3; assumption).
      assert (X := IH2 h l ltac:(assumption) ltac:(assumption) ES). unfold bytes in *.
      rewrite X. rewrite <- app_assoc.
      assert (HE0 : len s0 mod 2 = 0).
      { rewrite len_app in HUE. change (len [h; l]) with 2 in HUE. lia. }
      assert (EN : u2_err (ucs2_loop s0) = None) by now rewrite ED.
      pose proof (ucs2_loop_app s0 ([h; l] ++ concat (map UD segs)) HE0 EN) as Y.
      unfold bytes in *. cbn [app] in *. rewrite Y.
      unfold u2_outcome. cbn [u2_err u2_runes app]. rewrite ED; cbn [u2_runes].
      destruct (u2_err (ucs2_loop (h :: l :: concat _))); cbn [bind]; [reflexivity|]. now rewrite utf8_of_app. }
  split.
  - cbn [map decode_loop concat]. exact (HD _ HB HE).
  - intros h l Hh Hl HS. cbn [map decode_loop concat].
    apply (HD (h :: l :: UD s)); [constructor; [|constructor]; assumption|]. rewrite !len_cons. lia.
Qed.

Lemma find_ie_last id l : last_ie id l = option_map ie_data (find_ie l id).
Proof.
  unfold find_ie. induction l as [|i l IH] using rev_ind; [reflexivity|].
  rewrite rev_app_distr. cbn [rev app find].
  assert (E : last_ie id (l ++ [i]) = if ie_id i =? id then Some (ie_data i) else last_ie id l).
  { clear IH. induction l as [|j l IH]; cbn [app last_ie]; [reflexivity|].
    rewrite IH. destruct (ie_id i =? id); [reflexivity|]. destruct (last_ie id l); reflexivity. }
  rewrite E. destruct (ie_id i =? id); [reflexivity|exact IH].
Qed.
Lemma concat_info_last l : concat_info l =
  match last_ie 0 l, last_ie 8 l with
  | Some [r; n; q], _ => Some (n, q, r)
  | _, Some [h; l; n; q] => Some (n, q, 256 * h + l)
  | _, _ => None
  end.
Proof.
  rewrite !find_ie_last. unfold concat_info.
  assert (E : match concat_info8 l with Some x => Some x | None => concat_info16 l end =
    match option_map ie_data (find_ie l 0), option_map ie_data (find_ie l 8) with
    | Some [r; n; q], _ => Some (n, q, r)
    | _, Some [h; l; n; q] => Some (n, q, 256 * h + l)
    | _, _ => None
    end).
  { unfold concat_info8, concat_info16.
    assert (E16 : match match find_ie l 8 with Some i => Some (ie_data i) | None => None end with
                  | Some [h; l; n; q] => Some (n, q, 256 * h + l)
                  | _ => None end =
                  match find_ie l 8 with
                  | Some i => match ie_data i with [r1; r2; s; n] => Some (s, n, r1 * 256 + r2) | _ => None end
                  | None => None end).
    { destruct (find_ie l 8) as [i|]; [|reflexivity].
      destruct (ie_data i) as [|a [|b [|c [|d [|e x]]]]]; try reflexivity. do 2 f_equal. lia. }
    unfold option_map. rewrite <- E16.
    destruct (find_ie l 0) as [i|]; [|reflexivity].
    destruct (ie_data i) as [|a [|b [|c [|d x]]]]; reflexivity. }
  destruct l; [reflexivity|exact E].
Qed.
