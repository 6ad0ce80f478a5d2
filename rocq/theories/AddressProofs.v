(** Lemmas about addresses (C20-C22, C47). *)
From Verif Require Import GoBase GoLemmas SafeLemmas Semioctet SpecDigits DigitsProofs
  SevenBit SpecBits SevenBitProofs Utf SpecText UtfProofs Charset Gsm7 CharsetProofs
  Dcs TpduError Address.

Lemma addr_set_ok : tables_ok (gd_set addr_gsm7_decoder) (ge_set addr_gsm7_encoder).
Proof. exact (new_set_ok None None true). Qed.
Lemma addr_ext_ok : tables_ok (gd_ext addr_gsm7_decoder) (ge_ext addr_gsm7_encoder).
Proof. constructor; cbn [addr_gsm7_decoder addr_gsm7_encoder gd_ext ge_ext assoc]; try discriminate.
  constructor. Qed.

(** * Numeric addresses *)
Lemma addr_numeric_roundtrip toa ds :
  toa_ton toa <> TonAlphanumeric -> Forall is_semi_digit ds -> len ds <= 255 ->
  exists p, addr_marshal {| a_toa := toa; a_addr := ds |} = Ok p /\
    len p = 2 + (len ds + 1) / 2 /\ (is_byte toa -> Forall is_byte p) /\
    (exists s, p = len ds :: toa :: s /\ semi_packed ds s) /\
    forall rest, addr_unmarshal (p ++ rest) = Ok ({| a_toa := toa; a_addr := ds |}, len p).
Proof.
  intros Ht Hd Hl. destruct (semi_roundtrip ds Hd) as (s & E & L & B & P & D).
  pose proof (len_nonneg ds) as Hn. pose proof (len_nonneg s) as Hns.
  exists (len ds :: toa :: s). unfold addr_marshal, addr_ton. cbn [a_toa a_addr].
  unfold TonAlphanumeric in *. replace (toa_ton toa =? 5) with false by lia.
  rewrite E. cbn [on_err bind]. rewrite to_byte_id by lia.
  split; [reflexivity|]. split; [rewrite !len_cons; lia|]. split.
  { intros Hb. constructor; [unfold is_byte; lia|]. now constructor. }
  split; [exists s; auto|]. intros rest. pose proof (len_nonneg rest) as Hr.
  cbn [app]. unfold addr_unmarshal. unfold TonAlphanumeric.
  rewrite !len_cons, len_app.
  replace (1 + (1 + (len s + len rest)) <? 2) with false by lia.
  rewrite idx_0, idx_succ by lia. change (1 - 1) with 0. rewrite idx_0. cbn [bind].
  replace (1 + (1 + (len s + len rest)) <? 2 + (len ds + 1) / 2) with false by lia.
  rewrite (slice_app [len ds; toa] s rest) by (change (len [len ds; toa]) with 2; lia).
  cbn [bind]. replace (toa_ton toa =? 5) with false by lia.
  rewrite <- (app_nil_r s) at 1. rewrite D. cbn [on_err bind].
  replace (len s =? (len ds + 1) / 2) with true by lia.
  replace (len ds <? len ds) with false by lia. cbn [negb orb].
  do 2 f_equal. lia.
Qed.

(** * Alphanumeric addresses *)
Lemma addr_encode_ok rs s : utf8_text rs s ->
  (forall r, In r rs -> exists g, assoc default_decoder g = Some r) ->
  exists u, gsm7_encode addr_gsm7_encoder s = Ok u /\ len u = len rs /\ Forall is_septet u.
Proof.
  intros HU HA. unfold gsm7_encode. rewrite (runes_of_text _ _ HU).
  assert (exists u, gsm7_encode_runes addr_gsm7_encoder rs = Ok u /\ len u = len rs) as (u & E & L).
  { clear HU. induction rs as [|r rs IH]; [exists []; auto|]. cbn [gsm7_encode_runes].
    destruct (HA r (or_introl eq_refl)) as (g & Hg).
    destruct (tk_sur _ _ addr_set_ok g r Hg) as (g' & ->).
    destruct IH as (u & -> & L); [intros; apply HA; now right|].
    eexists. split; [reflexivity|]. rewrite !len_cons. lia. }
  exists u. repeat split; try assumption.
  exact (encode_runes_septets _ _ _ _ addr_set_ok addr_ext_ok E).
Qed.

Lemma addr_decode_ok rs s u : utf8_text rs s -> ~ In 27 rs ->
  gsm7_encode addr_gsm7_encoder s = Ok u ->
  gsm7_decode addr_gsm7_decoder u = Ok s.
Proof.
  intros HU HN E. unfold gsm7_encode in E. rewrite (runes_of_text _ _ HU) in E.
  destruct (encode_runes_chars _ _ _ _ addr_set_ok addr_ext_ok E HN) as [HC HF].
  rewrite gsm7_decode_strict by reflexivity. rewrite HF, HC. now rewrite <- (utf8_text_fun _ _ HU).
Qed.

Lemma pack7bit_bytes u : Forall is_septet u -> Forall is_byte (pack7bit u 0) /\
  len (pack7bit u 0) = (7 * len u + 7) / 8.
Proof.
  intros H. destruct u as [|x u'] eqn:Eu; [split; [constructor|reflexivity]|]. rewrite <- Eu in *.
  assert (Hne : u <> []) by congruence.
  destruct (pack7bit_bits u 0 H ltac:(lia) Hne) as (HB & pad & Hp & Hb).
  split; [assumption|].
  apply (f_equal (@length bool)) in Hb. rewrite octet_bits_length in Hb.
  rewrite !app_length in Hb. rewrite repeat_length in Hb. cbn [repeat length] in Hb.
  rewrite septet_bits_length, repeat_length in Hb. unfold len. lia.
Qed.

Lemma addr_alnum_roundtrip toa rs s :
  toa_ton toa = TonAlphanumeric -> utf8_text rs s ->
  (forall r, In r rs -> exists g, assoc default_decoder g = Some r) -> ~ In 27 rs ->
  len rs <= 145 ->
  exists p, addr_marshal {| a_toa := toa; a_addr := s |} = Ok p /\
    len p = 2 + (7 * len rs + 7) / 8 /\ (is_byte toa -> Forall is_byte p) /\
    forall rest, addr_unmarshal (p ++ rest) = Ok ({| a_toa := toa; a_addr := s |}, len p).
Proof.
  intros Ht HU HA HN Hl.
  destruct (addr_encode_ok rs s HU HA) as (u & E & L & Hu).
  pose proof (addr_decode_ok rs s u HU HN E) as HD.
  destruct (pack7bit_bytes u Hu) as (HB & HP).
  pose proof (len_nonneg u) as Hn. pose proof (len_nonneg (pack7bit u 0)) as Hns.
  set (l := (len u * 7 + 3) / 4) in *. assert (Hl0 : 0 <= l < 256) by (subst l; lia).
  exists (l :: toa :: pack7bit u 0). unfold addr_marshal, addr_ton. cbn [a_toa a_addr].
  rewrite Ht. change (TonAlphanumeric =? TonAlphanumeric) with true.
  rewrite E. cbn [on_err bind]. fold l. rewrite (to_byte_id l) by lia.
  split; [reflexivity|]. split; [rewrite !len_cons; lia|]. split.
  { intros Hb. constructor; [unfold is_byte; lia|]. now constructor. }
  intros rest. pose proof (len_nonneg rest) as Hr.
  cbn [app]. unfold addr_unmarshal. rewrite !len_cons, len_app.
  replace (1 + (1 + (len (pack7bit u 0) + len rest)) <? 2) with false by lia.
  rewrite idx_0, idx_succ by lia. change (1 - 1) with 0. rewrite idx_0. cbn [bind].
  assert (Hol : (l + 1) / 2 = len (pack7bit u 0)) by (subst l; lia). rewrite Hol.
  replace (1 + (1 + (len (pack7bit u 0) + len rest)) <? 2 + len (pack7bit u 0)) with false by lia.
  rewrite (slice_app [l; toa] (pack7bit u 0) rest) by (change (len [l; toa]) with 2; lia).
  cbn [bind]. rewrite Ht. change (TonAlphanumeric =? TonAlphanumeric) with true.
  rewrite unpack_pack by (assumption || lia).
  destruct (negb (len u =? 0) && ((0 + 7 * len u) mod 8 =? 1)) eqn:E1.
  - rewrite len_app. change (len [0]) with 1.
    replace (l <? ((len u + 1) * 7 + 3) / 4) with true by (subst l; lia).
    rewrite (slice_app [] u [0]) by (change (len (@nil Z)) with 0; lia). cbn [bind].
    rewrite HD. cbn [on_err bind]. do 2 f_equal; lia.
  - rewrite app_nil_r. replace (l <? (len u * 7 + 3) / 4) with false by (subst l; lia).
    cbn [bind]. rewrite HD. cbn [on_err bind]. do 2 f_equal; lia.
Qed.

(** * Safety and locality *)
Lemma addr_unmarshal_safe src : Forall is_byte src -> safe_located (len src) (addr_unmarshal src).
Proof.
  intros HB. unfold addr_unmarshal. pose proof (len_nonneg src).
  destruct (len src <? 2) eqn:E2.
  { cbn. eexists; eexists; eexists; split; [reflexivity|lia]. }
  destruct (idx_ok src 0 ltac:(lia)) as (l & -> & Hl).
  destruct (idx_ok src 1 ltac:(lia)) as (toa & -> & _). cbn [bind].
  rewrite Forall_forall in HB. pose proof (HB _ Hl) as Hb. rewrite <- Forall_forall in HB.
  unfold is_byte in Hb.
  destruct (len src <? 2 + (l + 1) / 2) eqn:E3.
  { cbn. eexists; eexists; eexists; split; [reflexivity|lia]. }
  destruct (slice src 2 (2 + (l + 1) / 2)) as [body|?| |] eqn:Es;
    try (rewrite slice_ok in Es by lia; discriminate).
  cbn [bind]. pose proof (slice_bytes _ _ _ _ HB Es) as HBb.
  destruct (toa_ton toa =? TonAlphanumeric).
  - apply bind_safe_located.
    + destruct (l <? _) eqn:El; [|exact I].
      rewrite slice_ok; [exact I| |]; pose proof (len_nonneg (unpack7bit body 0)); lia.
    + intros u _. apply bind_safe_located; [|intros; exact I].
      apply on_err_located with (n := 0); try lia.
      rewrite gsm7_decode_strict by reflexivity. destruct (gsm7_fault _ _ u); exact I.
  - apply bind_safe_located.
    + apply on_err_located with (n := 0); try lia.
      destruct (semi_decode_safe l body ltac:(lia) HBb) as [(o & n & -> & _)| ->]; exact I.
    + intros [baddr n] E. apply on_err_ok in E.
      destruct (semi_decode_safe l body ltac:(lia) HBb) as [(o & n' & E' & _)|E']; [|congruence].
      rewrite E in E'. injection E' as <- <-.
      destruct (negb (n =? (l + 1) / 2) || (len baddr <? l)); [|exact I].
      cbn. eexists; eexists; eexists; split; [reflexivity|lia].
Qed.

Lemma gsm7_decode_bytes d s : tables_ok (gd_set d) (ge_set addr_gsm7_encoder) -> gd_ext d = [] ->
  forall out, gsm7_decode d s = Ok out -> Forall is_byte out.
Proof.
  intros HT HX out H.
  assert (HV : utf8_text (gsm7_chars (assoc (gd_set d)) (assoc (gd_ext d)) s)
    (utf8_of (gsm7_chars (assoc (gd_set d)) (assoc (gd_ext d)) s))).
  { apply utf8_text_utf8_of, gsm7_chars_scalar; [exact (tk_scalar _ _ HT)|].
    rewrite HX. cbn [assoc]. discriminate. }
  apply utf8_text_bytes in HV.
  destruct (gd_strict d) eqn:ES.
  - rewrite gsm7_decode_strict in H by assumption. destruct (gsm7_fault _ _ s); [discriminate|].
    injection H as <-. exact HV.
  - rewrite gsm7_decode_total in H by assumption. injection H as <-. exact HV.
Qed.

Lemma addr_unmarshal_inv src a n : Forall is_byte src -> addr_unmarshal src = Ok (a, n) ->
  2 <= n <= len src /\ is_byte (a_toa a) /\ Forall is_byte (a_addr a) /\
  (addr_ton a <> TonAlphanumeric -> Forall is_semi_digit (a_addr a) /\ len (a_addr a) <= 255).
Proof.
  intros HB. unfold addr_unmarshal. pose proof (len_nonneg src).
  destruct (len src <? 2) eqn:E2; [discriminate|].
  intros HE. apply bind_ok in HE as (l & El & HE). apply bind_ok in HE as (toa & Et & HE).
  pose proof (idx_byte _ _ _ HB El) as Hl. pose proof (idx_byte _ _ _ HB Et) as Htb.
  unfold is_byte in Hl.
  destruct (len src <? 2 + (l + 1) / 2) eqn:E3; [discriminate|].
  apply bind_ok in HE as (body & Eb & HE).
  pose proof (slice_bytes _ _ _ _ HB Eb) as HBb. pose proof (slice_len _ _ _ _ Eb) as HLb.
  destruct (toa_ton toa =? TonAlphanumeric) eqn:Eton.
  - apply bind_ok in HE as (u & Eu & HE). apply bind_ok in HE as (b & Ed & HE).
    apply ok_pair in HE as [<- <-]. apply on_err_ok in Ed. cbn [a_toa a_addr].
    unfold addr_ton. cbn [a_toa].
    split; [lia|]. split; [assumption|]. split; [|intros HF; exfalso; lia].
    exact (gsm7_decode_bytes _ _ addr_set_ok eq_refl _ Ed).
  - apply bind_ok in HE as ([baddr m] & Ed & HE). apply on_err_ok in Ed.
    destruct (negb (m =? (l + 1) / 2) || (len baddr <? l)) eqn:Ec; [discriminate|].
    apply ok_pair in HE as [<- <-]. cbn [a_toa a_addr].
    destruct (semi_decode_safe l body ltac:(lia) HBb) as [(o & n' & E' & L & _ & F)|E']; [|congruence].
    rewrite Ed in E'. injection E' as <- <-.
    split; [lia|]. split; [assumption|]. split.
    + eapply Forall_impl; [|exact F]. intros d Hd. unfold is_semi_digit in Hd. cbn in Hd.
      unfold is_byte. lia.
    + intros _. split; [assumption|lia].
Qed.

Lemma addr_unmarshal_local src a n ext :
  addr_unmarshal src = Ok (a, n) -> addr_unmarshal (src ++ ext) = Ok (a, n).
Proof.
  unfold addr_unmarshal. pose proof (len_nonneg src). pose proof (len_nonneg ext).
  rewrite len_app.
  destruct (len src <? 2) eqn:E2; [discriminate|]. bfalse (len src + len ext <? 2).
  rewrite !(idx_app_l src ext) by lia. intros HE.
  apply bind_ok in HE as (l & El & HE). apply bind_ok in HE as (toa & Et & HE).
  rewrite El, Et. cbn [bind].
  destruct (len src <? 2 + (l + 1) / 2) eqn:E3; [discriminate|].
  replace (len src + len ext <? 2 + (l + 1) / 2) with false by lia.
  apply bind_ok in HE as (body & Eb & HE).
  rewrite slice_app_l.
  - rewrite Eb. exact HE.
  - apply slice_inv in Eb. lia.
  - apply slice_inv in Eb. lia.
Qed.
