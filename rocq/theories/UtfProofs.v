(** Lemmas about the UTF-8/UTF-16/hex part of the model (C06, C09, C10, C22, C42). *)
From Verif Require Import GoBase GoLemmas Utf Ucs2 SpecText.

(** * UTF-8 *)

Lemma utf8_char_scalar r b : utf8_char r b -> scalar r.
Proof. destruct 1; unfold scalar in *; lia. Qed.
Lemma utf8_char_bytes r b : utf8_char r b -> Forall is_byte b.
Proof.
  destruct 1; repeat (constructor; [unfold is_byte, scalar in *; lia|]); constructor.
Qed.
Lemma utf8_char_nonempty r b : utf8_char r b -> b <> [].
Proof. destruct 1; discriminate. Qed.

Lemma encode_rune_spec r : scalar r -> utf8_char r (encode_rune r).
Proof.
  intros H. unfold encode_rune, in_range, scalar in *.
  bfalse ((r <? 0) || (1114111 <? r) || ((55296 <=? r) && (r <=? 57343))).
  destruct (r <=? 127) eqn:E1; [apply u8_1; lia|].
  destruct (r <=? 2047) eqn:E2.
  { replace r with (64 * (r / 64) + r mod 64) at 1 by lia. apply u8_2; lia. }
  destruct (r <=? 65535) eqn:E3.
  { replace r with (4096 * (r / 4096) + 64 * ((r / 64) mod 64) + r mod 64) at 1 by lia.
    apply u8_3; unfold scalar; lia. }
  replace r with (262144 * (r / 262144) + 4096 * ((r / 4096) mod 64)
                  + 64 * ((r / 64) mod 64) + r mod 64) at 1 by lia.
  apply u8_4; lia.
Qed.

Lemma utf8_char_fun r b : utf8_char r b -> b = encode_rune r.
Proof.
  intros H. unfold encode_rune, in_range.
  destruct H; unfold scalar in *;
  match goal with |- context [if ?c then rune_error else _] => replace c with false by lia end.
  - btrue (a <=? 127). reflexivity.
  - bfalse (64 * a + b <=? 127). btrue (64 * a + b <=? 2047). f_equal; [lia|f_equal; lia].
  - set (r := 4096 * a + 64 * b + c) in *.
    bfalse (r <=? 127). bfalse (r <=? 2047). btrue (r <=? 65535).
    f_equal; [lia|]. f_equal; [lia|]. f_equal; lia.
  - set (r := 262144 * a + 4096 * b + 64 * c + d) in *.
    bfalse (r <=? 127). bfalse (r <=? 2047). bfalse (r <=? 65535).
    f_equal; [lia|]. f_equal; [lia|]. f_equal; [lia|]. f_equal; lia.
Qed.

Lemma decode_rune_char r b s : utf8_char r b -> decode_rune (b ++ s) = (r, length b).
Proof.
  intros H. destruct H; cbn [app length decode_rune]; unfold in_range, scalar in *.
  - btrue (a <? 128). reflexivity.
  - bfalse (192 + a <? 128). btrue ((194 <=? 192 + a) && (192 + a <=? 223)).
    btrue ((128 <=? 128 + b) && (128 + b <=? 191)). f_equal. lia.
  - bfalse (224 + a <? 128). bfalse ((194 <=? 224 + a) && (224 + a <=? 223)).
    btrue ((224 <=? 224 + a) && (224 + a <=? 239)).
    assert (E : ((if 224 + a =? 224 then 160 else 128) <=? 128 + b) &&
            (128 + b <=? (if 224 + a =? 237 then 159 else 191)) &&
            ((128 <=? 128 + c) && (128 + c <=? 191)) = true).
    { destruct (224 + a =? 224) eqn:?, (224 + a =? 237) eqn:?; lia. }
    rewrite E. f_equal. lia.
  - bfalse (240 + a <? 128). bfalse ((194 <=? 240 + a) && (240 + a <=? 223)).
    bfalse ((224 <=? 240 + a) && (240 + a <=? 239)).
    btrue ((240 <=? 240 + a) && (240 + a <=? 244)).
    assert (E : ((if 240 + a =? 240 then 144 else 128) <=? 128 + b) &&
            (128 + b <=? (if 240 + a =? 244 then 143 else 191)) &&
            ((128 <=? 128 + c) && (128 + c <=? 191)) &&
            ((128 <=? 128 + d) && (128 + d <=? 191)) = true).
    { destruct (240 + a =? 240) eqn:?, (240 + a =? 244) eqn:?; lia. }
    rewrite E. f_equal. lia.
Qed.

Lemma runes_skip_app b s : runes_skip (length b) (b ++ s) = runes_skip 0 s.
Proof. induction b as [|x b IH]; [reflexivity|]. exact IH. Qed.

Lemma runes_of_char r b s : utf8_char r b -> runes_of (b ++ s) = r :: runes_of s.
Proof.
  intros H. pose proof (decode_rune_char r b s H) as D.
  pose proof (utf8_char_nonempty r b H) as N.
  destruct b as [|x b]; [contradiction|]. unfold runes_of.
  cbn [app runes_skip] in *. rewrite D. cbn [length Nat.pred]. now rewrite runes_skip_app.
Qed.

Lemma runes_of_text rs s : utf8_text rs s -> runes_of s = rs.
Proof.
  induction 1 as [|r b rs s Hc Ht IH]; [reflexivity|].
  now rewrite (runes_of_char r b s Hc), IH.
Qed.

Lemma utf8_text_utf8_of rs : Forall scalar rs -> utf8_text rs (utf8_of rs).
Proof.
  induction 1 as [|r rs Hr Hs IH]; [constructor|].
  cbn [utf8_of flat_map]. constructor; [now apply encode_rune_spec|exact IH].
Qed.
Lemma utf8_text_fun rs s : utf8_text rs s -> s = utf8_of rs.
Proof.
  induction 1 as [|r b rs s Hc Ht IH]; [reflexivity|].
  cbn [utf8_of flat_map]. rewrite (utf8_char_fun _ _ Hc), IH. reflexivity.
Qed.
Lemma utf8_text_scalar rs s : utf8_text rs s -> Forall scalar rs.
Proof. induction 1; constructor; [eapply utf8_char_scalar; eassumption|assumption]. Qed.
Lemma utf8_text_bytes rs s : utf8_text rs s -> Forall is_byte s.
Proof.
  induction 1; [constructor|]. apply Forall_app. split; [|assumption].
  eapply utf8_char_bytes; eassumption.
Qed.
Lemma utf8_text_app r1 s1 r2 s2 : utf8_text r1 s1 -> utf8_text r2 s2 ->
  utf8_text (r1 ++ r2) (s1 ++ s2).
Proof.
  induction 1; intros; [assumption|]. cbn [app]. rewrite <- app_assoc. constructor; auto.
Qed.
Lemma runes_utf8 rs : Forall scalar rs -> runes_of (utf8_of rs) = rs.
Proof. intros H. apply runes_of_text, utf8_text_utf8_of, H. Qed.

(** Whatever the octets, each decoded rune is a scalar value; and when it is
    not U+FFFD the octets it came from are its UTF-8 form. *)
Lemma decode_rune_inv s : Forall is_byte s -> s <> [] ->
  exists r n, decode_rune s = (r, S n) /\ scalar r /\
    (r = rune_error \/ exists b s', s = b ++ s' /\ utf8_char r b /\ length b = S n).
Proof.
  intros HB HN. destruct s as [|b0 s1]; [contradiction|].
  inversion HB as [|? ? H0 HB1]; subst. unfold is_byte in *.
  assert (RE : forall n, exists r m, (rune_error, S n) = (r, S m) /\ scalar r /\
    (r = rune_error \/ exists b s', b0 :: s1 = b ++ s' /\ utf8_char r b /\ length b = S m)).
  { intros n. exists rune_error, n. split; [reflexivity|]. split; [unfold scalar, rune_error; lia|].
    now left. }
  cbn [decode_rune]. unfold in_range.
  destruct (b0 <? 128) eqn:E0.
  { exists b0, O. split; [reflexivity|]. split; [unfold scalar; lia|]. right.
    exists [b0], s1. split; [reflexivity|]. split; [constructor; lia|reflexivity]. }
  destruct ((194 <=? b0) && (b0 <=? 223)) eqn:E1.
  { destruct s1 as [|b1 s2]; [apply RE|]. inversion HB1; subst.
    destruct ((128 <=? b1) && (b1 <=? 191)) eqn:E2; [|apply RE].
    exists ((b0 - 192) * 64 + (b1 - 128)), 1%nat. split; [reflexivity|].
    split; [unfold scalar; lia|]. right. exists [b0; b1], s2. split; [reflexivity|].
    split; [|reflexivity].
    replace ((b0 - 192) * 64 + (b1 - 128)) with (64 * (b0 - 192) + (b1 - 128)) by lia.
    replace [b0; b1] with [192 + (b0 - 192); 128 + (b1 - 128)] by (repeat f_equal; lia).
    apply u8_2; lia. }
  destruct ((224 <=? b0) && (b0 <=? 239)) eqn:E2.
  { destruct s1 as [|b1 [|b2 s3]]; [apply RE|apply RE|]. cbv zeta.
    match goal with |- context [if ?c then (_, 3%nat) else _] => destruct c eqn:E3 end; [|apply RE].
    assert (HS : scalar ((b0 - 224) * 4096 + (b1 - 128) * 64 + (b2 - 128))
      /\ 2048 <= (b0 - 224) * 4096 + (b1 - 128) * 64 + (b2 - 128) < 65536
      /\ 128 <= b1 <= 191 /\ 128 <= b2 <= 191).
    { unfold scalar. destruct (b0 =? 224) eqn:?, (b0 =? 237) eqn:?; lia. }
    destruct HS as (HS & HR & Hb1 & Hb2).
    exists ((b0 - 224) * 4096 + (b1 - 128) * 64 + (b2 - 128)), 2%nat.
    split; [reflexivity|]. split; [exact HS|]. right.
    exists [b0; b1; b2], s3. split; [reflexivity|]. split; [|reflexivity].
    replace ((b0 - 224) * 4096 + (b1 - 128) * 64 + (b2 - 128)) with
      (4096 * (b0 - 224) + 64 * (b1 - 128) + (b2 - 128)) in * by lia.
    replace [b0; b1; b2] with [224 + (b0 - 224); 128 + (b1 - 128); 128 + (b2 - 128)]
      by (repeat f_equal; lia).
    apply u8_3; try lia. exact HS. }
  destruct ((240 <=? b0) && (b0 <=? 244)) eqn:E3; [|apply RE].
  destruct s1 as [|b1 [|b2 [|b3 s4]]]; [apply RE|apply RE|apply RE|]. cbv zeta.
  match goal with |- context [if ?c then (_, 4%nat) else _] => destruct c eqn:E4 end; [|apply RE].
  assert (HS : 65536 <= (b0 - 240) * 262144 + (b1 - 128) * 4096 + (b2 - 128) * 64 + (b3 - 128)
                 <= 1114111
    /\ 128 <= b1 <= 191 /\ 128 <= b2 <= 191 /\ 128 <= b3 <= 191).
  { destruct (b0 =? 240) eqn:?, (b0 =? 244) eqn:?; lia. }
  destruct HS as (HR & Hb1 & Hb2 & Hb3).
  exists ((b0 - 240) * 262144 + (b1 - 128) * 4096 + (b2 - 128) * 64 + (b3 - 128)), 3%nat.
  split; [reflexivity|]. split; [unfold scalar; lia|]. right.
  exists [b0; b1; b2; b3], s4. split; [reflexivity|]. split; [|reflexivity].
  replace ((b0 - 240) * 262144 + (b1 - 128) * 4096 + (b2 - 128) * 64 + (b3 - 128)) with
    (262144 * (b0 - 240) + 4096 * (b1 - 128) + 64 * (b2 - 128) + (b3 - 128)) in * by lia.
  replace [b0; b1; b2; b3] with
    [240 + (b0 - 240); 128 + (b1 - 128); 128 + (b2 - 128); 128 + (b3 - 128)]
    by (repeat f_equal; lia).
  apply u8_4; lia.
Qed.

Lemma runes_skip_skipn n s : runes_skip n s = runes_skip 0 (skipn n s).
Proof.
  revert n. induction s as [|x s IH]; intros n.
  - destruct n; reflexivity.
  - destruct n as [|n]; [reflexivity|]. cbn [runes_skip skipn]. apply IH.
Qed.

Lemma runes_of_step s : Forall is_byte s -> s <> [] ->
  exists r s', runes_of s = r :: runes_of s' /\ scalar r /\ Forall is_byte s' /\
    (length s' < length s)%nat /\
    (r = rune_error \/ exists b, s = b ++ s' /\ utf8_char r b).
Proof.
  intros HB HN. destruct (decode_rune_inv s HB HN) as (r & n & D & HS & HE).
  destruct s as [|x s1]; [contradiction|].
  exists r, (skipn n s1). repeat split.
  - unfold runes_of. change (runes_skip 0 (x :: s1)) with
      (let '(r, k) := decode_rune (x :: s1) in r :: runes_skip (Nat.pred k) s1).
    rewrite D. cbn [Nat.pred]. now rewrite runes_skip_skipn.
  - exact HS.
  - inversion HB; subst. rewrite Forall_forall in *. intros y Hy.
    apply H2. rewrite <- (firstn_skipn n s1). apply in_or_app. now right.
  - rewrite skipn_length. cbn [length]. lia.
  - destruct HE as [HE|(b & s' & E & HC & HL)]; [now left|right].
    exists b. split; [|exact HC]. destruct b as [|y b]; [discriminate|].
    cbn [app] in E. injection E as -> ->. cbn [length] in HL. injection HL as <-.
    cbn [app]. now rewrite skipn_app_exact.
Qed.

Lemma runes_of_strong (P : list Z -> Prop) :
  P [] -> (forall s, Forall is_byte s -> s <> [] ->
            (forall s', (length s' < length s)%nat -> Forall is_byte s' -> P s') -> P s) ->
  forall s, Forall is_byte s -> P s.
Proof.
  intros H0 HS s. remember (length s) as n eqn:E. revert s E.
  induction n as [n IH] using lt_wf_ind. intros s -> HB.
  destruct s as [|x s]; [exact H0|]. apply HS; [assumption|discriminate|].
  intros s' Hlt HB'. exact (IH _ Hlt s' eq_refl HB').
Qed.

Lemma runes_of_scalar s : Forall is_byte s -> Forall scalar (runes_of s).
Proof.
  intros H. pattern s. revert s H. apply runes_of_strong; [constructor|].
  intros s HB HN IH. destruct (runes_of_step s HB HN) as (r & s' & -> & HS & HB' & HL & _).
  constructor; auto.
Qed.

Lemma runes_of_valid s : Forall is_byte s -> ~ In rune_error (runes_of s) ->
  utf8_text (runes_of s) s.
Proof.
  intros H. pattern s. revert s H. apply runes_of_strong; [intros _; constructor|].
  intros s HB HN IH. destruct (runes_of_step s HB HN) as (r & s' & E & HS & HB' & HL & HE).
  rewrite E. intros HI. destruct HE as [->|(b & Eb & HC)].
  - exfalso. apply HI. now left.
  - rewrite Eb. constructor; [exact HC|]. apply IH; try assumption.
    intros HI'. apply HI. now right.
Qed.

(** Valid messages decode to their characters and encode back. *)
Lemma valid_utf8_runes s : valid_utf8 s -> utf8_text (runes_of s) s.
Proof. intros (rs & H). now rewrite (runes_of_text _ _ H). Qed.
Lemma valid_utf8_back s : valid_utf8 s -> utf8_of (runes_of s) = s.
Proof. intros H. apply valid_utf8_runes in H. symmetry. now apply utf8_text_fun. Qed.

(** * UTF-16 *)

Lemma utf16_encode_rune_spec r : scalar r -> utf16_char r (utf16_encode_rune r).
Proof.
  intros H. unfold utf16_encode_rune, in_range, scalar in *.
  destruct (_ || _) eqn:E; [apply u16_1; unfold scalar; lia|].
  btrue ((65536 <=? r) && (r <=? 1114111)).
  replace r with (65536 + 1024 * (((r - 65536) / 1024) mod 1024) + (r - 65536) mod 1024) at 1 by lia.
  apply u16_2; lia.
Qed.

Lemma utf16_char_fun r u : utf16_char r u -> u = utf16_encode_rune r.
Proof.
  intros H. unfold utf16_encode_rune, in_range. destruct H; unfold scalar in *.
  - btrue ((0 <=? r) && (r <=? 55295) || (57344 <=? r) && (r <=? 65535)). reflexivity.
  - set (r := 65536 + 1024 * hi + lo) in *.
    bfalse ((0 <=? r) && (r <=? 55295) || (57344 <=? r) && (r <=? 65535)).
    btrue ((65536 <=? r) && (r <=? 1114111)). f_equal; [lia|f_equal; lia].
Qed.
Lemma utf16_text_encode rs : Forall scalar rs -> utf16_text rs (utf16_encode rs).
Proof.
  induction 1; [constructor|]. cbn [utf16_encode flat_map].
  constructor; [now apply utf16_encode_rune_spec|assumption].
Qed.
Lemma utf16_text_fun rs us : utf16_text rs us -> us = utf16_encode rs.
Proof.
  induction 1 as [|r u rs us Hc Ht IH]; [reflexivity|].
  cbn [utf16_encode flat_map]. rewrite (utf16_char_fun _ _ Hc), IH. reflexivity.
Qed.
Lemma utf16_units rs us : utf16_text rs us -> Forall (fun u => 0 <= u < 65536) us.
Proof.
  induction 1 as [|r u rs us Hc Ht IH]; [constructor|]. apply Forall_app. split; [|assumption].
  destruct Hc; unfold scalar in *; repeat (constructor; [lia|]); constructor.
Qed.

Lemma be_units_encode us : Forall (fun u => 0 <= u < 65536) us ->
  be_units us (flat_map (fun u => [(u / 256) mod 256; u mod 256]) us).
Proof.
  induction 1; [constructor|]. cbn [flat_map app]. constructor; try lia. assumption.
Qed.
Lemma be_units_fun us s : be_units us s ->
  s = flat_map (fun u => [(u / 256) mod 256; u mod 256]) us.
Proof.
  induction 1 as [|u us h l s Hh Hl E HB IH]; [reflexivity|].
  cbn [flat_map app]. rewrite <- IH. f_equal; [lia|f_equal; lia].
Qed.
Lemma be_units_app u1 s1 u2 s2 : be_units u1 s1 -> be_units u2 s2 -> be_units (u1 ++ u2) (s1 ++ s2).
Proof. induction 1; intros; [assumption|]. cbn [app]. constructor; auto. Qed.
Lemma be_units_len us s : be_units us s -> len s = 2 * len us.
Proof. induction 1; [reflexivity|]. rewrite !len_cons. lia. Qed.
Lemma be_units_bytes us s : be_units us s -> Forall is_byte s.
Proof.
  induction 1; [constructor|]. constructor; [unfold is_byte; lia|].
  constructor; [unfold is_byte; lia|assumption].
Qed.

Lemma ucs2_encode_spec rs : Forall scalar rs -> utf16be rs (ucs2_encode rs).
Proof.
  intros H. exists (utf16_encode rs). split; [now apply utf16_text_encode|].
  unfold ucs2_encode. apply be_units_encode. eapply utf16_units. now apply utf16_text_encode.
Qed.
Lemma utf16be_fun rs s : utf16be rs s -> s = ucs2_encode rs.
Proof.
  intros (us & Ht & Hb). unfold ucs2_encode. rewrite <- (utf16_text_fun _ _ Ht).
  now apply be_units_fun.
Qed.
Lemma utf16_char_scalar r u : utf16_char r u -> scalar r.
Proof. destruct 1; unfold scalar in *; lia. Qed.
Lemma utf16be_scalar rs s : utf16be rs s -> Forall scalar rs.
Proof.
  intros (us & Ht & _). induction Ht; constructor; [eapply utf16_char_scalar; eassumption|assumption].
Qed.
Lemma utf16be_bytes rs s : utf16be rs s -> Forall is_byte s.
Proof. intros (us & _ & H). eapply be_units_bytes; eassumption. Qed.

Lemma be_units_inv u us s : be_units (u :: us) s ->
  exists h l s', s = h :: l :: s' /\ 0 <= h < 256 /\ 0 <= l < 256 /\ u = 256 * h + l /\
    be_units us s'.
Proof. intros H. inversion H; subst. eauto 10. Qed.

(** Decoding a well-formed string, with anything after it. *)
Lemma ucs2_loop_text rs us : utf16_text rs us -> forall s, be_units us s -> forall rest,
  ucs2_loop (s ++ rest) =
    {| u2_runes := rs ++ u2_runes (ucs2_loop rest); u2_err := u2_err (ucs2_loop rest) |}.
Proof.
  induction 1 as [|r u rs us Hc Ht IH]; intros s Hb rest.
  - inversion Hb; subst. cbn [app]. now destruct (ucs2_loop rest).
  - destruct Hc as [r Hs Hlt|hi lo Hhi Hlo]; cbn [app] in Hb.
    + inversion Hb as [|? ? h l s' Hh Hl E Hb']; subst. cbn [app ucs2_loop].
      unfold is_surrogate, in_range, scalar in *.
      bfalse ((55296 <=? h * 256 + l) && (h * 256 + l <=? 57343)).
      rewrite (IH s' Hb' rest). cbn [u2_runes u2_err app]. f_equal. f_equal. lia.
    + apply be_units_inv in Hb as (h & l & s' & -> & Hh & Hl & E & Hb').
      apply be_units_inv in Hb' as (h2 & l2 & s2 & -> & Hh2 & Hl2 & E2 & Hb2).
      cbn [app ucs2_loop].
      unfold is_surrogate, utf16_decode_rune, in_range.
      assert (S1 : 55296 <= h * 256 + l <= 56319) by (clear - E Hhi Hh Hl; lia).
      assert (S2 : 56320 <= h2 * 256 + l2 <= 57343) by (clear - E2 Hlo Hh2 Hl2; lia).
      replace ((55296 <=? h * 256 + l) && (h * 256 + l <=? 57343)) with true
        by (clear - S1; lia).
      replace ((55296 <=? h * 256 + l) && (h * 256 + l <=? 56319) &&
             ((56320 <=? h2 * 256 + l2) && (h2 * 256 + l2 <=? 57343))) with true
        by (clear - S1 S2; lia).
      rewrite (IH s2 Hb2 rest). cbn [u2_runes u2_err app]. f_equal. f_equal. lia.
Qed.

Lemma land1_mod n : Z.land n 1 = n mod 2.
Proof. change 1 with (Z.ones 1). now rewrite Z.land_ones by lia. Qed.

Lemma ucs2_decode_loop s : len s mod 2 = 0 -> ucs2_decode s = ucs2_loop s.
Proof.
  intros H. unfold ucs2_decode. destruct (len s =? 0) eqn:E.
  - assert (s = []) by (apply len_0_nil; lia). subst. reflexivity.
  - rewrite land1_mod. bfalse (len s mod 2 =? 1). reflexivity.
Qed.

Lemma utf16be_len rs s : utf16be rs s -> len s mod 2 = 0.
Proof. intros (us & _ & H). apply be_units_len in H. lia. Qed.

Lemma ucs2_decode_text rs s : utf16be rs s ->
  ucs2_decode s = {| u2_runes := rs; u2_err := None |}.
Proof.
  intros H. pose proof (utf16be_len _ _ H). destruct H as (us & Ht & Hb).
  rewrite ucs2_decode_loop by assumption.
  rewrite <- (app_nil_r s), (ucs2_loop_text _ _ Ht _ Hb). cbn. now rewrite app_nil_r.
Qed.

(** C10. *)
Lemma ucs2_loop_err s : Forall is_byte s -> len s mod 2 = 0 ->
  u2_err (ucs2_loop s) = None \/
  exists s0 h l, s = s0 ++ [h; l] /\ is_surrogate (h * 256 + l) = true /\
    u2_err (ucs2_loop s) = Some (Ucs2DanglingSurrogate [h; l]) /\
    ucs2_loop s0 = {| u2_runes := u2_runes (ucs2_loop s); u2_err := None |}.
Proof.
  remember (length s) as n eqn:E. revert s E. induction n as [n IH] using lt_wf_ind.
  intros s -> HB HL. destruct s as [|h [|l s1]]; [now left|now left|].
  inversion HB as [|? ? Hh HB']; subst. inversion HB' as [|? ? Hl HB1]; subst.
  rewrite !len_cons in HL. cbn [ucs2_loop].
  destruct (is_surrogate (h * 256 + l)) eqn:ES.
  - destruct s1 as [|h2 [|l2 s2]].
    + right. exists [], h, l. repeat split; try assumption.
    + exfalso. rewrite len_cons in HL. change (len (@nil Z)) with 0 in HL. lia.
    + rewrite !len_cons in HL. inversion HB1 as [|? ? ? HB2]; subst. inversion HB2; subst.
      destruct (IH (length s2) ltac:(cbn; lia) s2 eq_refl ltac:(assumption) ltac:(lia))
        as [E|(s0 & hh & ll & -> & EL & EE & ED)].
      * left. cbn. exact E.
      * right. exists (h :: l :: h2 :: l2 :: s0), hh, ll. repeat split; try assumption.
        cbn [ucs2_loop]. rewrite ES, ED. reflexivity.
  - destruct (IH (length s1) ltac:(cbn; lia) s1 eq_refl ltac:(assumption) ltac:(lia))
        as [E|(s0 & hh & ll & -> & EL & EE & ED)].
    + left. exact E.
    + right. exists (h :: l :: s0), hh, ll. repeat split; try assumption.
      cbn [ucs2_loop]. rewrite ES, ED. reflexivity.
Qed.

Lemma ucs2_loop_app s0 rest : len s0 mod 2 = 0 -> u2_err (ucs2_loop s0) = None ->
  ucs2_loop (s0 ++ rest) =
    {| u2_runes := u2_runes (ucs2_loop s0) ++ u2_runes (ucs2_loop rest);
       u2_err := u2_err (ucs2_loop rest) |}.
Proof.
  remember (length s0) as n eqn:E. revert s0 E. induction n as [n IH] using lt_wf_ind.
  intros s0 -> HL HE. destruct s0 as [|h [|l s1]].
  - cbn [app ucs2_loop u2_runes]. now destruct (ucs2_loop rest).
  - exfalso. rewrite len_cons in HL. change (len (@nil Z)) with 0 in HL. lia.
  - rewrite !len_cons in HL. cbn [app ucs2_loop] in *.
    destruct (is_surrogate (h * 256 + l)) eqn:ES.
    + destruct s1 as [|h2 [|l2 s2]]; [discriminate| |].
      * exfalso. rewrite len_cons in HL. change (len (@nil Z)) with 0 in HL. lia.
      * rewrite !len_cons in HL. cbn [app u2_err] in *.
        rewrite (IH (length s2) ltac:(cbn; lia) s2 eq_refl ltac:(lia) HE). reflexivity.
    + cbn [u2_err] in HE.
      rewrite (IH (length s1) ltac:(cbn; lia) s1 eq_refl ltac:(lia) HE). reflexivity.
Qed.

Lemma ucs2_decode_errors s : Forall is_byte s ->
  (len s mod 2 = 1 ->
     ucs2_decode s = {| u2_runes := []; u2_err := Some Ucs2InvalidLength |}) /\
  (len s mod 2 = 0 ->
     u2_err (ucs2_decode s) = None \/
     exists s0 h l, s = s0 ++ [h; l] /\ is_surrogate (h * 256 + l) = true /\
       u2_err (ucs2_decode s) = Some (Ucs2DanglingSurrogate [h; l]) /\
       ucs2_decode s0 = {| u2_runes := u2_runes (ucs2_decode s); u2_err := None |}).
Proof.
  intros HB. split; intros HL.
  - unfold ucs2_decode. rewrite land1_mod.
    destruct (len s =? 0) eqn:E; [lia|]. btrue (len s mod 2 =? 1). reflexivity.
  - rewrite ucs2_decode_loop by assumption.
    destruct (ucs2_loop_err s HB HL) as [E|(s0 & h & l & -> & ES & EE & ED)]; [now left|right].
    exists s0, h, l. repeat split; try assumption.
    rewrite ucs2_decode_loop; [assumption|].
    rewrite len_app in HL. change (len [h; l]) with 2 in HL. lia.
Qed.

Lemma ucs2_decode_dangling s0 h l :
  len s0 mod 2 = 0 -> u2_err (ucs2_decode s0) = None -> is_surrogate (h * 256 + l) = true ->
  ucs2_decode (s0 ++ [h; l]) =
    {| u2_runes := u2_runes (ucs2_decode s0); u2_err := Some (Ucs2DanglingSurrogate [h; l]) |}.
Proof.
  intros HL HE HS. rewrite !ucs2_decode_loop in * by
    (rewrite ?len_app; change (len [h; l]) with 2; lia).
  rewrite ucs2_loop_app by assumption. cbn [ucs2_loop]. rewrite HS. cbn [u2_runes u2_err].
  now rewrite app_nil_r.
Qed.

(** * Hex *)
Lemma hex_digit_sweep : forallb (fun n => match from_hex_char (hex_digit n) with
  Some m => (m =? n) | None => false end) (zrange 16) = true.
Proof. vm_compute. reflexivity. Qed.
Lemma from_hex_digit n : 0 <= n < 16 -> from_hex_char (hex_digit n) = Some n.
Proof.
  intros H. pose proof (zrange_sweep _ _ hex_digit_sweep n H) as E. cbn beta in E.
  destruct (from_hex_char (hex_digit n)); [f_equal; lia|discriminate].
Qed.
Lemma hex_roundtrip s : Forall is_byte s -> hex_decode (hex_encode s) = Ok s.
Proof.
  induction 1 as [|b s Hb Hs IH]; [reflexivity|]. unfold is_byte in Hb.
  change (hex_encode (b :: s)) with (hex_digit (b / 16) :: hex_digit (b mod 16) :: hex_encode s).
  cbn [hex_decode]. rewrite !from_hex_digit by lia. rewrite IH. cbn [bind]. do 2 f_equal. lia.
Qed.
Lemma from_hex_range c v : from_hex_char c = Some v -> 0 <= v < 16.
Proof.
  unfold from_hex_char, in_range. repeat match goal with |- context [if ?c then _ else _] =>
    destruct c eqn:? end; intros E; try discriminate; injection E as <-; lia.
Qed.
Lemma hex_decode_safe s :
  (exists b, hex_decode s = Ok b /\ Forall is_byte b /\ len s = 2 * len b) \/
  hex_decode s = Err HexLength \/ exists c, hex_decode s = Err (HexInvalidByte c).
Proof.
  remember (length s) as n eqn:E. revert s E. induction n as [n IH] using lt_wf_ind.
  intros s ->. destruct s as [|c1 [|c2 s]].
  - left. exists []. repeat split; constructor.
  - right. cbn [hex_decode]. destruct (from_hex_char c1); eauto.
  - cbn [hex_decode]. destruct (from_hex_char c1) eqn:E1; [|eauto].
    destruct (from_hex_char c2) eqn:E2; [|eauto].
    apply from_hex_range in E1, E2.
    destruct (IH (length s) ltac:(cbn; lia) s eq_refl) as [(b & -> & HB & HL)|[-> |(c & ->)]];
      cbn [bind]; [left|eauto|eauto].
    eexists. split; [reflexivity|]. split.
    + constructor; [unfold is_byte; lia|assumption].
    + rewrite !len_cons. lia.
Qed.
