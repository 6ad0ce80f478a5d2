(** Lemmas for C83. *)
From Verif Require Import GoBase GoLemmas SafeLemmas Utf Charset Gsm7 SevenBit Bcd Semioctet TpduError Address GoTime ValidityPeriod UserData PduMode
  SpecDigits SpecTpdu SpecWire SpecRefuse SpecPdu WireProofs RefuseProofs RefuseParts PduExact PartsLeft SpecPartsLeft.

(** [x] is the result when the receiver and number of a failed call are dropped. *)
Definition reported {R} (x : after R) : res (R * Z) :=
  match x with
  | (l, n, Ok _) => Ok (l, n)
  | (_, _, Err e) => Err e
  | (_, _, Panic) => Panic
  | (_, _, Diverge) => Diverge
  end.
Lemma reported_or {R A} (r : R) n (x : res A) k : reported (or_leave r n x k) = (a <- x ;; reported (k a)).
Proof. now destruct x. Qed.
Lemma bind_ext {A B} (x : res A) (f g : A -> res B) : (forall a, f a = g a) -> bind x f = bind x g.
Proof. intros H. destruct x; cbn [bind]; auto. Qed.

Lemma reads_loop src : forall d out ri,
  semi_decode_loop d src out ri = (let '(n, r) := semi_reads_loop d src out ri in o <- r ;; Ok (o, n)).
Proof.
  induction src as [|o src IH]; intros d out ri; cbn [semi_decode_loop semi_reads_loop];
    destruct (negb (len out <? d)); try reflexivity.
  destruct (idx decode_digits (Z.land o 15)) as [lo|e| |] eqn:E1; cbn [bind];
    [|now apply idx_not_err in E1| |now apply idx_not_div in E1].
  - destruct (idx decode_digits (Z.shiftr o 4)) as [hi|e| |] eqn:E2; cbn [bind];
      [|now apply idx_not_err in E2|reflexivity|now apply idx_not_div in E2].
    cbv zeta. set (out' := if negb (lo =? fillF) then out ++ [lo] else out).
    destruct ((len out' =? d) && negb (hi =? fillF)); [reflexivity|].
    destruct (hi =? fillF); [apply IH|]. destruct (len out' <? d); [apply IH|reflexivity].
  - destruct (idx decode_digits (Z.shiftr o 4)); reflexivity.
Qed.
Lemma reads_is d src : semi_decode d src = (let '(n, r) := semi_reads d src in o <- r ;; Ok (o, n)).
Proof. apply reads_loop. Qed.

(** All octets are read if those but the last do not hold as many digits. *)
Lemma reads_all src : forall d out ri n r, len out <= 2 * ri -> 2 * (ri + len src - 1) < d ->
  semi_reads_loop d src out ri = (n, r) -> r <> Panic -> n = ri + len src.
Proof.
  induction src as [|o src IH]; intros d out ri n r L D; cbn [semi_reads_loop]; pose proof (len_nonneg out) as P.
  - change (len []) with 0 in *. destruct (negb (len out <? d)); intros H _; injection H as <- _; lia.
  - pose proof (len_nonneg src). rewrite len_cons in *.
    bfalse (negb (len out <? d)).
    destruct (idx decode_digits (Z.land o 15)) as [lo|e| |]; try (intros H1 H2; injection H1 as <- <-; contradiction).
    destruct (idx decode_digits (Z.shiftr o 4)) as [hi|e| |]; try (intros H1 H2; injection H1 as <- <-; contradiction).
    cbv zeta. set (out' := if negb (lo =? fillF) then out ++ [lo] else out).
    assert (L' : len out' <= len out + 1) by (unfold out'; destruct (negb (lo =? fillF)); [rewrite len_app; change (len [lo]) with 1|]; lia).
    destruct (len out' =? d) eqn:ED; cbn [andb].
    + destruct (negb (hi =? fillF)) eqn:EH.
      * intros H1 _. injection H1 as <- _. apply Z.eqb_eq in ED. lia.
      * destruct (hi =? fillF); [|discriminate]. intros H1 H2. rewrite (IH d out' (ri + 1) n r) by (assumption || lia). lia.
    + destruct (hi =? fillF); [intros H1 H2; rewrite (IH d out' (ri + 1) n r) by (assumption || lia); lia|].
      destruct (len out' <? d); [|intros H1 H2; injection H1 as <- <-; contradiction].
      intros H1 H2. rewrite (IH d (out' ++ [hi]) (ri + 1) n r); try assumption; try lia. rewrite len_app. change (len [hi]) with 1. lia.
Qed.
Lemma reads_whole d src n r : 2 * (len src - 1) < d -> semi_reads d src = (n, r) -> r <> Panic -> n = len src.
Proof. intros D H N. apply (reads_all src d [] 0) in H; [exact H| |lia|exact N]. change (len (A := Z) []) with 0. lia. Qed.

(** ** Addresses *)
Lemma decode_err_septet d u : forall esc e, gsm7_decode_loop d esc u = Err e -> exists g, e = Gsm7InvalidSeptet g.
Proof.
  induction u as [|g u IH]; intros esc e; cbn [gsm7_decode_loop]; [discriminate|].
  assert (R : forall b (k : bytes -> bytes), (rest <- gsm7_decode_loop d b u ;; Ok (k rest)) = Err e -> exists g, e = Gsm7InvalidSeptet g).
  { intros b k H. destruct (gsm7_decode_loop d b u) eqn:E; cbn [bind] in H; try discriminate. apply (IH b). congruence. }
  assert (S : match assoc (gd_set d) g with
        | Some m => rest <- gsm7_decode_loop d false u ;; Ok (encode_rune m ++ rest)
        | None => if gd_strict d then Err (Gsm7InvalidSeptet g)
                  else rest <- gsm7_decode_loop d false u ;; Ok (sp :: rest) end = Err e -> exists g, e = Gsm7InvalidSeptet g).
  { destruct (assoc (gd_set d) g); [apply (R false (fun r => encode_rune z ++ r))|]. destruct (gd_strict d); [intros H; exists g; congruence|]. apply (R false (fun r => sp :: r)). }
  destruct esc.
  - destruct (g =? Gsm7.esc); [apply (R false (fun r => sp :: r))|]. destruct (assoc (gd_ext d) g); [apply (R false (fun r => encode_rune z ++ r))|].
    destruct (gd_strict d); [intros H; exists g; congruence|exact S].
  - destruct (g =? Gsm7.esc); [apply IH|exact S].
Qed.
Lemma semi_err src : forall d out ri e, semi_decode_loop d src out ri = Err e -> e = SemiMissingFill.
Proof.
  induction src as [|o src IH]; intros d out ri e; cbn [semi_decode_loop]; destruct (negb (len out <? d)); try discriminate.
  destruct (idx decode_digits (Z.land o 15)) as [lo|e1| |] eqn:E1; cbn [bind]; try discriminate; [|now apply idx_not_err in E1].
  destruct (idx decode_digits (Z.shiftr o 4)) as [hi|e1| |] eqn:E2; cbn [bind]; try discriminate; [|now apply idx_not_err in E2].
  cbv zeta. destruct (_ && _); [congruence|]. destruct (hi =? fillF); [apply IH|]. destruct (_ <? d); [apply IH|discriminate].
Qed.
Lemma addr_reported a b : reported (addr_left a b) = addr_unmarshal b.
Proof.
  unfold addr_left, addr_unmarshal. destruct (len b <? 2); [reflexivity|].
  rewrite reported_or. apply bind_ext. intros l. cbv zeta. rewrite reported_or. apply bind_ext. intros toa.
  destruct (len b <? 2 + (l + 1) / 2); [reflexivity|]. rewrite reported_or. apply bind_ext. intros body.
  destruct (toa_ton toa =? TonAlphanumeric).
  - rewrite reported_or. apply bind_ext. intros u. rewrite reported_or. now apply bind_ext.
  - rewrite reads_is. destruct (semi_reads l body) as [n r]. rewrite reported_or. replace (2 + n - n) with 2 by lia.
    destruct r as [o|e| |]; cbn [bind on_err]; try reflexivity.
    now destruct (negb (n =? (l + 1) / 2) || (len o <? l)).
Qed.

Lemma addr_left_err a b l n e : addr_left a b = (l, n, Err e) ->
  l = a /\ n = address_number b (reason e).
Proof.
  unfold addr_left, address_number. destruct (len b <? 2) eqn:E2.
  { intros H. injection H as <- <- <-. now split. }
  destruct b as [|x [|toa b]]; [discriminate E2|discriminate E2|]. cbn [hd].
  rewrite idx_0. cbn [or_leave]. change (idx (x :: toa :: b) 1) with (Ok toa). cbn [or_leave]. cbv zeta.
  destruct (len (x :: toa :: b) <? 2 + (x + 1) / 2) eqn:EC.
  { intros H. injection H as <- <- <-. now split. }
  destruct (slice (x :: toa :: b) 2 (2 + (x + 1) / 2)) as [body|e1| |] eqn:ES; cbn [or_leave]; try discriminate;
    [|exfalso; revert ES; unfold slice; destruct (_ && _); discriminate].
  assert (LB : len body = (x + 1) / 2 /\ 0 <= (x + 1) / 2).
  { apply slice_len in ES. pose proof (len_nonneg body). lia. }
  destruct (toa_ton toa =? TonAlphanumeric).
  - destruct (if x <? (len (unpack7bit body 0) * 7 + 3) / 4 then slice (unpack7bit body 0) 0 (len (unpack7bit body 0) - 1) else Ok (unpack7bit body 0)) as [u|e1| |] eqn:EU;
      cbn [or_leave]; try discriminate;
      [|exfalso; revert EU; destruct (x <? _); [unfold slice; destruct (_ && _); discriminate|discriminate]].
    destruct (gsm7_decode addr_gsm7_decoder u) as [v|e1| |] eqn:EG; cbn [or_leave on_err]; try discriminate.
    intros H. injection H as <- <- <-. split; [reflexivity|].
    now destruct (decode_err_septet _ _ _ _ EG) as (g & ->).
  - destruct (semi_reads x body) as [k r] eqn:ER.
    assert (K : r <> Panic -> k = (x + 1) / 2).
    { intros N. rewrite <- (proj1 LB). apply (reads_whole x body k r); [|exact ER|exact N]. lia. }
    destruct r as [o|e1| |]; cbn [or_leave on_err]; try discriminate.
    + rewrite K by discriminate. destruct (negb ((x + 1) / 2 =? (x + 1) / 2) || (len o <? x)); [|discriminate].
      intros H. injection H as <- <- <-. now split.
    + rewrite K by discriminate. intros H. injection H as <- <- <-. split; [reflexivity|].
      pose proof (reads_is x body) as R. rewrite ER in R. cbn [bind] in R. now rewrite (semi_err _ _ _ _ _ R).
Qed.

(** ** Validity periods *)
Lemma fill_reported v src c k : forall n i,
  reported (fill_left v src i n c k) = (_ <- check_fill src i n ;; reported k).
Proof.
  induction n as [|n IH]; intros i; cbn [fill_left check_fill]; [reflexivity|].
  rewrite reported_or. destruct (idx src i) as [b|e| |]; cbn [bind]; try reflexivity.
  destruct (negb (b =? 0)); [reflexivity|apply IH].
Qed.
Lemma enhanced_reported v b : reported (enhanced_left v b) =
  ('(efi, d) <- vp_unmarshal_enhanced b ;; Ok ({| vp_format := vp_format v; vp_time := vp_time v; vp_duration := d; vp_efi := efi |}, 7)).
Proof.
  unfold enhanced_left, vp_unmarshal_enhanced. destruct (len b <? 7); [reflexivity|].
  rewrite reported_or. destruct (idx b 0) as [efi|e| |]; cbn [bind]; try reflexivity. cbv zeta.
  destruct (Z.land efi 7 =? EvpfNotPresent).
  { rewrite fill_reported. cbn [bind]. destruct (check_fill b (0 + 1) (Z.to_nat (6 - 0))); reflexivity. }
  destruct (Z.land efi 7 =? EvpfRelative).
  { rewrite reported_or. destruct (idx b 1); cbn [bind]; try reflexivity. rewrite fill_reported. destruct (check_fill b (1 + 1) (Z.to_nat (6 - 1))); reflexivity. }
  destruct (Z.land efi 7 =? EvpfRelativeSeconds).
  { rewrite reported_or. destruct (idx b 1); cbn [bind]; try reflexivity. rewrite fill_reported. destruct (check_fill b (1 + 1) (Z.to_nat (6 - 1))); reflexivity. }
  destruct (Z.land efi 7 =? EvpfRelativeHHMMSS); [|reflexivity].
  rewrite reported_or. destruct (idx b 1) as [x1| | |]; cbn [bind]; try reflexivity. destruct (on_err (bcd_decode x1) _); cbn [bind]; try reflexivity.
  rewrite reported_or. destruct (idx b 2) as [x2| | |]; cbn [bind]; try reflexivity. destruct (on_err (bcd_decode x2) _); cbn [bind]; try reflexivity.
  rewrite reported_or. destruct (idx b 3) as [x3| | |]; cbn [bind]; try reflexivity. destruct (on_err (bcd_decode x3) _); cbn [bind]; try reflexivity.
  rewrite fill_reported. destruct (check_fill b (3 + 1) (Z.to_nat (6 - 3))); reflexivity.
Qed.
Lemma vp_reported v b f : reported (vp_left v b f) = vp_unmarshal v b f.
Proof.
  unfold vp_left, vp_unmarshal. cbv zeta. destruct (f =? VpfAbsolute); [destruct (ts_unmarshal b); reflexivity|].
  destruct (f =? VpfEnhanced).
  { pose proof (enhanced_reported (with_format v VpfNotPresent) b) as H.
    destruct (enhanced_left (with_format v VpfNotPresent) b) as [[l n] [[]|e| |]]; cbn [reported] in H |- *;
      destruct (vp_unmarshal_enhanced b) as [[efi d]|e1| |]; cbn [bind] in H |- *; try discriminate; try congruence.
    apply ok_pair in H as (-> & ->). reflexivity. }
  destruct (f =? VpfRelative); [destruct (len b <? 1); [reflexivity|]; now destruct (idx b 0)|].
  now destruct (f =? VpfNotPresent).
Qed.

Lemma bcd_err x e : bcd_decode x = Err e -> exists o, e = BcdInvalidOctet o.
Proof. unfold bcd_decode. repeat match goal with |- context [if ?c then _ else _] => destruct c end; intros H; try discriminate; eexists; injection H as <-; reflexivity. Qed.
Lemma fill_left_err v src c l0 n0 : forall n i l m e, fill_left v src i n c (l0, n0, Ok tt) = (l, m, Err e) ->
  l = v /\ m = c /\ reason e = ErrNonZero.
Proof.
  induction n as [|n IH]; intros i l m e; cbn [fill_left]; [discriminate|].
  destruct (idx src i) as [b|e1| |] eqn:E; cbn [or_leave]; try discriminate; [|now apply idx_not_err in E].
  destruct (negb (b =? 0)); [|apply IH]. intros H. injection H as <- <- <-. now repeat split.
Qed.

Lemma land7 x : is_byte x -> Z.land x 7 = x mod 8.
Proof. intros _. change 7 with (Z.ones 3). now rewrite Z.land_ones by lia. Qed.
Lemma enhanced_left_err v b l n e : Forall is_byte b -> enhanced_left v b = (l, n, Err e) ->
  l = v /\ n = period_number 1 b (reason e).
Proof.
  intros HB. unfold enhanced_left, period_number. destruct (len b <? 7) eqn:E7.
  { intros H. injection H as <- <- <-. now split. }
  destruct b as [|x b]; [discriminate E7|]. rewrite idx_0. cbn [or_leave hd]. cbv zeta.
  apply Forall_inv in HB. rewrite land7 by exact HB. set (k := x mod 8).
  assert (FILL : forall d used, in_use k = used ->
    fill_left v (x :: b) (used + 1) (Z.to_nat (6 - used)) (used + 1)
      ({| vp_format := vp_format v; vp_time := vp_time v; vp_duration := d; vp_efi := x |}, 7, Ok tt) = (l, n, Err e) ->
    l = v /\ n = match reason e with ErrInvalid => 7 | BcdInvalidOctet _ => 4 | ErrNonZero => 1 + in_use k | _ => 0 end).
  { intros d used U H. apply fill_left_err in H as (-> & -> & R). split; [reflexivity|]. rewrite R. lia. }
  assert (IDX : forall A (r : res A) c K, (forall e1, r <> Err e1) -> or_leave v c r K = (l, n, Err e) -> exists a, r = Ok a /\ K a = (l, n, Err e)).
  { intros A r c K N H. destruct r as [a|e1| |]; cbn [or_leave] in H; try discriminate; [now exists a|now destruct (N e1)]. }
  destruct (k =? EvpfNotPresent) eqn:K0; [apply Z.eqb_eq in K0; apply FILL; now rewrite K0|].
  destruct (k =? EvpfRelative) eqn:K1.
  { intros H. apply IDX in H as (y & _ & H); [|apply idx_not_err]. apply Z.eqb_eq in K1. revert H. apply FILL. now rewrite K1. }
  destruct (k =? EvpfRelativeSeconds) eqn:K2.
  { intros H. apply IDX in H as (y & _ & H); [|apply idx_not_err]. apply Z.eqb_eq in K2. revert H. apply FILL. now rewrite K2. }
  destruct (k =? EvpfRelativeHHMMSS) eqn:K3.
  2: { intros H. injection H as <- <- <-. now split. }
  assert (DIG : forall i K, or_leave v 4 (y <- idx (x :: b) i ;; on_err (bcd_decode y) (new_decode_error "enhanced" 1)) K = (l, n, Err e) ->
    (l = v /\ n = match reason e with ErrInvalid => 7 | BcdInvalidOctet _ => 4 | ErrNonZero => 1 + in_use k | _ => 0 end) \/ exists a : Z, K a = (l, n, Err e)).
  { intros i K H. destruct (idx (x :: b) i) as [y|e1| |] eqn:EI; cbn [bind or_leave] in H; try discriminate; [|now apply idx_not_err in EI].
    destruct (bcd_decode y) as [a|e1| |] eqn:EB; cbn [on_err or_leave] in H; try discriminate; [right; now exists a|left].
    destruct (bcd_err _ _ EB) as (o & ->). injection H as <- <- <-. now split. }
  intros H. apply DIG in H as [H|(h & H)]; [exact H|]. apply DIG in H as [H|(m & H)]; [exact H|]. apply DIG in H as [H|(s & H)]; [exact H|].
  apply Z.eqb_eq in K3. revert H. apply FILL. now rewrite K3.
Qed.
Lemma vp_left_err v b f l n e : Forall is_byte b -> vp_left v b f = (l, n, Err e) -> absent v l /\ n = period_number f b (reason e).
Proof.
  intros HB. unfold vp_left. cbv zeta.
  assert (A : absent v (with_format v VpfNotPresent)) by now repeat split.
  destruct (f =? VpfAbsolute) eqn:E3.
  { apply Z.eqb_eq in E3 as ->. destruct (ts_unmarshal b); try discriminate. intros H. injection H as <- <- <-. now split. }
  destruct (f =? VpfEnhanced) eqn:E1.
  { apply Z.eqb_eq in E1 as ->. destruct (enhanced_left (with_format v VpfNotPresent) b) as [[l' n'] [[]|e'| |]] eqn:E; try discriminate.
    intros H. injection H as <- <- <-. apply enhanced_left_err in E as (-> & ->); [|exact HB]. now split. }
  destruct (f =? VpfRelative) eqn:E2.
  { apply Z.eqb_eq in E2 as ->. destruct (len b <? 1); [intros H; injection H as <- <- <-; now split|].
    destruct (idx b 0) as [y|e1| |] eqn:EI; cbn [or_leave]; try discriminate. now apply idx_not_err in EI. }
  destruct (f =? VpfNotPresent) eqn:E0; [discriminate|]. intros H. injection H as <- <- <-. split; [exact A|].
  unfold period_number. apply Z.eqb_neq in E3, E1. unfold VpfAbsolute, VpfEnhanced in *.
  destruct f as [|[[]|[]|]|]; try reflexivity; congruence.
Qed.

(** ** Headers *)
Lemma udh_loop_reported h src lim : forall fuel ri ies,
  reported (udh_left_loop fuel h src lim ri ies) =
  (l <- udh_loop fuel src lim ri ;; Ok ((match ies ++ l with [] => None | _ => Some (ies ++ l) end), lim)).
Proof.
  induction fuel as [|fuel IH]; intros ri ies; cbn [udh_left_loop udh_loop]; destruct (negb (ri <? lim)).
  - cbn [bind]. now rewrite app_nil_r.
  - reflexivity.
  - cbn [bind]. now rewrite app_nil_r.
  - destruct (lim <? ri + 2); [reflexivity|]. rewrite reported_or. destruct (idx src ri) as [id|e| |]; cbn [bind]; try reflexivity.
    cbv zeta. rewrite reported_or. destruct (idx src (ri + 1)) as [k|e| |]; cbn [bind]; try reflexivity.
    destruct (len src <? ri + 1 + 1 + k); [reflexivity|]. rewrite reported_or.
    destruct (slice src (ri + 1 + 1) (ri + 1 + 1 + k)) as [d|e| |]; cbn [bind]; try reflexivity. rewrite IH.
    destruct (udh_loop fuel src lim (ri + 1 + 1 + k)) as [l|e| |]; cbn [bind]; try reflexivity. now rewrite <- app_assoc.
Qed.
Lemma udh_reported h b : reported (udh_left h b) = udh_unmarshal b.
Proof.
  unfold udh_left, udh_unmarshal. destruct (len b <? 1); [reflexivity|]. rewrite reported_or. apply bind_ext. intros x. cbv zeta.
  destruct (len b <? x + 1); [reflexivity|]. rewrite udh_loop_reported. now apply bind_ext.
Qed.
Lemma udh_loop_err h src lim : forall fuel ri ies l n e, udh_left_loop fuel h src lim ri ies = (l, n, Err e) ->
  l = h /\ exists part, e = DecodeErr part n ErrUnderflow.
Proof.
  induction fuel as [|fuel IH]; intros ri ies l n e; cbn [udh_left_loop]; destruct (negb (ri <? lim)); try discriminate.
  destruct (lim <? ri + 2); [intros H; injection H as <- <- <-; split; [reflexivity|]; now exists "ie"%string|].
  destruct (idx src ri) as [id|e1| |] eqn:E1; cbn [or_leave]; try discriminate; [|now apply idx_not_err in E1]. cbv zeta.
  destruct (idx src (ri + 1)) as [k|e1| |] eqn:E2; cbn [or_leave]; try discriminate; [|now apply idx_not_err in E2].
  destruct (len src <? ri + 1 + 1 + k); [intros H; injection H as <- <- <-; split; [reflexivity|]; now exists "ied"%string|].
  destruct (slice src (ri + 1 + 1) (ri + 1 + 1 + k)) as [d|e1| |] eqn:E3; cbn [or_leave]; try discriminate; [apply IH|].
  exfalso. revert E3. unfold slice. destruct (_ && _); discriminate.
Qed.
Lemma udh_left_err h b l n e : udh_left h b = (l, n, Err e) -> l = h /\ exists part, e = DecodeErr part n ErrUnderflow.
Proof.
  unfold udh_left. destruct (len b <? 1); [intros H; injection H as <- <- <-; split; [reflexivity|]; now exists "udhl"%string|].
  destruct (idx b 0) as [x|e1| |] eqn:E1; cbn [or_leave]; try discriminate; [|now apply idx_not_err in E1]. cbv zeta.
  destruct (len b <? x + 1); [intros H; injection H as <- <- <-; split; [reflexivity|]; now exists "ie"%string|]. apply udh_loop_err.
Qed.

(** ** Frames *)
Lemma smsc_reported a b : reported (smsc_left a b) = smsc_unmarshal a b.
Proof.
  unfold smsc_left, smsc_unmarshal. destruct (len b <? 1); [reflexivity|].
  rewrite reported_or. apply bind_ext. intros l. cbv zeta. destruct (l =? 0); [reflexivity|]. destruct (len b <? 2); [reflexivity|].
  rewrite reported_or. apply bind_ext. intros toa. destruct (len b <? 2 + (l - 1)); [reflexivity|]. rewrite reported_or. apply bind_ext. intros s.
  rewrite reads_is. destruct (semi_reads ((l - 1) * 2) s) as [n r]. rewrite reported_or. replace (2 + n - n) with 2 by lia.
  destruct r as [o|e| |]; reflexivity.
Qed.
(** There is room for all digits. *)
Lemma reads_room src : forall d out ri n e, len out + 2 * len src <= d -> semi_reads_loop d src out ri <> (n, Err e).
Proof.
  induction src as [|o src IH]; intros d out ri n e L; cbn [semi_reads_loop]; destruct (negb (len out <? d)); try discriminate.
  rewrite len_cons in L. pose proof (len_nonneg src).
  destruct (idx decode_digits (Z.land o 15)) as [lo|e1| |]; try discriminate.
  destruct (idx decode_digits (Z.shiftr o 4)) as [hi|e1| |]; try discriminate.
  cbv zeta. set (out' := if negb (lo =? fillF) then out ++ [lo] else out).
  assert (L' : len out' <= len out + 1) by (unfold out'; destruct (negb (lo =? fillF)); [rewrite len_app; change (len [lo]) with 1|]; lia).
  bfalse (len out' =? d). cbn [andb]. destruct (hi =? fillF); [apply IH; lia|]. destruct (len out' <? d); [|discriminate].
  apply IH. rewrite len_app. change (len [hi]) with 1. lia.
Qed.
Lemma smsc_left_err a b l n e : smsc_left a b = (l, n, Err e) -> l = a /\ n = len b.
Proof.
  unfold smsc_left. destruct (len b <? 1) eqn:E1; [intros H; injection H as <- <- <-; pose proof (len_nonneg b); split; [reflexivity|lia]|].
  destruct (idx b 0) as [x|e1| |] eqn:EI; cbn [or_leave]; try discriminate; [|now apply idx_not_err in EI]. cbv zeta.
  destruct (x =? 0); [discriminate|]. destruct (len b <? 2) eqn:E2; [intros H; injection H as <- <- <-; split; [reflexivity|lia]|].
  destruct (idx b 1) as [toa|e1| |] eqn:EJ; cbn [or_leave]; try discriminate; [|now apply idx_not_err in EJ].
  destruct (len b <? 2 + (x - 1)); [intros H; injection H as <- <- <-; now split|].
  destruct (slice b 2 (2 + (x - 1))) as [s|e1| |] eqn:ES; cbn [or_leave]; try discriminate;
    [|exfalso; revert ES; unfold slice; destruct (_ && _); discriminate].
  destruct (semi_reads ((x - 1) * 2) s) as [k [o|e1| |]] eqn:ER; cbn [or_leave on_err]; try discriminate.
  exfalso. revert ER. apply reads_room. change (len (A := Z) []) with 0. apply slice_len in ES. lia.
Qed.
Lemma pdu_left_is p b :
  match pdu_left p b with
  | (l, Ok _) => pdu_unmarshal_into p b = Ok l
  | (l, Err e) => pdu_unmarshal_into p b = Err e /\ l = p
  | (_, Panic) => pdu_unmarshal_into p b = Panic
  | (_, Diverge) => pdu_unmarshal_into p b = Diverge
  end.
Proof.
  unfold pdu_left, pdu_unmarshal_into. rewrite <- smsc_reported.
  destruct (smsc_left (p_smsc p) b) as [[a n] [[]|e| |]] eqn:E; cbn [reported bind]; try reflexivity.
  - destruct (slice_from b n) eqn:ES; cbn [bind]; try reflexivity. exfalso. revert ES. unfold slice_from, slice. destruct (_ && _); discriminate.
  - split; [reflexivity|]. apply smsc_left_err in E as (-> & _). now destruct p.
Qed.

Lemma smsc_kept a rest : smsc_unmarshal a (0 :: rest) = Ok (a, 1).
Proof.
  unfold smsc_unmarshal. rewrite len_cons. pose proof (len_nonneg rest). replace (1 + len rest <? 1) with false by lia.
  rewrite idx_0. reflexivity.
Qed.
Lemma smsc_number a n toa p rest : Forall is_byte p -> 0 < n -> len p = n - 1 ->
  smsc_unmarshal a ((n :: toa :: p) ++ rest) = Ok ({| a_toa := toa; a_addr := digits_of p |}, 1 + n).
Proof.
  intros HB N L. unfold smsc_unmarshal. pose proof (len_nonneg p). pose proof (len_nonneg rest).
  cbn [app]. rewrite !len_cons, len_app. replace (_ <? 1) with false by lia. change (idx (n :: toa :: p ++ rest) 0) with (Ok n). cbn [bind].
  replace (n =? 0) with false by lia. replace (_ <? 2) with false by lia. change (idx (n :: toa :: p ++ rest) 1) with (Ok toa). cbn [bind].
  replace (_ <? 2 + (n - 1)) with false by lia.
  rewrite (slice_app [n; toa] p rest) by (change (len [n; toa]) with 2; lia). cbn [bind]. replace ((n - 1) * 2) with (len p * 2) by lia.
  rewrite digits_double by exact HB. cbn [on_err bind]. do 2 f_equal. lia.
Qed.
Lemma smsc_refused a src e : frame_refused src e -> smsc_unmarshal a src = Err e.
Proof.
  intros [|n N|n toa p L]; unfold smsc_unmarshal.
  - reflexivity.
  - change (len [n] <? 1) with false. change (idx [n] 0) with (Ok n). cbn [bind]. replace (n =? 0) with false by lia. reflexivity.
  - rewrite !len_cons. pose proof (len_nonneg p). replace (_ <? 1) with false by lia. change (idx (n :: toa :: p) 0) with (Ok n). cbn [bind].
    replace (n =? 0) with false by lia. replace (_ <? 2) with false by lia. change (idx (n :: toa :: p) 1) with (Ok toa). cbn [bind].
    replace (_ <? 2 + (n - 1)) with true by lia. reflexivity.
Qed.
Lemma smsc_cases a src : Forall is_byte src ->
  (exists l n, smsc_renewed a l src n /\ smsc_unmarshal a src = Ok (l, n)) \/
  (exists e, frame_refused src e /\ smsc_unmarshal a src = Err e).
Proof.
  intros HB. destruct (frame_or_refused src HB) as [([c tp] & q & Q & E)|(e & F)].
  - left. cbn [p_smsc p_tpdu] in *. subst src. inversion Q as [E|n toa p N L]; subst.
    + exists a, 1. split; [constructor|apply smsc_kept].
    + exists {| a_toa := toa; a_addr := digits_of p |}, (1 + n). split; [now constructor|].
      apply Forall_app in HB as (HB & _). apply Forall_cons_iff in HB as (_ & HB). apply Forall_cons_iff in HB as (_ & HB). now apply smsc_number.
  - right. exists e. split; [exact F|now apply smsc_refused].
Qed.
Lemma smsc_renewed_complete a l src n : Forall is_byte src -> smsc_renewed a l src n -> smsc_unmarshal a src = Ok (l, n).
Proof.
  intros HB R; revert HB; destruct R as [rest|k toa p rest N L]; intros HB; [apply smsc_kept|].
  apply Forall_app in HB as (HB & _). apply Forall_cons_iff in HB as (_ & HB). apply Forall_cons_iff in HB as (_ & HB). now apply smsc_number.
Qed.
Lemma smsc_renewed_iff a l src n : Forall is_byte src -> smsc_unmarshal a src = Ok (l, n) <-> smsc_renewed a l src n.
Proof.
  intros HB. split; [|now apply smsc_renewed_complete]. intros H.
  destruct (smsc_cases a src HB) as [(l' & n' & R & E)|(e & _ & E)]; rewrite H in E; [|discriminate]. apply ok_pair in E as (-> & ->). exact R.
Qed.
Lemma smsc_refused_iff a src e : Forall is_byte src -> smsc_unmarshal a src = Err e <-> frame_refused src e.
Proof.
  intros HB. split; [|apply smsc_refused]. intros H.
  destruct (smsc_cases a src HB) as [(l' & n' & R & E)|(e' & F & E)]; rewrite H in E; [discriminate|]. assert (e = e') as -> by congruence. exact F.
Qed.

Lemma period_format f z q : period_octets f z q -> vp_format z = f.
Proof. now intros []. Qed.
Lemma vp_renewed v b f l n : Forall is_byte b ->
  (vp_unmarshal v b f = Ok (l, n) <-> exists z q r, b = q ++ r /\ period_octets f z q /\ renewed v z l /\ n = len q).
Proof.
  intros HB.
  assert (T : vp_unmarshal v b f = Ok (l, n) <-> exists z, vp_unmarshal vp_zero b f = Ok (z, n) /\ renewed v z l).
  { unfold vp_unmarshal. destruct l as [lf lt ld le].
    destruct (f =? VpfAbsolute) eqn:F3.
    { apply Z.eqb_eq in F3 as ->. destruct (ts_unmarshal b) as [t|e| |]; cbn [bind]; try (split; [discriminate|intros (z & H & _); discriminate]).
      split.
      - intros H. apply ok_pair in H as (H & <-). injection H as <- <- <- <-. eexists. split; [reflexivity|]. now repeat split.
      - intros (z & H & R). apply ok_pair in H as (<- & <-). destruct R as (R1 & R2 & R3 & R4). cbn in R1, R2, R3, R4. now subst. }
    destruct (f =? VpfEnhanced) eqn:F1.
    { apply Z.eqb_eq in F1 as ->. destruct (vp_unmarshal_enhanced b) as [[efi d]|e| |]; cbn [bind]; try (split; [discriminate|intros (z & H & _); discriminate]).
      split.
      - intros H. apply ok_pair in H as (H & <-). injection H as <- <- <- <-. eexists. split; [reflexivity|]. now repeat split.
      - intros (z & H & R). apply ok_pair in H as (<- & <-). destruct R as (R1 & R2 & R3 & R4). cbn in R1, R2, R3, R4. now subst. }
    destruct (f =? VpfRelative) eqn:F2.
    { apply Z.eqb_eq in F2 as ->. destruct (len b <? 1); [split; [discriminate|intros (z & H & _); discriminate]|].
      destruct (idx b 0) as [x|e| |]; cbn [bind]; try (split; [discriminate|intros (z & H & _); discriminate]).
      set (dd := relative_to_duration x) in *. clearbody dd. split.
      - intros H. apply ok_pair in H as (H & <-). injection H as <- <- <- <-. eexists. split; [reflexivity|]. now repeat split.
      - intros (z & H & R). apply ok_pair in H as (<- & <-). destruct R as (R1 & R2 & R3 & R4). cbn in R1, R2, R3, R4. now subst. }
    destruct (f =? VpfNotPresent); [|split; [discriminate|intros (z & H & _); discriminate]].
    split.
    - intros H. apply ok_pair in H as (H & <-). injection H as <- <- <- <-. eexists. split; [reflexivity|]. now repeat split.
    - intros (z & H & R). apply ok_pair in H as (<- & <-). destruct R as (R1 & R2 & R3 & R4). cbn in R1, R2, R3, R4. now subst. }
  rewrite T. destruct (Z_lt_le_dec f 0) as [L|L]; [|destruct (Z_lt_le_dec f 4) as [G|G]].
  2: { split.
    - intros (z & H & R). apply period_iff in H as (q & r & E & P & N); [|exact HB|lia]. now exists z, q, r.
    - intros (z & q & r & E & P & R & N). exists z. split; [|exact R]. apply period_iff; [exact HB|lia|]. now exists q, r. }
  all: split; [intros (z & H & _); revert H; unfold vp_unmarshal, VpfAbsolute, VpfEnhanced, VpfRelative, VpfNotPresent;
       bfalse (f =? 3); bfalse (f =? 1); bfalse (f =? 2); bfalse (f =? 0); discriminate
      |intros (z & q & r & _ & P & _); exfalso; inversion P; lia].
Qed.
