(** Lemmas for what the dump says. *)
From Coq Require Import String Ascii.
From Verif Require Import GoBase GoLemmas SafeLemmas Utf UtfProofs Dcs FirstOctet TpduError Address GoTime TimeProofs ValidityPeriod UserData Tpdu
  PduMode Collector CollectorMsgProofs Cmd Print PrintProofs SpecTime SpecDcs SpecShown SpecAccept DumpProofs.

(** ** Lines *)
Lemma made_nil : made_of [] [].
Proof. exists []. now split; [constructor|]. Qed.
Lemma made_cons l (P : bytes -> Prop) ls v r : P v -> made_of ls r -> made_of ((ascii_text l, P) :: ls) (pline l v ++ r).
Proof.
  intros H (xs & F & ->). exists (v :: xs). split; [now constructor|]. unfold pline. cbn [combine map concat fst]. now rewrite <- !app_assoc.
Qed.
Lemma made_app ls ls' r r' : made_of ls r -> made_of ls' r' -> made_of (ls ++ ls') (r ++ r').
Proof.
  intros (xs & F & ->) (xs' & F' & ->). exists (xs ++ xs'). split; [now apply Forall2_app|].
  rewrite <- concat_app, <- map_app. f_equal. f_equal. clear - F. induction F as [|l x ls xs _ _ IH]; [reflexivity|]. cbn [combine app]. now rewrite IH.
Qed.

(** ** Numbers *)
Lemma decimal_dval b : decimal_value b = dval b.
Proof.
  unfold decimal_value, dval. generalize 0. induction b as [|d b IH]; intros a; [reflexivity|]. cbn [fold_left]. rewrite IH. f_equal. lia.
Qed.
Lemma dec_fmt n : 0 <= n -> dec n (fmt_d n).
Proof.
  intros H. destruct (fmt_d_spec n H) as (V & F). split; [apply fmt_d_ne|]. split; [exact F|]. now rewrite decimal_dval.
Qed.
Lemma dec_w_append w n : (0 < w)%nat -> 0 <= n < 10 ^ Z.of_nat w -> dec_w w n (append_int w n).
Proof.
  intros W H. unfold append_int. replace (n <? 0) with false by lia. split; [apply pad_d_length; lia|].
  split; [apply pad_d_digits; lia|]. rewrite decimal_dval. apply pad_d_val. lia.
Qed.
Lemma hex2_fmt n : is_byte n -> hex2 n (fmt_02x n).
Proof.
  intros H. exists (Z.to_nat (n / 16)), (Z.to_nat (n mod 16)), (hex_digit (n / 16)), (hex_digit (n mod 16)).
  assert (X : forall z, 0 <= z < 16 -> (match nth_error (ascii_text "0123456789abcdef") (Z.to_nat z) with Some y => y =? hex_digit z | None => false end) = true)
    by now apply (zrange_sweep 16%nat).
  unfold is_byte in H. split; [lia|]. split; [reflexivity|].
  split; [specialize (X (n / 16) ltac:(lia))|specialize (X (n mod 16) ltac:(lia))]; destruct (nth_error _ _); try discriminate; apply Z.eqb_eq in X; now subst.
Qed.
Lemma flag_fmt (f : Z -> bool) n t : (forall x, f x = Z.testbit x n) -> SpecShown.flag n t (fmt_t (f (FO t))).
Proof. intros H. rewrite H. unfold SpecShown.flag, yes_no, fmt_t. reflexivity. Qed.
Lemma bit_test x n m : 0 <= n -> m = 2 ^ n -> negb (Z.land x m =? 0) = Z.testbit x n.
Proof.
  intros N ->. destruct (Z.testbit x n) eqn:B.
  - apply negb_true_iff, Z.eqb_neq. intros E. apply (f_equal (fun z => Z.testbit z n)) in E.
    rewrite Z.land_spec, Z.pow2_bits_true, B, Z.bits_0 in E by exact N. discriminate E.
  - apply negb_false_iff, Z.eqb_eq. apply Z.bits_inj'. intros k K. rewrite Z.land_spec, Z.bits_0.
    destruct (Z.eq_dec n k) as [->|D]; [now rewrite B|]. rewrite Z.pow2_bits_false by lia. apply andb_false_r.
Qed.

(** ** Times *)
Lemma civil_day n : civil_of_days (Z.of_nat n + -366) = day_of n.
Proof.
  induction n as [|n IH]; [vm_compute; reflexivity|].
  replace (Z.of_nat (S n) + -366) with (Z.of_nat n + -366 + 1) by lia.
  destruct (civil_all (Z.of_nat n + -366)) as (E & _). rewrite E, IH. reflexivity.
Qed.
Lemma day_from_zero y m d : 1 <= m <= 12 -> 1 <= d -> 0 <= y -> -366 <= day_number (y, m, d).
Proof.
  intros M D Y. unfold day_number. assert (0 <= days_before_month (is_leap y) m).
  { apply before_month_small. exact M. }
  unfold days_before_year. assert (-366 <= 365 * (y - 1) + (y - 1) / 4 - (y - 1) / 100 + (y - 1) / 400); [|lia].
  set (p := y - 1). assert (-1 <= p) by lia. assert (p / 100 * 100 <= p) by lia. lia.
Qed.
Lemma time_says t : time_ok t -> time_shown t (ts_string t).
Proof.
  intros (N & Y & q & O & Q). unfold year_of_time in Y. unfold ts_string. destruct (t_date t) as [[y m] d] eqn:ED.
  pose proof (t_date_ok _ _ _ _ ED) as (M & D & DN).
  rewrite O. cbv zeta. replace (60 * q) with (q * 60) by lia. rewrite Z.quot_mul by lia.
  unfold time_shown. fold (t_local t).
  exists y, m, d, (t_hour t), (t_minute t), (t_second t), (Z.abs q / 60), (Z.abs q mod 60).
  exists (append_int 4 y), (append_int 2 m), (append_int 2 d), (append_int 2 (t_hour t)), (append_int 2 (t_minute t)), (append_int 2 (t_second t)),
    (append_int 2 (Z.abs q / 60)), (append_int 2 (Z.abs q mod 60)), (if q <? 0 then str "-" else str "+").
  unfold t_hour, t_minute, t_second.
  split; [reflexivity|]. do 8 (split; [apply dec_w_append; [lia|cbn; lia]|]).
  split.
  { assert (G : -366 <= day_number (y, m, d)) by (apply day_from_zero; lia). rewrite DN in G. unfold unix_epoch_day in G, DN.
    rewrite <- civil_day. unfold t_date, unix_epoch_day in ED. rewrite <- ED. f_equal. lia. }
  split; [lia|]. split; [lia|]. split; [lia|]. split; [lia|].
  destruct (q <? 0) eqn:S; [right|left]; (split; [reflexivity|]); rewrite O; lia.
Qed.

Lemma duration_says d : whole d -> duration_shown d (duration_string d).
Proof.
  intros (s & S & ->). rewrite duration_seconds by exact S. unfold seconds_text.
  exists (s / 3600), (s / 60 mod 60), (s mod 60), (fmt_d (s / 3600)), (fmt_d (s / 60 mod 60)), (fmt_d (s mod 60)).
  split; [lia|]. split; [lia|]. split; [lia|]. split; [lia|]. do 3 (split; [apply dec_fmt; lia|]).
  replace ((0 <? s / 3600) || (0 <? s / 60 mod 60)) with (0 <? s / 60); [reflexivity|].
  destruct (0 <? s / 60) eqn:A, (0 <? s / 3600) eqn:B, (0 <? s / 60 mod 60) eqn:C; try reflexivity; exfalso; lia.
Qed.

(** ** Fields *)
Lemma dcs_says d : is_byte d -> dcs_shown d (dcs_string d).
Proof.
  intros H. exists (fmt_02x d). split; [now apply hex2_fmt|].
  pose proof (zrange_sweep 256 (fun d => eqb_bytes (dcs_string d)
    (ascii_text "0x" ++ fmt_02x d ++ match alphabet_of d with
       | Some 0 => ascii_text " 7bit" | Some 1 => ascii_text " 8bit" | Some 2 => ascii_text " UCS-2" | _ => [] end))
    ltac:(vm_compute; reflexivity) d ltac:(unfold is_byte in H; lia)) as X. cbn beta in X.
  unfold eqb_bytes in X. now destruct (list_eq_dec _ _ _) in X.
Qed.
Lemma pi_says p : is_byte p -> pi_shown p (pi_string p).
Proof.
  intros H. unfold pi_shown.
  pose proof (zrange_sweep 256 (fun p => eqb_bytes (pi_string p) (if p =? 0 then ascii_text "0"
      else nth (Z.to_nat (p mod 8)) [ascii_text ""; ascii_text "PID"; ascii_text "DCS"; ascii_text "PID|DCS"; ascii_text "UDL"; ascii_text "PID|UDL";
        ascii_text "DCS|UDL"; ascii_text "PID|DCS|UDL"] []))
    ltac:(vm_compute; reflexivity) p ltac:(unfold is_byte in H; lia)) as X. cbn beta in X.
  unfold eqb_bytes in X. now destruct (list_eq_dec _ _ _) in X.
Qed.
Lemma mti_says n : 0 <= n <= 2 -> mti_shown n (fmt_02x n ++ str " " ++ mti_string n).
Proof.
  intros H. exists (fmt_02x n). split; [apply hex2_fmt; unfold is_byte; lia|]. f_equal.
  assert (n = 0 \/ n = 1 \/ n = 2) as [-> |[-> | ->]] by lia; reflexivity.
Qed.
Lemma vpf_says f : vpf_shown (f / 8 mod 4) (fmt_02x (fo_vpf f) ++ str " " ++ vpf_string (fo_vpf f)).
Proof.
  assert (fo_vpf f = f / 8 mod 4) as ->.
  { unfold fo_vpf, FoVPFMask, FoVPFShift. rewrite Z.shiftr_land, Z.shiftr_div_pow2 by lia. change (Z.shiftr 24 3) with (Z.ones 2).
    rewrite Z.land_ones by lia. reflexivity. }
  assert (H : 0 <= f / 8 mod 4 < 4) by lia. revert H. generalize (f / 8 mod 4). intros n H.
  exists (fmt_02x n). split; [apply hex2_fmt; unfold is_byte; lia|]. f_equal.
  assert (n = 0 \/ n = 1 \/ n = 2 \/ n = 3) as [-> |[-> |[-> | ->]]] by lia; reflexivity.
Qed.
Lemma vp_says v : vp_shows v -> exists x, vp_shown v x /\ dump_vp v = pline "TP-VP: " x.
Proof.
  intros (F & T & W & B & _). unfold dump_vp, VpfNotPresent, VpfAbsolute, VpfEnhanced, VpfRelative, vp_shown.
  destruct (vp_format v =? 0) eqn:F0; [|destruct (vp_format v =? 3) eqn:F3; [|destruct (vp_format v =? 1) eqn:F1; [|destruct (vp_format v =? 2) eqn:F2; [|lia]]]].
  - exists (ascii_text "Not Present"). split; [left; split; [lia|reflexivity]|reflexivity].
  - exists (ascii_text "Absolute - " ++ ts_string (vp_time v)). split; [|reflexivity].
    right; right; right. split; [lia|]. eexists. split; [now apply time_says|reflexivity].
  - eexists. split.
    + right; left. split; [lia|]. eexists. split; [now apply duration_says|reflexivity].
    + unfold enhanced_format. rewrite <- land7 by (unfold is_byte in B; lia).
      assert (H : 0 <= vp_efi v mod 8 < 8) by lia. revert H. generalize (vp_efi v mod 8). intros n H.
      assert (n = 0 \/ n = 1 \/ n = 2 \/ n = 3 \/ n = 4 \/ n = 5 \/ n = 6 \/ n = 7) as C by lia.
      decompose [or] C; subst n; reflexivity.
  - exists (ascii_text "Relative - " ++ duration_string (vp_duration v)). split; [|reflexivity].
    right; right; left. split; [lia|]. eexists. split; [now apply duration_says|reflexivity].
Qed.
Lemma ie_says i : ie_bytes i -> ie_shown i (dump_ie i).
Proof.
  intros (B & F). exists (fmt_d (ie_id i)), (map fmt_d (ie_data i)). split; [apply dec_fmt; apply B|]. split.
  - induction F as [|b l H _ IH]; constructor; [apply dec_fmt; apply H|exact IH].
  - unfold dump_ie, fmt_v_bytes. f_equal. destruct (ie_data i) as [|b l]; [reflexivity|]. cbn [map].
    change (ascii_text "  Data: [") with (str "  Data: " ++ str "["). rewrite <- !app_assoc. do 2 f_equal. f_equal. f_equal.
    rewrite flat_map_concat_map, map_map. reflexivity.
Qed.

(** ** Octets *)
Lemma nth_error_skipn' {A} n (l : list A) k : nth_error (skipn n l) k = nth_error l (n + k).
Proof.
  revert l. induction n as [|n IH]; intros l; [reflexivity|]. destruct l as [|a l]; [cbn; now destruct k|]. cbn [skipn plus nth_error]. apply IH.
Qed.
Lemma nth_error_firstn' {A} n (l : list A) k : (k < n)%nat -> nth_error (firstn n l) k = nth_error l k.
Proof.
  revert l k. induction n as [|n IH]; intros l k H; [lia|]. destruct l as [|a l]; [now destruct k|]. destruct k as [|k]; [reflexivity|]. cbn. apply IH. lia.
Qed.

Lemma rows_nth fuel : forall d off k, (length d <= fuel)%nat -> (16 * k < length d)%nat ->
  nth_error (dump_rows fuel off d) k = Some (dump_row (off + 16 * Z.of_nat k) (firstn 16 (skipn (16 * k) d))).
Proof.
  induction fuel as [|f IH]; intros d off k L K; [lia|]. cbn [dump_rows]. destruct d as [|a d]; [cbn in K; lia|].
  destruct k as [|k].
  - cbn [nth_error]. f_equal. f_equal. lia.
  - cbn [nth_error]. rewrite IH.
    + f_equal. f_equal; [lia|]. f_equal. replace (16 * S k)%nat with (16 + 16 * k)%nat by lia. generalize (16 * k)%nat. intros m.
      apply nth_error_ext. intros i. now rewrite !nth_error_skipn', Nat.add_assoc.
    + rewrite skipn_length. lia.
    + rewrite skipn_length. lia.
Qed.
Lemma rows_length fuel : forall d off, (length d <= fuel)%nat -> length (dump_rows fuel off d) = ((length d + 15) / 16)%nat.
Proof.
  induction fuel as [|f IH]; intros d off L; [destruct d; [reflexivity|cbn in L; lia]|]. cbn [dump_rows]. destruct d as [|a d]; [reflexivity|].
  cbn [length] in *. rewrite IH by (rewrite skipn_length; cbn [length]; lia). rewrite skipn_length. cbn [length].
  destruct (Nat.le_gt_cases 16 (S (length d))) as [H|H].
  - replace (S (length d) + 15)%nat with (S (length d) - 16 + 15 + 1 * 16)%nat by lia. rewrite Nat.div_add by lia. lia.
  - replace (S (length d) - 16)%nat with 0%nat by lia. change ((0 + 15) / 16)%nat with 0%nat.
    replace (S (length d) + 15)%nat with (length d + 1 * 16)%nat by lia. rewrite Nat.div_add by lia. rewrite Nat.div_small by lia. reflexivity.
Qed.

Definition pair_at (row : bytes) (i : nat) : bytes := match nth_error row i with Some b => fmt_02x b | None => [32; 32] end.
Lemma pair_two row i : exists a b, pair_at row i = [a; b].
Proof. unfold pair_at. destruct (nth_error row i); [|eauto]. unfold fmt_02x. eauto. Qed.
Lemma row_columns off row i o : (i < 16)%nat -> nth_error row i = Some o ->
  firstn 2 (skipn (10 + 3 * i + i / 8) (dump_row off row)) = fmt_02x o /\
  nth_error (dump_row off row) (61 + i) = Some (dump_char o) /\
  firstn 2 (skipn 4 (dump_row off row)) = fmt_02x (off / 256 mod 256) /\
  firstn 2 (skipn 6 (dump_row off row)) = fmt_02x (off mod 256).
Proof.
  intros I N. unfold dump_row. cbn [seq flat_map].
  assert (C : forall k, dump_cell row k = pair_at row k ++ [32] ++ (if Nat.eqb k 7 || Nat.eqb k 15 then [32] else [])) by reflexivity.
  rewrite !C.
  assert (P : pair_at row i = fmt_02x o) by (unfold pair_at; now rewrite N).
  destruct (pair_two row 0) as (a0 & b0 & E0), (pair_two row 1) as (a1 & b1 & E1), (pair_two row 2) as (a2 & b2 & E2), (pair_two row 3) as (a3 & b3 & E3),
    (pair_two row 4) as (a4 & b4 & E4), (pair_two row 5) as (a5 & b5 & E5), (pair_two row 6) as (a6 & b6 & E6), (pair_two row 7) as (a7 & b7 & E7),
    (pair_two row 8) as (a8 & b8 & E8), (pair_two row 9) as (a9 & b9 & E9), (pair_two row 10) as (a10 & b10 & E10), (pair_two row 11) as (a11 & b11 & E11),
    (pair_two row 12) as (a12 & b12 & E12), (pair_two row 13) as (a13 & b13 & E13), (pair_two row 14) as (a14 & b14 & E14), (pair_two row 15) as (a15 & b15 & E15).
  rewrite E0, E1, E2, E3, E4, E5, E6, E7, E8, E9, E10, E11, E12, E13, E14, E15.
  split; [|split; [|split; reflexivity]].
  - do 16 (destruct i as [|i]; [rewrite <- P; match goal with E : pair_at row ?k = _ |- _ = pair_at row ?k => rewrite E; reflexivity end|]). lia.
  - cbn [Nat.eqb orb app]. unfold fmt_08x, fmt_02x. cbn [app]. change (61 + i)%nat with (S (60 + i)). cbn [plus nth_error].
    rewrite nth_error_app1 by (rewrite map_length; apply nth_error_Some; now rewrite N). now apply map_nth_error.
Qed.

Lemma octets_rows d : Forall is_byte d -> row_shows d (dump_rows (length d) 0 d).
Proof.
  intros F. split; [now apply rows_length|]. intros j o N.
  assert (J : (j < length d)%nat) by (apply nth_error_Some; now rewrite N).
  assert (DM : (j = 16 * (j / 16) + j mod 16)%nat) by (apply Nat.div_mod; lia).
  assert (ML : (j mod 16 < 16)%nat) by (apply Nat.mod_upper_bound; lia).
  exists (dump_row (0 + 16 * Z.of_nat (j / 16)) (firstn 16 (skipn (16 * (j / 16)) d))). split; [apply rows_nth; lia|]. cbv zeta.
  assert (O : is_byte o) by (rewrite Forall_forall in F; apply F; now apply nth_error_In in N).
  destruct (row_columns (0 + 16 * Z.of_nat (j / 16)) (firstn 16 (skipn (16 * (j / 16)) d)) (j mod 16) o ML) as (A & B & C & D).
  { rewrite nth_error_firstn' by exact ML. rewrite nth_error_skipn', <- DM. exact N. }
  rewrite A, B, C, D. replace (Z.of_nat (16 * (j / 16))) with (0 + 16 * Z.of_nat (j / 16)) by lia.
  split; [now apply hex2_fmt|]. split; [|split; apply hex2_fmt, is_byte_mod].
  unfold dump_char. f_equal. destruct (o <? 32) eqn:X, (126 <? o) eqn:Y, (32 <=? o) eqn:Z1, (o <=? 126) eqn:Z2; try reflexivity; lia.
Qed.

Lemma dump_lines_indented l r rs : dump_lines l (r :: rs) = pline l (indented (r :: rs)).
Proof.
  cbn [dump_lines indented]. unfold pline. rewrite <- !app_assoc. do 2 f_equal.
  induction rs as [|s rs IH]; [reflexivity|]. cbn [flat_map map concat]. rewrite <- !app_assoc. cbn [app]. f_equal.
  change (ascii_text "       ") with (str "       "). do 2 f_equal. exact IH.
Qed.
Lemma ud_says d : Forall is_byte d -> exists x, octets_shown d x /\ dump_ud d = pline "TP-UD: " x.
Proof.
  intros F. exists (indented (dump_rows (length d) 0 d)). split; [eexists; split; [now apply octets_rows|reflexivity]|].
  unfold dump_ud. rewrite PrintProofs.ud_lines by exact F. destruct (dump_rows (length d) 0 d) as [|r rs]; [reflexivity|]. apply dump_lines_indented.
Qed.
Lemma cd_says d : Forall is_byte d -> exists x, octets_shown_cd d x /\ dump_cd d = pline "TP-CD: " x.
Proof.
  intros F. exists (indented (dump_rows (length d) 0 d ++ [[]])). split; [eexists; split; [now apply octets_rows|reflexivity]|].
  unfold dump_cd, hex_dump. rewrite split_rows by (now apply rows_one_line).
  destruct (dump_rows (length d) 0 d) as [|r rs]; [reflexivity|]. apply dump_lines_indented.
Qed.

Lemma number_says a : number a (addr_number a).
Proof.
  unfold number, addr_number, addr_ton, toa_ton, TonInternational. change 7 with (Z.ones 3).
  rewrite Z.shiftr_div_pow2, Z.land_ones by lia. change (2 ^ 4) with 16. change (2 ^ 3) with 8. now destruct (_ =? 1).
Qed.

(** ** The dump *)
Lemma tail_says t r : udh_bytes (UDH t) -> Forall is_byte (UD t) -> dump_tail t = Ok r -> made_of (SpecShown.ud_lines t) r.
Proof.
  intros H D E. unfold dump_tail in E. unfold SpecShown.ud_lines, header_lines.
  destruct (ud_says (UD t) D) as (x & X & EX).
  assert (L : made_of [(ascii_text "TP-UD: ", octets_shown (UD t))] (dump_ud (UD t))).
  { rewrite EX, <- (app_nil_r (pline "TP-UD: " x)). apply made_cons; [exact X|apply made_nil]. }
  destruct (UDH t) as [h|].
  - apply bind_ok in E as (b & Eb & E). apply ok_inj in E. subst r. unfold dump_udh in Eb. destruct h as [|i l]; [discriminate Eb|].
    cbn [idx] in Eb. apply bind_ok in Eb as (i' & Ei & Eb). apply ok_inj in Eb. subst b.
    assert (i' = i) as -> by (cbn in Ei; now apply ok_inj in Ei). cbn [skipn].
    cbn [udh_bytes] in H. inversion H as [|? ? H1 H2]. subst. apply made_app; [|exact L].
    apply made_cons; [now apply ie_says|]. clear - H2. induction H2 as [|i l H _ IH]; [apply made_nil|]. cbn [flat_map map].
    apply made_cons; [now apply ie_says|exact IH].
  - cbn [bind] in E. apply ok_inj in E. subst r. exact L.
Qed.
Lemma optionals_says t : octet_fields t -> made_of (optional_lines t) (dump_optionals t).
Proof.
  intros (_ & _ & _ & _ & _ & _ & _ & P & D). unfold optional_lines, dump_optionals, pi_pid, pi_dcs, PiPID, PiDCS.
  rewrite (bit_test _ 0), (bit_test _ 1) by (lia || reflexivity).
  apply made_app; (destruct (Z.testbit _ _); [|apply made_nil]); rewrite <- (app_nil_r (pline _ _)); (apply made_cons; [|apply made_nil]).
  - now apply hex2_fmt.
  - now apply dcs_says.
Qed.

Ltac says_flag := match goal with |- SpecShown.flag ?n ?t (fmt_t (?f (FO ?t))) => apply (flag_fmt f n t); intros ?; apply bit_test; [lia|reflexivity] end.
Ltac says := apply made_cons; [first [says_flag | reflexivity | now apply hex2_fmt | exact (mti_says 0 ltac:(lia)) | exact (mti_says 1 ltac:(lia)) | exact (mti_says 2 ltac:(lia)) | apply dec_fmt; apply len_nonneg | (apply dec_fmt; match goal with H : is_byte ?x |- 0 <= ?x => exact (proj1 H) end)
  | now apply dcs_says | now apply pi_says | now apply time_says | apply number_says | apply vpf_says ]|].
Lemma dump_says t d : dumpable t -> dump_text t = Ok d -> made_of (shown_lines t) d.
Proof.
  intros (O & T1 & T2 & V & U & D) E. apply dump_text_body in E as (K & b & Eb & ->).
  pose proof O as (B1 & B2 & B3 & B4 & B5 & B6 & B7 & B8 & B9).
  pose proof (optionals_says t O) as OS.
  unfold shown_lines. destruct K as [K|[K|[K|[K|[K|K]]]]]; rewrite K in *; unfold dump_body in Eb; cbn in Eb.
  all: cbv beta iota delta [Z.eqb SmsDeliver SmsDeliverReport SmsSubmit SmsSubmitReport SmsStatusReport SmsCommand Pos.eqb].
  - unfold dump_deliver in Eb. apply bind_ok in Eb as (r & Er & Eb). apply ok_inj in Eb. subst b.
    unfold dump_mti. rewrite K. repeat says. now apply tail_says.
  - unfold dump_deliver_report in Eb. apply bind_ok in Eb as (r & Er & Eb). apply ok_inj in Eb. subst b.
    unfold dump_mti. rewrite K. repeat says. apply made_app; [exact OS|]. now apply tail_says.
  - unfold dump_submit_report in Eb. apply bind_ok in Eb as (r & Er & Eb). apply ok_inj in Eb. subst b.
    unfold dump_mti. rewrite K. repeat says. apply made_app; [exact OS|]. now apply tail_says.
  - unfold dump_submit in Eb. apply bind_ok in Eb as (r & Er & Eb). apply ok_inj in Eb. subst b.
    unfold dump_mti. rewrite K. repeat says. destruct (vp_says (VP t) V) as (x & X & ->). apply made_cons; [exact X|]. now apply tail_says.
  - unfold dump_status_report in Eb. apply bind_ok in Eb as (r & Er & Eb). apply ok_inj in Eb. subst b.
    unfold dump_mti. rewrite K. repeat says. apply made_app; [exact OS|]. now apply tail_says.
  - unfold dump_command in Eb. apply ok_inj in Eb. subst b.
    unfold dump_mti. rewrite K. repeat says. destruct (cd_says (UD t) D) as (x & X & ->). rewrite <- (app_nil_r (pline _ x)). apply made_cons; [exact X|apply made_nil].
Qed.
