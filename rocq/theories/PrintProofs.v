(** Proofs about the dump of cmd/smsdecode. *)
From Coq Require Import String Ascii.
From Verif Require Import GoBase GoLemmas SafeLemmas Utf UtfProofs Dcs FirstOctet TpduError Address GoTime
  ValidityPeriod UserData Tpdu SegmentProofs SpecDigits SpecSegment SpecTime SpecVP SpecTpdu TimeProofs VPProofs TpduSafeProofs
  TpduLeft SpecLeft LeftProofs SpecAccept AcceptProofs PduMode PduModeProofs Collector CollectorMsgProofs Cmd CmdProofs
  Print SpecPrint.

(** ** Lines *)
Definition one_line (l : bytes) : Prop := Forall (fun c => c <> 10) l.

Lemma one_line_in l : one_line l -> ~ In 10 l.
Proof. intros H I. unfold one_line in H. rewrite Forall_forall in H. now apply (H 10). Qed.
Lemma one_line_app a b : one_line a -> one_line b -> one_line (a ++ b).
Proof. intros. apply Forall_app. now split. Qed.
Lemma one_line_cons c b : c <> 10 -> one_line b -> one_line (c :: b).
Proof. intros. constructor; assumption. Qed.
Lemma one_line_nil : one_line []. Proof. constructor. Qed.

Definition no_lf (s : string) : bool := forallb (fun c => negb (c =? 10)) (str s).
Lemma one_line_str s : no_lf s = true -> one_line (str s).
Proof.
  intros H. unfold no_lf in H. rewrite forallb_forall in H. apply Forall_forall. intros c I.
  apply H in I. lia.
Qed.
Ltac lit := apply one_line_str; reflexivity.

(** A line is delimited by its end. *)
Lemma pline_inj l v v' x x' : one_line v -> one_line v' -> pline l v ++ x = pline l v' ++ x' -> v = v' /\ x = x'.
Proof.
  unfold pline. intros H H' E. rewrite <- !app_assoc in E. apply app_inv_head in E. cbn [app] in E.
  apply split_first in E; [assumption|now apply one_line_in..].
Qed.

(** ** Numbers *)
Definition digits (l : bytes) : Prop := Forall (fun d => 48 <= d <= 57) l.
Lemma digits_one_line l : digits l -> one_line l.
Proof. intros H. eapply Forall_impl; [|exact H]. cbn. intros. lia. Qed.
Lemma digits_not l c : digits l -> (c < 48 \/ 57 < c) -> ~ In c l.
Proof. intros H C I. unfold digits in H. rewrite Forall_forall in H. apply H in I. lia. Qed.
Lemma fmt_d_digits n : 0 <= n -> digits (fmt_d n).
Proof. intros H. apply fmt_d_spec, H. Qed.
Lemma fmt_d_one_line n : 0 <= n -> one_line (fmt_d n).
Proof. intros. now apply digits_one_line, fmt_d_digits. Qed.

Lemma byte_one_line b : is_byte b -> one_line (fmt_02x b).
Proof.
  intros H. pose proof (zrange_sweep 256 (fun b => forallb (fun c => negb (c =? 10)) (fmt_02x b)) ltac:(vm_compute; reflexivity) b
    ltac:(unfold is_byte in H; lia)) as E. cbn beta in E. rewrite forallb_forall in E.
  apply Forall_forall. intros c I. apply E in I. lia.
Qed.

Lemma dval_zeros k l : dval (repeat 48 k ++ l) = dval l.
Proof.
  induction k as [|k IH]; [reflexivity|]. exact IH.
Qed.
Lemma pad_d_val w n : 0 <= n -> dval (pad_d w n) = n.
Proof. intros H. unfold pad_d. rewrite dval_zeros. now apply fmt_d_spec. Qed.
Lemma pad_d_digits w n : 0 <= n -> digits (pad_d w n).
Proof.
  intros H. unfold pad_d, digits. apply Forall_app. split; [|now apply fmt_d_digits].
  apply Forall_forall. intros c I. apply repeat_spec in I. lia.
Qed.

Lemma dec_loop_length fuel : forall n acc k, 0 <= n < 10 ^ Z.of_nat k -> (0 < k)%nat ->
  (length (dec_loop fuel n acc) <= k + length acc)%nat.
Proof.
  induction fuel as [|f IH]; intros n acc k HN HK; cbn [dec_loop]; [lia|].
  destruct (n <? 10) eqn:E; [cbn [length]; lia|].
  destruct k as [|[|k]]; [lia|change (10 ^ Z.of_nat 1) with 10 in HN; lia|].
  assert (HP : 10 ^ Z.of_nat (S (S k)) = 10 * 10 ^ Z.of_nat (S k)) by (rewrite (Nat2Z.inj_succ (S k)), Z.pow_succ_r; lia).
  pose proof (IH (n / 10) (48 + n mod 10 :: acc) (S k) ltac:(lia) ltac:(lia)) as X. cbn [length] in X. lia.
Qed.
Lemma pad_d_length w n : 0 <= n < 10 ^ Z.of_nat w -> (0 < w)%nat -> length (pad_d w n) = w.
Proof.
  intros H HW. unfold pad_d. rewrite app_length, repeat_length.
  assert (length (fmt_d n) <= w)%nat; [|lia].
  unfold fmt_d. pose proof (dec_loop_length (S (Z.to_nat (Z.log2 n))) n [] w H HW) as X. cbn [length] in X. lia.
Qed.

Lemma app_inv_len {A} (a a' x x' : list A) : length a = length a' -> a ++ x = a' ++ x' -> a = a' /\ x = x'.
Proof.
  revert a'. induction a as [|c a IH]; intros [|c' a'] L E; try discriminate; [auto|].
  cbn in *. injection E as -> E. apply IH in E as [-> ->]; auto.
Qed.

(** A fixed number of digits, in front. *)
Lemma append_int_front w n n' x x' : (0 < w)%nat -> 0 <= n < 10 ^ Z.of_nat w -> 0 <= n' < 10 ^ Z.of_nat w ->
  append_int w n ++ x = append_int w n' ++ x' -> n = n' /\ x = x'.
Proof.
  intros HW H H' E. unfold append_int in E. replace (n <? 0) with false in E by lia.
  replace (n' <? 0) with false in E by lia.
  apply app_inv_len in E as [E ->]; [|now rewrite !pad_d_length].
  split; [|reflexivity]. apply (f_equal dval) in E. rewrite !pad_d_val in E; lia.
Qed.
Lemma append_int_one_line w n : 0 <= n -> one_line (append_int w n).
Proof.
  intros H. unfold append_int. replace (n <? 0) with false by lia. now apply digits_one_line, pad_d_digits.
Qed.

(** ** Times *)
Definition year_of_time (t : gotime) : Z := let '(y, _, _) := t_date t in y.
Definition time_ok (t : gotime) : Prop :=
  t_nsec t = 0 /\ 0 <= year_of_time t <= 9999 /\ exists q, t_off t = 60 * q /\ -5999 <= q <= 5999.

Lemma t_date_ok t y m d : t_date t = (y, m, d) ->
  1 <= m <= 12 /\ 1 <= d <= 31 /\ day_number (y, m, d) = t_local t / 86400 + unix_epoch_day.
Proof.
  intros E. unfold t_date in E. destruct (civil_all (t_local t / 86400 + unix_epoch_day)) as (_ & O & D).
  rewrite E in O, D. cbn [date_ok] in O.
  split; [lia|]. split; [|exact D].
  assert (month_len y m <= 31); [|lia]. rewrite month_len_mlen. 
  pose proof (zrange_sweep 13 (fun m => (mlen true m <=? 31) && (mlen false m <=? 31)) ltac:(vm_compute; reflexivity) m ltac:(lia)) as X.
  cbn beta in X. destruct (is_leap y); lia.
Qed.

Lemma ts_string_inj t t' x x' : time_ok t -> time_ok t' -> ts_string t ++ x = ts_string t' ++ x' -> t = t' /\ x = x'.
Proof.
  intros (N & Y & q & O & Q) (N' & Y' & q' & O' & Q') E. unfold year_of_time in *. unfold ts_string in E.
  destruct (t_date t) as [[y m] d] eqn:ED. destruct (t_date t') as [[y' m'] d'] eqn:ED'.
  pose proof (t_date_ok _ _ _ _ ED) as (M & D & DN). pose proof (t_date_ok _ _ _ _ ED') as (M' & D' & DN').
  rewrite O, O' in E. cbv zeta in E.
  replace (60 * q) with (q * 60) in E by lia. replace (60 * q') with (q' * 60) in E by lia.
  rewrite !Z.quot_mul in E by lia.
  unfold t_hour, t_minute, t_second in E.
  set (u := t_local t) in *. set (u' := t_local t') in *.
  rewrite <- !app_assoc in E.
  apply append_int_front in E as [Ey E]; [|lia|cbn; lia|cbn; lia]. apply app_inv_head in E.
  apply append_int_front in E as [Em E]; [|lia|cbn; lia|cbn; lia]. apply app_inv_head in E.
  apply append_int_front in E as [Ed E]; [|lia|cbn; lia|cbn; lia]. apply app_inv_head in E.
  apply append_int_front in E as [Eh E]; [|lia|cbn; lia|cbn; lia]. apply app_inv_head in E.
  apply append_int_front in E as [Emi E]; [|lia|cbn; lia|cbn; lia]. apply app_inv_head in E.
  apply append_int_front in E as [Es E]; [|lia|cbn; lia|cbn; lia]. apply app_inv_head in E.
  assert (HQ : q = q' /\ x = x').
  { destruct (q <? 0) eqn:S1, (q' <? 0) eqn:S2; try (exfalso; cbn in E; injection E; intros; discriminate).
    - apply app_inv_head in E. apply append_int_front in E as [E1 E]; [|lia|cbn; lia|cbn; lia].
      apply append_int_front in E as [E2 E]; [|lia|cbn; lia|cbn; lia]. split; [lia|assumption].
    - apply app_inv_head in E. apply append_int_front in E as [E1 E]; [|lia|cbn; lia|cbn; lia].
      apply append_int_front in E as [E2 E]; [|lia|cbn; lia|cbn; lia]. split; [lia|assumption]. }
  destruct HQ as [-> ->]. split; [|reflexivity].
  subst y' m' d'. rewrite DN in DN'.
  assert (EU : u = u') by lia. subst u u'. unfold t_local in EU.
  destruct t as [a b c], t' as [a' b' c']. cbn in *. f_equal; lia.
Qed.

Lemma ts_string_one_line t : time_ok t -> one_line (ts_string t).
Proof.
  intros (N & Y & q & O & Q). unfold year_of_time in Y. unfold ts_string. destruct (t_date t) as [[y m] d] eqn:ED.
  pose proof (t_date_ok _ _ _ _ ED) as (M & D & DN). unfold t_hour, t_minute, t_second. cbv zeta.
  destruct (Z.quot (t_off t) 60 <? 0);
  repeat first [apply one_line_app|apply append_int_one_line|lit]; lia.
Qed.

(** ** Durations *)
(** A duration of whole seconds. *)
Definition seconds_text (s : Z) : bytes :=
  (if 0 <? s / 3600 then fmt_d (s / 3600) ++ str "h" else []) ++
  (if 0 <? s / 60 then fmt_d (s / 60 mod 60) ++ str "m" else []) ++
  fmt_d (s mod 60) ++ str "s".

Lemma frac_zero prec : forall v acc, frac_loop prec (v * 10 ^ Z.of_nat prec) false acc = (acc, v, false).
Proof.
  induction prec as [|p IH]; intros v acc; cbn [frac_loop].
  - change (10 ^ Z.of_nat 0) with 1. now rewrite Z.mul_1_r.
  - replace (10 ^ Z.of_nat (S p)) with (10 ^ Z.of_nat p * 10)
      by (rewrite (Nat2Z.inj_succ p), Z.pow_succ_r; lia).
    rewrite Z.mul_assoc, Z.mod_mul, Z.div_mul by lia. cbn [Z.eqb negb orb]. apply IH.
Qed.

Lemma duration_seconds s : 0 <= s -> duration_string (s * 1000000000) = seconds_text s.
Proof.
  intros H. unfold duration_string, seconds_text. cbv zeta. replace (s * 1000000000 <? 0) with false by lia.
  rewrite Z.abs_eq by lia. cbn [andb]. destruct (Z.eq_dec s 0) as [->|]; [reflexivity|].
  replace (s * 1000000000 <? 1000000000) with false by lia.
  unfold fmt_frac. change 1000000000 with (10 ^ Z.of_nat 9). rewrite frac_zero.
  replace (s / 60 / 60) with (s / 3600) by lia.
  destruct (0 <? s / 60) eqn:E1.
  - destruct (0 <? s / 3600); rewrite <- ?app_assoc; reflexivity.
  - replace (0 <? s / 3600) with false by lia. reflexivity.
Qed.

Lemma seconds_text_inj s s' : 0 <= s -> 0 <= s' -> seconds_text s = seconds_text s' -> s = s'.
Proof.
  intros H H' E. unfold seconds_text in E.
  assert (D1 : digits (fmt_d (s mod 60))) by (apply fmt_d_digits; lia).
  assert (D2 : digits (fmt_d (s' mod 60))) by (apply fmt_d_digits; lia).
  assert (D3 : digits (fmt_d (s / 60 mod 60))) by (apply fmt_d_digits; lia).
  assert (D4 : digits (fmt_d (s' / 60 mod 60))) by (apply fmt_d_digits; lia).
  assert (D5 : digits (fmt_d (s / 3600))) by (apply fmt_d_digits; lia).
  assert (D6 : digits (fmt_d (s' / 3600))) by (apply fmt_d_digits; lia).
  change (str "h") with [104] in E. change (str "m") with [109] in E. change (str "s") with [115] in E.
  assert (NI : forall c l r, digits l -> (c < 48 \/ 57 < c) -> ~ In c r -> ~ In c (l ++ r)).
  { intros c l r D C N I. apply in_app_or in I as [I|I]; [now apply (digits_not l c D C)|tauto]. }
  assert (NS : forall c, c <> 115 -> ~ In c [115]) by (intros c C [I|[]]; lia).
  assert (NM : forall (b : bool) l r, digits l -> digits r -> ~ In 104 ((if b then l ++ [109] else []) ++ r ++ [115])).
  { intros b l r Dl Dr. destruct b; [rewrite <- app_assoc; cbn [app]|cbn [app]].
    - apply NI; [assumption|lia|]. intros [I|I]; [lia|]. revert I. apply NI; [assumption|lia|]. apply NS. lia.
    - apply NI; [assumption|lia|]. apply NS. lia. }
  assert (EH : s / 3600 = s' / 3600 /\
    (if 0 <? s / 60 then fmt_d (s / 60 mod 60) ++ [109] else []) ++ fmt_d (s mod 60) ++ [115] =
    (if 0 <? s' / 60 then fmt_d (s' / 60 mod 60) ++ [109] else []) ++ fmt_d (s' mod 60) ++ [115]).
  { destruct (0 <? s / 3600) eqn:B1, (0 <? s' / 3600) eqn:B2.
    - rewrite <- !app_assoc in E. cbn [app] in E.
      apply split_first in E as [E1 E2]; [|apply digits_not; [assumption|lia]..].
      apply fmt_d_inj in E1; [|lia..]. split; [exact E1|]. exact E2.
    - exfalso. apply (NM (0 <? s' / 60) (fmt_d (s' / 60 mod 60)) (fmt_d (s' mod 60))); try assumption.
      cbn [app] in E. rewrite <- E. rewrite <- app_assoc. cbn [app]. apply in_or_app. right. now left.
    - exfalso. apply (NM (0 <? s / 60) (fmt_d (s / 60 mod 60)) (fmt_d (s mod 60))); try assumption.
      cbn [app] in E. rewrite E. rewrite <- app_assoc. cbn [app]. apply in_or_app. right. now left.
    - cbn [app] in E. split; [lia|exact E]. }
  clear E. destruct EH as [EH E].
  assert (EM : s / 60 mod 60 = s' / 60 mod 60 /\ fmt_d (s mod 60) ++ [115] = fmt_d (s' mod 60) ++ [115]).
  { assert (N1 : forall r, digits r -> ~ In 109 (r ++ [115])).
    { intros r D. apply NI; [assumption|lia|]. apply NS. lia. }
    destruct (0 <? s / 60) eqn:B1, (0 <? s' / 60) eqn:B2.
    - rewrite <- !app_assoc in E. cbn [app] in E.
      apply split_first in E as [E1 E2]; [|apply digits_not; [assumption|lia]..].
      apply fmt_d_inj in E1; [|lia..]. split; [exact E1|]. exact E2.
    - exfalso. apply (N1 _ D2). cbn [app] in E. rewrite <- E. rewrite <- app_assoc. cbn [app]. apply in_or_app. right. now left.
    - exfalso. apply (N1 _ D1). cbn [app] in E. rewrite E. rewrite <- app_assoc. cbn [app]. apply in_or_app. right. now left.
    - cbn [app] in E. split; [lia|exact E]. }
  destruct EM as [EM E2]. apply app_inv_tail in E2. apply fmt_d_inj in E2; lia.
Qed.

Definition whole (d : Z) : Prop := exists s, 0 <= s /\ d = s * 1000000000.
Lemma duration_inj d d' : whole d -> whole d' -> duration_string d = duration_string d' -> d = d'.
Proof.
  intros (s & H & ->) (s' & H' & ->) E. rewrite !duration_seconds in E by assumption.
  apply seconds_text_inj in E; congruence.
Qed.
Lemma duration_one_line d : whole d -> one_line (duration_string d).
Proof.
  intros (s & H & ->). rewrite duration_seconds by assumption. unfold seconds_text.
  destruct (0 <? s / 3600), (0 <? s / 60);
  repeat first [apply one_line_app|apply one_line_nil|apply fmt_d_one_line|lit]; lia.
Qed.

(** ** Short strings *)
Lemma fmt_t_inj a b : fmt_t a = fmt_t b -> a = b.
Proof. destruct a, b; cbn; congruence. Qed.
Lemma fmt_t_one_line a : one_line (fmt_t a).
Proof. destruct a; lit. Qed.

Definition eqb_bytes (a b : bytes) : bool := if list_eq_dec Z.eq_dec a b then true else false.
Lemma one_line_forallb l : forallb (fun c => negb (c =? 10)) l = true -> one_line l.
Proof. intros E. rewrite forallb_forall in E. apply Forall_forall. intros c I. apply E in I. lia. Qed.

Lemma dcs_one_line d : is_byte d -> one_line (dcs_string d).
Proof.
  intros H. apply one_line_forallb.
  exact (zrange_sweep 256 (fun d => forallb (fun c => negb (c =? 10)) (dcs_string d)) ltac:(vm_compute; reflexivity) d
    ltac:(unfold is_byte in H; lia)).
Qed.
Lemma dcs_inj d d' : is_byte d -> is_byte d' -> dcs_string d = dcs_string d' -> d = d'.
Proof.
  intros H H' E. apply fmt_02x_inj; [assumption..|]. unfold dcs_string in E.
  assert (E2 : firstn 4 (dcs_string d) = firstn 4 (dcs_string d')) by (unfold dcs_string; now rewrite E).
  assert (X : forall z, is_byte z -> firstn 4 (dcs_string z) = str "0x" ++ fmt_02x z).
  { intros z _. unfold dcs_string. destruct (dcs_alphabet z); reflexivity. }
  rewrite !X in E2 by assumption. now apply app_inv_head in E2.
Qed.

Lemma pi_one_line p : one_line (pi_string p).
Proof. unfold pi_string. destruct (p =? 0); [lit|]. destruct (pi_pid p), (pi_dcs p), (pi_udl p); now apply one_line_forallb. Qed.
Lemma pi_inj p p' : pi_string p = pi_string p' ->
  (p = 0 <-> p' = 0) /\ pi_pid p = pi_pid p' /\ pi_dcs p = pi_dcs p' /\ pi_udl p = pi_udl p'.
Proof.
  unfold pi_string. destruct (p =? 0) eqn:Z1, (p' =? 0) eqn:Z2.
  - intros _. assert (p = p') as -> by lia. tauto.
  - destruct (pi_pid p'), (pi_dcs p'), (pi_udl p'); discriminate.
  - destruct (pi_pid p), (pi_dcs p), (pi_udl p); discriminate.
  - intros E. split; [lia|]. destruct (pi_pid p'), (pi_dcs p'), (pi_udl p'), (pi_pid p), (pi_dcs p), (pi_udl p);
    try discriminate; tauto.
Qed.

Lemma vpf_one_line f : one_line (vpf_string f).
Proof. unfold vpf_string. repeat match goal with |- context [if ?c then _ else _] => destruct c end; lit. Qed.
Lemma mti_one_line f : one_line (mti_string f).
Proof. unfold mti_string. repeat match goal with |- context [if ?c then _ else _] => destruct c end; lit. Qed.
Lemma evpf_one_line f : one_line (evpf_string f).
Proof. unfold evpf_string. repeat match goal with |- context [if ?c then _ else _] => destruct c end; lit. Qed.

(** ** hex.Dump *)
Lemma Forall_firstn' {A} (P : A -> Prop) n l : Forall P l -> Forall P (firstn n l).
Proof. intros H. revert n. induction H; intros [|n]; cbn; constructor; auto. Qed.
Lemma Forall_skipn' {A} (P : A -> Prop) n l : Forall P l -> Forall P (skipn n l).
Proof. intros H. revert n. induction H; intros [|n]; cbn; auto. Qed.
Lemma hexdigit_char b : is_byte b -> exists x y, fmt_02x b = [x; y] /\ x <> 10 /\ y <> 10 /\ is_space x = false.
Proof.
  intros H. exists (hex_digit (b / 16)), (hex_digit (b mod 16)). split; [reflexivity|].
  pose proof (zrange_sweep 256 (fun b => negb (hex_digit (b / 16) =? 10) && negb (hex_digit (b mod 16) =? 10) &&
    negb (is_space (hex_digit (b / 16)))) ltac:(vm_compute; reflexivity) b
    ltac:(unfold is_byte in H; lia)) as E. cbn beta in E.
  apply andb_prop in E as [E E3]. apply andb_prop in E as [E1 E2]. split; [lia|]. split; [lia|].
  destruct (is_space (hex_digit (b / 16))); [discriminate|reflexivity].
Qed.

Lemma nth_byte (row : bytes) i b : Forall is_byte row -> nth_error row i = Some b -> is_byte b.
Proof. intros H E. apply nth_error_In in E. rewrite Forall_forall in H. auto. Qed.

Lemma cell_front row row' i x x' : Forall is_byte row -> Forall is_byte row' ->
  dump_cell row i ++ x = dump_cell row' i ++ x' -> nth_error row i = nth_error row' i /\ x = x'.
Proof.
  intros H H' E. unfold dump_cell in E. rewrite <- !app_assoc in E.
  set (tl := if Nat.eqb i 7 || Nat.eqb i 15 then [32] else []) in *. clearbody tl.
  apply app_inv_len in E as [E1 E2].
  - split; [|apply app_inv_head in E2; now apply app_inv_head in E2].
    destruct (nth_error row i) as [b|] eqn:B, (nth_error row' i) as [b'|] eqn:B'; [..|reflexivity].
    + f_equal. apply fmt_02x_inj; [exact (nth_byte row i b H B)|exact (nth_byte row' i b' H' B')|assumption].
    + exfalso. destruct (hexdigit_char b (nth_byte row i b H B)) as (u & v & F & _ & _ & S).
      rewrite F in E1. injection E1 as -> _. discriminate.
    + exfalso. destruct (hexdigit_char b' (nth_byte row' i b' H' B')) as (u & v & F & _ & _ & S).
      rewrite F in E1. injection E1 as <- _. discriminate.
  - destruct (nth_error row i), (nth_error row' i); reflexivity.
Qed.
Lemma cells_front row row' is x x' : Forall is_byte row -> Forall is_byte row' ->
  flat_map (dump_cell row) is ++ x = flat_map (dump_cell row') is ++ x' ->
  forall i, In i is -> nth_error row i = nth_error row' i.
Proof.
  intros H H'. induction is as [|j is IH]; intros E i I; [easy|].
  cbn [flat_map] in E. rewrite <- !app_assoc in E. apply cell_front in E as [E1 E2]; [|assumption..].
  destruct I as [<-|I]; [exact E1|]. now apply IH.
Qed.
Lemma nth_error_ext {A} (l l' : list A) : (forall i, nth_error l i = nth_error l' i) -> l = l'.
Proof.
  revert l'. induction l as [|a l IH]; intros l' H.
  - destruct l' as [|b l']; [reflexivity|]. specialize (H O). discriminate.
  - destruct l' as [|b l']; [specialize (H O); discriminate|].
    pose proof (H O) as H0. cbn in H0. injection H0 as ->. f_equal. apply IH. intros i. exact (H (S i)).
Qed.
Lemma row_inj off row row' : Forall is_byte row -> Forall is_byte row' -> (length row <= 16)%nat -> (length row' <= 16)%nat ->
  dump_row off row = dump_row off row' -> row = row'.
Proof.
  intros H H' L L' E. unfold dump_row in E. apply app_inv_head in E. apply app_inv_head in E.
  pose proof (cells_front row row' (seq 0 16) _ _ H H' E) as X.
  apply nth_error_ext. intros i. destruct (le_lt_dec 16 i) as [G|G].
  - rewrite (proj2 (nth_error_None row i)), (proj2 (nth_error_None row' i)) by lia. reflexivity.
  - apply X. apply in_seq. lia.
Qed.
Lemma cells_one_line row is : Forall is_byte row -> one_line (flat_map (dump_cell row) is).
Proof.
  intros H. induction is as [|i is IH]; [constructor|]. cbn [flat_map]. apply one_line_app; [|exact IH].
  unfold dump_cell. apply one_line_app; [|destruct (Nat.eqb i 7 || Nat.eqb i 15); now apply one_line_forallb].
  destruct (nth_error row i) eqn:E; [|now apply one_line_forallb]. apply byte_one_line. exact (nth_byte row i _ H E).
Qed.
Lemma is_byte_mod n : is_byte (n mod 256).
Proof. unfold is_byte. pose proof (Z.mod_pos_bound n 256). lia. Qed.
Lemma row_one_line off row : Forall is_byte row -> one_line (dump_row off row).
Proof.
  intros H. unfold dump_row, fmt_08x.
  apply one_line_app; [repeat first [apply one_line_app|apply byte_one_line, is_byte_mod]|].
  apply one_line_app; [now apply one_line_forallb|]. apply one_line_app; [apply cells_one_line, H|].
  apply one_line_app; [now apply one_line_forallb|]. apply one_line_app; [|now apply one_line_forallb].
  apply Forall_forall. intros c I. apply in_map_iff in I as (b & <- & I). unfold dump_char.
  destruct ((b <? 32) || (126 <? b)) eqn:E; [lia|]. apply orb_false_iff in E. lia.
Qed.
Lemma row_ends off row : Forall is_byte row -> exists c m, dump_row off row = c :: m ++ [124] /\ is_space c = false.
Proof.
  intros H. unfold dump_row, fmt_08x.
  destruct (hexdigit_char (off / 16777216 mod 256) (is_byte_mod _)) as (u & v & -> & _ & _ & S).
  eexists u, _. split; [|exact S]. cbn [app]. f_equal.
  rewrite !app_comm_cons, !app_assoc. reflexivity.
Qed.

(** The rows determine the data. *)
Lemma rows_inj fuel : forall fuel' off d d', Forall is_byte d -> Forall is_byte d' ->
  (length d <= fuel)%nat -> (length d' <= fuel')%nat ->
  dump_rows fuel off d = dump_rows fuel' off d' -> d = d'.
Proof.
  induction fuel as [|f IH]; intros fuel' off d d' H H' L L' E.
  - destruct d; [|cbn in L; lia]. destruct fuel' as [|f']; [destruct d'; [reflexivity|cbn in L'; lia]|].
    cbn [dump_rows] in E. now destruct d'.
  - destruct fuel' as [|f'].
    + destruct d'; [|cbn in L'; lia]. cbn [dump_rows] in E. now destruct d.
    + cbn [dump_rows] in E. destruct d as [|a d], d' as [|a' d']; [reflexivity|discriminate|discriminate|].
      set (e := a :: d) in *. set (e' := a' :: d') in *.
      assert (E2 := f_equal (@tl bytes) E). cbn [tl] in E2. assert (E1 := f_equal (hd []) E). cbn [hd] in E1. clear E.
      apply row_inj in E1; [|apply Forall_firstn'; assumption|apply Forall_firstn'; assumption|rewrite firstn_length; lia|rewrite firstn_length; lia].
      rewrite <- (firstn_skipn 16 e), <- (firstn_skipn 16 e'), E1. f_equal.
      apply IH in E2; [exact E2|apply Forall_skipn'; assumption|apply Forall_skipn'; assumption| |]; rewrite skipn_length; subst e e'; cbn [length] in *; lia.
Qed.
Lemma rows_one_line fuel : forall off d, Forall is_byte d -> Forall one_line (dump_rows fuel off d).
Proof.
  induction fuel as [|f IH]; intros off d H; [constructor|]. cbn [dump_rows]. destruct d as [|a d]; [constructor|].
  constructor; [now apply row_one_line, Forall_firstn'|]. now apply IH, Forall_skipn'.
Qed.
Lemma rows_ends fuel : forall off d, Forall is_byte d ->
  Forall (fun r => exists c m, r = c :: m ++ [124] /\ is_space c = false) (dump_rows fuel off d).
Proof.
  induction fuel as [|f IH]; intros off d H; [constructor|]. cbn [dump_rows]. destruct d as [|a d]; [constructor|].
  constructor; [now apply row_ends, Forall_firstn'|]. now apply IH, Forall_skipn'.
Qed.

(** ** strings.Split and strings.TrimSpace *)
Lemma split_line l x : one_line l -> split_lf (l ++ 10 :: x) = l :: split_lf x.
Proof.
  induction 1 as [|c l C H IH]; [reflexivity|]. cbn [app split_lf]. replace (c =? 10) with false by lia. now rewrite IH.
Qed.
Lemma split_last_line l : one_line l -> split_lf l = [l].
Proof.
  induction 1 as [|c l C H IH]; [reflexivity|]. cbn [split_lf]. replace (c =? 10) with false by lia. now rewrite IH.
Qed.
Lemma split_rows rs : Forall one_line rs -> split_lf (flat_map (fun r => r ++ [10]) rs) = rs ++ [[]].
Proof.
  induction 1 as [|r rs H HS IH]; [reflexivity|]. cbn [flat_map]. rewrite <- app_assoc. cbn [app].
  now rewrite split_line, IH.
Qed.
Definition join_lf (rs : list bytes) : bytes :=
  match rs with [] => [] | r :: rs => r ++ flat_map (fun x => 10 :: x) rs end.
Lemma rows_join r rs : flat_map (fun r => r ++ [10]) (r :: rs) = join_lf (r :: rs) ++ [10].
Proof.
  revert r. induction rs as [|s rs IH]; intros r; [cbn; now rewrite !app_nil_r|].
  cbn [flat_map] in *. rewrite IH. cbn [join_lf flat_map]. rewrite <- !app_assoc. reflexivity.
Qed.
Lemma split_join r rs : Forall one_line (r :: rs) -> split_lf (join_lf (r :: rs)) = r :: rs.
Proof.
  revert r. induction rs as [|s rs IH]; intros r H; apply Forall_cons_iff in H as [H HS].
  - cbn. rewrite app_nil_r. now apply split_last_line.
  - cbn [join_lf flat_map app]. rewrite split_line by assumption. f_equal. now apply (IH s).
Qed.
Lemma trim_keeps c m : is_space c = false -> trim_space (c :: m ++ [124; 10]) = c :: m ++ [124].
Proof.
  intros S. unfold trim_space. cbn [trim_left]. rewrite S. cbn [rev]. rewrite rev_app_distr. cbn [rev app trim_left].
  change (is_space 10) with true. change (is_space 124) with false. cbv iota. cbn [rev].
  rewrite rev_app_distr. cbn [rev app]. now rewrite rev_involutive.
Qed.
Lemma join_ends r rs : Forall (fun r => exists c m, r = c :: m ++ [124] /\ is_space c = false) (r :: rs) ->
  exists c m, join_lf (r :: rs) = c :: m ++ [124] /\ is_space c = false.
Proof.
  revert r. induction rs as [|s rs IH]; intros r H; apply Forall_cons_iff in H as ((c & m & -> & S) & H).
  - exists c, m. cbn. now rewrite app_nil_r.
  - destruct (IH s H) as (c' & m' & E & _). exists c, (m ++ [124] ++ 10 :: c' :: m').
    split; [|exact S]. cbn [join_lf flat_map] in *. cbn [app] in *. f_equal. rewrite <- !app_assoc. cbn [app].
    rewrite E. reflexivity.
Qed.
Lemma ud_lines d : Forall is_byte d ->
  split_lf (trim_space (hex_dump d)) = match dump_rows (length d) 0 d with [] => [[]] | rs => rs end.
Proof.
  intros H. unfold hex_dump. pose proof (rows_one_line (length d) 0 d H) as O.
  pose proof (rows_ends (length d) 0 d H) as N. destruct (dump_rows (length d) 0 d) as [|r rs]; [reflexivity|].
  rewrite rows_join. destruct (join_ends r rs N) as (c & m & E & S). rewrite E. cbn [app].
  rewrite <- app_assoc. cbn [app]. rewrite trim_keeps, <- E by assumption. now apply split_join.
Qed.

(** Text made of lines. *)
Lemma more_inj l (rs rs' : list bytes) : Forall one_line rs -> Forall one_line rs' ->
  flat_map (pline l) rs = flat_map (pline l) rs' -> rs = rs'.
Proof.
  intros H. revert rs'. induction H as [|r rs O H IH]; intros rs' H' E.
  - destruct H' as [|r' rs' O' H']; [reflexivity|]. exfalso. cbn [flat_map] in E. unfold pline in E.
    symmetry in E. apply app_eq_nil in E as [E _]. apply app_eq_nil in E as [_ E]. apply app_eq_nil in E as [_ E]. discriminate.
  - destruct H' as [|r' rs' O' H'].
    + exfalso. cbn [flat_map] in E. unfold pline in E. apply app_eq_nil in E as [E _]. apply app_eq_nil in E as [_ E].
      apply app_eq_nil in E as [_ E]. discriminate.
    + cbn [flat_map] in E. apply pline_inj in E as [-> E]; [|assumption..]. f_equal. now apply IH.
Qed.
Lemma dump_lines_inj l rs rs' : rs <> [] -> rs' <> [] -> Forall one_line rs -> Forall one_line rs' ->
  dump_lines l rs = dump_lines l rs' -> rs = rs'.
Proof.
  intros N N' H H' E. destruct rs as [|r rs]; [easy|]. destruct rs' as [|r' rs']; [easy|].
  apply Forall_cons_iff in H as [O H]. apply Forall_cons_iff in H' as [O' H']. cbn [dump_lines] in E.
  apply pline_inj in E as [-> E]; [|assumption..]. f_equal. now apply more_inj in E.
Qed.

Lemma dump_ud_inj d d' : Forall is_byte d -> Forall is_byte d' -> dump_ud d = dump_ud d' -> d = d'.
Proof.
  intros H H' E. unfold dump_ud in E. rewrite !ud_lines in E by assumption.
  pose proof (rows_one_line (length d) 0 d H) as O. pose proof (rows_one_line (length d') 0 d' H') as O'.
  pose proof (rows_ends (length d) 0 d H) as N. pose proof (rows_ends (length d') 0 d' H') as N'.
  apply (rows_inj (length d) (length d') 0); [assumption|assumption|lia|lia|].
  destruct (dump_rows (length d) 0 d) as [|r rs], (dump_rows (length d') 0 d') as [|r' rs']; [reflexivity| | |].
  - apply dump_lines_inj in E; [|discriminate|discriminate|repeat constructor|assumption].
    apply Forall_cons_iff in N' as ((c & m & -> & _) & _). discriminate.
  - apply dump_lines_inj in E; [|discriminate|discriminate|assumption|repeat constructor].
    apply Forall_cons_iff in N as ((c & m & -> & _) & _). discriminate.
  - apply dump_lines_inj in E; [assumption|discriminate|discriminate|assumption|assumption].
Qed.
Lemma dump_cd_inj d d' : Forall is_byte d -> Forall is_byte d' -> dump_cd d = dump_cd d' -> d = d'.
Proof.
  intros H H' E. unfold dump_cd, hex_dump in E.
  pose proof (rows_one_line (length d) 0 d H) as O. pose proof (rows_one_line (length d') 0 d' H') as O'.
  rewrite !split_rows in E by assumption.
  apply (rows_inj (length d) (length d') 0); [assumption|assumption|lia|lia|].
  apply dump_lines_inj in E.
  - now apply app_inv_tail in E.
  - now destruct (dump_rows (length d) 0 d).
  - now destruct (dump_rows (length d') 0 d').
  - apply Forall_app. split; [assumption|repeat constructor].
  - apply Forall_app. split; [assumption|repeat constructor].
Qed.

(** ** The header *)
Lemma fmt_d_ne n : fmt_d n <> [].
Proof.
  unfold fmt_d. cbn [dec_loop]. destruct (n <? 10); [discriminate|].
  assert (X : forall f m acc, acc <> [] -> dec_loop f m acc <> []).
  { induction f as [|f IH]; intros m acc N; cbn [dec_loop]; [assumption|]. destruct (m <? 10); [discriminate|]. apply IH. discriminate. }
  apply X. discriminate.
Qed.
Lemma words_inj l : forall l' b b', Forall is_byte (b :: l) -> Forall is_byte (b' :: l') ->
  fmt_d b ++ flat_map (fun x => 32 :: fmt_d x) l = fmt_d b' ++ flat_map (fun x => 32 :: fmt_d x) l' -> b :: l = b' :: l'.
Proof.
  induction l as [|c l IH]; intros l' b b' H H' E; apply Forall_cons_iff in H as [HB H]; apply Forall_cons_iff in H' as [HB' H'];
    unfold is_byte in HB, HB';
    (assert (D : ~ In 32 (fmt_d b)) by (apply digits_not; [apply fmt_d_digits; lia|lia]));
    (assert (D' : ~ In 32 (fmt_d b')) by (apply digits_not; [apply fmt_d_digits; lia|lia])).
  - destruct l' as [|c' l'].
    + cbn in E. rewrite !app_nil_r in E. apply fmt_d_inj in E; [congruence|lia..].
    + exfalso. apply D. cbn [flat_map] in E. rewrite app_nil_r in E. rewrite E. apply in_or_app. right. now left.
  - destruct l' as [|c' l'].
    + exfalso. apply D'. cbn [flat_map] in E. rewrite app_nil_r in E. rewrite <- E. apply in_or_app. right. now left.
    + cbn [flat_map app] in E. apply split_first in E as [E1 E]; [|assumption..]. apply fmt_d_inj in E1; [|lia..]. subst b'.
      f_equal. now apply IH.
Qed.
Lemma fmt_v_inj l l' : Forall is_byte l -> Forall is_byte l' -> fmt_v_bytes l = fmt_v_bytes l' -> l = l'.
Proof.
  intros H H' E. unfold fmt_v_bytes in E. apply app_inv_head in E. apply app_inv_tail in E.
  destruct l as [|b l], l' as [|b' l']; [reflexivity| | |].
  - exfalso. symmetry in E. apply app_eq_nil in E as [E _]. now apply fmt_d_ne in E.
  - exfalso. apply app_eq_nil in E as [E _]. now apply fmt_d_ne in E.
  - now apply words_inj.
Qed.
Lemma fmt_v_one_line l : Forall is_byte l -> one_line (fmt_v_bytes l).
Proof.
  intros H. unfold fmt_v_bytes. apply one_line_app; [lit|]. apply one_line_app; [|lit].
  destruct H as [|b l HB H]; [constructor|]. apply one_line_app; [apply fmt_d_one_line; unfold is_byte in HB; lia|].
  induction H as [|c l HC H IH]; [constructor|]. cbn [flat_map app]. apply one_line_cons; [lia|].
  apply one_line_app; [apply fmt_d_one_line; unfold is_byte in HC; lia|exact IH].
Qed.

Definition ie_bytes (i : ie) : Prop := is_byte (ie_id i) /\ Forall is_byte (ie_data i).
Lemma ie_inj i i' : ie_bytes i -> ie_bytes i' -> dump_ie i = dump_ie i' -> i = i'.
Proof.
  intros (B & D) (B' & D') E. unfold dump_ie in E. unfold is_byte in B, B'.
  change (str "  Data: ") with (32 :: str " Data: ") in E. cbn [app] in E.
  apply split_first in E as [E1 E]; [|apply digits_not; [apply fmt_d_digits; lia|lia]..].
  apply fmt_d_inj in E1; [|lia..]. apply app_inv_head in E. apply fmt_v_inj in E; [|assumption..].
  destruct i, i'; cbn in *; congruence.
Qed.
Lemma ie_one_line i : ie_bytes i -> one_line (dump_ie i).
Proof.
  intros (B & D). unfold dump_ie. apply one_line_app; [apply fmt_d_one_line; unfold is_byte in B; lia|].
  apply one_line_app; [lit|now apply fmt_v_one_line].
Qed.

Lemma split_ne x : split_lf x <> [].
Proof. destruct x as [|c x]; [discriminate|]. cbn [split_lf]. destruct (c =? 10); [discriminate|]. destruct (split_lf x); discriminate. Qed.
Lemma dump_ud_head u : exists r, dump_ud u = str "TP-UD: " ++ r.
Proof.
  unfold dump_ud. pose proof (split_ne (trim_space (hex_dump u))) as N. destruct (split_lf (trim_space (hex_dump u))) as [|l ls]; [easy|].
  unfold dump_lines, pline. rewrite <- app_assoc. now eexists.
Qed.

Lemma ies_inj l : forall l' u u', Forall ie_bytes l -> Forall ie_bytes l' -> Forall is_byte u -> Forall is_byte u' ->
  flat_map (fun i => pline "       ID: " (dump_ie i)) l ++ dump_ud u =
  flat_map (fun i => pline "       ID: " (dump_ie i)) l' ++ dump_ud u' -> l = l' /\ u = u'.
Proof.
  induction l as [|i l IH]; intros l' u u' H H' U U' E; destruct l' as [|i' l'].
  - cbn [flat_map app] in E. apply dump_ud_inj in E; auto.
  - exfalso. cbn [flat_map app] in E. destruct (dump_ud_head u) as (r & Er). rewrite Er in E. discriminate.
  - exfalso. cbn [flat_map app] in E. destruct (dump_ud_head u') as (r & Er). rewrite Er in E. discriminate.
  - cbn [flat_map] in E. rewrite <- !app_assoc in E.
    apply Forall_cons_iff in H as [HI H]. apply Forall_cons_iff in H' as [HI' H'].
    apply pline_inj in E as [E1 E]; [|apply ie_one_line; assumption..].
    apply ie_inj in E1; [|assumption..]. apply IH in E as [-> ->]; [|assumption..]. split; congruence.
Qed.

Definition udh_bytes (h : udh) : Prop := match h with Some l => Forall ie_bytes l | None => True end.
Lemma tail_inj t t' r : udh_bytes (UDH t) -> udh_bytes (UDH t') -> Forall is_byte (UD t) -> Forall is_byte (UD t') ->
  dump_tail t = Ok r -> dump_tail t' = Ok r -> UDH t = UDH t' /\ UD t = UD t'.
Proof.
  intros H H' U U' E E'. unfold dump_tail in *. apply bind_ok in E as (h & Eh & E). apply bind_ok in E' as (h' & Eh' & E').
  apply ok_inj in E. apply ok_inj in E'. rewrite <- E' in E. clear E' r.
  destruct (UDH t) as [l|], (UDH t') as [l'|]; cbn [udh_bytes] in *.
  - unfold dump_udh in *. destruct l as [|i l]; [discriminate|]. destruct l' as [|i' l']; [discriminate|].
    rewrite idx_0 in Eh, Eh'. cbn [bind] in *. apply ok_inj in Eh. apply ok_inj in Eh'. subst h h'.
    apply Forall_cons_iff in H as [HI H]. apply Forall_cons_iff in H' as [HI' H']. cbn [skipn] in E.
    rewrite <- !app_assoc in E. apply pline_inj in E as [E1 E]; [|apply ie_one_line; assumption..].
    apply ie_inj in E1; [|assumption..]. apply ies_inj in E as [-> ->]; [|assumption..]. split; congruence.
  - exfalso. apply ok_inj in Eh'. subst h'. unfold dump_udh in Eh. apply bind_ok in Eh as (i & _ & Eh). apply ok_inj in Eh. subst h.
    destruct (dump_ud_head (UD t')) as (r & Er). rewrite Er in E. discriminate.
  - exfalso. apply ok_inj in Eh. subst h. unfold dump_udh in Eh'. apply bind_ok in Eh' as (i & _ & Eh'). apply ok_inj in Eh'. subst h'.
    destruct (dump_ud_head (UD t)) as (r & Er). rewrite Er in E. discriminate.
  - apply ok_inj in Eh. apply ok_inj in Eh'. subst h h'. cbn [app] in E. apply dump_ud_inj in E; auto.
Qed.

(** ** An address, which may have line feeds *)
Fixpoint starts (p l : bytes) : bool :=
  match p, l with
  | [], _ => true
  | c :: p', d :: l' => (c =? d) && starts p' l'
  | _ :: _, [] => false
  end.
Lemma starts_app p x : starts p (p ++ x) = true.
Proof. induction p as [|c p IH]; [reflexivity|]. cbn. now rewrite Z.eqb_refl. Qed.

Lemma split_app v z : split_lf (v ++ 10 :: z) = split_lf v ++ split_lf z.
Proof.
  induction v as [|c v IH]; [reflexivity|]. cbn [app split_lf]. destruct (c =? 10); [now rewrite IH|].
  rewrite IH. pose proof (split_ne v). destruct (split_lf v); [easy|reflexivity].
Qed.
Lemma join_split v : join_lf (split_lf v) = v.
Proof.
  induction v as [|c v IH]; [reflexivity|]. cbn [split_lf]. destruct (c =? 10) eqn:E.
  - assert (c = 10) as -> by lia. pose proof (split_ne v). destruct (split_lf v) as [|l r]; [easy|].
    cbn [join_lf flat_map app] in *. now rewrite IH.
  - pose proof (split_ne v). destruct (split_lf v) as [|l r]; [easy|]. cbn [join_lf] in *. cbn [app]. now rewrite IH.
Qed.
Lemma split_inj v v' : split_lf v = split_lf v' -> v = v'.
Proof. intros E. rewrite <- (join_split v), <- (join_split v'). now rewrite E. Qed.

Lemma last_such {A} (P : A -> bool) a : forall a' p p' x x', P p = true -> P p' = true ->
  Forall (fun y => P y = false) x -> Forall (fun y => P y = false) x' -> a ++ p :: x = a' ++ p' :: x' -> a = a' /\ p = p' /\ x = x'.
Proof.
  induction a as [|c a IH]; intros a' p p' x x' Hp Hp' Hx Hx' E; destruct a' as [|c' a']; cbn [app] in E.
  - injection E as -> ->. auto.
  - exfalso. injection E as -> ->. rewrite Forall_forall in Hx. rewrite (Hx p') in Hp'; [discriminate|]. apply in_or_app. right. now left.
  - exfalso. injection E as -> <-. rewrite Forall_forall in Hx'. rewrite (Hx' p) in Hp; [discriminate|]. apply in_or_app. right. now left.
  - injection E as -> E. apply IH in E as (-> & -> & ->); auto.
Qed.

(** No line of the text starts with the label. *)
Definition clear_of (lab : string) (x : bytes) : Prop := Forall (fun l => starts (str lab) l = false) (split_lf x).
Lemma pline_cons l v x : pline l v ++ x = (str l ++ v) ++ 10 :: x.
Proof. unfold pline. now rewrite <- !app_assoc. Qed.
Lemma clear_pline lab l v x : one_line (str l ++ v) -> starts (str lab) (str l ++ v) = false -> clear_of lab x -> clear_of lab (pline l v ++ x).
Proof.
  intros O S H. unfold clear_of. rewrite pline_cons, split_line by assumption. now constructor.
Qed.

Lemma number_inj lab v v' w w' x x' l : no_lf lab = true -> one_line w -> one_line w' -> clear_of lab x -> clear_of lab x' ->
  pline l v ++ pline lab w ++ x = pline l v' ++ pline lab w' ++ x' -> v = v' /\ w = w' /\ x = x'.
Proof.
  intros L O O' C C' E. rewrite !pline_cons in E. rewrite <- !(app_assoc (str l)) in E. apply app_inv_head in E.
  apply (f_equal split_lf) in E. rewrite !split_app in E.
  rewrite !(split_last_line (str lab ++ _)) in E by (apply one_line_app; [now apply one_line_str|assumption]).
  cbn [app] in E.
  apply (last_such (starts (str lab))) in E as (E1 & E2 & E3); [|apply starts_app|apply starts_app|exact C|exact C'].
  apply split_inj in E1. apply split_inj in E3. apply app_inv_head in E2. auto.
Qed.

(** ** Whole dumps *)
Definition vp_shows (v : validity) : Prop :=
  0 <= vp_format v <= 3 /\ time_ok (vp_time v) /\ whole (vp_duration v) /\ is_byte (vp_efi v) /\
  (vp_format v = VpfEnhanced -> 0 <= Z.land (vp_efi v) 7 <= 3).
Definition dumpable (t : tpdu) : Prop :=
  octet_fields t /\ time_ok (SCTS t) /\ time_ok (DT t) /\ vp_shows (VP t) /\ udh_bytes (UDH t) /\ Forall is_byte (UD t).

Lemma evpf_inj a b : 0 <= a <= 3 -> 0 <= b <= 3 -> forall x y, whole x -> whole y ->
  evpf_string a ++ str " - " ++ duration_string x = evpf_string b ++ str " - " ++ duration_string y -> a = b /\ x = y.
Proof.
  intros A B x y X Y E.
  assert (a = 0 \/ a = 1 \/ a = 2 \/ a = 3) as CA by lia. assert (b = 0 \/ b = 1 \/ b = 2 \/ b = 3) as CB by lia.
  destruct CA as [-> |[-> |[-> | ->]]], CB as [-> |[-> |[-> | ->]]]; try (exfalso; discriminate E);
    apply app_inv_head in E; apply app_inv_head in E; apply duration_inj in E; auto.
Qed.
Lemma land7 z : 0 <= z -> z mod 8 = Z.land z 7.
Proof. intros H. change 7 with (Z.ones 3). now rewrite Z.land_ones by lia. Qed.

Lemma vp_inj t t' x x' : vp_shows (VP t) -> vp_shows (VP t') -> dump_vp (VP t) ++ x = dump_vp (VP t') ++ x' -> same_vp t t' /\ x = x'.
Proof.
  unfold same_vp. destruct (VP t) as [f tm d e], (VP t') as [f' tm' d' e']. unfold vp_shows. cbn [vp_format vp_time vp_duration vp_efi].
  intros (F & T & W & B & K) (F' & T' & W' & B' & K') E. unfold dump_vp in E. cbn [vp_format vp_time vp_duration vp_efi] in E.
  unfold VpfNotPresent, VpfAbsolute, VpfEnhanced, VpfRelative in *.
  assert (f = 0 \/ f = 1 \/ f = 2 \/ f = 3) as CA by lia. assert (f' = 0 \/ f' = 1 \/ f' = 2 \/ f' = 3) as CB by lia.
  destruct CA as [-> |[-> |[-> | ->]]], CB as [-> |[-> |[-> | ->]]]; try (exfalso; discriminate E); cbn [Z.eqb Pos.eqb] in E.
  - apply pline_inj in E as [_ ->]; [|constructor|constructor]. repeat split; try discriminate.
  - apply pline_inj in E as [E ->]; [|apply one_line_app; [apply evpf_one_line|apply one_line_app; [lit|now apply duration_one_line]]..].
    apply evpf_inj in E as [E1 ->]; [|apply K; reflexivity|apply K'; reflexivity|assumption|assumption].
    split; [|reflexivity]. split; [reflexivity|]. split; [discriminate|]. split; [discriminate|].
    intros _. split; [reflexivity|]. unfold enhanced_format in E1. unfold is_byte in *. rewrite !land7 by lia. exact E1.
  - apply pline_inj in E as [E ->]; [|now apply duration_one_line..]. apply duration_inj in E as ->; [|assumption..].
    split; [|reflexivity]. split; [reflexivity|]. split; [discriminate|]. split; [reflexivity|discriminate].
  - apply pline_inj in E as [E ->]; [|now apply ts_string_one_line..].
    rewrite <- (app_nil_r (ts_string tm)), <- (app_nil_r (ts_string tm')) in E. apply ts_string_inj in E as [-> _]; [|assumption..].
    split; [|reflexivity]. split; [reflexivity|]. split; [reflexivity|]. split; [discriminate|discriminate].
Qed.

(** Lines of the rest of a dump do not start like the line after an address. *)
Lemma clear_nil c lab : clear_of (String c lab) [].
Proof. unfold clear_of. cbn. repeat constructor. Qed.
Lemma clear_more c lab rs x : Forall one_line rs -> c <> " "%char ->
  clear_of (String c lab) x -> clear_of (String c lab) (flat_map (pline "       ") rs ++ x).
Proof.
  intros H N C. induction H as [|r rs O H IH]; [exact C|]. cbn [flat_map]. rewrite <- app_assoc.
  apply clear_pline; [apply one_line_app; [lit|assumption]| |exact IH].
  cbn [str list_ascii_of_string map app starts]. apply andb_false_iff. left. apply Z.eqb_neq. intros E.
  apply N. apply (f_equal Z.to_nat) in E. rewrite !Nat2Z.id in E.
  rewrite <- (ascii_nat_embedding c), <- (ascii_nat_embedding " "%char). now rewrite E.
Qed.
Lemma clear_lines c lab l rs : no_lf l = true -> Forall one_line rs -> c <> " "%char ->
  (forall v, starts (str (String c lab)) (str l ++ v) = false) ->
  clear_of (String c lab) (dump_lines l rs).
Proof.
  intros L H N S. destruct H as [|r rs O H]; [apply clear_nil|]. cbn [dump_lines].
  apply clear_pline; [apply one_line_app; [now apply one_line_str|assumption]|apply S|].
  rewrite <- (app_nil_r (flat_map _ _)). apply clear_more; [assumption|assumption|apply clear_nil].
Qed.
Lemma clear_ud c lab u : Forall is_byte u -> c <> " "%char ->
  (forall v, starts (str (String c lab)) (str "TP-UD: " ++ v) = false) ->
  clear_of (String c lab) (dump_ud u).
Proof.
  intros U N S. unfold dump_ud. rewrite ud_lines by assumption. apply clear_lines; [reflexivity| |assumption|assumption].
  pose proof (rows_one_line (length u) 0 u U) as O. destruct (dump_rows (length u) 0 u); [repeat constructor|exact O].
Qed.
Lemma clear_cd c lab u : Forall is_byte u -> c <> " "%char ->
  (forall v, starts (str (String c lab)) (str "TP-CD: " ++ v) = false) ->
  clear_of (String c lab) (dump_cd u).
Proof.
  intros U N S. unfold dump_cd, hex_dump. pose proof (rows_one_line (length u) 0 u U) as O.
  rewrite split_rows by assumption. apply clear_lines; [reflexivity| |assumption|assumption].
  apply Forall_app. split; [assumption|repeat constructor].
Qed.
Lemma clear_tail c lab t r : udh_bytes (UDH t) -> Forall is_byte (UD t) -> c <> " "%char ->
  (forall v, starts (str (String c lab)) (str "TP-UD: " ++ v) = false) ->
  (forall v, starts (str (String c lab)) (str "TP-UDH: ID: " ++ v) = false) ->
  dump_tail t = Ok r -> clear_of (String c lab) r.
Proof.
  intros H U N S S2 E. unfold dump_tail in E. apply bind_ok in E as (h & Eh & E). apply ok_inj in E. subst r.
  pose proof (clear_ud c lab (UD t) U N S) as C. destruct (UDH t) as [l|]; cbn [udh_bytes] in H; [|apply ok_inj in Eh; now subst h].
  unfold dump_udh in Eh. destruct l as [|i l]; [discriminate|]. rewrite idx_0 in Eh. cbn [bind skipn] in Eh. apply ok_inj in Eh. subst h.
  apply Forall_cons_iff in H as [HI H]. rewrite <- app_assoc.
  apply clear_pline; [apply one_line_app; [lit|now apply ie_one_line]|apply S2|].
  clear S S2 HI i. induction H as [|i l HI H IH]; [exact C|]. cbn [flat_map]. rewrite <- app_assoc.
  apply clear_pline; [apply one_line_app; [lit|now apply ie_one_line]| |exact IH].
  cbn [str list_ascii_of_string map app starts]. apply andb_false_iff. left. apply Z.eqb_neq. intros E.
  apply N. apply (f_equal Z.to_nat) in E. rewrite !Nat2Z.id in E.
  rewrite <- (ascii_nat_embedding c), <- (ascii_nat_embedding " "%char). now rewrite E.
Qed.

Lemma ts_eq t t' : time_ok t -> time_ok t' -> ts_string t = ts_string t' -> t = t'.
Proof.
  intros H H' E. rewrite <- (app_nil_r (ts_string t)), <- (app_nil_r (ts_string t')) in E. now apply ts_string_inj in E as [-> _].
Qed.
Lemma len_ud_nonneg (u : bytes) : 0 <= len u. Proof. apply len_nonneg. Qed.
Lemma fo_vpf_small f : 0 <= fo_vpf f <= 3. Proof. pose proof (fo_vpf_range f). lia. Qed.

(** What is printed on one line. *)
Ltac ol :=
  first [ assumption | lit | constructor; fail
        | apply fmt_t_one_line | apply byte_one_line; assumption | apply pi_one_line
        | apply dcs_one_line; assumption | apply ts_string_one_line; assumption
        | apply fmt_d_one_line; first [apply len_ud_nonneg | unfold is_byte in *; lia]
        | apply mti_one_line | apply vpf_one_line
        | apply duration_one_line; assumption | apply evpf_one_line
        | apply one_line_app; ol ].
Ltac clear_line := apply clear_pline; [apply one_line_app; [lit|ol]|reflexivity|].

Lemma mti_line_inj t t' x x' : tpdu_type t = tpdu_type t' -> 0 <= tpdu_type t <= 5 -> dump_mti t ++ x = dump_mti t' ++ x' -> x = x'.
Proof.
  intros E R H. unfold dump_mti in H. rewrite E in H. cbv zeta in H. apply pline_inj in H as [_ H]; [exact H|..];
  (apply one_line_app; [apply byte_one_line|apply one_line_app; [lit|apply mti_one_line]]);
  rewrite <- E; unfold st_mti, is_byte; rewrite Z.shiftr_div_pow2 by lia; change (2 ^ 1) with 2; lia.
Qed.

Lemma optionals_inj t t' x x' : octet_fields t -> octet_fields t' -> same_pi t t' ->
  dump_optionals t ++ x = dump_optionals t' ++ x' -> same_optionals t t' /\ x = x'.
Proof.
  intros (_ & _ & _ & _ & _ & _ & _ & P & D) (_ & _ & _ & _ & _ & _ & _ & P' & D') (_ & S1 & S2 & _) E.
  unfold same in *. cbn beta in *. unfold dump_optionals in E. rewrite <- S1, <- S2 in E. unfold same_optionals, same.
  rewrite <- !app_assoc in E. destruct (pi_pid (PI t)).
  - apply pline_inj in E as [E1 E]; [|ol|ol]. apply fmt_02x_inj in E1; [|assumption..].
    destruct (pi_dcs (PI t)); [|split; [split; [auto|discriminate]|exact E]]. apply pline_inj in E as [E2 E]; [|ol|ol]. apply dcs_inj in E2; [|assumption..]. auto.
  - cbn [app] in E. destruct (pi_dcs (PI t)); [|split; [split; discriminate|exact E]].
    apply pline_inj in E as [E2 E]; [|ol|ol]. apply dcs_inj in E2; [|assumption..]. split; [split; [discriminate|auto]|exact E].
Qed.

Lemma vp_clear v x : vp_shows v -> clear_of "TP-PID: 0x" x -> clear_of "TP-PID: 0x" (dump_vp v ++ x).
Proof.
  destruct v as [f tm d e]. unfold vp_shows. cbn [vp_format vp_time vp_duration vp_efi].
  intros (F & T & W & _) C. unfold dump_vp. cbn [vp_format vp_time vp_duration vp_efi].
  repeat match goal with |- context [if ?c then _ else _] => destruct c end; [clear_line; exact C..|exact C].
Qed.
Lemma optionals_clear t x : octet_fields t -> clear_of "TP-SCTS: " x -> clear_of "TP-SCTS: " (dump_optionals t ++ x).
Proof.
  intros (_ & _ & _ & _ & _ & _ & _ & P & D) C. unfold dump_optionals. rewrite <- app_assoc.
  destruct (pi_pid (PI t)), (pi_dcs (PI t)); cbn [app]; repeat clear_line; exact C.
Qed.

Definition shown_type (st : Z) := st = SmsDeliver \/ st = SmsDeliverReport \/ st = SmsSubmitReport \/ st = SmsSubmit \/
  st = SmsStatusReport \/ st = SmsCommand.
Definition type_name (st : Z) : string :=
  if st =? SmsCommand then "SMS-COMMAND" else if st =? SmsDeliver then "SMS-DELIVER"
  else if st =? SmsDeliverReport then "SMS-DELIVER-REPORT" else if st =? SmsStatusReport then "SMS-STATUS-REPORT"
  else if st =? SmsSubmit then "SMS-SUBMIT" else "SMS-SUBMIT-REPORT".
Definition dump_body (st : Z) (t : tpdu) : res bytes :=
  if st =? SmsCommand then dump_command t else if st =? SmsDeliver then dump_deliver t
  else if st =? SmsDeliverReport then dump_deliver_report t else if st =? SmsStatusReport then dump_status_report t
  else if st =? SmsSubmit then dump_submit t else dump_submit_report t.
Lemma dump_text_body t d : dump_text t = Ok d -> shown_type (tpdu_type t) /\
  exists b, dump_body (tpdu_type t) t = Ok b /\ d = pline "TPDU: " (str (type_name (tpdu_type t))) ++ b.
Proof.
  unfold dump_text, shown_type, dump_body, type_name. cbv zeta. intros H.
  repeat match type of H with (if ?x =? ?y then _ else _) = _ => destruct (x =? y) eqn:? end; try discriminate;
  apply bind_ok in H as (b & E & H); apply ok_inj in H; (split; [lia|]); exists b; auto.
Qed.
Lemma type_name_inj a b : shown_type a -> shown_type b -> str (type_name a) = str (type_name b) -> a = b.
Proof.
  unfold shown_type. intros [-> |[-> |[-> |[-> |[-> | ->]]]]] [-> |[-> |[-> |[-> |[-> | ->]]]]] E; try reflexivity; discriminate E.
Qed.
Lemma type_name_line a : one_line (str (type_name a)).
Proof. unfold type_name. repeat match goal with |- context [if ?c then _ else _] => destruct c end; lit. Qed.

Ltac flag E := apply pline_inj in E as [?E E]; [|ol|ol].

Ltac done_shown K :=
  repeat match goal with H : fmt_t _ = fmt_t _ |- _ => apply fmt_t_inj in H end;
  unfold same_shown, same; cbv zeta; rewrite K;
  split; [congruence|]; split; [assumption|]; split; [assumption|];
  repeat match goal with |- _ /\ _ => split end;
  intros X; first [discriminate X | clear X; repeat match goal with |- _ /\ _ => first [assumption | split] end; assumption].
Lemma dumps_alike t t' d : dumpable t -> dumpable t' -> dump_text t = Ok d -> dump_text t' = Ok d -> same_shown t t'.
Proof.
  intros HD HD' E E'. apply dump_text_body in E as (K & b & Eb & ->). apply dump_text_body in E' as (K' & b' & Eb' & E).
  apply pline_inj in E as [EN ->]; [|apply type_name_line..].
  apply type_name_inj in EN; [|assumption..].
  destruct HD as (O & TS & TD & TV & HH & HU), HD' as (O' & TS' & TD' & TV' & HH' & HU').
  pose proof O as (F1 & F2 & F3 & F4 & F5 & F6 & F7 & F8 & F9). pose proof O' as (F1' & F2' & F3' & F4' & F5' & F6' & F7' & F8' & F9').
  assert (R : 0 <= tpdu_type t <= 5) by (unfold shown_type, SmsDeliver, SmsDeliverReport, SmsSubmitReport, SmsSubmit, SmsStatusReport, SmsCommand in K; lia).
  rewrite <- EN in Eb'. clear K'. pose proof (fo_vpf_small (FO t)) as V. pose proof (fo_vpf_small (FO t')) as V'.
  destruct K as [K|[K|[K|[K|[K|K]]]]]; rewrite K in Eb, Eb'; unfold dump_body in Eb, Eb'; cbn in Eb, Eb'.
  - (* deliver *)
    unfold dump_deliver in *. apply bind_ok in Eb as (r & Er & Eb). apply bind_ok in Eb' as (r' & Er' & Eb').
    apply ok_inj in Eb. apply ok_inj in Eb'. rewrite <- Eb' in Eb. rename Eb into E. clear Eb' b'.
    pose proof (clear_tail "T" "P-PID: 0x" t r HH HU ltac:(discriminate) (fun _ => eq_refl) (fun _ => eq_refl) Er) as C.
    pose proof (clear_tail "T" "P-PID: 0x" t' r' HH' HU' ltac:(discriminate) (fun _ => eq_refl) (fun _ => eq_refl) Er') as C'.
    apply mti_line_inj in E; [|assumption..]. do 5 flag E.
    apply number_inj in E as (EO & EP & E); [|reflexivity|ol|ol|do 2 clear_line; assumption|do 2 clear_line; assumption].
    do 2 flag E. apply fmt_02x_inj in EP; [|assumption..]. subst r'.
    destruct (tail_inj t t' r HH HH' HU HU' Er Er') as (EH & EU).
    apply dcs_inj in E5; [|assumption..]. apply ts_eq in E6; [|assumption..]. done_shown K.
  - (* deliver report *)
    unfold dump_deliver_report in *. apply bind_ok in Eb as (r & Er & Eb). apply bind_ok in Eb' as (r' & Er' & Eb').
    apply ok_inj in Eb. apply ok_inj in Eb'. rewrite <- Eb' in Eb. rename Eb into E. clear Eb' b'.
    apply mti_line_inj in E; [|assumption..]. do 3 flag E.
    apply pi_inj in E2. fold (same_pi t t') in E2. apply optionals_inj in E as [E3 E]; [|assumption..]. subst r'.
    destruct (tail_inj t t' r HH HH' HU HU' Er Er') as (EH & EU).
    apply fmt_02x_inj in E1; [|assumption..]. done_shown K.
  - (* submit report *)
    unfold dump_submit_report in *. apply bind_ok in Eb as (r & Er & Eb). apply bind_ok in Eb' as (r' & Er' & Eb').
    apply ok_inj in Eb. apply ok_inj in Eb'. rewrite <- Eb' in Eb. rename Eb into E. clear Eb' b'.
    apply mti_line_inj in E; [|assumption..]. do 4 flag E.
    apply pi_inj in E2. fold (same_pi t t') in E2. apply optionals_inj in E as [E4 E]; [|assumption..]. subst r'.
    destruct (tail_inj t t' r HH HH' HU HU' Er Er') as (EH & EU).
    apply fmt_02x_inj in E1; [|assumption..]. apply ts_eq in E3; [|assumption..]. done_shown K.
  - (* submit *)
    unfold dump_submit in *. apply bind_ok in Eb as (r & Er & Eb). apply bind_ok in Eb' as (r' & Er' & Eb').
    apply ok_inj in Eb. apply ok_inj in Eb'. rewrite <- Eb' in Eb. rename Eb into E. clear Eb' b'.
    pose proof (clear_tail "T" "P-PID: 0x" t r HH HU ltac:(discriminate) (fun _ => eq_refl) (fun _ => eq_refl) Er) as C.
    pose proof (clear_tail "T" "P-PID: 0x" t' r' HH' HU' ltac:(discriminate) (fun _ => eq_refl) (fun _ => eq_refl) Er') as C'.
    assert (VB : is_byte (fo_vpf (FO t))) by (unfold is_byte; lia). assert (VB' : is_byte (fo_vpf (FO t'))) by (unfold is_byte; lia).
    apply mti_line_inj in E; [|assumption..]. do 6 flag E.
    apply number_inj in E as (EO & EP & E); [|reflexivity|ol|ol|clear_line; now apply vp_clear|clear_line; now apply vp_clear].
    flag E. apply vp_inj in E as [EV E]; [|assumption..]. apply fmt_02x_inj in EP; [|assumption..]. subst r'.
    destruct (tail_inj t t' r HH HH' HU HU' Er Er') as (EH & EU).
    apply app_inv_len in E1 as [E1 _]; [|reflexivity]. apply fmt_02x_inj in E1; [|assumption..].
    apply fmt_d_inj in E5; [|unfold is_byte in *; lia..]. apply dcs_inj in E6; [|assumption..]. done_shown K.
  - (* status report *)
    unfold dump_status_report in *. apply bind_ok in Eb as (r & Er & Eb). apply bind_ok in Eb' as (r' & Er' & Eb').
    apply ok_inj in Eb. apply ok_inj in Eb'. rewrite <- Eb' in Eb. rename Eb into E. clear Eb' b'.
    pose proof (clear_tail "T" "P-SCTS: " t r HH HU ltac:(discriminate) (fun _ => eq_refl) (fun _ => eq_refl) Er) as C.
    pose proof (clear_tail "T" "P-SCTS: " t' r' HH' HU' ltac:(discriminate) (fun _ => eq_refl) (fun _ => eq_refl) Er') as C'.
    apply mti_line_inj in E; [|assumption..]. do 5 flag E.
    apply number_inj in E as (EO & EP & E); [|reflexivity|ol|ol|do 3 clear_line; now apply optionals_clear|do 3 clear_line; now apply optionals_clear].
    do 3 flag E. apply pi_inj in E7. fold (same_pi t t') in E7. apply optionals_inj in E as [E8 E]; [|assumption..]. subst r'.
    destruct (tail_inj t t' r HH HH' HU HU' Er Er') as (EH & EU).
    apply ts_eq in EP; [|assumption..]. apply ts_eq in E5; [|assumption..]. apply fmt_02x_inj in E6; [|assumption..].
    apply fmt_d_inj in E4; [|unfold is_byte in *; lia..]. done_shown K.
  - (* command *)
    unfold dump_command in *. apply ok_inj in Eb. apply ok_inj in Eb'. rewrite <- Eb' in Eb. rename Eb into E. clear Eb' b'.
    pose proof (clear_cd "T" "P-SCTS: " (UD t) HU ltac:(discriminate) (fun _ => eq_refl)) as C.
    pose proof (clear_cd "T" "P-SCTS: " (UD t') HU' ltac:(discriminate) (fun _ => eq_refl)) as C'.
    apply mti_line_inj in E; [|assumption..]. do 6 flag E.
    apply number_inj in E as (EO & EP & E); [|reflexivity|ol|ol|clear_line; assumption|clear_line; assumption].
    flag E. apply dump_cd_inj in E; [|assumption..].
    apply fmt_d_inj in E2; [|unfold is_byte in *; lia..]. apply fmt_02x_inj in E3; [|assumption..]. apply fmt_02x_inj in E4; [|assumption..].
    apply fmt_d_inj in E5; [|unfold is_byte in *; lia..]. done_shown K.
Qed.
