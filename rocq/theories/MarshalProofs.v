(** Lemmas for C77: what MarshalBinary makes of any TPDU. *)
From Verif Require Import GoBase GoLemmas SafeLemmas Utf UtfProofs Bcd Semioctet DigitsProofs SevenBit SevenBitProofs Charset Gsm7 CharsetProofs
  Dcs FirstOctet TpduError Address AddressProofs GoTime GoFloat TimeProofs ValidityPeriod VPProofs UserData UdProofs Tpdu
  SegmentProofs SegmentFitProofs FlagsProofs TpduProofs ShownProofs WireProofs
  SpecText SpecBits SpecDigits SpecTime SpecVP SpecDcs SpecAlphabet SpecShown SpecSegment SpecMarshal.

Definition plain (e : gerr) : Prop := match e with EncodeErr _ _ => False | _ => True end.
Definition plain_out (o : outcome) : Prop := match o with Written _ => True | Refused _ w => plain w end.
Definition res_of (o : outcome) : res bytes :=
  match o with Written b => Ok b | Refused f w => Err (if (f =? "")%string then w else EncodeErr f w) end.
Definition meets (r : res bytes) (R : outcome -> Prop) : Prop :=
  (exists o, R o /\ r = res_of o) /\ (forall o, R o -> r = res_of o /\ plain_out o).

(** ** Digits *)
Lemma digits_split s : Forall is_semi_digit s \/ exists ds d rest, s = ds ++ d :: rest /\ Forall is_semi_digit ds /\ ~ is_semi_digit d.
Proof.
  induction s as [|c s IH]; [left; constructor|]. destruct (in_dec Z.eq_dec c semi_alphabet) as [D|D].
  - destruct IH as [IH|(ds & d & rest & -> & F & N)]; [left; now constructor|]. right. exists (c :: ds), d, rest. repeat split; auto.
  - right. exists [], c, s. repeat split; auto.
Qed.
Lemma alphabet_codes c c' : (c < 15)%nat -> (c' < 15)%nat -> nth c semi_alphabet 0 = nth c' semi_alphabet 0 -> c = c'.
Proof.
  intros H H' E. apply (proj1 (NoDup_nth semi_alphabet 0)); try assumption. apply nodupb_ok. vm_compute. reflexivity.
Qed.
Lemma semi_packed_fun ds p p' : semi_packed ds p -> semi_packed ds p' -> p = p'.
Proof.
  intros H. revert p'. induction H as [|c Hc|c1 c2 ds p H1 H2 HP IH]; intros p' H'.
  - now inversion H'.
  - inversion H' as [|c' Hc' E|]. apply alphabet_codes in E; try assumption. now subst.
  - inversion H' as [| |c1' c2' ds' p'' H1' H2' HP' E F]. clear H'.
    apply alphabet_codes in E; try assumption. assert (c2' = c2) by (apply alphabet_codes; assumption).
    subst. f_equal. now apply IH.
Qed.

(** ** Septets *)
Lemma app_same_len {A} (a a' b b' : list A) : length a = length a' -> a ++ b = a' ++ b' -> a = a' /\ b = b'.
Proof.
  revert a'. induction a as [|x a IH]; intros [|y a'] L E; cbn in *; try discriminate; [auto|].
  injection E as -> E. destruct (IH a' ltac:(lia) E) as (-> & ->). auto.
Qed.
Lemma bits_of n x : of_bits (bits n x) = x mod 2 ^ Z.of_nat n.
Proof.
  revert x. induction n as [|n IH]; intros x; [cbn; now rewrite Z.mod_1_r|].
  unfold bits. cbn [seq map of_bits]. rewrite <- seq_shift, map_map.
  replace (map (fun i => Z.testbit x (Z.of_nat (S i))) (seq 0 n)) with (bits n (x / 2)).
  - rewrite IH, Nat2Z.inj_succ, Z.pow_succ_r by lia.
    pose proof (Z.pow_pos_nonneg 2 (Z.of_nat n) ltac:(lia) ltac:(lia)) as P.
    rewrite (Z.rem_mul_r x 2 (2 ^ Z.of_nat n)) by lia. cbn [Z.of_nat]. rewrite Z.bit0_mod. reflexivity.
  - unfold bits. apply map_ext. intros i. rewrite Nat2Z.inj_succ. apply Z.div2_bits. lia.
Qed.
Lemma octet_bits_fun p : Forall is_byte p -> forall p', Forall is_byte p' -> octet_bits p = octet_bits p' -> p = p'.
Proof.
  induction 1 as [|x p Hx _ IH]; intros p' H' E.
  - destruct p'; [reflexivity|]. apply (f_equal (@length bool)) in E. rewrite !octet_bits_length in E. cbn in E. lia.
  - destruct H' as [|y p' Hy H'].
    { apply (f_equal (@length bool)) in E. rewrite !octet_bits_length in E. cbn in E. lia. }
    unfold octet_bits in E. cbn [flat_map] in E. destruct (app_same_len _ _ _ _ (eq_trans (bits_length 8 x) (eq_sym (bits_length 8 y))) E) as (E1 & E2).
    f_equal; [|now apply IH]. apply (f_equal of_bits) in E1. rewrite !bits_of in E1. change (2 ^ Z.of_nat 8) with 256 in E1.
    unfold is_byte in *. lia.
Qed.

Lemma packed_is u fill p pad : Forall is_septet u -> 0 <= fill <= 6 -> (u = [] -> fill = 0) -> Forall is_byte p -> (pad < 8)%nat ->
  octet_bits p = repeat false (Z.to_nat fill) ++ septet_bits u ++ repeat false pad -> p = pack7bit u fill.
Proof.
  intros HU HF HE HP HL E. destruct u as [|x u].
  - rewrite HE in E by reflexivity. cbn in E. apply (f_equal (@length bool)) in E.
    rewrite octet_bits_length, repeat_length in E. destruct p; [reflexivity|]. cbn [length] in E. lia.
  - destruct (pack7bit_bits (x :: u) fill HU HF ltac:(discriminate)) as (B & pad' & HL' & E').
    apply octet_bits_fun; [assumption..|]. rewrite E, E'. repeat f_equal.
    apply (f_equal (@length bool)) in E. apply (f_equal (@length bool)) in E'.
    rewrite !app_length, octet_bits_length, !repeat_length in E, E'. lia.
Qed.

(** ** Text *)
Lemma default_codes : NoDup (map snd default_decoder).
Proof. apply nodupb_ok. vm_compute. reflexivity. Qed.
Lemma code_of r g : assoc default_encoder r = Some g <-> listed default_alphabet g r.
Proof.
  rewrite <- default_listed. split; intros H; [exact (tk_inv _ _ addr_set_ok _ _ H)|].
  destruct (tk_sur _ _ addr_set_ok _ _ H) as (g' & H'). pose proof (tk_inv _ _ addr_set_ok _ _ H') as H2.
  change (assoc default_decoder g' = Some r) in H2. change (assoc default_encoder r = Some g') in H'. rewrite H'. f_equal.
  apply assoc_In in H, H2. pose proof default_codes as ND. clear H'. induction default_decoder as [|[a b] l IH]; [destruct H|].
  cbn in ND. apply NoDup_cons_iff in ND as (NI & ND). destruct H as [H|H], H2 as [H2|H2].
  - congruence.
  - exfalso. apply NI. injection H as -> ->. apply in_map_iff. now exists (g', r).
  - exfalso. apply NI. injection H2 as -> ->. apply in_map_iff. now exists (g, r).
  - now apply IH.
Qed.
Lemma no_code r : assoc default_encoder r = None <-> ~ in_alphabet r.
Proof.
  split.
  - intros H (g & L). apply code_of in L. congruence.
  - intros H. destruct (assoc default_encoder r) as [g|] eqn:E; [|reflexivity]. exfalso. apply H. exists g. now apply code_of.
Qed.
Lemma encode_codes us rs : Forall2 (listed default_alphabet) us rs ->
  gsm7_encode_runes addr_gsm7_encoder rs = Ok us /\ Forall is_septet us.
Proof.
  induction 1 as [|g r us rs L _ (IH & F)]; [split; [reflexivity|constructor]|]. apply code_of in L.
  cbn [gsm7_encode_runes]. change (ge_set addr_gsm7_encoder) with default_encoder. rewrite L, IH. split; [reflexivity|].
  constructor; [exact (tk_sept _ _ addr_set_ok _ _ L)|exact F].
Qed.
Lemma encode_known rs : Forall in_alphabet rs -> forall more r, assoc default_encoder r = None ->
  gsm7_encode_runes addr_gsm7_encoder (rs ++ r :: more) = Err (Gsm7InvalidUTF8 r).
Proof.
  intros H more r N. induction H as [|x rs (g & L) _ IH]; cbn [app gsm7_encode_runes]; change (ge_set addr_gsm7_encoder) with default_encoder.
  - rewrite N. reflexivity.
  - apply code_of in L. rewrite L, IH. reflexivity.
Qed.
Lemma runes_of_app rs s rest : utf8_text rs s -> runes_of (s ++ rest) = rs ++ runes_of rest.
Proof.
  induction 1 as [|r b rs s C _ IH]; [reflexivity|]. rewrite <- app_assoc, (runes_of_char r b _ C), IH. reflexivity.
Qed.
Lemma not_utf8_begin rest : Forall is_byte rest -> rest <> [] -> (forall r b t, rest = b ++ t -> ~ utf8_char r b) ->
  exists more, runes_of rest = 65533 :: more.
Proof.
  intros HB HN HU. destruct (runes_of_step rest HB HN) as (r & s' & E & _ & _ & _ & [->|(b & Eb & C)]); [now exists (runes_of s')|].
  exfalso. exact (HU _ _ _ Eb C).
Qed.
Lemma in_alphabet_dec r : in_alphabet r \/ ~ in_alphabet r.
Proof.
  destruct (assoc default_encoder r) as [g|] eqn:E; [left; exists g; now apply code_of|right; now apply no_code].
Qed.
Lemma fffd_unknown : ~ in_alphabet 65533.
Proof. apply no_code. vm_compute. reflexivity. Qed.
Lemma in_alphabet_scalar r : in_alphabet r -> scalar r.
Proof. intros (g & L). apply default_listed in L. exact (tk_scalar _ _ addr_set_ok _ _ L). Qed.
(** A string is text in the alphabet, or begins with such text and then with
    something else. *)
Lemma text_split s : Forall is_byte s ->
  (exists rs, utf8_text rs s /\ Forall in_alphabet rs) \/
  exists rs t r rest, s = t ++ rest /\ utf8_text rs t /\ Forall in_alphabet rs /\ bad_begin r rest.
Proof.
  intros H. pattern s. revert s H. apply runes_of_strong; [left; exists []; split; constructor|].
  intros s HB HN IH. destruct (decode_rune_inv s HB HN) as (r & n & D & SC & [->|(b & s0 & -> & C & L)]).
  - right. exists [], [], 65533, s. split; [reflexivity|]. split; [constructor|]. split; [constructor|].
    destruct (list_eq_dec Z.eq_dec (firstn 3 s) [239; 191; 189]) as [F|F].
    + left. exists [239; 191; 189], (skipn 3 s). split; [now rewrite <- F, firstn_skipn|]. split; [|exact fffd_unknown].
      change 65533 with (4096 * 15 + 64 * 63 + 61). apply (u8_3 15 63 61); unfold scalar; lia.
    + right. split; [exact HN|]. split; [reflexivity|]. intros r' b t -> C. rewrite (decode_rune_char _ _ _ C) in D.
      injection D as -> D. apply utf8_char_fun in C. subst b. apply F. reflexivity.
  - apply Forall_app in HB as (HB1 & HB2). destruct (in_alphabet_dec r) as [K|K].
    + destruct (IH s0) as [(rs & T & A)|(rs & t & x & rest & -> & T & A & BB)].
      * rewrite app_length. lia.
      * exact HB2.
      * left. exists (r :: rs). split; now constructor.
      * right. exists (r :: rs), (b ++ t), x, rest. split; [now rewrite app_assoc|]. split; [now constructor|]. split; [now constructor|exact BB].
    + right. exists [], [], r, (b ++ s0). split; [reflexivity|]. split; [constructor|]. split; [constructor|]. left. eauto.
Qed.
Lemma bad_begin_runes r rest : Forall is_byte rest -> bad_begin r rest ->
  assoc default_encoder r = None /\ exists more, runes_of rest = r :: more.
Proof.
  intros HB [(b & t & -> & C & N)|(NE & -> & U)].
  - split; [now apply no_code|]. rewrite (runes_of_char _ _ _ C). eauto.
  - split; [apply no_code, fffd_unknown|]. now apply not_utf8_begin.
Qed.

(** ** Addresses *)
Lemma known_codes rs : Forall in_alphabet rs -> exists us, Forall2 (listed default_alphabet) us rs.
Proof.
  induction 1 as [|r rs (g & L) _ (us & IH)]; [exists []; constructor|]. exists (g :: us). now constructor.
Qed.
Lemma addr_sound a : go_address a -> exists o, address_gives a o.
Proof.
  destruct a as [toa s]. intros (HT & HB). cbn [a_toa a_addr] in *. destruct (Z.eq_dec (toa / 16 mod 8) 5) as [T|T].
  - destruct (text_split s HB) as [(rs & U & A)|(rs & t & r & rest & -> & U & A & B)].
    + destruct (known_codes rs A) as (us & F). destruct (encode_codes us rs F) as (_ & SP).
      destruct us as [|u us].
      * eexists. now apply (ag_text toa rs s [] [] 0 T U F ltac:(constructor) ltac:(lia)).
      * destruct (pack7bit_bits (u :: us) 0 SP ltac:(lia) ltac:(discriminate)) as (PB & pad & PL & E).
        eexists. exact (ag_text toa rs s (u :: us) _ pad T U F PB PL E).
    + eexists. exact (ag_char toa rs t r rest T U A B).
  - destruct (digits_split s) as [D|(ds & d & rest & -> & D & N)].
    + destruct (semi_encode_ok s D) as (p & _ & P). eexists. now apply ag_number with (p := p).
    + eexists. now apply ag_digit.
Qed.
Lemma addr_complete a o : go_address a -> address_gives a o -> addr_marshal a = res_of o /\ plain_out o.
Proof.
  intros (HT & HB) G. unfold addr_marshal, addr_ton. destruct G; cbn [a_toa a_addr] in *; rewrite (ton_div _ HT); change TonAlphanumeric with 5.
  - bfalse (toa / 16 mod 8 =? 5). destruct (semi_packed_len _ _ H0) as (_ & _ & D).
    destruct (semi_encode_ok ds D) as (p' & -> & P). rewrite (semi_packed_fun _ _ _ P H0). split; [reflexivity|exact I].
  - bfalse (toa / 16 mod 8 =? 5). rewrite semi_encode_err by assumption. split; [reflexivity|exact I].
  - btrue (toa / 16 mod 8 =? 5). unfold gsm7_encode. rewrite (runes_of_text _ _ H0). destruct (encode_codes us rs H1) as (-> & SP).
    cbn [on_err bind]. rewrite <- (packed_is us 0 p pad); try assumption; try lia.
    split; [|exact I]. cbn [res_of]. unfold to_byte. now rewrite (Z.mul_comm (len us) 7).
  - btrue (toa / 16 mod 8 =? 5). apply Forall_app in HB as (HB1 & HB2). unfold gsm7_encode. rewrite (runes_of_app rs s rest H0).
    destruct (bad_begin_runes r rest HB2 H2) as (NC & more & ->). rewrite encode_known by assumption. split; [reflexivity|exact I].
Qed.
Lemma addr_meets a : go_address a -> meets (addr_marshal a) (address_gives a).
Proof.
  intros G. split; [|intros o; now apply addr_complete]. destruct (addr_sound a G) as (o & H). exists o. split; [exact H|].
  now apply addr_complete.
Qed.

(** ** Times *)
Lemma civil_cycle n k : civil_of_days (n + 146097 * k) = let '(y, m, d) := civil_of_days n in (y + 400 * k, m, d).
Proof.
  unfold civil_of_days. replace ((n + 146097 * k) / 146097) with (n / 146097 + k) by lia.
  replace ((n + 146097 * k) mod 146097) with (n mod 146097) by lia.
  set (d := n mod 146097). set (c100 := d / 36524 - d / 36524 / 4). set (d1 := d - 36524 * c100). set (c4 := d1 / 1461).
  set (d2 := d1 - 1461 * c4). set (c1 := d2 / 365 - d2 / 365 / 4).
  replace (400 * (n / 146097 + k) + 100 * c100 + 4 * c4 + c1 + 1) with (400 * (n / 146097) + 100 * c100 + 4 * c4 + c1 + 1 + 400 * k) by lia.
  set (y := 400 * (n / 146097) + 100 * c100 + 4 * c4 + c1 + 1).
  replace (is_leap (y + 400 * k)) with (is_leap y).
  - now destruct (find_month (is_leap y) 1 12 (d2 - 365 * c1)) as [m day].
  - unfold is_leap. replace ((y + 400 * k) mod 4) with (y mod 4) by lia. replace ((y + 400 * k) mod 100) with (y mod 100) by lia.
    now replace ((y + 400 * k) mod 400) with (y mod 400) by lia.
Qed.
Lemma date_is t y mo d : t_date t = (y, mo, d) <->
  exists k n, Z.of_nat n = (t_unix t + t_off t) / 86400 + 719528 + 146097 * k /\ day_of n = (y + 400 * k, mo, d).
Proof.
  unfold t_date, t_local. set (a := (t_unix t + t_off t) / 86400). change unix_epoch_day with (719528 + -366). split.
  - intros E. set (k := Z.abs a + 719528). exists k, (Z.to_nat (a + 719528 + 146097 * k)).
    assert (0 <= a + 719528 + 146097 * k) by lia. split; [lia|]. rewrite <- civil_day, Z2Nat.id by lia.
    replace (a + 719528 + 146097 * k + -366) with (a + (719528 + -366) + 146097 * k) by lia.
    now rewrite civil_cycle, E.
  - intros (k & n & En & E). rewrite <- civil_day, En in E.
    replace (a + 719528 + 146097 * k + -366) with (a + (719528 + -366) + 146097 * k) in E by lia. rewrite civil_cycle in E.
    destruct (civil_of_days (a + (719528 + -366))) as [[y' m'] d']. injection E as E1 -> ->. repeat f_equal. lia.
Qed.
Lemma wall_is t y mo d h mi s : wall_clock t y mo d h mi s <->
  t_date t = (y, mo, d) /\ h = t_hour t /\ mi = t_minute t /\ s = t_second t.
Proof.
  unfold wall_clock. rewrite <- date_is. unfold t_hour, t_minute, t_second, t_local. set (l := t_unix t + t_off t).
  assert (L : l mod 3600 = l mod 86400 mod 3600) by lia. assert (L' : l mod 60 = l mod 86400 mod 60) by lia.
  rewrite L, L'. pose proof (Z.mod_pos_bound l 86400 ltac:(lia)). set (x := l mod 86400) in *. clearbody x.
  split; intros (D & R); (split; [exact D|]); lia.
Qed.
Lemma bcd_bad u : ~ 0 <= u <= 99 -> bcd_encode u = Err (BcdInvalidInteger u).
Proof. intros H. unfold bcd_encode. now replace ((u <? 0) || (99 <? u)) with true by lia. Qed.
Lemma bcd_signed_bad u : ~ -79 <= u <= 79 -> bcd_encode_signed u = Err (BcdInvalidInteger u).
Proof. intros H. unfold bcd_encode_signed. now replace ((u <? -79) || (79 <? u)) with true by lia. Qed.
Lemma year_rem y n : year_digits y n -> Z.rem y 100 = n /\ 0 <= n <= 99.
Proof.
  intros [(H & ->)|(H & M & ->)].
  - rewrite Z.rem_mod_nonneg by lia. lia.
  - split; [|lia]. replace y with (- (- y)) by lia. rewrite Z.rem_opp_l, Z.rem_mod_nonneg by lia.
    replace (- y mod 100) with 0; [reflexivity|]. lia.
Qed.
Lemma year_rem_bad y : y < 0 -> y mod 100 <> 0 -> Z.rem y 100 = - (- y mod 100) /\ - (- y mod 100) < 0.
Proof.
  intros H M. replace y with (- (- y)) at 1 by lia. rewrite Z.rem_opp_l, Z.rem_mod_nonneg by lia. lia.
Qed.
Lemma wall_range t y mo d : t_date t = (y, mo, d) -> 1 <= mo <= 12 /\ 1 <= d <= 31.
Proof.
  unfold t_date. intros E. destruct (civil_all (t_local t / 86400 + unix_epoch_day)) as (_ & D & _). rewrite E in D.
  cbn [date_ok] in D. pose proof (month_len_31 y mo). lia.
Qed.
Lemma ts_complete t o : time_gives t o -> ts_marshal t = res_of o /\ plain_out o.
Proof.
  intros G. unfold ts_marshal. fold (zone t).
  destruct G as [y mo d h mi s yy W Y Q|y mo d h mi s W Y M|y mo d h mi s yy W Y Q];
    apply wall_is in W as (E & -> & -> & ->); rewrite E; apply wall_range in E as (HM & HD).
  all: assert (Hh : 0 <= t_hour t <= 99) by (unfold t_hour; lia); assert (Hmi : 0 <= t_minute t <= 99) by (unfold t_minute; lia);
    assert (Hs : 0 <= t_second t <= 99) by (unfold t_second; lia).
  - destruct (year_rem y yy Y) as (-> & YR). destruct (bcd_ok yy YR) as (-> & _).
    destruct (bcd_ok mo) as (-> & _); [lia|]. destruct (bcd_ok d) as (-> & _); [lia|].
    destruct (bcd_ok _ Hh) as (-> & _). destruct (bcd_ok _ Hmi) as (-> & _). destruct (bcd_ok _ Hs) as (-> & _).
    destruct (bcd_signed_ok (zone t)) as (-> & _); [lia|]. split; [reflexivity|exact I].
  - destruct (year_rem_bad y Y M) as (-> & N). rewrite bcd_bad by lia. split; [reflexivity|exact I].
  - destruct (year_rem y yy Y) as (-> & YR). destruct (bcd_ok yy YR) as (-> & _).
    destruct (bcd_ok mo) as (-> & _); [lia|]. destruct (bcd_ok d) as (-> & _); [lia|].
    destruct (bcd_ok _ Hh) as (-> & _). destruct (bcd_ok _ Hmi) as (-> & _). destruct (bcd_ok _ Hs) as (-> & _).
    rewrite bcd_signed_bad by lia. split; [reflexivity|exact I].
Qed.
Lemma ts_sound t : exists o, time_gives t o.
Proof.
  destruct (t_date t) as [[y mo] d] eqn:E.
  assert (W : wall_clock t y mo d (t_hour t) (t_minute t) (t_second t)) by (apply wall_is; auto).
  destruct (Z_lt_dec y 0) as [N|N]; [destruct (Z.eq_dec (y mod 100) 0) as [M|M]|].
  2: { eexists. eapply tg_year; eassumption. }
  - assert (Y : year_digits y 0) by (right; auto). destruct (Z_le_dec (Z.abs (zone t)) 79).
    + eexists. eapply tg_time; eassumption.
    + eexists. eapply tg_zone; [eassumption..|lia].
  - assert (Y : year_digits y (y mod 100)) by (left; split; [lia|reflexivity]). destruct (Z_le_dec (Z.abs (zone t)) 79).
    + eexists. eapply tg_time; eassumption.
    + eexists. eapply tg_zone; [eassumption..|lia].
Qed.
Lemma meets_of r (R : outcome -> Prop) : (exists o, R o) -> (forall o, R o -> r = res_of o /\ plain_out o) -> meets r R.
Proof. intros (o & H) C. split; [|exact C]. exists o. split; [exact H|]. now apply C. Qed.
Lemma ts_meets t : meets (ts_marshal t) (time_gives t).
Proof. apply meets_of; [apply ts_sound|apply ts_complete]. Qed.

(** ** Validity periods *)
Lemma relative_is d o : relative_octet d o <-> o = duration_to_relative d.
Proof.
  assert (M5 : 0 < minutes 5) by reflexivity. assert (M10 : minutes 10 = 2 * minutes 5) by reflexivity. split.
  - intros [o' p H R L G|H|n H ->].
    + destruct (relative_largest d H) as (p' & R' & L' & G'). destruct (G' o' p R L) as (A & B). pose proof (G _ _ R' L') as C.
      destruct (relative_vp_fun _ _ R) as (O & P). destruct (relative_vp_fun _ _ R') as (O' & P').
      assert (~ o' < duration_to_relative d); [|lia]. intros LT.
      pose proof (relative_mono o' (duration_to_relative d) ltac:(lia) LT ltac:(lia)). lia.
    + destruct (duration_cases d ltac:(lia)) as [[A ->]|[[A ->]|(A & _)]]; [| |lia].
      * rewrite Z.div_small by lia. reflexivity.
      * replace (d / minutes 5) with 1; [reflexivity|]. apply Z.div_unique with (d - minutes 5); lia.
    + unfold duration_to_relative. change (12 * ns_hour) with (minutes 720). change (5 * ns_minute) with (minutes 5).
      replace (d <? minutes 720) with true by (assert (0 < minutes 720) by reflexivity; lia). reflexivity.
  - intros ->. destruct (Z_lt_dec d 0) as [N|N].
    + unfold duration_to_relative. change (12 * ns_hour) with (minutes 720). change (5 * ns_minute) with (minutes 5).
      replace (d <? minutes 720) with true by (assert (0 < minutes 720) by reflexivity; lia).
      now apply ro_negative.
    + destruct (duration_cases d ltac:(lia)) as [[A ->]|[[A ->]|(A & _)]].
      * replace 0 with (d / minutes 5) by (apply Z.div_small; lia). apply ro_short. lia.
      * replace 1 with (d / minutes 5) by (symmetry; apply Z.div_unique with (d - minutes 5); lia). apply ro_short. lia.
      * destruct (relative_largest d A) as (p & R & L & G). apply ro_longest with (p := p); try assumption.
        intros o' p' R' L'. now apply (G o' p' R' L').
Qed.
Lemma rem_small a b : 0 < b -> - b < Z.rem a b < b.
Proof. intros H. pose proof (Z.rem_bound_abs a b ltac:(lia)). lia. Qed.
Lemma evpf_mod efi : Z.land efi 7 = efi mod 8.
Proof. apply land7. Qed.
Lemma evpf_cases n : 0 <= n < 8 -> n = 0 \/ n = 1 \/ n = 2 \/ n = 3 \/ 3 < n.
Proof. lia. Qed.
Lemma vp_hms d efi : efi mod 8 = 3 ->
  vp_marshal {| vp_format := 1; vp_time := zero_time; vp_duration := d; vp_efi := efi |} =
    (h <- on_err (bcd_encode (nth 0 (hms d) 0)) (encode_error "enhanced") ;;
     m <- on_err (bcd_encode (nth 1 (hms d) 0)) (encode_error "enhanced") ;;
     s <- on_err (bcd_encode (nth 2 (hms d) 0)) (encode_error "enhanced") ;;
     Ok [efi; h; m; s; 0; 0; 0]).
Proof. intros E. unfold vp_marshal. cbn [vp_format vp_efi vp_duration]. rewrite evpf_mod, E. reflexivity. Qed.
Lemma vp_time_irrelevant t d efi : vp_marshal {| vp_format := 1; vp_time := t; vp_duration := d; vp_efi := efi |} =
  vp_marshal {| vp_format := 1; vp_time := zero_time; vp_duration := d; vp_efi := efi |}.
Proof. reflexivity. Qed.
Lemma hms_range d : Forall (fun n => -100 < n < 100) (hms d).
Proof.
  unfold hms. repeat constructor; match goal with |- context [Z.rem ?a ?b] => pose proof (rem_small a b ltac:(lia)) end; lia.
Qed.
Lemma vp_complete v o : period_gives v o -> vp_marshal v = res_of o /\ plain_out o.
Proof.
  intros G. destruct G as [t d efi o G|t d efi o G|t d efi a b c G|t d efi G|t d efi l1 n l2 M E F N|v G|v G].
  - apply ts_complete in G. exact G.
  - apply relative_is in G as ->. split; [reflexivity|exact I].
  - pose proof (Z.mod_pos_bound efi 8 ltac:(lia)) as P.
    assert (EN : forall k, efi mod 8 = k -> Z.land efi 7 = k) by (intros k; now rewrite evpf_mod).
    split; [|exact I]. destruct (evpf_cases _ P) as [K|[K|[K|[K|K]]]]; rewrite ?K in G.
    + destruct G as (-> & -> & ->). unfold vp_marshal. cbn [vp_format vp_efi vp_duration]. rewrite (EN _ K). reflexivity.
    + destruct G as (G & -> & ->). apply relative_is in G as ->. unfold vp_marshal. cbn [vp_format vp_efi vp_duration]. rewrite (EN _ K). reflexivity.
    + destruct G as (-> & -> & ->). unfold vp_marshal. cbn [vp_format vp_efi vp_duration]. rewrite (EN _ K).
      change ns_second with 1000000000. cbn [res_of]. unfold to_byte.
      change (VpfEnhanced =? VpfAbsolute) with false. change (1 =? VpfAbsolute) with false. change (1 =? VpfEnhanced) with true. cbv iota.
      change (EvpfRelativeHHMMSS <? 2) with false. change (2 =? EvpfRelative) with false. change (2 =? EvpfRelativeSeconds) with true. cbv iota.
      do 3 f_equal. destruct (255 <? Z.quot d 1000000000) eqn:L; f_equal; lia.
    + destruct G as (F & E). rewrite vp_time_irrelevant, vp_hms by exact K. pose proof (hms_range d) as R.
      destruct (hms d) as [|x [|y [|z [|]]]]; try discriminate. cbn [map] in E. injection E as -> -> ->. cbn [nth].
      apply Forall_cons_iff in F as (F1 & F). apply Forall_cons_iff in F as (F2 & F). apply Forall_cons_iff in F as (F3 & _).
      apply Forall_cons_iff in R as (R1 & R). apply Forall_cons_iff in R as (R2 & R). apply Forall_cons_iff in R as (R3 & _).
      destruct (bcd_ok x) as (-> & _); [lia|]. destruct (bcd_ok y) as (-> & _); [lia|]. destruct (bcd_ok z) as (-> & _); [lia|]. reflexivity.
    + exfalso. destruct (efi mod 8) as [|[[q|q|]|[q|q|]|]|q]; try lia; exact G.
  - split; [|exact I]. unfold vp_marshal. cbn [vp_format vp_efi vp_duration]. rewrite evpf_mod.
    change (1 =? VpfAbsolute) with false. change (1 =? VpfEnhanced) with true. cbv iota.
    change EvpfRelativeHHMMSS with 3. replace (3 <? efi mod 8) with true by lia. reflexivity.
  - split; [|exact I]. rewrite vp_time_irrelevant, vp_hms by exact M. pose proof (hms_range d) as R.
    rewrite E in *. destruct l1 as [|x [|y [|z [|]]]]; cbn [app nth].
    + rewrite bcd_bad by lia. reflexivity.
    + apply Forall_cons_iff in F as (F1 & F). apply Forall_cons_iff in R as (R1 & R). destruct (bcd_ok x) as (-> & _); [lia|].
      rewrite bcd_bad by lia. reflexivity.
    + apply Forall_cons_iff in F as (F1 & F). apply Forall_cons_iff in F as (F2 & F).
      apply Forall_cons_iff in R as (R1 & R). apply Forall_cons_iff in R as (R2 & R).
      destruct (bcd_ok x) as (-> & _); [lia|]. destruct (bcd_ok y) as (-> & _); [lia|].
      rewrite bcd_bad by lia. reflexivity.
    + discriminate E.
    + discriminate E.
  - split; [|exact I]. unfold vp_marshal. change VpfAbsolute with 3. change VpfEnhanced with 1. change VpfRelative with 2. change VpfNotPresent with 0.
    replace (vp_format v =? 3) with false by lia. replace (vp_format v =? 1) with false by lia. replace (vp_format v =? 2) with false by lia.
    replace (vp_format v =? 0) with false by lia. reflexivity.
  - split; [|exact I]. unfold vp_marshal. rewrite G. reflexivity.
Qed.
Lemma first_negative l : Forall (fun n => 0 <= n) l \/ exists l1 n l2, l = l1 ++ n :: l2 /\ Forall (fun n => 0 <= n) l1 /\ n < 0.
Proof.
  induction l as [|x l IH]; [left; constructor|]. destruct (Z_lt_dec x 0) as [N|N].
  - right. exists [], x, l. repeat split; auto.
  - destruct IH as [IH|(l1 & n & l2 & -> & F & M)]; [left; constructor; [lia|exact IH]|]. right. exists (x :: l1), n, l2.
    split; [reflexivity|]. split; [|exact M]. constructor; [lia|exact F].
Qed.
Lemma vp_sound v : exists o, period_gives v o.
Proof.
  destruct v as [f t d efi]. assert (C : f = 0 \/ f = 1 \/ f = 2 \/ f = 3 \/ ~ 0 <= f <= 3) by lia.
  destruct C as [->|[->|[->|[->|C]]]].
  - eexists. now apply pg_none.
  - pose proof (Z.mod_pos_bound efi 8 ltac:(lia)) as P. destruct (evpf_cases _ P) as [K|[K|[K|[K|K]]]].
    + eexists. apply pg_enhanced with (a := 0) (b := 0) (c := 0). now rewrite K.
    + eexists. apply pg_enhanced with (a := duration_to_relative d) (b := 0) (c := 0). rewrite K. split; [now apply relative_is|auto].
    + eexists. eapply pg_enhanced with (b := 0) (c := 0). rewrite K. split; [reflexivity|auto].
    + destruct (first_negative (hms d)) as [F|(l1 & n & l2 & E & F & N)].
      * eexists. eapply pg_enhanced. rewrite K. split; [exact F|reflexivity].
      * eexists. now apply (pg_negative t d efi l1 n l2).
    + eexists. apply pg_reserved. lia.
  - eexists. apply pg_relative. now apply relative_is.
  - destruct (ts_sound t) as (o & G). exists o. now apply pg_absolute.
  - eexists. now apply pg_format.
Qed.
Lemma vp_meets v : meets (vp_marshal v) (period_gives v).
Proof. apply meets_of; [apply vp_sound|apply vp_complete]. Qed.

(** ** User data *)
Lemma header_is u : udh_marshal (ies u) = header_part u.
Proof.
  assert (E : forall l, flat_map ie_marshal l = elements_mod l).
  { induction l as [|i l IH]; [reflexivity|]. cbn [flat_map elements_mod]. rewrite IH. reflexivity. }
  assert (L : forall l, len (elements_mod l) = udhl l).
  { induction l as [|i l IH]; [reflexivity|]. cbn [elements_mod udhl]. unfold ie_len. rewrite !len_cons, len_app. lia. }
  destruct u as [[|i l]|]; [reflexivity| |reflexivity]. cbn [ies]. unfold udh_marshal, header_part.
  rewrite len_cons. pose proof (len_nonneg l). bfalse (1 + len l =? 0). rewrite E, L. reflexivity.
Qed.
Lemma ud_complete t o : is_byte (DCS t) -> (alphabet_of (DCS t) = Some 0 -> Forall is_septet (UD t)) ->
  ud_gives t o -> encode_ud t = res_of o /\ plain_out o.
Proof.
  intros HD HS G. unfold encode_ud. rewrite header_is. unfold tpdu_alphabet. rewrite (alphabet_meaning _ HD).
  set (h := header_part (UDH t)) in *. pose proof (len_nonneg h) as HL. destruct (fill_bits_spec (len h) HL) as (FB & FR).
  destruct G as [A|A O|a A C|A E|p pad taken A NE -> BP PL B]; rewrite A in *; (split; [|exact I]); cbn [on_err bind].
  - reflexivity.
  - change (2 =? Alpha7Bit) with false. cbv iota. rewrite land1_mod, O. reflexivity.
  - destruct C as [->|(-> & EV)]; [|rewrite land1_mod, EV]; cbn [on_err bind]; cbv iota;
      [change (1 =? Alpha7Bit) with false; change (1 =? AlphaUCS2) with false|change (2 =? Alpha7Bit) with false; change (0 =? 1) with false; rewrite andb_false_r];
      cbn [andb]; cbv iota; unfold to_byte; cbn [res_of]; fold h; rewrite (Z.add_comm (len h)); reflexivity.
  - change (0 =? Alpha7Bit) with true. cbv iota. rewrite E. change (0 <? len (@nil Z)) with false. cbv iota.
    change (pack7bit [] (fill_bits (len h))) with (@nil Z). rewrite app_nil_r. unfold to_byte. now rewrite (Z.mul_comm (len h) 8).
  - change (0 =? Alpha7Bit) with true. cbv iota. pose proof (len_ne_nil _ NE). pose proof (len_nonneg (UD t)). replace (0 <? len (UD t)) with true by lia.
    replace ((len h * 8 + fill_bits (len h)) / 7) with (cdiv (8 * len h) 7).
    + rewrite (packed_is (UD t) (fill_bits (len h)) p pad); try assumption; try lia.
      * unfold to_byte. cbn [res_of]. fold h. now rewrite (Z.add_comm (len (UD t))).
      * now apply HS.
      * intros; contradiction.
      * replace (fill_bits (len h)) with (7 * cdiv (8 * len h) 7 - 8 * len h) by lia. exact B.
    + replace (len h * 8 + fill_bits (len h)) with (cdiv (8 * len h) 7 * 7) by lia. now rewrite Z.div_mul by lia.
Qed.
Lemma ud_sound t : (alphabet_of (DCS t) = Some 0 -> Forall is_septet (UD t)) -> exists o, ud_gives t o.
Proof.
  intros HS. pose proof (len_nonneg (header_part (UDH t))) as HL. destruct (fill_bits_spec _ HL) as (FB & FR).
  destruct (alphabet_of (DCS t)) as [a|] eqn:A; [|eexists; now apply ug_alphabet].
  assert (C : a = 0 \/ a = 1 \/ a = 2).
  { unfold alphabet_of in A. destruct (coding_group (DCS t)); try discriminate; injection A as <-.
    - assert (N : 0 <= DCS t / 4 mod 4 < 4) by lia. set (k := DCS t / 4 mod 4) in *.
      assert (k = 0 \/ k = 1 \/ k = 2 \/ k = 3) as [->|[->|[->| ->]]] by lia; cbn; auto.
    - auto.
    - auto.
    - lia. }
  destruct C as [->|[->| ->]].
  - destruct (UD t) as [|x u] eqn:E; [eexists; now apply ug_no_septets|].
    destruct (pack7bit_bits (x :: u) (fill_bits (len (header_part (UDH t)))) (HS eq_refl) ltac:(lia) ltac:(discriminate)) as (BP & pad & PL & B).
    eexists. eapply ug_septets with (pad := pad); try reflexivity; try eassumption; [now rewrite E|]. rewrite E.
    replace (7 * cdiv (8 * len (header_part (UDH t))) 7 - 8 * len (header_part (UDH t))) with (fill_bits (len (header_part (UDH t)))) by lia.
    exact B.
  - eexists. eapply ug_octets; [eassumption|auto].
  - assert (P : len (UD t) mod 2 = 0 \/ len (UD t) mod 2 = 1) by lia. destruct P as [P|P].
    + eexists. eapply ug_octets; [eassumption|auto].
    + eexists. now apply ug_odd.
Qed.
Lemma ud_meets t : marshal_domain t -> meets (encode_ud t) (ud_gives t).
Proof.
  intros (_ & _ & _ & D & _ & _ & _ & _ & S). apply meets_of; [now apply ud_sound|]. intros o. now apply ud_complete.
Qed.

