(** C20-C22, C47: addresses and PDU mode. *)
From Verif Require Import GoBase GoLemmas SafeLemmas SpecDigits SpecText SevenBit Charset Gsm7 TpduError
  Address AddressOptions AddressProofs UserData Tpdu Sms PduMode PduModeProofs CharsetProofs EscapeProofs DigitsProofs MarshalProofs.

(** C20.  A numeric address of up to 255 digits is written as its digit count,
    its type octet and its digits two by two, and is read back, with the number
    of octets consumed, whatever follows. *)
Theorem C20_numeric_roundtrip : forall toa ds,
  toa_ton toa <> TonAlphanumeric -> Forall is_semi_digit ds -> len ds <= 255 ->
  exists p, addr_marshal {| a_toa := toa; a_addr := ds |} = Ok p /\
    len p = 2 + (len ds + 1) / 2 /\ (is_byte toa -> Forall is_byte p) /\
    (exists s, p = len ds :: toa :: s /\ semi_packed ds s) /\
    forall rest, addr_unmarshal (p ++ rest) = Ok ({| a_toa := toa; a_addr := ds |}, len p).
Proof. exact addr_numeric_roundtrip. Qed.
Print Assumptions C20_numeric_roundtrip.

(** Reading any octets is safe, and what is accepted lies within the input and
    is a byte string, digits only if the type is not alphanumeric. *)
Theorem C20_unmarshal_safe : forall src, Forall is_byte src ->
  safe_located (len src) (addr_unmarshal src) /\
  forall a n, addr_unmarshal src = Ok (a, n) ->
    2 <= n <= len src /\ is_byte (a_toa a) /\ Forall is_byte (a_addr a) /\
    (addr_ton a <> TonAlphanumeric -> Forall is_semi_digit (a_addr a) /\ len (a_addr a) <= 255).
Proof.
  intros src H. split; [now apply addr_unmarshal_safe|]. intros a n. now apply addr_unmarshal_inv.
Qed.
Print Assumptions C20_unmarshal_safe.

(** Why the bound on the length: 256 digits are written without an error but
    with the digit count 0. *)
Theorem C20_overlong_wraps :
  addr_marshal {| a_toa := 145; a_addr := repeat 49 256 |} = Ok (0 :: 145 :: repeat 17 128) /\
  addr_unmarshal (0 :: 145 :: repeat 17 128) = Ok ({| a_toa := 145; a_addr := [] |}, 2).
Proof. split; vm_compute; reflexivity. Qed.
Print Assumptions C20_overlong_wraps.
(** These are all the addresses that come back. *)
Theorem C20_numeric_exactly : forall toa ds, is_byte toa -> toa_ton toa <> TonAlphanumeric ->
  ((exists p, addr_marshal {| a_toa := toa; a_addr := ds |} = Ok p /\
              addr_unmarshal p = Ok ({| a_toa := toa; a_addr := ds |}, len p)) <->
   Forall is_semi_digit ds /\ len ds <= 255).
Proof.
  intros toa ds HT HN. split.
  - intros (p & M & U). assert (HB : Forall is_byte p).
    { unfold addr_marshal, addr_ton in M. cbn [a_toa a_addr] in M. rewrite (proj2 (Z.eqb_neq _ _) HN) in M.
      apply bind_ok in M as (s & E & M). apply ok_inj in M. subst p.
      constructor; [apply to_byte_range|]. constructor; [exact HT|].
      destruct (digits_split ds) as [F|(a & d & r & -> & F & D)]; [|rewrite semi_encode_err in E by assumption; discriminate].
      destruct (semi_encode_ok ds F) as (q & E' & P). rewrite E' in E. cbn in E. apply ok_inj in E. subst s. apply (semi_packed_len _ _ P). }
    destruct (C20_unmarshal_safe p HB) as (_ & S). apply (S _ _ U). exact HN.
  - intros (F & L). destruct (C20_numeric_roundtrip toa ds HN F L) as (p & M & _ & _ & _ & R).
    exists p. split; [exact M|]. specialize (R []). now rewrite app_nil_r in R.
Qed.
Print Assumptions C20_numeric_exactly.
Example C20_exactly_instance : ~ exists p, addr_marshal {| a_toa := 145; a_addr := repeat 49 256 |} = Ok p /\
  addr_unmarshal p = Ok ({| a_toa := 145; a_addr := repeat 49 256 |}, len p).
Proof. intros X. apply C20_numeric_exactly in X as (_ & X); [vm_compute in X; now apply X|unfold is_byte; lia|vm_compute; discriminate]. Qed.

Example C20_instance : (* "+12345" (TOA 0x91), followed by another octet *)
  toa_ton 145 <> TonAlphanumeric /\ Forall is_semi_digit [49; 50; 51; 52; 53] /\
  addr_marshal {| a_toa := 145; a_addr := [49; 50; 51; 52; 53] |} = Ok [5; 145; 33; 67; 245] /\
  addr_unmarshal [5; 145; 33; 67; 245; 17] =
    Ok ({| a_toa := 145; a_addr := [49; 50; 51; 52; 53] |}, 5).
Proof.
  split; [vm_compute; discriminate|]. split; [|split; reflexivity].
  unfold is_semi_digit; repeat (constructor; [cbn; intuition|]). constructor.
Qed.

(** C21.  The claim for every text of the default alphabet is false: U+001B is
    in the table, with the code of the escape, and comes back as a space. *)
Theorem C21_alphanumeric_roundtrip_refuted : exists toa rs s p,
  toa_ton toa = TonAlphanumeric /\ utf8_text rs s /\
  (forall r, In r rs -> exists g, assoc default_decoder g = Some r) /\ len rs <= 145 /\
  addr_marshal {| a_toa := toa; a_addr := s |} = Ok p /\
  addr_unmarshal p <> Ok ({| a_toa := toa; a_addr := s |}, len p).
Proof.
  exists 208, [27], [27]. eexists. split; [reflexivity|]. split.
  { change [27] with ([27] ++ []) at 2. repeat (constructor; try lia). }
  split. { intros r [<-|[]]. exists 27. vm_compute. reflexivity. }
  split; [vm_compute; discriminate|]. split; [vm_compute; reflexivity|].
  vm_compute. discriminate.
Qed.
Print Assumptions C21_alphanumeric_roundtrip_refuted.

(** Every text of up to 145 characters of the default alphabet other than
    U+001B survives, whatever follows.  Missing: U+001B. *)
Theorem C21_alphanumeric_roundtrip_partial : forall toa rs s,
  toa_ton toa = TonAlphanumeric -> utf8_text rs s ->
  (forall r, In r rs -> exists g, assoc default_decoder g = Some r) -> ~ In 27 rs ->
  len rs <= 145 ->
  exists p, addr_marshal {| a_toa := toa; a_addr := s |} = Ok p /\
    len p = 2 + (7 * len rs + 7) / 8 /\ (is_byte toa -> Forall is_byte p) /\
    forall rest, addr_unmarshal (p ++ rest) = Ok ({| a_toa := toa; a_addr := s |}, len p).
Proof. exact addr_alnum_roundtrip. Qed.
Print Assumptions C21_alphanumeric_roundtrip_partial.

(** Exactly those texts survive. *)
Theorem C21_alphanumeric_roundtrip_iff : forall toa rs s,
  toa_ton toa = TonAlphanumeric -> utf8_text rs s ->
  (forall r, In r rs -> exists g, assoc default_decoder g = Some r) -> len rs <= 145 ->
  ((exists p, addr_marshal {| a_toa := toa; a_addr := s |} = Ok p /\
      addr_unmarshal p = Ok ({| a_toa := toa; a_addr := s |}, len p)) <-> ~ In 27 rs).
Proof.
  intros toa rs s HT HU HA HL. split.
  - intros (p & _ & H). rewrite (utf8_text_27 _ _ HU). exact (addr_no_esc _ _ _ _ H HT).
  - intros HN. destruct (addr_alnum_roundtrip toa rs s HT HU HA HN HL) as (p & H1 & _ & _ & H2).
    exists p. split; [exact H1|]. specialize (H2 []). now rewrite app_nil_r in H2.
Qed.
Print Assumptions C21_alphanumeric_roundtrip_iff.

(** 145 is the most that fits: 146 characters are written without an error, with
    the length 0. *)
Theorem C21_overlong_wraps :
  exists s, addr_marshal {| a_toa := 208; a_addr := repeat 97 146 |} = Ok (0 :: 208 :: s) /\
  forall s, addr_unmarshal (0 :: 208 :: s) = Ok ({| a_toa := 208; a_addr := [] |}, 2).
Proof.
  exists (pack7bit (repeat 97 146) 0). split; [vm_compute; reflexivity|].
  intros s. unfold addr_unmarshal. rewrite !len_cons. pose proof (len_nonneg s).
  replace (1 + (1 + len s) <? 2) with false by lia.
  rewrite idx_0, idx_succ by lia. change (1 - 1) with 0. rewrite idx_0. cbn [bind].
  change ((0 + 1) / 2) with 0. replace (1 + (1 + len s) <? 2 + 0) with false by lia.
  rewrite (slice_app [0; 208] [] s) by reflexivity. reflexivity.
Qed.
Print Assumptions C21_overlong_wraps.

Example C21_instance : (* "Messag@": seven septets, the case with a spare septet *)
  addr_marshal {| a_toa := 208; a_addr := [77; 101; 115; 115; 97; 103; 64] |}
    = Ok [13; 208; 205; 242; 124; 30; 62; 3; 0] /\
  addr_unmarshal [13; 208; 205; 242; 124; 30; 62; 3; 0; 99]
    = Ok ({| a_toa := 208; a_addr := [77; 101; 115; 115; 97; 103; 64] |}, 9) /\
  utf8_text [77; 101; 233] [77; 101; 195; 169] /\
  (forall r, In r [77; 101; 233] -> exists g, assoc default_decoder g = Some r).
Proof.
  split; [vm_compute; reflexivity|]. split; [vm_compute; reflexivity|]. split.
  - change [77; 101; 195; 169] with ([77] ++ [101] ++ [195; 169] ++ []).
    constructor; [constructor; lia|]. constructor; [constructor; lia|].
    constructor; [exact (u8_2 3 41 ltac:(lia) ltac:(lia))|constructor].
  - intros r [<-|[<-|[<-|[]]]]; [exists 77|exists 101|exists 5]; vm_compute; reflexivity.
Qed.

(** C22.  A PDU with an SMSC address of 1 to 508 digits survives, in binary and
    in hex, whatever the receiver held before. *)
Theorem C22_pdu_roundtrip : forall p toa ds tp,
  ds <> [] -> Forall is_semi_digit ds -> len ds <= 508 ->
  exists b, pdu_marshal {| p_smsc := {| a_toa := toa; a_addr := ds |}; p_tpdu := tp |} = Ok b /\
    (is_byte toa -> Forall is_byte tp -> Forall is_byte b) /\
    pdu_unmarshal_into p b = Ok {| p_smsc := {| a_toa := toa; a_addr := ds |}; p_tpdu := tp |}.
Proof. exact pdu_roundtrip. Qed.
Print Assumptions C22_pdu_roundtrip.

Theorem C22_pdu_roundtrip_hex : forall toa ds tp,
  is_byte toa -> Forall is_byte tp ->
  ds <> [] -> Forall is_semi_digit ds -> len ds <= 508 ->
  exists h, pdu_marshal_hex {| p_smsc := {| a_toa := toa; a_addr := ds |}; p_tpdu := tp |} = Ok h /\
    pdu_unmarshal_hex h = Ok {| p_smsc := {| a_toa := toa; a_addr := ds |}; p_tpdu := tp |}.
Proof. exact pdu_roundtrip_hex. Qed.
Print Assumptions C22_pdu_roundtrip_hex.

(** Without digits there is no SMSC address: one zero octet, read back as the
    zero address with exactly the same TPDU. *)
Theorem C22_pdu_no_smsc : forall toa tp,
  pdu_marshal {| p_smsc := {| a_toa := toa; a_addr := [] |}; p_tpdu := tp |} = Ok (0 :: tp) /\
  pdu_unmarshal (0 :: tp) =
    Ok {| p_smsc := {| a_toa := 0; a_addr := [] |}; p_tpdu := tp |}.
Proof.
  intros. split; [reflexivity|]. unfold pdu_unmarshal, pdu_unmarshal_into, smsc_unmarshal.
  rewrite len_cons. pose proof (len_nonneg tp). replace (1 + len tp <? 1) with false by lia.
  rewrite idx_0. cbn [bind]. change (0 =? 0) with true. cbv iota. cbn [bind].
  rewrite (slice_from_app [0] tp) by reflexivity. reflexivity.
Qed.
Print Assumptions C22_pdu_no_smsc.

(** Any octets give a PDU whose TPDU is a suffix of the input, or an underflow
    error: the address decoder's own errors ("should never trip") do not occur. *)
Theorem C22_pdu_unmarshal_safe : forall src, Forall is_byte src ->
  (exists p, pdu_unmarshal src = Ok p /\ exists k, p_tpdu p = skipn k src) \/
  exists f off, pdu_unmarshal src = Err (DecodeErr f off ErrUnderflow) /\ 0 <= off <= len src.
Proof. exact pdu_unmarshal_safe. Qed.
Print Assumptions C22_pdu_unmarshal_safe.

(** Any string at all is safe as hex. *)
Theorem C22_pdu_unmarshal_hex_safe : forall s,
  (exists p, pdu_unmarshal_hex s = Ok p) \/
  pdu_unmarshal_hex s = Err HexLength \/ (exists c, pdu_unmarshal_hex s = Err (HexInvalidByte c)) \/
  exists f off, pdu_unmarshal_hex s = Err (DecodeErr f off ErrUnderflow).
Proof. exact pdu_unmarshal_hex_safe. Qed.
Print Assumptions C22_pdu_unmarshal_hex_safe.

(** Why the bound: 510 digits are written without an error, with length 0. *)
Theorem C22_overlong_wraps :
  pdu_marshal {| p_smsc := {| a_toa := 145; a_addr := repeat 49 510 |}; p_tpdu := [] |}
    = Ok (0 :: 145 :: repeat 17 255) /\
  pdu_unmarshal (0 :: 145 :: repeat 17 255)
    = Ok {| p_smsc := {| a_toa := 0; a_addr := [] |}; p_tpdu := 145 :: repeat 17 255 |}.
Proof. split; vm_compute; reflexivity. Qed.
Print Assumptions C22_overlong_wraps.

Example C22_instance : (* SMSC +361 with TPDU 01 02 *)
  pdu_marshal {| p_smsc := {| a_toa := 145; a_addr := [51; 54; 49] |}; p_tpdu := [1; 2] |}
    = Ok [3; 145; 99; 241; 1; 2] /\
  pdu_unmarshal [3; 145; 99; 241; 1; 2] =
    Ok {| p_smsc := {| a_toa := 145; a_addr := [51; 54; 49] |}; p_tpdu := [1; 2] |} /\
  pdu_unmarshal [5; 145; 99] = Err (DecodeErr "addr" 2 ErrUnderflow).
Proof. repeat split; vm_compute; reflexivity. Qed.

(** C47.  The number with one leading plus. *)
Definition with_plus (s : bytes) : bytes :=
  match s with
  | 43 :: _ => s
  | _ => 43 :: s
  end.

Lemma with_plus_spec s : with_plus s =
  match s with c :: _ => if c =? 43 then s else 43 :: s | [] => [43] end.
Proof.
  destruct s as [|c s]; [reflexivity|]. destruct (Z.eqb_spec c 43) as [->|N]; [reflexivity|].
  unfold with_plus. destruct c as [|p|p]; try reflexivity.
  do 6 (try (destruct p as [p|p|]; try reflexivity)). congruence.
Qed.

Lemma number_ok s : let a := new_address_number s in
  addr_ton a = TonInternational /\ addr_npi a = NpISDN /\ a_toa a = 145 /\
  addr_number a = with_plus s.
Proof.
  cbn zeta. repeat (split; [reflexivity|]). rewrite with_plus_spec.
  unfold addr_number. change (addr_ton (new_address_number s)) with 1.
  change (1 =? TonInternational) with true. cbv iota.
  unfold new_address_number, addr_set_number. cbn [a_addr]. unfold plus_char.
  destruct s as [|c s]; [reflexivity|]. now destruct (Z.eqb_spec c 43) as [->|N].
Qed.

(** The address made from any string is international ISDN and its Number() is
    the string with a single leading plus. *)
Theorem C47_number : forall s, let a := new_address_number s in
  addr_ton a = TonInternational /\ addr_npi a = NpISDN /\ a_toa a = 145 /\
  addr_number a = with_plus s.
Proof. exact number_ok. Qed.
Print Assumptions C47_number.

(** With or without the plus, the address is the same. *)
Theorem C47_plus_irrelevant : forall s, (forall r, s <> 43 :: r) ->
  new_address_number (43 :: s) = new_address_number s.
Proof.
  intros s H. unfold new_address_number, addr_set_number, plus_char. cbn [a_addr].
  change (43 =? 43) with true. cbv iota. destruct s as [|c s]; [reflexivity|].
  destruct (Z.eqb_spec c 43) as [->|N]; [|reflexivity]. now destruct (H s).
Qed.
Print Assumptions C47_plus_irrelevant.

(** SetNumber on an existing address does the same, keeping the top bit. *)
Theorem C47_set_number : forall a s, is_byte (a_toa a) ->
  let a' := addr_set_number a s in
  addr_ton a' = TonInternational /\ addr_npi a' = NpISDN /\ addr_number a' = with_plus s /\
  Z.testbit (a_toa a') 7 = Z.testbit (a_toa a) 7.
Proof.
  intros [toa ad] s H a'. cbn [a_toa] in H. unfold is_byte in H.
  pose proof (zrange_sweep 256 (fun toa =>
    (toa_ton (a_toa (addr_set_number {| a_toa := toa; a_addr := [] |} [])) =? 1) &&
    (Z.land (a_toa (addr_set_number {| a_toa := toa; a_addr := [] |} [])) 15 =? 1) &&
    Bool.eqb (Z.testbit (a_toa (addr_set_number {| a_toa := toa; a_addr := [] |} [])) 7)
             (Z.testbit toa 7)) ltac:(vm_compute; reflexivity) toa H) as E. cbn beta in E.
  apply andb_prop in E as [E E3]. apply andb_prop in E as [E1 E2].
  apply Z.eqb_eq in E1, E2. apply eqb_prop in E3.
  assert (HT : toa_ton (a_toa a') = 1) by exact E1.
  split; [exact E1|]. split; [exact E2|]. split; [|exact E3].
  rewrite with_plus_spec. unfold addr_number, addr_ton. rewrite HT.
  change (1 =? TonInternational) with true. cbv iota. unfold a', addr_set_number. cbn [a_addr].
  unfold plus_char. destruct s as [|c s]; [reflexivity|]. now destruct (Z.eqb_spec c 43) as [->|N].
Qed.
Print Assumptions C47_set_number.

(** The encoder options To and From set exactly those addresses. *)
Theorem C47_to_from : forall e s,
  e_pdu (apply_encoder_opt e (To s)) = set_DA (e_pdu e) (new_address_number s) /\
  e_pdu (apply_encoder_opt e (From s)) = set_OA (e_pdu e) (new_address_number s).
Proof. split; reflexivity. Qed.
Print Assumptions C47_to_from.

Example C47_instance :
  addr_number (new_address_number [43; 49; 50]) = [43; 49; 50] /\
  addr_number (new_address_number [49; 50]) = [43; 49; 50] /\
  addr_marshal (new_address_number [49; 50]) = Ok [2; 145; 33].
Proof. repeat split; reflexivity. Qed.

(** NewAddress applies its options in order to an empty address and sets the top
    bit of the type; the kind of number, the numbering plan and the digits are as
    the options left them. *)
Theorem C47_new : forall options,
  let a := new_address_with options in
  let b := fold_left (fun a option => option a) options {| a_toa := 0; a_addr := [] |} in
  Z.testbit (a_toa a) 7 = true /\
  (forall i, i <> 7 -> Z.testbit (a_toa a) i = Z.testbit (a_toa b) i) /\
  addr_ton a = addr_ton b /\ addr_npi a = addr_npi b /\ a_addr a = a_addr b.
Proof.
  intros options a b. assert (E : a_toa a = Z.lor (a_toa b) 128) by reflexivity.
  split; [rewrite E, Z.lor_spec; apply Bool.orb_true_r|]. split.
  - intros i N. rewrite E, Z.lor_spec. change 128 with (2 ^ 7).
    rewrite Z.pow2_bits_false by congruence. apply Bool.orb_false_r.
  - split; [|split; [|reflexivity]].
    + unfold addr_ton, toa_ton. rewrite E, Z.shiftr_lor, Z.land_lor_distr_l.
      change (Z.land (Z.shiftr 128 4) 7) with 0. apply Z.lor_0_r.
    + unfold addr_npi. rewrite E, Z.land_lor_distr_l. change (Z.land 128 15) with 0. apply Z.lor_0_r.
Qed.
Print Assumptions C47_new.

(** The addresses of a new TPDU and of To and From are such; after other options
    FromNumber counts. *)
Theorem C47_new_number : 
  new_address = new_address_with [] /\
  (forall s, new_address_number s = new_address_with [from_number s]) /\
  (forall options s, is_byte (a_toa (fold_left (fun a option => option a) options {| a_toa := 0; a_addr := [] |})) ->
     addr_number (new_address_with (options ++ [from_number s])) = with_plus s /\
     a_addr (new_address_with (options ++ [from_number s])) = a_addr (new_address_number s) /\
     a_toa (new_address_with (options ++ [from_number s])) = 145).
Proof.
  split; [reflexivity|]. split; [reflexivity|]. intros options s.
  destruct (C47_new (options ++ [from_number s])) as (_ & _ & HT & _ & HA). revert HT HA.
  unfold new_address_with. rewrite fold_left_app. cbn [fold_left].
  set (b := fold_left _ options _). cbv zeta. unfold from_number. intros HT HA HB.
  destruct (C47_set_number b s HB) as (T & P & N & _). split; [|split].
  - rewrite <- N. unfold addr_number. rewrite HT. reflexivity.
  - reflexivity.
  - cbn [a_toa]. unfold is_byte in HB.
    pose proof (zrange_sweep 256 (fun toa =>
      Z.lor (a_toa (addr_set_number {| a_toa := toa; a_addr := [] |} [])) 128 =? 145)
      ltac:(vm_compute; reflexivity) (a_toa b) HB) as E. cbn beta in E.
    apply Z.eqb_eq in E. exact E.
Qed.
Print Assumptions C47_new_number.

Example C47_new_instance : (* an alphanumeric sender, by an option of one's own *)
  let named a := addr_set_ton {| a_toa := a_toa a; a_addr := [66; 111; 98] |} TonAlphanumeric in
  new_address_with [from_number [49]; named] = {| a_toa := 209; a_addr := [66; 111; 98] |} /\
  is_byte (a_toa (fold_left (fun a option => option a) [named] {| a_toa := 0; a_addr := [] |})) /\
  new_address_with ([named] ++ [from_number [43; 49]]) = {| a_toa := 145; a_addr := [49] |}.
Proof. repeat split; vm_compute; intros; discriminate. Qed.
