(** C33, C75, C88: the named values: first octets made with WithMTI and WithVPF,
    the encoder options with a name, and the names that values print. *)
From Coq Require Import String Ascii.
From Verif Require Import GoBase GoLemmas SafeLemmas Dcs SpecDcs FirstOctet Address ValidityPeriod UserData Tpdu Segment
  SegmentProofs FlagsProofs SpecOptions Gsm7OptionsProofs Sms SpecSms SmsProofs EncodeProofs SpecNew Print ErrorText ErrorTextProofs P_Flags P_Sms P_New.
Open Scope Z_scope.

(** ** C33: WithMTI and WithVPF *)

(** They set their field to any of its four values and change no other bit. *)
Theorem C33_with_mti : forall f m, is_byte f -> 0 <= m <= 3 ->
  let f' := fo_with_mti f m in
  is_byte f' /\ fo_mti f' = m /\ same_bits_except [0; 1] f f'.
Proof. intros f m Hf Hm. apply with_mti_spec; assumption. Qed.
Print Assumptions C33_with_mti.

Theorem C33_with_vpf : forall f v, is_byte f -> 0 <= v <= 3 ->
  let f' := fo_with_vpf f v in
  is_byte f' /\ fo_vpf f' = v /\ same_bits_except [3; 4] f f'.
Proof. intros f v Hf Hv. apply with_vpf_spec; assumption. Qed.
Print Assumptions C33_with_vpf.

(** A value that does not fit spills into the flags beside the field; SetVP masks
    it instead. *)
Theorem C33_spill :
  fo_udhi (fo_with_mti 0 64) = true /\ fo_srr (fo_with_vpf 0 4) = true /\ fo_vpf (fo_with_vpf 0 4) = 0.
Proof. repeat split. Qed.
Print Assumptions C33_spill.

Example C33_with_instance :
  fo_with_mti 253 2 = 254 /\ fo_with_vpf 229 2 = 245 /\ fo_vpf 245 = 2 /\ fo_mti 254 = 2.
Proof. repeat split. Qed.

Lemma fo_mti_mod f : fo_mti f = f mod 4.
Proof. apply C33_getters. Qed.
Lemma as_8bit e : DCS (e_pdu (apply_encoder_opt e As8Bit)) = 4.
Proof. exact (proj1 (C33_set_dcs (e_pdu e) 4)). Qed.
Lemma as_ucs2 e : DCS (e_pdu (apply_encoder_opt e AsUCS2)) = 8.
Proof. exact (proj1 (C33_set_dcs (e_pdu e) 8)). Qed.

Lemma type_keeps t d f : let u := set_FO (set_Direction t d) f in
  UDH u = UDH t /\ DA u = DA t /\ OA u = OA t /\ VP u = VP t /\ PI u = PI t.
Proof. destruct t. now repeat split. Qed.
Lemma dcs_keeps t d : UDH (set_dcs t d) = UDH t /\ DA (set_dcs t d) = DA t /\ OA (set_dcs t d) = OA t /\
  VP (set_dcs t d) = VP t /\ FO (set_dcs t d) = FO t.
Proof. destruct t. now repeat split. Qed.

(** ** C75: the options with a name *)

(** AsSubmit and AsDeliver settle the type of the template, As8Bit and AsUCS2 its
    alphabet, and nothing else. *)
Theorem C75_named : forall e, is_byte (FO (e_pdu e)) ->
  let with_ o := e_pdu (apply_encoder_opt e o) in
  tpdu_type (with_ AsSubmit) = SmsSubmit /\ tpdu_type (with_ AsDeliver) = SmsDeliver /\
  tpdu_alphabet (with_ As8Bit) = Ok Alpha8Bit /\ tpdu_alphabet (with_ AsUCS2) = Ok AlphaUCS2 /\
  coding_group (DCS (with_ As8Bit)) = coding_group 0 /\ coding_group (DCS (with_ AsUCS2)) = coding_group 0 /\
  (forall o, In o [AsSubmit; AsDeliver; As8Bit; AsUCS2] ->
     e_eopts (apply_encoder_opt e o) = e_eopts e /\ UDH (with_ o) = UDH (e_pdu e) /\
     DA (with_ o) = DA (e_pdu e) /\ OA (with_ o) = OA (e_pdu e) /\ VP (with_ o) = VP (e_pdu e) /\
     same_bits_except [0; 1] (FO (e_pdu e)) (FO (with_ o)) /\ same_bits_except [1] (PI (e_pdu e)) (PI (with_ o))).
Proof.
  intros e HF. cbv zeta.
  assert (T : forall st, 0 <= st <= 5 -> e_pdu (apply_encoder_opt e (EoTemplateOption (OptSmsType st))) =
                match set_sms_type (e_pdu e) st with Ok t => t | _ => e_pdu e end) by reflexivity.
  destruct (C33_set_sms_type (e_pdu e) SmsSubmit HF) as (S1 & S2).
  destruct (C33_set_sms_type (e_pdu e) SmsDeliver HF) as (D1 & D2).
  destruct (set_sms_type (e_pdu e) SmsSubmit) as [ts| | |] eqn:ES; try (exfalso; assert (false = true) by (apply S1; cbv; split; discriminate); discriminate).
  destruct (set_sms_type (e_pdu e) SmsDeliver) as [td| | |] eqn:ED; try (exfalso; assert (false = true) by (apply D1; cbv; split; discriminate); discriminate).
  destruct (S2 ts eq_refl) as (S3 & S4 & S5), (D2 td eq_refl) as (D3 & D4 & D5).
  assert (AS : e_pdu (apply_encoder_opt e AsSubmit) = ts) by (unfold AsSubmit; rewrite T, ES by (cbv; split; discriminate); reflexivity).
  assert (AD : e_pdu (apply_encoder_opt e AsDeliver) = td) by (unfold AsDeliver; rewrite T, ED by (cbv; split; discriminate); reflexivity).
  destruct (C33_set_dcs (e_pdu e) Dcs8BitData) as (_ & _ & B3 & B4).
  destruct (C33_set_dcs (e_pdu e) DcsUCS2Data) as (_ & _ & U3 & U4).
  rewrite AS, AD. split; [exact S3|]. split; [exact D3|]. unfold tpdu_alphabet.
  rewrite as_8bit, as_ucs2. repeat (split; [reflexivity|]).
  assert (RB : forall n x, same_bits_except n x x) by (intros n x k _; reflexivity).
  intros o [<-|[<-|[<-|[<-|[]]]]].
  - rewrite AS. destruct (type_keeps (e_pdu e) (Direction ts) (FO ts)) as (K1 & K2 & K3 & K4 & K5). cbv zeta in K1, K2, K3, K4, K5.
    rewrite <- S5 in K1, K2, K3, K4, K5. rewrite K1, K2, K3, K4, K5. repeat (split; [reflexivity|]). split; [exact S4|apply RB].
  - rewrite AD. destruct (type_keeps (e_pdu e) (Direction td) (FO td)) as (K1 & K2 & K3 & K4 & K5). cbv zeta in K1, K2, K3, K4, K5.
    rewrite <- D5 in K1, K2, K3, K4, K5. rewrite K1, K2, K3, K4, K5. repeat (split; [reflexivity|]). split; [exact D4|apply RB].
  - change (e_pdu (apply_encoder_opt e As8Bit)) with (set_dcs (e_pdu e) Dcs8BitData).
    destruct (dcs_keeps (e_pdu e) Dcs8BitData) as (K1 & K2 & K3 & K4 & K5).
    rewrite K1, K2, K3, K4, K5. repeat (split; [reflexivity|]). split; [apply RB|exact B3].
  - change (e_pdu (apply_encoder_opt e AsUCS2)) with (set_dcs (e_pdu e) DcsUCS2Data).
    destruct (dcs_keeps (e_pdu e) DcsUCS2Data) as (K1 & K2 & K3 & K4 & K5).
    rewrite K1, K2, K3, K4, K5. repeat (split; [reflexivity|]). split; [apply RB|exact U3].
Qed.
Print Assumptions C75_named.

(** So does the last of them for what Encode returns: octets given for As8Bit, or
    UCS-2 given for AsUCS2, come out as they are, whatever the other options. *)
Theorem C75_as_alphabet : forall e msg opts segs e',
  (encoder_encode e msg (opts ++ [As8Bit]) = Ok (segs, e') ->
     concat (map UD segs) = msg /\ forall s, In s segs -> tpdu_alphabet s = Ok Alpha8Bit) /\
  (encoder_encode e msg (opts ++ [AsUCS2]) = Ok (segs, e') ->
     concat (map UD segs) = msg /\ forall s, In s segs -> tpdu_alphabet s = Ok AlphaUCS2).
Proof.
  intros e msg opts segs e'.
  assert (W : forall o, with_options e (opts ++ [o]) = apply_encoder_opt (with_options e opts) o).
  { intros o. unfold with_options. rewrite fold_left_app. reflexivity. }
  split; intros H.
  - destruct (C45_honoured e msg (opts ++ [As8Bit]) segs e') as (H1 & H2); [rewrite W, as_8bit; unfold is_byte; lia|exact H|].
    rewrite W, as_8bit in H1, H2. change (given_encoded _) with true in H2. destruct H2 as (H2 & _). split; [exact H2|].
    intros s K. exact (proj1 (H1 s K)).
  - destruct (C45_honoured e msg (opts ++ [AsUCS2]) segs e') as (H1 & H2); [rewrite W, as_ucs2; unfold is_byte; lia|exact H|].
    rewrite W, as_ucs2 in H1, H2. change (given_encoded _) with true in H2. destruct H2 as (H2 & _). split; [exact H2|].
    intros s K. exact (proj1 (H1 s K)).
Qed.
Print Assumptions C75_as_alphabet.

Theorem C75_as_type : forall msg opts segs, Forall proper_encoder_opt opts ->
  (encode msg (opts ++ [AsDeliver]) = Ok segs -> forall s, In s segs -> tpdu_type s = SmsDeliver) /\
  (encode msg (opts ++ [AsSubmit]) = Ok segs -> forall s, In s segs -> tpdu_type s = SmsSubmit).
Proof.
  assert (K : forall st msg opts segs, In st [0; 3] -> Forall proper_encoder_opt opts ->
    encode msg (opts ++ [EoTemplateOption (OptSmsType st)]) = Ok segs ->
    forall s, In s segs -> tpdu_type s = st).
  { intros st msg opts segs HS HP H s HIn. unfold encode in H.
    apply bind_ok in H as ((pdus & e') & H & K). apply ok_inj in K. subst pdus.
    destruct (C75_encoded (AsSubmit :: opts ++ [EoTemplateOption (OptSmsType st)]) msg [] segs e') as (T & rest & HT & HM); [|exact H|].
    - rewrite app_nil_r. constructor; [exact Logic.I|]. apply Forall_app. split; [exact HP|]. repeat constructor.
    - rewrite app_nil_r in HT. destruct (HM s HIn) as (HD & HI & _).
      assert (HR : exists r, rest = r ++ [OptSmsType st]).
      { destruct HT as (after & _ & -> & HA). assert (exists a, after = a ++ [EoTemplateOption (OptSmsType st)]) as (a & ->).
        { destruct HA as [(_ & <-)|(before & HA)]; [now exists (AsSubmit :: opts)|].
          destruct after as [|x after _] using rev_ind.
          - exfalso. rewrite app_comm_cons in HA. apply app_inj_tail in HA as (_ & HA). discriminate.
          - rewrite app_comm_cons, app_comm_cons, app_assoc in HA. apply app_inj_tail in HA as (_ & <-). now exists after. }
        rewrite flat_map_app. cbn [flat_map template_option app]. eauto. }
      destruct HR as (r & ->).
      assert (C : forall B (f : tpdu_opt -> option B) d v b, chosen f (r ++ [OptSmsType st]) d v -> f (OptSmsType st) = Some b -> v = b).
      { intros B f d v b (o & L & ->) E. assert (L' : last_such f (r ++ [OptSmsType st]) (Some b)).
        { exists r, (OptSmsType st), []. split; [reflexivity|]. split; [exact E|constructor]. }
        now rewrite (last_such_fun _ _ _ _ L L'). }
      unfold tpdu_type. rewrite fo_mti_mod.
      destruct HS as [<-|[<-|[]]].
      + rewrite (C _ _ _ _ 0 HD eq_refl), (C _ _ _ _ 0 HI eq_refl). reflexivity.
      + rewrite (C _ _ _ _ 1 HD eq_refl), (C _ _ _ _ 1 HI eq_refl). reflexivity. }
  intros msg opts segs HP. split; intros H; [apply (K 0 msg opts)|apply (K 3 msg opts)]; auto; cbn; auto.
Qed.
Print Assumptions C75_as_type.

Example C75_named_instance : exists s t,
  encode [104; 105] ([To [49]] ++ [AsDeliver]) = Ok [s] /\ encode [1; 2; 3] ([To [49]] ++ [As8Bit]) = Ok [t] /\
  tpdu_type s = 0 /\ tpdu_alphabet t = Ok 1 /\ UD t = [1; 2; 3].
Proof. eexists. eexists. split; [vm_compute; reflexivity|]. split; [vm_compute; reflexivity|]. repeat split. Qed.

(** ** C88: names *)

(** [f] calls the values of the table by their names and all others Unknown. *)
Definition names (f : Z -> bytes) (table : list (Z * string)) : Prop :=
  (forall v n, In (v, n) table -> f v = str n) /\
  (forall v, ~ In v (map fst table) -> f v = str "Unknown") /\
  NoDup (map snd table) /\ ~ In "Unknown"%string (map snd table).

Theorem C88_names :
  names st_string [(0, "SmsDeliver"); (1, "SmsDeliverReport"); (2, "SmsSubmitReport"); (3, "SmsSubmit");
                   (4, "SmsStatusReport"); (5, "SmsCommand")]%string /\
  names mti_string [(0, "Deliver"); (1, "Submit"); (2, "Command")]%string /\
  names vpf_string [(0, "Not Present"); (1, "Enhanced"); (2, "Relative"); (3, "Absolute")]%string /\
  names evpf_string [(0, "Not Present"); (1, "Relative"); (2, "Relative Seconds"); (3, "Relative HHMMSS")]%string.
Proof.
  assert (E : forall (f : Z -> bytes) k, (forall v, existsb (Z.eqb v) k = false -> f v = str "Unknown") ->
            forall v, ~ In v k -> f v = str "Unknown").
  { intros f k H v N. apply H. destruct (existsb (Z.eqb v) k) eqn:X; [|reflexivity].
    apply existsb_exists in X as (w & Hw & Ew). apply Z.eqb_eq in Ew. now subst. }
  assert (D : forall l : list string, (fix dup l := match l with [] => true | x :: l => negb (existsb (String.eqb x) l) && dup l end) l = true -> NoDup l).
  { induction l as [|x l IH]; [constructor|]. intros H. apply andb_prop in H as (H1 & H2). constructor; [|now apply IH].
    intros K. assert (existsb (String.eqb x) l = true) by (apply existsb_exists; exists x; split; [exact K|apply String.eqb_refl]).
    rewrite H in H1. discriminate. }
  repeat apply conj.
  all: try (apply D; reflexivity).
  all: try (intros K; cbn [map snd In] in K; repeat (destruct K as [K|K]; [discriminate|]); exact K).
  all: try (intros v n K; cbn [In] in K; repeat (destruct K as [K|K]; [injection K as <- <-; reflexivity|]); destruct K).
  all: apply E; intros v H; cbn [map fst existsb] in H; repeat (apply Bool.orb_false_elim in H as (? & H)).
  - unfold st_string, SmsDeliver, SmsDeliverReport, SmsSubmitReport, SmsSubmit, SmsStatusReport, SmsCommand.
    repeat match goal with X : (v =? _) = false |- _ => rewrite X; clear X end. reflexivity.
  - unfold mti_string, MtDeliver, MtSubmit, MtCommand.
    repeat match goal with X : (v =? _) = false |- _ => rewrite X; clear X end. reflexivity.
  - unfold vpf_string, VpfNotPresent, VpfAbsolute, VpfRelative, VpfEnhanced.
    repeat match goal with X : (v =? _) = false |- _ => rewrite X; clear X end. reflexivity.
  - unfold evpf_string, EvpfNotPresent, EvpfRelative, EvpfRelativeSeconds, EvpfRelativeHHMMSS.
    repeat match goal with X : (v =? _) = false |- _ => rewrite X; clear X end. reflexivity.
Qed.
Print Assumptions C88_names.

(** Different values that have names have different names. *)
Theorem C88_distinct : forall f table v v', names f table ->
  In v (map fst table) -> f v = f v' -> NoDup (map fst table) -> v = v'.
Proof.
  intros f table v v' (N1 & N2 & N3 & N4) HV E ND.
  apply in_map_iff in HV as ((w & n) & EW & HV). cbn [fst] in EW. subst w.
  destruct (in_dec Z.eq_dec v' (map fst table)) as [I|I].
  - apply in_map_iff in I as ((w & n') & EW & HV'). cbn [fst] in EW. subst w.
    rewrite (N1 _ _ HV), (N1 _ _ HV') in E. apply str_inj in E. subst n'.
    clear - HV HV' N3. induction table as [|(a & b) l IH]; [destruct HV|]. cbn [map snd] in N3. inversion N3 as [|? ? X Y]; subst.
    destruct HV as [HV|HV], HV' as [HV'|HV'].
    + congruence.
    + injection HV as -> ->. destruct X. apply in_map_iff. now exists (v', n).
    + injection HV' as -> ->. destruct X. apply in_map_iff. now exists (v, n).
    + now apply IH.
  - rewrite (N1 _ _ HV), (N2 _ I) in E. apply str_inj in E. subst n. destruct N4. apply in_map_iff. now exists (v, "Unknown"%string).
Qed.
Print Assumptions C88_distinct.

(** SmsType.MTI and SmsType.Direction are what a TPDU of that type has, and the
    type of a TPDU is called alike by its name and in errors. *)
Theorem C88_type_parts : forall st t, 0 <= st <= 5 -> is_byte (FO t) -> 0 <= Direction t <= 1 ->
  (tpdu_type t = st <-> fo_mti (FO t) = st_mti st /\ Direction t = st_direction st) /\
  st_string st = str (sms_type_string st).
Proof.
  intros st t HS HF HD. split.
  - assert (C : forall m d s, 0 <= m < 4 -> 0 <= d < 2 -> 0 <= s < 6 ->
      (sms_type m d =? s) = ((m =? Z.shiftr s 1) && (d =? Z.land s 1))).
    { intros m d s Hm Hd Hs. pose proof (zrange_sweep 48 (fun k =>
        Bool.eqb (sms_type (k / 12) (k / 6 mod 2) =? k mod 6) ((k / 12 =? Z.shiftr (k mod 6) 1) && (k / 6 mod 2 =? Z.land (k mod 6) 1)))
        ltac:(vm_compute; reflexivity) (12 * m + 6 * d + s) ltac:(lia)) as X. cbn beta in X.
      replace ((12 * m + 6 * d + s) / 12) with m in X by lia. replace ((12 * m + 6 * d + s) / 6 mod 2) with d in X by lia.
      replace ((12 * m + 6 * d + s) mod 6) with s in X by lia. now apply eqb_prop in X. }
    unfold tpdu_type, st_mti, st_direction. rewrite fo_mti_mod.
    specialize (C (FO t mod 4) (Direction t) st ltac:(lia) ltac:(lia) ltac:(lia)).
    destruct (Z.eqb_spec (sms_type (FO t mod 4) (Direction t)) st) as [E|E];
      destruct (Z.eqb_spec (FO t mod 4) (Z.shiftr st 1)) as [E1|E1];
      destruct (Z.eqb_spec (Direction t) (Z.land st 1)) as [E2|E2]; cbn [andb] in C; try discriminate C; split; intros; tauto.
  - assert (st = 0 \/ st = 1 \/ st = 2 \/ st = 3 \/ st = 4 \/ st = 5) as H by lia.
    repeat (destruct H as [->|H]; [reflexivity|]). now subst.
Qed.
Print Assumptions C88_type_parts.

Example C88_instance :
  st_string 3 = str "SmsSubmit" /\ st_string 7 = str "Unknown" /\ st_mti 3 = 1 /\ st_direction 3 = 1 /\
  tpdu_type (set_FO (set_Direction zero_tpdu 1) 49) = 3.
Proof. repeat split. Qed.
