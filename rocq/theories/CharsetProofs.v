(** Lemmas for C06-C08. *)
From Coq Require Import Permutation.
From Verif Require Import GoBase GoLemmas Utf UtfProofs SpecText CharsetTables Charset Gsm7.

(** * Go maps as association lists *)
Lemma assoc_set_same m k v : assoc (assoc_set m k v) k = Some v.
Proof.
  induction m as [|[k' v'] m IH]; cbn [assoc_set assoc]; [now rewrite Z.eqb_refl|].
  destruct (k =? k') eqn:E; cbn [assoc]; [now rewrite Z.eqb_refl|]. now rewrite E.
Qed.
Lemma assoc_set_other m k v k1 : k1 <> k -> assoc (assoc_set m k v) k1 = assoc m k1.
Proof.
  intros N. induction m as [|[k' v'] m IH]; cbn [assoc_set assoc].
  - now bfalse (k1 =? k).
  - destruct (k =? k') eqn:E; cbn [assoc].
    + bfalse (k1 =? k). bfalse (k1 =? k'). reflexivity.
    + now rewrite IH.
Qed.
Lemma assoc_In m k v : assoc m k = Some v -> In (k, v) m.
Proof.
  induction m as [|[k' v'] m IH]; cbn [assoc]; [discriminate|].
  destruct (k =? k') eqn:E; intros H.
  - injection H as ->. left. f_equal. lia.
  - right. auto.
Qed.
Lemma assoc_NoDup m k v : NoDup (map fst m) -> In (k, v) m -> assoc m k = Some v.
Proof.
  induction m as [|[k' v'] m IH]; cbn [assoc map fst In]; intros HN H;
    [contradiction|destruct H as [H|H]].
  - injection H as -> ->. now rewrite Z.eqb_refl.
  - inversion HN as [|? ? Hni HN']; subst. destruct (k =? k') eqn:E.
    + exfalso. apply Hni. replace k' with k by lia. now apply (in_map fst) in H.
    + now apply IH.
Qed.
Lemma assoc_perm m m' k : NoDup (map fst m) -> Permutation m m' -> assoc m k = assoc m' k.
Proof.
  intros HN HP.
  assert (HN' : NoDup (map fst m')).
  { eapply Permutation_NoDup; [|exact HN]. now apply Permutation_map. }
  destruct (assoc m k) as [v|] eqn:E.
  - symmetry. apply assoc_NoDup; [assumption|]. eapply Permutation_in; [exact HP|].
    now apply assoc_In.
  - destruct (assoc m' k) as [v|] eqn:E'; [|reflexivity].
    exfalso. apply assoc_In in E'. apply Permutation_sym in HP.
    apply (Permutation_in _ HP) in E'. apply assoc_NoDup in E'; [congruence|assumption].
Qed.

(** * generateEncoder: the least code of each character *)
Lemma gen_fold d : forall pre e, (forall r, least_code pre r (assoc e r)) ->
  forall r, least_code (pre ++ d) r (assoc (fold_left gen_step d e) r).
Proof.
  induction d as [|[k v] d IH]; intros pre e He r.
  - rewrite app_nil_r. apply He.
  - cbn [fold_left]. replace (pre ++ (k, v) :: d) with ((pre ++ [(k, v)]) ++ d)
      by now rewrite <- app_assoc.
    apply IH. clear r. intros r. unfold gen_step.
    pose proof (He v) as Hv. pose proof (He r) as Hr.
    destruct (assoc e v) as [ko|] eqn:Ev.
    + destruct Hv as [Hin Hmin]. destruct (k <? ko) eqn:Ek.
      * destruct (Z.eq_dec r v) as [->|Nr].
        -- rewrite assoc_set_same. split; [apply in_or_app; right; now left|].
           intros k' Hk'. apply in_app_or in Hk' as [Hk'|[Hk'|[]]].
           ++ specialize (Hmin k' Hk'). lia.
           ++ injection Hk' as <-. lia.
        -- rewrite assoc_set_other by assumption. destruct (assoc e r) as [kr|].
           ++ destruct Hr as [Hi Hm]. split; [apply in_or_app; now left|].
              intros k' Hk'. apply in_app_or in Hk' as [Hk'|[Hk'|[]]]; [auto|].
              injection Hk' as <- <-. contradiction.
           ++ intros k' Hk'. apply in_app_or in Hk' as [Hk'|[Hk'|[]]]; [eapply Hr; eauto|].
              injection Hk' as <- <-. contradiction.
      * destruct (Z.eq_dec r v) as [->|Nr].
        -- rewrite Ev. split; [apply in_or_app; now left|].
           intros k' Hk'. apply in_app_or in Hk' as [Hk'|[Hk'|[]]]; [auto|].
           injection Hk' as <-. lia.
        -- destruct (assoc e r) as [kr|].
           ++ destruct Hr as [Hi Hm]. split; [apply in_or_app; now left|].
              intros k' Hk'. apply in_app_or in Hk' as [Hk'|[Hk'|[]]]; [auto|].
              injection Hk' as <- <-. contradiction.
           ++ intros k' Hk'. apply in_app_or in Hk' as [Hk'|[Hk'|[]]]; [eapply Hr; eauto|].
              injection Hk' as <- <-. contradiction.
    + destruct (Z.eq_dec r v) as [->|Nr].
      * rewrite assoc_set_same. split; [apply in_or_app; right; now left|].
        intros k' Hk'. apply in_app_or in Hk' as [Hk'|[Hk'|[]]].
        -- exfalso. eapply Hv; eauto.
        -- injection Hk' as <-. lia.
      * rewrite assoc_set_other by assumption. destruct (assoc e r) as [kr|].
        ++ destruct Hr as [Hi Hm]. split; [apply in_or_app; now left|].
           intros k' Hk'. apply in_app_or in Hk' as [Hk'|[Hk'|[]]]; [auto|].
           injection Hk' as <- <-. contradiction.
        ++ intros k' Hk'. apply in_app_or in Hk' as [Hk'|[Hk'|[]]]; [eapply Hr; eauto|].
           injection Hk' as <- <-. contradiction.
Qed.

Lemma generate_encoder_least d r : least_code d r (assoc (generate_encoder d) r).
Proof.
  unfold generate_encoder. change d with ([] ++ d) at 1. apply gen_fold.
  intros r0. cbn. intros k [].
Qed.

Lemma least_code_perm d d' r o o' : Permutation d d' ->
  least_code d r o -> least_code d' r o' -> o = o'.
Proof.
  intros HP H H'. pose proof (Permutation_sym HP) as HP'.
  destruct o as [k|], o' as [k'|]; cbn in *; try reflexivity.
  - destruct H as [Hi Hm], H' as [Hi' Hm'].
    pose proof (Hm' k (Permutation_in _ HP Hi)).
    pose proof (Hm k' (Permutation_in _ HP' Hi')). f_equal. lia.
  - destruct H as [Hi _]. exfalso. apply (H' k). now apply (Permutation_in _ HP).
  - destruct H' as [Hi _]. exfalso. apply (H k'). now apply (Permutation_in _ HP').
Qed.

Lemma generate_encoder_order d d' r : Permutation d d' ->
  assoc (generate_encoder d) r = assoc (generate_encoder d') r.
Proof.
  intros HP. eapply least_code_perm; [exact HP|apply generate_encoder_least..].
Qed.

(** * The built-in tables, checked entry by entry *)
Definition nlis : list Z := [0; 1; 2; 3; 4; 5; 6; 7; 8; 9; 10; 11; 12; 13].

Lemma locking_nli n : exists n', In n' nlis /\ locking_table n = locking_table n'.
Proof.
  destruct (Z_le_gt_dec 0 n), (Z_le_gt_dec n 13).
  - exists n. split; [|reflexivity]. cbn. lia.
  - exists 0. split; [cbn; auto|]. unfold locking_table, nli_turkish, nli_portuguese, nli_bengali,
      nli_gujarati, nli_hindi, nli_kannada, nli_malayalam, nli_oriya, nli_punjabi, nli_tamil,
      nli_telugu, nli_urdu.
    repeat match goal with |- context [n =? ?c] => replace (n =? c) with false by lia end.
    reflexivity.
  - exists 0. split; [cbn; auto|]. unfold locking_table, nli_turkish, nli_portuguese, nli_bengali,
      nli_gujarati, nli_hindi, nli_kannada, nli_malayalam, nli_oriya, nli_punjabi, nli_tamil,
      nli_telugu, nli_urdu.
    repeat match goal with |- context [n =? ?c] => replace (n =? c) with false by lia end.
    reflexivity.
  - lia.
Qed.
Lemma shift_nli n : exists n', In n' nlis /\ shift_table n = shift_table n'.
Proof.
  destruct (Z_le_gt_dec 0 n), (Z_le_gt_dec n 13).
  - exists n. split; [|reflexivity]. cbn. lia.
  - exists 0. split; [cbn; auto|]. unfold shift_table, nli_turkish, nli_spanish, nli_portuguese, nli_bengali,
      nli_gujarati, nli_hindi, nli_kannada, nli_malayalam, nli_oriya, nli_punjabi, nli_tamil,
      nli_telugu, nli_urdu.
    repeat match goal with |- context [n =? ?c] => replace (n =? c) with false by lia end.
    reflexivity.
  - exists 0. split; [cbn; auto|]. unfold shift_table, nli_turkish, nli_spanish, nli_portuguese, nli_bengali,
      nli_gujarati, nli_hindi, nli_kannada, nli_malayalam, nli_oriya, nli_punjabi, nli_tamil,
      nli_telugu, nli_urdu.
    repeat match goal with |- context [n =? ?c] => replace (n =? c) with false by lia end.
    reflexivity.
  - lia.
Qed.

Definition is_scalarb (r : Z) : bool :=
  ((0 <=? r) && (r <=? 55295)) || ((57344 <=? r) && (r <=? 1114111)).
Lemma is_scalarb_ok r : is_scalarb r = true -> scalar r.
Proof. unfold is_scalarb, scalar. lia. Qed.

Definition beq_opt (a b : option Z) : bool :=
  match a, b with Some x, Some y => x =? y | None, None => true | _, _ => false end.
Lemma beq_opt_ok a b : beq_opt a b = true -> a = b.
Proof. destruct a, b; cbn; intros; try discriminate; [f_equal; lia|reflexivity]. Qed.

(** Every encoder entry decodes back; is a septet; only U+001B gives the escape
    code; every decoder entry is a scalar value, has an encoding, and is keyed
    by a septet. *)
Definition dec_ok (d : decoder) (e : encoder) : bool :=
  forallb (fun '(r, g) => beq_opt (assoc d g) (Some r) && (0 <=? g) && (g <? 128)
              && (eqb (r =? 27) (g =? 27))) e &&
  forallb (fun '(g, r) => is_scalarb r && (0 <=? g) && (g <? 128) && negb (r =? rune_error) &&
              match assoc e r with Some _ => true | None => false end) d.
Fixpoint nodupb (l : list Z) : bool :=
  match l with [] => true | x :: l' => negb (existsb (Z.eqb x) l') && nodupb l' end.
Lemma nodupb_ok l : nodupb l = true -> NoDup l.
Proof.
  induction l as [|x l IH]; cbn; intros H; constructor.
  - intros Hi. rewrite (proj2 (existsb_exists _ l)) in H; [discriminate|].
    exists x. split; [assumption|apply Z.eqb_refl].
  - apply andb_prop in H as [_ H]. now apply IH.
Qed.
Definition all_locking : bool :=
  forallb (fun n => dec_ok (new_decoder n) (new_encoder n) && nodupb (map fst (new_decoder n))) nlis.
Definition all_shift : bool :=
  forallb (fun n => dec_ok (new_ext_decoder n) (new_ext_encoder n) && nodupb (map fst (new_ext_decoder n))) nlis.

Lemma all_locking_ok : all_locking = true. Proof. vm_compute. reflexivity. Qed.
Lemma all_shift_ok : all_shift = true. Proof. vm_compute. reflexivity. Qed.

(** What a consistent decoder/encoder pair gives. *)
Record tables_ok (d : decoder) (e : encoder) : Prop := {
  tk_inv : forall r g, assoc e r = Some g -> assoc d g = Some r;
  tk_sept : forall r g, assoc e r = Some g -> is_septet g;
  tk_esc : forall r g, assoc e r = Some g -> (g = 27 <-> r = 27);
  tk_scalar : forall g r, assoc d g = Some r -> scalar r;
  tk_rerr : forall g r, assoc d g = Some r -> r <> rune_error;
  tk_dsept : forall g r, assoc d g = Some r -> is_septet g;
  tk_sur : forall g r, assoc d g = Some r -> exists g', assoc e r = Some g';
  tk_nodup : NoDup (map fst d)
}.

Lemma dec_ok_tables d e : dec_ok d e && nodupb (map fst d) = true -> tables_ok d e.
Proof.
  intros H. apply andb_prop in H as [H HN]. apply andb_prop in H as [HE HD].
  rewrite forallb_forall in HE, HD.
  assert (E : forall r g, assoc e r = Some g ->
    assoc d g = Some r /\ is_septet g /\ (g = 27 <-> r = 27)).
  { intros r g H. apply assoc_In, HE in H. cbn in H.
    apply andb_prop in H as [H H4]. apply andb_prop in H as [H H3]. apply andb_prop in H as [H1 H2].
    apply beq_opt_ok in H1. apply eqb_prop in H4. unfold is_septet.
    repeat split; try assumption; lia. }
  assert (D : forall g r, assoc d g = Some r ->
    scalar r /\ r <> rune_error /\ is_septet g /\ exists g', assoc e r = Some g').
  { intros g r H. apply assoc_In, HD in H. cbn in H.
    apply andb_prop in H as [H H5]. apply andb_prop in H as [H H4]. apply andb_prop in H as [H H3].
    apply andb_prop in H as [H1 H2]. apply is_scalarb_ok in H1. unfold is_septet.
    repeat split; try assumption; try lia.
    destruct (assoc e r); [eauto|discriminate]. }
  constructor; try (intros; first [eapply E; eassumption|eapply D; eassumption]).
  now apply nodupb_ok.
Qed.

Lemma locking_ok n : tables_ok (new_decoder n) (new_encoder n).
Proof.
  destruct (locking_nli n) as (n' & Hn' & E). unfold new_decoder, new_encoder. rewrite E.
  apply dec_ok_tables. pose proof all_locking_ok as H. unfold all_locking in H.
  rewrite forallb_forall in H. exact (H n' Hn').
Qed.
Lemma shift_ok n : tables_ok (new_ext_decoder n) (new_ext_encoder n).
Proof.
  destruct (shift_nli n) as (n' & Hn' & E). unfold new_ext_decoder, new_ext_encoder. rewrite E.
  apply dec_ok_tables. pose proof all_shift_ok as H. unfold all_shift in H.
  rewrite forallb_forall in H. exact (H n' Hn').
Qed.

(** The sets selected by the options of gsm7.NewEncoder/NewDecoder. *)
Lemma new_set_ok l s strict :
  tables_ok (gd_set (gsm7_new_decoder l s strict)) (ge_set (gsm7_new_encoder l s)).
Proof.
  unfold gsm7_new_decoder, gsm7_new_encoder. cbn [gd_set ge_set].
  destruct l; [apply locking_ok|exact (locking_ok 0)].
Qed.
Lemma new_ext_ok l s strict :
  tables_ok (gd_ext (gsm7_new_decoder l s strict)) (ge_ext (gsm7_new_encoder l s)).
Proof.
  unfold gsm7_new_decoder, gsm7_new_encoder. cbn [gd_ext ge_ext].
  destruct s; [apply shift_ok|exact (shift_ok 0)].
Qed.

(** * Decoding *)
Lemma list_pair_ind {A} (P : list A -> Prop) :
  P [] -> (forall x l, P l -> match l with [] => True | y :: l' => P l' end -> P (x :: l)) ->
  forall l, P l.
Proof.
  intros H0 HS l. assert (P l /\ match l with [] => True | y :: l' => P l' end) as [H _]; [|exact H].
  induction l as [|x l [IH1 IH2]]; [split; [exact H0|exact I]|].
  split; [now apply HS|exact IH1].
Qed.

Lemma gsm7_decode_total d src : gd_strict d = false ->
  gsm7_decode d src = Ok (utf8_of (gsm7_chars (assoc (gd_set d)) (assoc (gd_ext d)) src)).
Proof.
  intros HS. unfold gsm7_decode.
  induction src as [|g src IH1 IH2] using list_pair_ind; [reflexivity|].
  cbn [gsm7_decode_loop gsm7_chars]. change esc with 27.
  destruct (g =? 27) eqn:E.
  - destruct src as [|x src]; [reflexivity|]. cbn [gsm7_decode_loop]. change esc with 27.
    destruct (x =? 27); [rewrite IH2; reflexivity|].
    rewrite HS. destruct (assoc (gd_ext d) x); [rewrite IH2; reflexivity|].
    destruct (assoc (gd_set d) x); rewrite IH2; reflexivity.
  - rewrite HS. destruct (assoc (gd_set d) g); rewrite IH1; reflexivity.
Qed.

Lemma gsm7_decode_strict d src : gd_strict d = true ->
  gsm7_decode d src =
    match gsm7_fault (assoc (gd_set d)) (assoc (gd_ext d)) src with
    | Some g => Err (Gsm7InvalidSeptet g)
    | None => Ok (utf8_of (gsm7_chars (assoc (gd_set d)) (assoc (gd_ext d)) src))
    end.
Proof.
  intros HS. unfold gsm7_decode.
  induction src as [|g src IH1 IH2] using list_pair_ind; [reflexivity|].
  cbn [gsm7_decode_loop gsm7_chars gsm7_fault]. change esc with 27.
  destruct (g =? 27) eqn:E.
  - destruct src as [|x src]; [reflexivity|]. cbn [gsm7_decode_loop]. change esc with 27.
    destruct (x =? 27).
    + rewrite IH2. destruct (gsm7_fault _ _ src); reflexivity.
    + rewrite HS. destruct (assoc (gd_ext d) x); [|reflexivity].
      rewrite IH2. destruct (gsm7_fault _ _ src); reflexivity.
  - rewrite HS. destruct (assoc (gd_set d) g); [|reflexivity].
    rewrite IH1. destruct (gsm7_fault _ _ src); reflexivity.
Qed.

(** The characters produced are scalar values, hence valid UTF-8. *)
Lemma gsm7_chars_scalar set ext src :
  (forall g r, set g = Some r -> scalar r) -> (forall g r, ext g = Some r -> scalar r) ->
  Forall scalar (gsm7_chars set ext src).
Proof.
  intros H1 H2.
  assert (HO : forall o, (forall r, o = Some r -> scalar r) -> scalar (or_space o)).
  { intros [r|] H; [now apply H|unfold scalar; cbn; lia]. }
  induction src as [|g src IH1 IH2] using list_pair_ind; [constructor|].
  cbn [gsm7_chars]. destruct (g =? 27).
  - destruct src as [|x src]; [constructor; [unfold scalar; lia|constructor]|].
    constructor; [|exact IH2]. destruct (x =? 27); [unfold scalar; lia|].
    apply HO. unfold or_else. destruct (ext x) eqn:E; intros r Hr; [|eauto].
    injection Hr as <-. eauto.
  - constructor; [|exact IH1]. apply HO. eauto.
Qed.

(** * Encoding *)
Lemma encode_runes_ok e rs : (forall r, In r rs -> assoc (ge_set e) r <> None \/ assoc (ge_ext e) r <> None) ->
  exists s, gsm7_encode_runes e rs = Ok s.
Proof.
  induction rs as [|r rs IH]; intros H; [cbn; eauto|]. cbn [gsm7_encode_runes].
  destruct IH as (s & ->); [intros; apply H; now right|].
  destruct (assoc (ge_set e) r) eqn:E1; [cbn; eauto|].
  destruct (assoc (ge_ext e) r) eqn:E2; [cbn; eauto|].
  destruct (H r ltac:(now left)); contradiction.
Qed.

Lemma encode_runes_inv e rs s : gsm7_encode_runes e rs = Ok s ->
  forall r, In r rs -> assoc (ge_set e) r <> None \/ assoc (ge_ext e) r <> None.
Proof.
  revert s. induction rs as [|r0 rs IH]; intros s H r []; cbn [gsm7_encode_runes] in H.
  - subst. destruct (assoc (ge_set e) r); [left; discriminate|].
    destruct (assoc (ge_ext e) r); [right; discriminate|discriminate].
  - destruct (gsm7_encode_runes e rs) as [s'| | |] eqn:E;
      [eapply IH; eauto| | |];
      (destruct (assoc (ge_set e) r0); [discriminate|];
       destruct (assoc (ge_ext e) r0); discriminate).
Qed.

Lemma encode_runes_err e rs : 
  match gsm7_encode_runes e rs with
  | Ok _ => True
  | Err (Gsm7InvalidUTF8 r) => In r rs /\ assoc (ge_set e) r = None /\ assoc (ge_ext e) r = None
  | _ => False
  end.
Proof.
  induction rs as [|r rs IH]; cbn [gsm7_encode_runes]; [exact I|].
  destruct (assoc (ge_set e) r) eqn:E1; [|destruct (assoc (ge_ext e) r) eqn:E2].
  - destruct (gsm7_encode_runes e rs) as [|[]| |]; cbn [bind] in *; try exact I; try contradiction.
    destruct IH as (H & ?). split; [now right|assumption].
  - destruct (gsm7_encode_runes e rs) as [|[]| |]; cbn [bind] in *; try exact I; try contradiction.
    destruct IH as (H & ?). split; [now right|assumption].
  - split; [now left|auto].
Qed.

(** Encoded septets, read back. *)
Lemma encode_runes_chars e d rs s :
  tables_ok (gd_set d) (ge_set e) -> tables_ok (gd_ext d) (ge_ext e) ->
  gsm7_encode_runes e rs = Ok s -> ~ In 27 rs ->
  gsm7_chars (assoc (gd_set d)) (assoc (gd_ext d)) s = rs /\
  gsm7_fault (assoc (gd_set d)) (assoc (gd_ext d)) s = None.
Proof.
  intros HT HX. revert s. induction rs as [|r rs IH]; intros s H HN; cbn [gsm7_encode_runes] in H.
  - injection H as <-. auto.
  - assert (Hr : r <> 27) by (intros ->; apply HN; now left).
    assert (HN' : ~ In 27 rs) by (intros Hi; apply HN; now right).
    destruct (assoc (ge_set e) r) as [g|] eqn:E1.
    + destruct (gsm7_encode_runes e rs) as [s'| | |] eqn:E; try discriminate.
      injection H as <-. destruct (IH s' eq_refl HN') as [IH1 IH2].
      assert (g <> 27) by (intros Hg; apply (tk_esc _ _ HT) in E1; tauto).
      cbn [gsm7_chars gsm7_fault]. bfalse (g =? 27).
      rewrite (tk_inv _ _ HT _ _ E1), IH1, IH2. auto.
    + destruct (assoc (ge_ext e) r) as [g|] eqn:E2; [|discriminate].
      destruct (gsm7_encode_runes e rs) as [s'| | |] eqn:E; try discriminate.
      injection H as <-. destruct (IH s' eq_refl HN') as [IH1 IH2].
      assert (g <> 27) by (intros Hg; apply (tk_esc _ _ HX) in E2; tauto).
      cbn [gsm7_chars gsm7_fault]. change esc with 27. btrue (27 =? 27). bfalse (g =? 27).
      rewrite (tk_inv _ _ HX _ _ E2), IH1, IH2. auto.
Qed.

Lemma encode_runes_septets e d rs s :
  tables_ok (gd_set d) (ge_set e) -> tables_ok (gd_ext d) (ge_ext e) ->
  gsm7_encode_runes e rs = Ok s -> Forall is_septet s.
Proof.
  intros HT HX. revert s. induction rs as [|r rs IH]; intros s H; cbn [gsm7_encode_runes] in H.
  - injection H as <-. constructor.
  - destruct (assoc (ge_set e) r) as [g|] eqn:E1; [|destruct (assoc (ge_ext e) r) as [g|] eqn:E2;
      [|discriminate]].
    + destruct (gsm7_encode_runes e rs) as [s'| | |] eqn:E; try discriminate.
      injection H as <-. constructor; [eapply (tk_sept _ _ HT); eassumption|auto].
    + destruct (gsm7_encode_runes e rs) as [s'| | |] eqn:E; try discriminate.
      injection H as <-. constructor; [unfold is_septet, esc; lia|].
      constructor; [eapply (tk_sept _ _ HX); eassumption|auto].
Qed.

(** An accepted message is valid UTF-8. *)
Lemma encode_accept_valid e d src s : Forall is_byte src ->
  tables_ok (gd_set d) (ge_set e) -> tables_ok (gd_ext d) (ge_ext e) ->
  gsm7_encode e src = Ok s -> utf8_text (runes_of src) src.
Proof.
  intros HB HT HX H. apply runes_of_valid; [assumption|]. intros HI.
  destruct (encode_runes_inv _ _ _ H _ HI) as [E|E].
  - destruct (assoc (ge_set e) rune_error) as [g|] eqn:Eg; [|contradiction].
    apply (tk_inv _ _ HT) in Eg. now apply (tk_rerr _ _ HT) in Eg.
  - destruct (assoc (ge_ext e) rune_error) as [g|] eqn:Eg; [|contradiction].
    apply (tk_inv _ _ HX) in Eg. now apply (tk_rerr _ _ HX) in Eg.
Qed.

(** U+001B occurs among the characters exactly when octet 27 occurs. *)
Lemma utf8_text_27 rs s : utf8_text rs s -> (In 27 rs <-> In 27 s).
Proof.
  induction 1 as [|r b rs s Hc Ht IH]; [tauto|].
  rewrite in_app_iff. cbn [In]. rewrite <- IH.
  assert (r = 27 <-> In 27 b); [|tauto].
  destruct Hc; cbn [In]; unfold scalar in *; lia.
Qed.

Lemma gsm7_roundtrip l s strict msg septets :
  Forall is_byte msg -> ~ In 27 msg ->
  gsm7_encode (gsm7_new_encoder l s) msg = Ok septets ->
  gsm7_decode (gsm7_new_decoder l s strict) septets = Ok msg.
Proof.
  intros HB HN HE.
  pose proof (new_set_ok l s strict) as HT. pose proof (new_ext_ok l s strict) as HX.
  pose proof (encode_accept_valid _ _ _ _ HB HT HX HE) as HV.
  assert (HN' : ~ In 27 (runes_of msg)) by (now rewrite (utf8_text_27 _ _ HV)).
  destruct (encode_runes_chars _ _ _ _ HT HX HE HN') as [HC HF].
  destruct strict eqn:ES; rewrite <- ES in *.
  - rewrite gsm7_decode_strict by (rewrite ES; reflexivity). rewrite HF, HC.
    now rewrite <- (utf8_text_fun _ _ HV).
  - rewrite gsm7_decode_total by (rewrite ES; reflexivity). rewrite HC.
    now rewrite <- (utf8_text_fun _ _ HV).
Qed.

Lemma gsm7_decode_valid l s strict src out :
  gsm7_decode (gsm7_new_decoder l s strict) src = Ok out -> valid_utf8 out.
Proof.
  pose proof (new_set_ok l s strict) as HT. pose proof (new_ext_ok l s strict) as HX.
  assert (HV : forall src, valid_utf8 (utf8_of (gsm7_chars (assoc (gd_set (gsm7_new_decoder l s strict)))
     (assoc (gd_ext (gsm7_new_decoder l s strict))) src))).
  { intros src0. eexists. apply utf8_text_utf8_of, gsm7_chars_scalar.
    - apply (tk_scalar _ _ HT).
    - apply (tk_scalar _ _ HX). }
  destruct (gd_strict (gsm7_new_decoder l s strict)) eqn:ES.
  - rewrite gsm7_decode_strict by exact ES. destruct (gsm7_fault _ _ src); [discriminate|].
    intros H. injection H as <-. apply HV.
  - rewrite gsm7_decode_total by exact ES. intros H. injection H as <-. apply HV.
Qed.
