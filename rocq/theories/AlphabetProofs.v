(** Proofs about the built-in tables: each is compared entry by entry with the
    written-out specification. *)
From Verif Require Import GoBase GoLemmas Utf UtfProofs SpecText SpecAlphabet SpecScripts CharsetTables
  Charset Gsm7 CharsetProofs.

Definition pairs (e : code_table) : list (Z * Z) := combine (codes e) (runes_of (chars e)).
Definition text_okb (e : code_table) : bool :=
  let rs := runes_of (chars e) in
  forallb is_scalarb rs && (if list_eq_dec Z.eq_dec (utf8_of rs) (chars e) then true else false)
  && (length rs =? length (codes e))%nat.
Lemma listed_pairs e : text_okb e = true -> forall g r, listed e g r <-> In (g, r) (pairs e).
Proof.
  unfold text_okb. intros H g r. apply andb_true_iff in H as [H HL].
  apply andb_true_iff in H as [HS HT]. destruct (list_eq_dec _ _ _) as [HE|]; [|discriminate].
  apply Nat.eqb_eq in HL.
  assert (HU : utf8_text (runes_of (chars e)) (chars e)).
  { rewrite <- HE at 2. apply utf8_text_utf8_of. rewrite Forall_forall. intros x Hx.
    apply is_scalarb_ok. rewrite forallb_forall in HS. auto. }
  split.
  - intros (rs & Hrs & _ & Hin). unfold pairs. rewrite (runes_of_text _ _ Hrs). exact Hin.
  - intros Hin. exists (runes_of (chars e)). auto.
Qed.

Definition pair_in (l : list (Z * Z)) (p : Z * Z) : bool :=
  existsb (fun q => (fst q =? fst p) && (snd q =? snd p)) l.
Lemma pair_in_ok l p : pair_in l p = true -> In p l.
Proof.
  unfold pair_in. intros H. apply existsb_exists in H as ([a b] & Hin & H). destruct p as [c d].
  cbn [fst snd] in H. assert (a = c) by lia. assert (b = d) by lia. subst. exact Hin.
Qed.

(** Exactly the same entries. *)
Definition sameb (d l : list (Z * Z)) : bool :=
  nodupb (map fst d) && forallb (pair_in l) d && forallb (pair_in d) l.
Lemma same_ok d l : sameb d l = true -> forall g r, assoc d g = Some r <-> In (g, r) l.
Proof.
  unfold sameb. intros H g r. apply andb_true_iff in H as [H H3]. apply andb_true_iff in H as [H1 H2].
  rewrite forallb_forall in H2, H3. split; intros H.
  - apply pair_in_ok, H2, assoc_In, H.
  - apply assoc_NoDup; [apply nodupb_ok, H1|]. apply pair_in_ok, H3, H.
Qed.

(** At least some entries, and the others with a property. *)
Definition extendsb (f : Z -> bool) (d l : list (Z * Z)) : bool :=
  nodupb (map fst d) && forallb (fun p => pair_in l p || f (snd p)) d && forallb (pair_in d) l.
Lemma extends_ok f d l : extendsb f d l = true ->
  (forall g r, In (g, r) l -> assoc d g = Some r) /\
  (forall g r, assoc d g = Some r -> In (g, r) l \/ f r = true).
Proof.
  unfold extendsb. intros H. apply andb_true_iff in H as [H H3]. apply andb_true_iff in H as [H1 H2].
  rewrite forallb_forall in H2, H3. split; intros g r H.
  - apply assoc_NoDup; [apply nodupb_ok, H1|]. apply pair_in_ok, H3, H.
  - apply assoc_In in H. apply H2 in H. apply orb_true_iff in H as [H|H]; [left|right; exact H].
    apply pair_in_ok, H.
Qed.

(** The characters in a block come in the order of their codes. *)
Definition orderedb (f : Z -> bool) (d : list (Z * Z)) : bool :=
  forallb (fun p => forallb (fun q =>
    negb ((fst p <? fst q) && f (snd p) && f (snd q)) || (snd p <? snd q)) d) d.
Lemma ordered_ok f d : orderedb f d = true -> forall g1 r1 g2 r2,
  assoc d g1 = Some r1 -> assoc d g2 = Some r2 -> f r1 = true -> f r2 = true -> g1 < g2 -> r1 < r2.
Proof.
  unfold orderedb. intros H g1 r1 g2 r2 H1 H2 F1 F2 HL. rewrite forallb_forall in H.
  apply assoc_In in H1, H2. apply H in H1. rewrite forallb_forall in H1. apply H1 in H2.
  cbn [fst snd] in H2. rewrite F1, F2 in H2. lia.
Qed.

Definition blockb (l : language) (r : Z) : bool :=
  match block l with Some (lo, hi) => (lo <=? r) && (r <=? hi) | None => false end.
Lemma blockb_ok l r : blockb l r = true <-> in_script l r.
Proof.
  unfold blockb, in_script. destruct (block l) as [[lo hi]|]; split.
  - intros H. exists lo, hi. split; [reflexivity|lia].
  - intros (a & b & E & H). injection E as <- <-. lia.
  - discriminate.
  - intros (a & b & E & H). discriminate.
Qed.

Lemma language_nli nli l : language_of nli = Some l -> 1 <= nli <= 13.
Proof.
  unfold language_of. destruct (Z_le_gt_dec 1 nli), (Z_le_gt_dec nli 13); try lia; intros H; exfalso;
  revert H; repeat match goal with |- context [match ?x with _ => _ end] => destruct x; try discriminate; try lia end.
Qed.

Lemma language_none nli : language_of nli = None -> ~ 1 <= nli <= 13.
Proof.
  intros H R.
  assert (E : nli = 1 \/ nli = 2 \/ nli = 3 \/ nli = 4 \/ nli = 5 \/ nli = 6 \/ nli = 7 \/ nli = 8 \/
              nli = 9 \/ nli = 10 \/ nli = 11 \/ nli = 12 \/ nli = 13) by lia.
  repeat match goal with H : _ \/ _ |- _ => destruct H as [H|H]; [subst; discriminate|] end.
  subst; discriminate.
Qed.
Lemma unknown_nli n : ~ 1 <= n <= 13 ->
  new_decoder n = new_decoder 0 /\ new_ext_decoder n = new_ext_decoder 0.
Proof.
  intros H. unfold new_decoder, new_ext_decoder, locking_table, shift_table, nli_turkish, nli_spanish,
    nli_portuguese, nli_bengali, nli_gujarati, nli_hindi, nli_kannada, nli_malayalam, nli_oriya,
    nli_punjabi, nli_tamil, nli_telugu, nli_urdu.
  repeat match goal with |- context [n =? ?c] => replace (n =? c) with false by lia end.
  split; reflexivity.
Qed.
Lemma known_nli (P : Z -> Prop) : Forall P [1; 2; 3; 4; 5; 6; 7; 8; 9; 10; 11; 12; 13] ->
  forall n, 1 <= n <= 13 -> P n.
Proof. intros H n R. rewrite Forall_forall in H. apply H. cbn. lia. Qed.

Lemma latin_sweep : forallb (fun n =>
  match latin_alphabet (language_of n) with
  | Some e => text_okb e && sameb (new_decoder n) (pairs e)
  | None => true
  end &&
  match latin_extension (language_of n) with
  | Some e => text_okb e && sameb (new_ext_decoder n) ((13, 10) :: pairs e)
  | None => true
  end) (zrange 14) = true.
Proof. vm_compute. reflexivity. Qed.
Lemma latin_0_13 n e : 0 <= n <= 13 -> latin_alphabet (language_of n) = Some e ->
  forall g r, assoc (new_decoder n) g = Some r <-> listed e g r.
Proof.
  intros R E g r. pose proof (zrange_sweep 14 _ latin_sweep n ltac:(lia)) as H. cbv beta in H.
  rewrite E in H. apply andb_true_iff in H as [H _]. apply andb_true_iff in H as [H1 H2].
  rewrite (listed_pairs _ H1). apply same_ok, H2.
Qed.
Lemma latin_ext_0_13 n e : 0 <= n <= 13 -> latin_extension (language_of n) = Some e ->
  forall g r, assoc (new_ext_decoder n) g = Some r <-> listed e g r \/ (g = 13 /\ r = 10).
Proof.
  intros R E g r. pose proof (zrange_sweep 14 _ latin_sweep n ltac:(lia)) as H. cbv beta in H.
  rewrite E in H. apply andb_true_iff in H as [_ H]. apply andb_true_iff in H as [H1 H2].
  rewrite (listed_pairs _ H1), (same_ok _ _ H2). cbn [In]. split.
  - intros [X|X]; [right; injection X; lia|left; exact X].
  - intros [X|[-> ->]]; [right; exact X|left; reflexivity].
Qed.
Lemma latin_any n e : latin_alphabet (language_of n) = Some e ->
  forall g r, assoc (new_decoder n) g = Some r <-> listed e g r.
Proof.
  destruct (language_of n) as [l|] eqn:HL.
  - intros E. apply latin_0_13; [pose proof (language_nli _ _ HL); lia | rewrite HL; exact E].
  - intros E. destruct (unknown_nli n (language_none _ HL)) as [-> _].
    apply (latin_0_13 0 e); [lia|exact E].
Qed.
Lemma latin_ext_any n e : latin_extension (language_of n) = Some e ->
  forall g r, assoc (new_ext_decoder n) g = Some r <-> listed e g r \/ (g = 13 /\ r = 10).
Proof.
  destruct (language_of n) as [l|] eqn:HL.
  - intros E. apply latin_ext_0_13; [pose proof (language_nli _ _ HL); lia | rewrite HL; exact E].
  - intros E. destruct (unknown_nli n (language_none _ HL)) as [_ ->].
    apply (latin_ext_0_13 0 e); [lia|exact E].
Qed.

(** The other scripts.  [odd]: the three entries of the Hindi table that are
    not Devanagari. *)
Definition oddb (l : language) (r : Z) : bool :=
  match l with Hindi => (2433 <=? r) && (r <=? 2435) | _ => false end.
Definition dandab (r : Z) : bool := (r =? 2404) || (r =? 2405).
Lemma script_sweep : forallb (fun n =>
  match language_of n with
  | Some l => match block l with
      | Some _ =>
          extendsb (fun r => blockb l r || oddb l r) (new_decoder n) (pairs shared_alphabet) &&
          extendsb (fun r => blockb l r || dandab r) (new_ext_decoder n) (pairs shared_extension) &&
          match l with Urdu => true | _ => orderedb (blockb l) (new_decoder n) end
      | None => true end
  | None => true
  end) (zrange 14) = true.
Proof. vm_compute. reflexivity. Qed.
Lemma shared_ok : text_okb shared_alphabet = true /\ text_okb shared_extension = true.
Proof. split; vm_compute; reflexivity. Qed.
Lemma script_any n l : language_of n = Some l -> block l <> None ->
  extendsb (fun r => blockb l r || oddb l r) (new_decoder n) (pairs shared_alphabet) = true /\
  extendsb (fun r => blockb l r || dandab r) (new_ext_decoder n) (pairs shared_extension) = true /\
  (l <> Urdu -> orderedb (blockb l) (new_decoder n) = true).
Proof.
  intros HL HB. pose proof (language_nli _ _ HL) as R.
  pose proof (zrange_sweep 14 _ script_sweep n ltac:(lia)) as H. cbv beta in H. rewrite HL in H.
  destruct (block l); [|congruence]. apply andb_true_iff in H as [H H3].
  apply andb_true_iff in H as [H1 H2]. split; [exact H1|]. split; [exact H2|].
  intros HU. destruct l; try exact H3. congruence.
Qed.
Lemma odd_code : forall g r, assoc (new_decoder 6) g = Some r -> oddb Hindi r = true ->
  0 <= g <= 2.
Proof.
  assert (S : forallb (fun p => negb (oddb Hindi (snd p)) || (0 <=? fst p) && (fst p <=? 2))
                (new_decoder 6) = true) by (vm_compute; reflexivity).
  intros g r H O. apply assoc_In in H. rewrite forallb_forall in S. apply S in H.
  cbn [fst snd] in H. rewrite O in H. lia.
Qed.
Lemma hindi_nli n : language_of n = Some Hindi -> n = 6.
Proof.
  intros H. pose proof (language_nli _ _ H) as R.
  pose proof (zrange_sweep 14 (fun n => match language_of n with Some Hindi => n =? 6 | _ => true end)
    eq_refl n ltac:(lia)) as S. cbv beta in S. rewrite H in S. lia.
Qed.

(** U+0901 to U+0903 are in no table. *)
Definition no_signs (d : list (Z * Z)) : bool :=
  forallb (fun p => negb ((2305 <=? snd p) && (snd p <=? 2307))) d.
Lemma signs_sweep : forallb (fun n => no_signs (new_decoder n) && no_signs (new_ext_decoder n)) nlis = true.
Proof. vm_compute. reflexivity. Qed.
Lemma no_signs_ok d g r : no_signs d = true -> 2305 <= r <= 2307 -> assoc d g <> Some r.
Proof.
  unfold no_signs. intros H R E. apply assoc_In in E. rewrite forallb_forall in H. apply H in E.
  cbn [snd] in E. lia.
Qed.
Lemma signs_dec n g r : 2305 <= r <= 2307 ->
  assoc (new_decoder n) g <> Some r /\ assoc (new_ext_decoder n) g <> Some r.
Proof.
  intros R. pose proof signs_sweep as S. rewrite forallb_forall in S. split.
  - destruct (locking_nli n) as (n' & Hn' & E). unfold new_decoder. rewrite E.
    apply S, andb_true_iff in Hn' as [H _]. exact (no_signs_ok _ g r H R).
  - destruct (shift_nli n) as (n' & Hn' & E). unfold new_ext_decoder. rewrite E.
    apply S, andb_true_iff in Hn' as [_ H]. exact (no_signs_ok _ g r H R).
Qed.
Lemma signs_enc l s r : 2305 <= r <= 2307 ->
  assoc (ge_set (gsm7_new_encoder l s)) r = None /\ assoc (ge_ext (gsm7_new_encoder l s)) r = None.
Proof.
  intros R. split.
  - destruct (assoc _ r) as [g|] eqn:E; [|reflexivity]. exfalso.
    apply (tk_inv _ _ (new_set_ok l s true)) in E. revert E. cbn [gd_set gsm7_new_decoder].
    destruct l as [n|]; [apply signs_dec, R|]. exact (proj1 (signs_dec 0 g r R)).
  - destruct (assoc _ r) as [g|] eqn:E; [|reflexivity]. exfalso.
    apply (tk_inv _ _ (new_ext_ok l s true)) in E. revert E. cbn [gd_ext gsm7_new_decoder].
    destruct s as [n|]; [apply signs_dec, R|]. exact (proj2 (signs_dec 0 g r R)).
Qed.
Lemma signs_refused l s rs msg r : utf8_text rs msg -> In r rs -> 2305 <= r <= 2307 ->
  exists bad, gsm7_encode (gsm7_new_encoder l s) msg = Err (Gsm7InvalidUTF8 bad).
Proof.
  intros HT HI R. unfold gsm7_encode. rewrite (runes_of_text _ _ HT).
  destruct (signs_enc l s r R) as [E1 E2]. clear HT.
  induction rs as [|u rs IH]; [destruct HI|]. cbn [gsm7_encode_runes].
  destruct HI as [->|HI].
  - rewrite E1, E2. eauto.
  - destruct (IH HI) as (bad & ->).
    destruct (assoc (ge_set _) u); cbn [bind]; [eauto|].
    destruct (assoc (ge_ext _) u); cbn [bind]; eauto.
Qed.

(** ** Letter by letter *)
(** The table without the codes 0 to 2 of Hindi. *)
Definition sound (l : language) (p : Z * Z) : bool :=
  match l with Hindi => negb ((0 <=? fst p) && (fst p <=? 2)) | _ => true end.
Definition lettersb (n : Z) : bool :=
  match language_of n with
  | Some l => match block l with
      | Some _ =>
          nodupb (map fst (new_decoder n)) &&
          forallb (pair_in (pairs shared_alphabet ++ letters l)) (filter (sound l) (new_decoder n)) &&
          forallb (pair_in (new_decoder n)) (filter (sound l) (pairs shared_alphabet ++ letters l)) &&
          sameb (new_ext_decoder n) (pairs shared_extension ++ more_letters l) &&
          forallb (fun p => has (map snd (new_decoder n)) (first_of l + p) || has (map snd (new_ext_decoder n)) (first_of l + p) ||
                            match l with Hindi => has [1; 2; 3; 4; 125] p | _ => false end) (assigned l)
      | None => true
      end
  | None => true
  end.
Lemma letters_sweep : forallb lettersb (zrange 14) = true.
Proof. vm_compute. reflexivity. Qed.
Lemma letters_any n l : language_of n = Some l -> block l <> None -> lettersb n = true.
Proof.
  intros HL HB. pose proof (language_nli _ _ HL) as R. exact (zrange_sweep 14 _ letters_sweep n ltac:(lia)).
Qed.
Lemma letters_ok n l g r : language_of n = Some l -> block l <> None -> (l = Hindi -> ~ 0 <= g <= 2) ->
  assoc (new_decoder n) g = Some r <-> listed shared_alphabet g r \/ In (g, r) (letters l).
Proof.
  intros HL HB HG. pose proof (letters_any n l HL HB) as H. unfold lettersb in H. rewrite HL in H.
  destruct (block l); [|congruence]. apply andb_true_iff in H as [H _]. apply andb_true_iff in H as [H _].
  apply andb_true_iff in H as [H H3]. apply andb_true_iff in H as [H1 H2].
  rewrite forallb_forall in H2, H3. destruct shared_ok as [HS _].
  assert (S : sound l (g, r) = true).
  { unfold sound. destruct l; try reflexivity. specialize (HG eq_refl). cbn [fst]. lia. }
  rewrite (listed_pairs _ HS), <- in_app_iff. split; intros X.
  - apply pair_in_ok, H2, filter_In. split; [apply assoc_In, X|exact S].
  - apply assoc_NoDup; [apply nodupb_ok, H1|]. apply pair_in_ok, H3, filter_In. split; [exact X|exact S].
Qed.
Lemma more_letters_ok n l g r : language_of n = Some l -> block l <> None ->
  assoc (new_ext_decoder n) g = Some r <-> listed shared_extension g r \/ In (g, r) (more_letters l).
Proof.
  intros HL HB. pose proof (letters_any n l HL HB) as H. unfold lettersb in H. rewrite HL in H.
  destruct (block l); [|congruence]. apply andb_true_iff in H as [H _]. apply andb_true_iff in H as [_ H].
  destruct shared_ok as [_ HS]. rewrite (listed_pairs _ HS), <- in_app_iff. apply same_ok, H.
Qed.
Lemma has_In l x : has l x = true -> In x l.
Proof. unfold has. intros H. apply existsb_exists in H as (y & H & E). assert (x = y) by lia. subst. exact H. Qed.
Lemma whole_block n l p : language_of n = Some l -> block l <> None -> In p (assigned l) ->
  (exists g, assoc (new_decoder n) g = Some (first_of l + p) \/ assoc (new_ext_decoder n) g = Some (first_of l + p)) \/
  l = Hindi /\ In p [1; 2; 3; 4; 125].
Proof.
  intros HL HB. pose proof (letters_any n l HL HB) as H. unfold lettersb in H. rewrite HL in H.
  destruct (block l); [|congruence]. apply andb_true_iff in H as [H1 H]. rewrite forallb_forall in H.
  apply andb_true_iff in H1 as [H1 H2]. apply andb_true_iff in H1 as [H1 _]. apply andb_true_iff in H1 as [H1 _].
  intros P. specialize (H p P). apply orb_true_iff in H as [H|H]; [left|right].
  - apply orb_true_iff in H as [H|H]; apply has_In, in_map_iff in H as ([g r] & E & H); cbn [snd] in E; subst r;
      exists g; [left|right].
    + apply assoc_NoDup; [apply nodupb_ok, H1|exact H].
    + unfold sameb in H2. apply andb_true_iff in H2 as [H2 _]. apply andb_true_iff in H2 as [H2 _].
      apply assoc_NoDup; [apply nodupb_ok, H2|exact H].
  - destruct l; try discriminate H. split; [reflexivity|]. apply has_In, H.
Qed.
