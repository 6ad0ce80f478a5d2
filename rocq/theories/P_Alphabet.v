(** C61: the built-in tables are those of the standard and of the languages. *)
From Verif Require Import GoBase GoLemmas Utf UtfProofs SpecText SpecAlphabet SpecScripts Charset
  CharsetProofs Gsm7 AlphabetProofs.

(** The languages in Latin script, and every identifier that names no language:
    the alphabet is exactly the one of the standard. *)
Theorem C61_latin : forall nli e, latin_alphabet (language_of nli) = Some e ->
  forall g r, assoc (new_decoder nli) g = Some r <-> listed e g r.
Proof. exact latin_any. Qed.
Print Assumptions C61_latin.

(** Their extension tables are those of the standard, with a line feed added at
    the code 0x0D, which the standard keeps for a control character. *)
Theorem C61_latin_extension : forall nli e, latin_extension (language_of nli) = Some e ->
  forall g r, assoc (new_ext_decoder nli) g = Some r <-> listed e g r \/ (g = 13 /\ r = 10).
Proof. exact latin_ext_any. Qed.
Print Assumptions C61_latin_extension.

(** The other languages: the shared part is as in the standard.  Everything else
    is in the script of the language, except for codes 0 to 2 of Hindi.
    Missing: those three codes (see the refutation). *)
Theorem C61_script_partial : forall nli l, language_of nli = Some l -> block l <> None ->
  (forall g r, listed shared_alphabet g r -> assoc (new_decoder nli) g = Some r) /\
  (forall g r, assoc (new_decoder nli) g = Some r ->
     listed shared_alphabet g r \/ in_script l r \/ (l = Hindi /\ 0 <= g <= 2)).
Proof.
  intros nli l HL HB. destruct (script_any nli l HL HB) as (H & _).
  destruct (extends_ok _ _ _ H) as [H1 H2]. destruct shared_ok as [HS _]. split.
  - intros g r HG. apply H1, (listed_pairs _ HS), HG.
  - intros g r HG. destruct (H2 g r HG) as [X|X]; [left; apply (listed_pairs _ HS), X|right].
    cbv beta in X. apply orb_true_iff in X as [X|X]; [left; apply blockb_ok, X|right].
    destruct l; try discriminate X. split; [reflexivity|].
    rewrite (hindi_nli _ HL) in HG. exact (odd_code g r HG X).
Qed.
Print Assumptions C61_script_partial.

(** Their extension tables, with no exception. *)
Theorem C61_script_extension : forall nli l, language_of nli = Some l -> block l <> None ->
  (forall g r, listed shared_extension g r -> assoc (new_ext_decoder nli) g = Some r) /\
  (forall g r, assoc (new_ext_decoder nli) g = Some r ->
     listed shared_extension g r \/ in_script l r \/ danda r).
Proof.
  intros nli l HL HB. destruct (script_any nli l HL HB) as (_ & H & _).
  destruct (extends_ok _ _ _ H) as [H1 H2]. destruct shared_ok as [_ HS]. split.
  - intros g r HG. apply H1, (listed_pairs _ HS), HG.
  - intros g r HG. destruct (H2 g r HG) as [X|X]; [left; apply (listed_pairs _ HS), X|right].
    cbv beta in X. apply orb_true_iff in X as [X|X]; [left; apply blockb_ok, X|right].
    unfold dandab in X. unfold danda. lia.
Qed.
Print Assumptions C61_script_extension.

(** In the nine scripts of India the letters come in the order of Unicode. *)
Theorem C61_order : forall nli l g1 r1 g2 r2,
  language_of nli = Some l -> l <> Urdu ->
  assoc (new_decoder nli) g1 = Some r1 -> assoc (new_decoder nli) g2 = Some r2 ->
  in_script l r1 -> in_script l r2 -> g1 < g2 -> r1 < r2.
Proof.
  intros nli l g1 r1 g2 r2 HL HU H1 H2 S1 S2.
  assert (HB : block l <> None) by (destruct S1 as (a & b & E & _); congruence).
  destruct (script_any nli l HL HB) as (_ & _ & H).
  apply (ordered_ok _ _ (H HU) g1 r1 g2 r2 H1 H2); apply blockb_ok; assumption.
Qed.
Print Assumptions C61_order.

(** Letter by letter: the alphabet is exactly the shared part and the letters of the
    language (SpecScripts).  Missing: codes 0 to 2 of Hindi, which are wrong. *)
Theorem C61_letters_partial : forall nli l g r, language_of nli = Some l -> block l <> None ->
  (l = Hindi -> ~ 0 <= g <= 2) ->
  assoc (new_decoder nli) g = Some r <-> listed shared_alphabet g r \/ In (g, r) (letters l).
Proof. exact letters_ok. Qed.
Print Assumptions C61_letters_partial.

(** The extension likewise, with no exception. *)
Theorem C61_letters_extension : forall nli l g r, language_of nli = Some l -> block l <> None ->
  assoc (new_ext_decoder nli) g = Some r <-> listed shared_extension g r \/ In (g, r) (more_letters l).
Proof. exact more_letters_ok. Qed.
Print Assumptions C61_letters_extension.

(** So each character of the script (that Unicode had at the time) can be written
    with the two tables of the language, except for five of Hindi: U+0901 to U+0904
    and U+097D, of which the standard leaves out the last two. *)
Theorem C61_whole_script : forall nli l p, language_of nli = Some l -> block l <> None ->
  In p (assigned l) ->
  (exists g, assoc (new_decoder nli) g = Some (first_of l + p) \/
             assoc (new_ext_decoder nli) g = Some (first_of l + p)) \/
  l = Hindi /\ In p [1; 2; 3; 4; 125].
Proof. exact whole_block. Qed.
Print Assumptions C61_whole_script.

(** Malayalam BA (U+0D2C), Tamil OM in its own code, the first Urdu
    digit, and the Telugu fractions. *)
Example C61_letters_instance :
  In (0x40, 0xD2C) (letters Malayalam) /\ In (0x60, 0xBD0) (letters Tamil) /\ In (0x1C, 0x6F0) (more_letters Urdu) /\
  In (0x2A, 0xC78) (more_letters Telugu) /\ In 0x2C (assigned Malayalam) /\ block Urdu <> None /\
  length (letters Bengali) = 67%nat /\ length (letters Urdu) = 80%nat /\
  assoc (new_decoder 8) 0x40 = Some 0xD2C /\ assoc (new_ext_decoder 13) 0x1C = Some 0x6F0.
Proof.
  repeat match goal with |- _ /\ _ => split end; try (apply pair_in_ok; vm_compute; reflexivity);
    try (vm_compute; reflexivity).
  - apply has_In. vm_compute. reflexivity.
  - discriminate.
Qed.

(** Codes 0 to 2 of the Hindi table are signs of the Bengali script: candrabindu,
    anusvara and visarga. *)
Theorem C61_script_refuted : exists nli l g r,
  language_of nli = Some l /\ block l <> None /\ assoc (new_decoder nli) g = Some r /\
  ~ listed shared_alphabet g r /\ ~ in_script l r /\ in_script Bengali r.
Proof.
  exists 6, Hindi, 1, 2434. destruct shared_ok as [HS _].
  repeat match goal with |- _ /\ _ => split end; try (vm_compute; reflexivity).
  - discriminate.
  - intros H. apply (listed_pairs _ HS) in H. revert H.
    assert (E : pair_in (pairs shared_alphabet) (1, 2434) = false) by (vm_compute; reflexivity).
    intros H. assert (X : pair_in (pairs shared_alphabet) (1, 2434) = true).
    { apply existsb_exists. exists (1, 2434). split; [exact H|reflexivity]. }
    congruence.
  - intros (a & b & E & R). injection E as <- <-. lia.
  - exists 2432, 2559. split; [reflexivity|lia].
Qed.
Print Assumptions C61_script_refuted.

(** So the Devanagari signs themselves (U+0901 to U+0903) are in no table, and a
    text with one of them is refused whatever the tables. *)
Theorem C61_signs_refused : forall locking shift rs msg r,
  utf8_text rs msg -> In r rs -> 2305 <= r <= 2307 ->
  exists bad, gsm7_encode (gsm7_new_encoder locking shift) msg = Err (Gsm7InvalidUTF8 bad).
Proof. exact signs_refused. Qed.
Print Assumptions C61_signs_refused.

(** U+0939 U+093F U+0902 ("him" of "Hindi"), refused with the Hindi tables. *)
Example C61_instance :
  map (assoc (new_decoder 6)) [0; 1; 2] = [Some 2433; Some 2434; Some 2435] /\
  latin_alphabet (language_of 99) = Some default_alphabet /\
  listed default_alphabet 2 36 /\ listed turkish_extension 71 286 /\
  language_of 5 = Some Gujarati /\ block Gujarati <> None /\
  assoc (new_decoder 5) 3 = Some 2693 /\ assoc (new_decoder 5) 4 = Some 2694 /\
  in_script Gujarati 2693 /\ in_script Gujarati 2694 /\
  utf8_text [2361; 2367; 2306] [224; 164; 185; 224; 164; 191; 224; 164; 130] /\
  gsm7_encode (gsm7_new_encoder (Some 6) (Some 6)) [224; 164; 185; 224; 164; 191; 224; 164; 130]
    = Err (Gsm7InvalidUTF8 2306).
Proof.
  repeat match goal with |- _ /\ _ => split end; try (vm_compute; reflexivity).
  - apply (proj1 (C61_latin 0 default_alphabet eq_refl 2 36)). vm_compute. reflexivity.
  - assert (T : text_okb turkish_extension = true) by (vm_compute; reflexivity).
    apply (listed_pairs _ T), pair_in_ok. vm_compute. reflexivity.
  - discriminate.
  - exists 2688, 2815. split; [reflexivity|lia].
  - exists 2688, 2815. split; [reflexivity|lia].
  - apply (utf8_text_utf8_of [2361; 2367; 2306]). repeat constructor; unfold scalar; lia.
Qed.
