(** Proofs about the options of the gsm7 coders. *)
From Verif Require Import GoBase GoLemmas Utf UtfProofs SpecText Charset Gsm7 CharsetProofs
  Gsm7Options SpecOptions.

Fixpoint last_of {A B} (f : A -> option B) (l : list A) (acc : option B) : option B :=
  match l with
  | [] => acc
  | x :: l' => last_of f l' (match f x with Some b => Some b | None => acc end)
  end.
Lemma last_of_spec {A B} (f : A -> option B) l : last_such f l (last_of f l None).
Proof.
  assert (G : forall l acc, match last_of f l acc with
    | Some b => (acc = Some b /\ Forall (fun y => f y = None) l) \/ last_such f l (Some b)
    | None => acc = None /\ Forall (fun y => f y = None) l end).
  { clear l. induction l as [|x l IH]; intros acc; cbn [last_of].
    - destruct acc; [left|]; auto.
    - specialize (IH (match f x with Some b => Some b | None => acc end)).
      destruct (last_of f l _) as [b|].
      + destruct IH as [[E H]|(p & y & q & -> & E & H)].
        * destruct (f x) as [b'|] eqn:Ex.
          -- injection E as ->. right. exists [], x, l. auto.
          -- left. auto.
        * right. exists (x :: p), y, q. auto.
      + destruct IH as [E H]. destruct (f x) eqn:Ex; [discriminate|]. auto. }
  specialize (G l None). destruct (last_of f l None) as [b|].
  - destruct G as [[E _]|G]; [discriminate|exact G].
  - exact (proj2 G).
Qed.
Lemma last_such_fun {A B} (f : A -> option B) l o1 o2 :
  last_such f l o1 -> last_such f l o2 -> o1 = o2.
Proof.
  assert (G : forall o, last_such f l o -> last_of f l None = o).
  { assert (K : forall l acc, Forall (fun y => f y = None) l -> last_of f l acc = acc).
    { clear l. induction l as [|x l IH]; intros acc H; cbn [last_of]; [reflexivity|].
      inversion H as [|? ? Hx Hl]; subst. rewrite Hx. auto. }
    intros [b|] H; [|apply K, H]. destruct H as (p & x & q & -> & E & H).
    assert (P : forall p acc, last_of f (p ++ x :: q) acc = Some b).
    { clear p. induction p as [|y p IH]; intros acc; cbn [last_of app].
      - rewrite E. apply K, H.
      - apply IH. }
    apply P. }
  intros H1 H2. rewrite <- (G o1 H1). apply G, H2.
Qed.

Lemma raw_decoder_fold opts : forall d s x,
  rd_set d = option_map new_decoder s ->
  rd_ext d = option_map (fun o => match o with Some n => new_ext_decoder n | None => [] end) x ->
  forall t, rd_strict d = match t with Some _ => true | None => false end ->
  fold_left apply_decoder_option opts d =
  {| rd_set := option_map new_decoder (last_of d_charset opts s);
     rd_ext := option_map (fun o => match o with Some n => new_ext_decoder n | None => [] end)
                 (last_of d_ext opts x);
     rd_strict := match last_of d_strict opts t with Some _ => true | None => false end |}.
Proof.
  induction opts as [|o opts IH]; intros d s x Hs Hx t Ht; cbn [fold_left last_of].
  - destruct d as [a b c]. cbn [rd_set rd_ext rd_strict] in *. now rewrite Hs, Hx, Ht.
  - destruct o; cbn [d_charset d_ext d_strict]; apply IH; cbn [apply_decoder_option rd_set rd_ext rd_strict option_map]; auto.
Qed.
Lemma raw_encoder_fold opts : forall e s x,
  re_set e = option_map new_encoder s -> re_ext e = option_map new_ext_encoder x ->
  fold_left apply_encoder_option opts e =
  {| re_set := option_map new_encoder (last_of e_charset opts s);
     re_ext := option_map new_ext_encoder (last_of e_ext opts x) |}.
Proof.
  induction opts as [|o opts IH]; intros e s x Hs Hx; cbn [fold_left last_of].
  - destruct e as [a b]. cbn [re_set re_ext] in *. now rewrite Hs, Hx.
  - destruct o; cbn [e_charset e_ext]; apply IH; cbn [apply_encoder_option re_set re_ext option_map]; auto.
Qed.

Lemma new_decoder_with_eq opts s x t :
  last_such d_charset opts s -> last_such d_ext opts x -> last_such d_strict opts t ->
  new_decoder_with opts =
  {| gd_set := match s with Some n => new_decoder n | None => default_decoder end;
     gd_ext := match x with
               | Some (Some n) => new_ext_decoder n
               | Some None => []
               | None => default_ext_decoder end;
     gd_strict := match t with Some _ => true | None => false end |}.
Proof.
  intros Hs Hx Ht. unfold new_decoder_with.
  rewrite (raw_decoder_fold opts {| rd_set := None; rd_ext := None; rd_strict := false |} None None eq_refl eq_refl None eq_refl).
  rewrite (last_such_fun _ _ _ _ (last_of_spec d_charset opts) Hs).
  rewrite (last_such_fun _ _ _ _ (last_of_spec d_ext opts) Hx).
  rewrite (last_such_fun _ _ _ _ (last_of_spec d_strict opts) Ht).
  cbn [rd_set rd_ext rd_strict]. destruct s, x; reflexivity.
Qed.
Lemma new_encoder_with_eq opts s x :
  last_such e_charset opts s -> last_such e_ext opts x ->
  new_encoder_with opts = gsm7_new_encoder s x.
Proof.
  intros Hs Hx. unfold new_encoder_with, gsm7_new_encoder.
  rewrite (raw_encoder_fold opts {| re_set := None; re_ext := None |} None None eq_refl eq_refl).
  rewrite (last_such_fun _ _ _ _ (last_of_spec e_charset opts) Hs).
  rewrite (last_such_fun _ _ _ _ (last_of_spec e_ext opts) Hx).
  cbn [re_set re_ext]. destruct s, x; reflexivity.
Qed.

(** Any tables. *)
Lemma custom_chars e d rs s :
  undoes (assoc (ge_set e)) (assoc (gd_set d)) -> undoes (assoc (ge_ext e)) (assoc (gd_ext d)) ->
  gsm7_encode_runes e rs = Ok s ->
  gsm7_chars (assoc (gd_set d)) (assoc (gd_ext d)) s = rs /\
  gsm7_fault (assoc (gd_set d)) (assoc (gd_ext d)) s = None.
Proof.
  intros HT HX. revert s. induction rs as [|r rs IH]; intros s H; cbn [gsm7_encode_runes] in H.
  - injection H as <-. auto.
  - destruct (assoc (ge_set e) r) as [g|] eqn:E1.
    + destruct (gsm7_encode_runes e rs) as [s'| | |] eqn:E; try discriminate.
      injection H as <-. destruct (IH s' eq_refl) as [IH1 IH2]. destruct (HT _ _ E1) as [A B].
      cbn [gsm7_chars gsm7_fault]. bfalse (g =? 27). rewrite A, IH1, IH2. auto.
    + destruct (assoc (ge_ext e) r) as [g|] eqn:E2; [|discriminate].
      destruct (gsm7_encode_runes e rs) as [s'| | |] eqn:E; try discriminate.
      injection H as <-. destruct (IH s' eq_refl) as [IH1 IH2]. destruct (HX _ _ E2) as [A B].
      cbn [gsm7_chars gsm7_fault]. change esc with 27. btrue (27 =? 27). bfalse (g =? 27).
      rewrite A, IH1, IH2. auto.
Qed.
Lemma custom_roundtrip e d msg septets :
  undoes (assoc (ge_set e)) (assoc (gd_set d)) -> undoes (assoc (ge_ext e)) (assoc (gd_ext d)) ->
  valid_utf8 msg -> gsm7_encode e msg = Ok septets -> gsm7_decode d septets = Ok msg.
Proof.
  intros HT HX HV HE. destruct (custom_chars _ _ _ _ HT HX HE) as [HC HF].
  destruct (gd_strict d) eqn:ES.
  - rewrite gsm7_decode_strict by assumption. rewrite HF, HC. now rewrite valid_utf8_back.
  - rewrite gsm7_decode_total by assumption. rewrite HC. now rewrite valid_utf8_back.
Qed.
