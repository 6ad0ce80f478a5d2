(** C62: the options of the gsm7 coders. *)
From Verif Require Import GoBase GoLemmas Utf UtfProofs SpecText Charset Gsm7 CharsetProofs
  Gsm7Options SpecOptions Gsm7OptionsProofs.

(** Of each kind of option the last one counts, whatever the order of the kinds:
    a Decoder made with any list of options reads septets with the tables asked
    for last, or else the default ones. *)
Theorem C62_decoder : forall opts set ext strict src,
  last_such d_charset opts set -> last_such d_ext opts ext -> last_such d_strict opts strict ->
  let nli o := match o with Some n => n | None => 0 end in
  let set_lookup := assoc (new_decoder (nli set)) in
  let ext_lookup := match ext with
                    | Some None => fun _ => None
                    | Some (Some n) => assoc (new_ext_decoder n)
                    | None => assoc (new_ext_decoder 0)
                    end in
  decode_with src opts =
    match strict, gsm7_fault set_lookup ext_lookup src with
    | Some _, Some septet => Err (Gsm7InvalidSeptet septet)
    | _, _ => Ok (utf8_of (gsm7_chars set_lookup ext_lookup src))
    end.
Proof.
  intros opts set ext strict src Hs Hx Ht. cbv zeta. unfold decode_with.
  rewrite (new_decoder_with_eq _ _ _ _ Hs Hx Ht).
  destruct strict as [u|].
  - rewrite gsm7_decode_strict by reflexivity. cbn [gd_set gd_ext].
    destruct set as [n|], ext as [[m|]|]; reflexivity.
  - rewrite gsm7_decode_total by reflexivity. cbn [gd_set gd_ext].
    destruct set as [n|], ext as [[m|]|]; reflexivity.
Qed.
Print Assumptions C62_decoder.

(** Likewise for an Encoder; so the order of the options matters only among
    options of one kind. *)
Theorem C62_encoder : forall opts set ext src,
  last_such e_charset opts set -> last_such e_ext opts ext ->
  encode_with src opts = gsm7_encode (gsm7_new_encoder set ext) src.
Proof.
  intros opts set ext src Hs Hx. unfold encode_with. now rewrite (new_encoder_with_eq _ _ _ Hs Hx).
Qed.
Print Assumptions C62_encoder.
Theorem C62_order : forall opts opts' src,
  (forall o, last_such e_charset opts o -> last_such e_charset opts' o) ->
  (forall o, last_such e_ext opts o -> last_such e_ext opts' o) ->
  encode_with src opts = encode_with src opts'.
Proof.
  intros opts opts' src Hs Hx.
  pose proof (last_of_spec e_charset opts) as A. pose proof (last_of_spec e_ext opts) as B.
  rewrite (C62_encoder _ _ _ src A B). symmetry. apply C62_encoder; auto.
Qed.
Print Assumptions C62_order.

(** A text without U+001B survives Encode and Decode with options that ask for
    the same tables, in any order, strict or not. *)
Theorem C62_roundtrip : forall eopts dopts set ext msg septets,
  Forall is_byte msg -> ~ In 27 msg ->
  last_such e_charset eopts set -> last_such d_charset dopts set ->
  last_such e_ext eopts ext -> last_such d_ext dopts (option_map Some ext) ->
  encode_with msg eopts = Ok septets ->
  decode_with septets dopts = Ok msg.
Proof.
  intros eopts dopts set ext msg septets HB HN Es Ds Ex Dx HE.
  rewrite (C62_encoder _ _ _ msg Es Ex) in HE. unfold decode_with.
  pose proof (last_of_spec d_strict dopts) as Dt.
  rewrite (new_decoder_with_eq _ _ _ _ Ds Dx Dt).
  rewrite <- (gsm7_roundtrip set ext (match last_of d_strict dopts None with Some _ => true | None => false end)
    msg septets HB HN HE).
  unfold gsm7_new_decoder. destruct ext; reflexivity.
Qed.
Print Assumptions C62_roundtrip.

(** With tables of the caller's own (the methods WithCharset and WithExtCharset
    of the coders): every valid text that is accepted survives, if decoding
    tables undo the encoding tables and leave out the escape. *)
Theorem C62_custom : forall e d eset eext dset dext msg septets,
  undoes (assoc eset) (assoc dset) -> undoes (assoc eext) (assoc dext) -> valid_utf8 msg ->
  gsm7_encode (e_with_ext_charset (e_with_charset e eset) eext) msg = Ok septets ->
  gsm7_decode (with_ext_charset (with_charset d dset) dext) septets = Ok msg /\
  gsm7_decode (strict (with_ext_charset (with_charset d dset) dext)) septets = Ok msg.
Proof.
  intros e d eset eext dset dext msg septets HS HX HV HE.
  split; (eapply custom_roundtrip; [| |exact HV|exact HE]; [exact HS|exact HX]).
Qed.
Print Assumptions C62_custom.

(** Hindi asked for, then replaced by Turkish; no shift table. *)
Example C62_instance :
  let opts := [DCharset 6; DStrict; DCharset 1; DExtCharset 1; DNoExtCharset] in
  last_such d_charset opts (Some 1) /\ last_such d_ext opts (Some None) /\
  last_such d_strict opts (Some tt) /\
  decode_with [64; 11] opts = Ok [196; 176; 196; 158] /\
  decode_with [27; 71] opts = Err (Gsm7InvalidSeptet 71) /\
  encode_with [196; 176; 196; 158; 123] [EExtCharset 6; ECharset 1; EExtCharset 1]
    = Ok [64; 11; 27; 40] /\
  undoes (assoc [(97, 0); (98, 1)]) (assoc [(0, 97); (1, 98); (2, 98)]).
Proof.
  cbv zeta. repeat match goal with |- _ /\ _ => split end; try (vm_compute; reflexivity).
  - exists [DCharset 6; DStrict], (DCharset 1), [DExtCharset 1; DNoExtCharset]. repeat constructor.
  - exists [DCharset 6; DStrict; DCharset 1; DExtCharset 1], DNoExtCharset, []. repeat constructor.
  - exists [DCharset 6], DStrict, [DCharset 1; DExtCharset 1; DNoExtCharset]. repeat constructor.
  - intros r g. cbn [assoc]. destruct (r =? 97) eqn:A; [|destruct (r =? 98) eqn:B]; intros H;
      try discriminate; injection H as <-; cbn [assoc]; (split; [cbn; f_equal; lia|lia]).
Qed.

(** The methods WithCharset, WithExtCharset and Strict of a Decoder, called in any
    number and order: each returns a Decoder that differs in that alone, so the
    table last given counts, else the Decoder's own, and it is strict if it was or
    Strict was called. *)
Theorem C62_methods : forall methods d set ext src,
  last_such m_charset methods set -> last_such m_ext methods ext ->
  let d' := fold_left d_call methods d in
  let set_lookup := assoc (match set with Some s => s | None => gd_set d end) in
  let ext_lookup := assoc (match ext with Some x => x | None => gd_ext d end) in
  (gd_strict d = true \/ In MStrict methods ->
    gsm7_decode d' src = match gsm7_fault set_lookup ext_lookup src with
                         | Some septet => Err (Gsm7InvalidSeptet septet)
                         | None => Ok (utf8_of (gsm7_chars set_lookup ext_lookup src))
                         end) /\
  (gd_strict d = false /\ ~ In MStrict methods ->
    gsm7_decode d' src = Ok (utf8_of (gsm7_chars set_lookup ext_lookup src))).
Proof.
  intros methods d set ext src Hs Hx. cbv zeta.
  rewrite (last_such_fun _ _ _ _ Hs (last_of_spec m_charset methods)).
  rewrite (last_such_fun _ _ _ _ Hx (last_of_spec m_ext methods)). clear set ext Hs Hx.
  assert (G : forall methods d,
    gd_set (fold_left d_call methods d) = match last_of m_charset methods None with Some s => s | None => gd_set d end /\
    gd_ext (fold_left d_call methods d) = match last_of m_ext methods None with Some x => x | None => gd_ext d end /\
    (gd_strict (fold_left d_call methods d) = true <-> gd_strict d = true \/ In MStrict methods)).
  { assert (A : forall {X} (f : d_method -> option X) l acc,
        last_of f l (Some acc) = Some (match last_of f l None with Some s => s | None => acc end)).
    { intros X f l. induction l as [|x l IH]; intros acc; cbn [last_of]; [reflexivity|].
      destruct (f x) as [b|]; [rewrite (IH b); reflexivity|apply IH]. }
    clear methods d. induction methods as [|m l IH]; intros d; cbn [fold_left last_of].
    { split; [reflexivity|]. split; [reflexivity|]. split; [now left|]. intros [H|[]]; exact H. }
    destruct (IH (d_call d m)) as (I1 & I2 & I3). rewrite I1, I2, I3.
    destruct m as [s|x|]; cbn [m_charset m_ext d_call with_charset with_ext_charset strict gd_set gd_ext gd_strict In];
      rewrite ?A; (split; [reflexivity|]); (split; [reflexivity|]).
    - split; [intros [H|H]; tauto|]. intros [H|[H|H]]; [tauto|discriminate|tauto].
    - split; [intros [H|H]; tauto|]. intros [H|[H|H]]; [tauto|discriminate|tauto].
    - tauto. }
  destruct (G methods d) as (G1 & G2 & G3). split; intros H.
  - assert (K : gd_strict (fold_left d_call methods d) = true) by now apply G3.
    pose proof (gsm7_decode_strict _ src K) as R. rewrite G1, G2 in R. exact R.
  - assert (K : gd_strict (fold_left d_call methods d) = false).
    { destruct (gd_strict (fold_left d_call methods d)); [|reflexivity].
      destruct H as (H1 & H2). destruct (proj1 G3 eq_refl) as [H|H]; [congruence|contradiction]. }
    pose proof (gsm7_decode_total _ src K) as R. rewrite G1, G2 in R. exact R.
Qed.
Print Assumptions C62_methods.
Theorem C62_encoder_methods : forall methods e set ext src,
  last_such n_charset methods set -> last_such n_ext methods ext ->
  gsm7_encode (fold_left e_call methods e) src =
  gsm7_encode {| ge_set := match set with Some s => s | None => ge_set e end;
                 ge_ext := match ext with Some x => x | None => ge_ext e end |} src.
Proof.
  intros methods e set ext src Hs Hx. f_equal.
  rewrite (last_such_fun _ _ _ _ Hs (last_of_spec n_charset methods)).
  rewrite (last_such_fun _ _ _ _ Hx (last_of_spec n_ext methods)). clear set ext Hs Hx.
  assert (A : forall {X} (f : e_method -> option X) l acc,
        last_of f l (Some acc) = Some (match last_of f l None with Some s => s | None => acc end)).
  { intros X f l. induction l as [|x l IH]; intros acc; cbn [last_of]; [reflexivity|].
    destruct (f x) as [b|]; [rewrite (IH b); reflexivity|apply IH]. }
  revert e. induction methods as [|m l IH]; intros e; cbn [fold_left last_of]; [destruct e; reflexivity|].
  rewrite IH. destruct m as [s|x]; cbn [n_charset n_ext e_call e_with_charset e_with_ext_charset ge_set ge_ext];
    rewrite ?A; reflexivity.
Qed.
Print Assumptions C62_encoder_methods.
(** A strict Decoder stays strict when its tables are replaced: the septet 65,
    in no table, is refused. *)
Example C62_methods_instance :
  gsm7_decode (fold_left d_call [MStrict; MExtCharset []; MCharset [(64, 161)]] (new_decoder_with [])) [64; 65] =
    Err (Gsm7InvalidSeptet 65) /\
  gsm7_decode (fold_left d_call [MExtCharset []; MCharset [(64, 161)]] (new_decoder_with [])) [64; 65] = Ok [194; 161; 32].
Proof. split; vm_compute; reflexivity. Qed.
