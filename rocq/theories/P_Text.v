(** C06-C10: GSM7 and UCS-2 text. *)
From Coq Require Import Permutation.
From Verif Require Import GoBase GoLemmas Utf Ucs2 UtfProofs SpecText
  CharsetTables Charset Gsm7 CharsetProofs EscapeProofs.

(** C06.  The full claim is false: U+001B has the code of the escape itself, so
    the two characters U+001B 'e' come back as the euro sign. *)
Theorem C06_gsm7_roundtrip_refuted : exists msg septets,
  valid_utf8 msg /\
  gsm7_encode (gsm7_new_encoder None None) msg = Ok septets /\
  gsm7_decode (gsm7_new_decoder None None true) septets <> Ok msg.
Proof.
  exists [27; 101], [27; 101]. split; [|split].
  - exists [27; 101]. change [27; 101] with ([27] ++ [101] ++ []) at 2.
    repeat (constructor; try lia).
  - vm_compute. reflexivity.
  - vm_compute. discriminate.
Qed.
Print Assumptions C06_gsm7_roundtrip_refuted.

(** What holds, for every pair of character sets (any identifier, or none for
    the default), strict or not: any accepted message not containing U+001B
    survives.  Missing: messages containing U+001B. *)
Theorem C06_gsm7_roundtrip_partial : forall locking shift strict msg septets,
  Forall is_byte msg -> ~ In 27 msg ->
  gsm7_encode (gsm7_new_encoder locking shift) msg = Ok septets ->
  gsm7_decode (gsm7_new_decoder locking shift strict) septets = Ok msg.
Proof. exact gsm7_roundtrip. Qed.
Print Assumptions C06_gsm7_roundtrip_partial.

(** Exactly those messages survive. *)
Theorem C06_gsm7_roundtrip_iff : forall locking shift strict msg septets,
  Forall is_byte msg ->
  gsm7_encode (gsm7_new_encoder locking shift) msg = Ok septets ->
  (gsm7_decode (gsm7_new_decoder locking shift strict) septets = Ok msg <-> ~ In 27 msg).
Proof. exact gsm7_roundtrip_iff. Qed.
Print Assumptions C06_gsm7_roundtrip_iff.

Example C06_instance : (* "a{é€" with the default sets; Turkish locking "İ" *)
  gsm7_encode (gsm7_new_encoder None None) [97; 123; 195; 169; 226; 130; 172]
    = Ok [97; 27; 40; 5; 27; 101] /\
  gsm7_encode (gsm7_new_encoder (Some 1) (Some 1)) [196; 176] = Ok [64].
Proof. split; vm_compute; reflexivity. Qed.

(** C07.  Non-strict decoding accepts every septet string; the text is the
    UTF-8 form of [gsm7_chars] of the table lookups. *)
Theorem C07_decode_total : forall d src, gd_strict d = false ->
  gsm7_decode d src = Ok (utf8_of (gsm7_chars (assoc (gd_set d)) (assoc (gd_ext d)) src)).
Proof. exact gsm7_decode_total. Qed.
Print Assumptions C07_decode_total.

(** With the built-in tables every result is valid UTF-8. *)
Theorem C07_decode_valid : forall locking shift strict src out,
  gsm7_decode (gsm7_new_decoder locking shift strict) src = Ok out -> valid_utf8 out.
Proof. exact gsm7_decode_valid. Qed.
Print Assumptions C07_decode_valid.
(** U+001B is never in it. *)
Theorem C07_no_escape : forall locking shift strict src out,
  gsm7_decode (gsm7_new_decoder locking shift strict) src = Ok out -> ~ In 27 out.
Proof. exact gsm7_no_esc. Qed.
Print Assumptions C07_no_escape.

(** Strict decoding fails exactly when a septet has no mapping in its own
    table, naming the first such septet. *)
Theorem C07_decode_strict : forall d src, gd_strict d = true ->
  gsm7_decode d src =
    match gsm7_fault (assoc (gd_set d)) (assoc (gd_ext d)) src with
    | Some g => Err (Gsm7InvalidSeptet g)
    | None => Ok (utf8_of (gsm7_chars (assoc (gd_set d)) (assoc (gd_ext d)) src))
    end.
Proof. exact gsm7_decode_strict. Qed.
Print Assumptions C07_decode_strict.

Example C07_instance :
  gsm7_decode (gsm7_new_decoder None None false) [104; 27; 101; 27; 104; 27; 27; 27]
    = Ok [104; 226; 130; 172; 104; 32; 32] /\
  gsm7_decode (gsm7_new_decoder None None true) [104; 27; 101; 27; 104]
    = Err (Gsm7InvalidSeptet 104).
Proof. split; vm_compute; reflexivity. Qed.

(** C08.  For every language identifier, the encoder tables invert the decoder
    tables and cover them. *)
Theorem C08_locking_inverse : forall nli r g,
  assoc (new_encoder nli) r = Some g -> assoc (new_decoder nli) g = Some r.
Proof. intros nli. exact (tk_inv _ _ (locking_ok nli)). Qed.
Print Assumptions C08_locking_inverse.

Theorem C08_locking_complete : forall nli g r,
  assoc (new_decoder nli) g = Some r -> exists g', assoc (new_encoder nli) r = Some g'.
Proof. intros nli. exact (tk_sur _ _ (locking_ok nli)). Qed.
Print Assumptions C08_locking_complete.

Theorem C08_shift_inverse : forall nli r g,
  assoc (new_ext_encoder nli) r = Some g -> assoc (new_ext_decoder nli) g = Some r.
Proof. intros nli. exact (tk_inv _ _ (shift_ok nli)). Qed.
Print Assumptions C08_shift_inverse.

Theorem C08_shift_complete : forall nli g r,
  assoc (new_ext_decoder nli) g = Some r -> exists g', assoc (new_ext_encoder nli) r = Some g'.
Proof. intros nli. exact (tk_sur _ _ (shift_ok nli)). Qed.
Print Assumptions C08_shift_complete.

(** The encoder generated from any table gives each character its least code,
    so it does not depend on the iteration order of the Go map. *)
Theorem C08_least_code : forall d r, least_code d r (assoc (generate_encoder d) r).
Proof. exact generate_encoder_least. Qed.
Print Assumptions C08_least_code.

Theorem C08_order_independent : forall d d' r, Permutation d d' ->
  assoc (generate_encoder d) r = assoc (generate_encoder d') r.
Proof. exact generate_encoder_order. Qed.
Print Assumptions C08_order_independent.

(** The keys of the table literals are distinct, so they are Go maps. *)
Theorem C08_tables_are_maps : forall nli,
  NoDup (map fst (new_decoder nli)) /\ NoDup (map fst (new_ext_decoder nli)).
Proof. intros nli. exact (conj (tk_nodup _ _ (locking_ok nli)) (tk_nodup _ _ (shift_ok nli))). Qed.
Print Assumptions C08_tables_are_maps.

Example C08_instance :
  assoc (new_encoder 6) 2337 = Some 36 /\ assoc (new_decoder 6) 36 = Some 2337 /\
  assoc (generate_encoder [(9, 65); (3, 65); (5, 66)]) 65 = Some 3.
Proof. repeat split; vm_compute; reflexivity. Qed.

(** C09.  Encoding scalar values gives their well-formed UTF-16BE form, and
    decoding gives them back. *)
Theorem C09_ucs2_encode : forall rs, Forall scalar rs -> utf16be rs (ucs2_encode rs).
Proof. exact ucs2_encode_spec. Qed.
Print Assumptions C09_ucs2_encode.

Theorem C09_ucs2_decode : forall rs s, utf16be rs s ->
  ucs2_decode s = {| u2_runes := rs; u2_err := None |}.
Proof. exact ucs2_decode_text. Qed.
Print Assumptions C09_ucs2_decode.

(** Decoding well-formed octets and re-encoding gives the same octets. *)
Theorem C09_ucs2_reencode : forall rs s, utf16be rs s ->
  ucs2_encode (u2_runes (ucs2_decode s)) = s.
Proof. intros rs s H. rewrite (ucs2_decode_text rs s H). symmetry. exact (utf16be_fun rs s H). Qed.
Print Assumptions C09_ucs2_reencode.

(** What comes out of decoding any octets are scalar values. *)
Lemma ucs2_loop_scalar : forall n s, (length s <= n)%nat -> Forall is_byte s -> Forall scalar (u2_runes (ucs2_loop s)).
Proof.
  induction n as [|n IH]; intros s L HB; [destruct s; [constructor|cbn in L; lia]|].
  destruct s as [|h [|l s1]]; try constructor. cbn [ucs2_loop]. cbn [length] in L.
  apply Forall_cons_iff in HB as (Hh & HB). apply Forall_cons_iff in HB as (Hl & HB). unfold is_byte in Hh, Hl.
  destruct (is_surrogate (h * 256 + l)) eqn:S.
  - destruct s1 as [|h2 [|l2 s2]]; try constructor; cbn [u2_runes length] in *.
    + apply Forall_cons_iff in HB as (H2 & HB). apply Forall_cons_iff in HB as (H3 & HB). unfold is_byte in H2, H3.
      unfold utf16_decode_rune, is_surrogate, in_range, scalar in *. match goal with |- context [if ?c then _ else _] => destruct c eqn:C end; unfold rune_error; lia.
    + apply IH; [lia|]. apply Forall_cons_iff in HB as (H2 & HB). now apply Forall_cons_iff in HB.
  - cbn [u2_runes]. constructor; [unfold is_surrogate, in_range, scalar in *; lia|]. apply IH; [lia|exact HB].
Qed.
Theorem C09_decodes_to_scalars : forall s, Forall is_byte s -> Forall scalar (u2_runes (ucs2_decode s)).
Proof.
  intros s HB. unfold ucs2_decode. destruct (len s =? 0); [constructor|]. destruct (_ =? 1); [constructor|].
  now apply (ucs2_loop_scalar (length s)).
Qed.
Print Assumptions C09_decodes_to_scalars.
(** So scalar values are all that come back, and well-formed octets too. *)
Theorem C09_runes_exactly : forall rs,
  ucs2_decode (ucs2_encode rs) = {| u2_runes := rs; u2_err := None |} <-> Forall scalar rs.
Proof.
  intros rs. split.
  - intros E. assert (HB : Forall is_byte (ucs2_encode rs)).
    { unfold ucs2_encode. apply Forall_flat_map, Forall_forall. intros u _. repeat constructor; unfold is_byte; apply Z.mod_pos_bound; lia. }
    pose proof (C09_decodes_to_scalars _ HB) as H. now rewrite E in H.
  - intros H. now apply C09_ucs2_decode, C09_ucs2_encode.
Qed.
Print Assumptions C09_runes_exactly.
Theorem C09_octets_exactly : forall s, Forall is_byte s ->
  (ucs2_encode (u2_runes (ucs2_decode s)) = s <-> exists rs, utf16be rs s).
Proof.
  intros s HB. split.
  - intros E. exists (u2_runes (ucs2_decode s)). rewrite <- E at 2. apply C09_ucs2_encode. now apply C09_decodes_to_scalars.
  - intros (rs & H). now apply C09_ucs2_reencode with (rs := rs).
Qed.
Print Assumptions C09_octets_exactly.

Example C09_instance :
  Forall scalar [72; 128512; 65533] /\
  ucs2_encode [72; 128512; 65533] = [0; 72; 216; 61; 222; 0; 255; 253].
Proof. split; [repeat (constructor; [unfold scalar; lia|]); constructor|reflexivity]. Qed.

(** C10.  Odd lengths give ErrInvalidLength and nothing else; an even length
    gives either no error, or a dangling surrogate: the string is a completely
    decodable one followed by one surrogate unit, whose two octets are in the
    error, and the result is that of the part before. *)
Theorem C10_ucs2_errors : forall s, Forall is_byte s ->
  (len s mod 2 = 1 ->
     ucs2_decode s = {| u2_runes := []; u2_err := Some Ucs2InvalidLength |}) /\
  (len s mod 2 = 0 ->
     u2_err (ucs2_decode s) = None \/
     exists s0 h l, s = s0 ++ [h; l] /\ is_surrogate (h * 256 + l) = true /\
       u2_err (ucs2_decode s) = Some (Ucs2DanglingSurrogate [h; l]) /\
       ucs2_decode s0 = {| u2_runes := u2_runes (ucs2_decode s); u2_err := None |}).
Proof. exact ucs2_decode_errors. Qed.
Print Assumptions C10_ucs2_errors.

(** Conversely, a decodable string followed by a surrogate unit gives the error. *)
Theorem C10_ucs2_dangling : forall s0 h l,
  len s0 mod 2 = 0 -> u2_err (ucs2_decode s0) = None -> is_surrogate (h * 256 + l) = true ->
  ucs2_decode (s0 ++ [h; l]) =
    {| u2_runes := u2_runes (ucs2_decode s0); u2_err := Some (Ucs2DanglingSurrogate [h; l]) |}.
Proof. exact ucs2_decode_dangling. Qed.
Print Assumptions C10_ucs2_dangling.

Example C10_instance :
  ucs2_decode [0; 72; 216; 61] =
    {| u2_runes := [72]; u2_err := Some (Ucs2DanglingSurrogate [216; 61]) |} /\
  ucs2_decode [0; 72; 216] = {| u2_runes := []; u2_err := Some Ucs2InvalidLength |}.
Proof. split; reflexivity. Qed.
