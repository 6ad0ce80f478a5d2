(** Model of encoding/gsm7/charset/charset.go.

    A Go map is an association list with unique keys; lookup is [assoc].  The
    lazy caching of generated tables is modelled in LazyTables.v; here a
    table is a pure function of the language. *)
From Verif Require Import GoBase CharsetTables.

(** encoding/gsm7/charset/charset.go:79 [Decoder] (septet to rune) and :82
    [Encoder] (rune to septet). *)
Definition decoder := list (Z * Z).
Definition encoder := list (Z * Z).

(** Go map lookup [v, ok := m[k]], e.g. encoding/gsm7/charset/charset.go:131. *)
Fixpoint assoc (m : list (Z * Z)) (k : Z) : option Z :=
  match m with
  | [] => None
  | (k', v) :: m' => if k =? k' then Some v else assoc m' k
  end.

(** Go map assignment [m[k] = v], e.g. encoding/gsm7/charset/charset.go:132. *)
Fixpoint assoc_set (m : list (Z * Z)) (k v : Z) : list (Z * Z) :=
  match m with
  | [] => [(k, v)]
  | (k', v') :: m' =>
      if k =? k' then (k, v) :: m' else (k', v') :: assoc_set m' k v
  end.

(** encoding/gsm7/charset/charset.go:128-136 [generateEncoder].  The list
    order of [d] is the (arbitrary) iteration order of the Go map. *)
Definition gen_step (e : encoder) (kv : Z * Z) : encoder :=
  let '(k, v) := kv in
  match assoc e v with
  | Some ko => if k <? ko then assoc_set e v k else e
  | None => assoc_set e v k
  end.
Definition generate_encoder (d : decoder) : encoder := fold_left gen_step d [].

(** encoding/gsm7/charset/charset.go:138-144 [generateEncoderFromRunes]. *)
Fixpoint enc_from_runes (i : Z) (rs : list Z) (e : encoder) : encoder :=
  match rs with
  | [] => e
  | r :: rs' => enc_from_runes (i + 1) rs' (assoc_set e r (to_byte i))
  end.
Definition generate_encoder_from_runes (rs : list Z) : encoder :=
  enc_from_runes 0 rs [].

(** encoding/gsm7/charset/charset.go:146-152 [generateDecoderFromRunes]. *)
Fixpoint dec_from_runes (i : Z) (rs : list Z) (d : decoder) : decoder :=
  match rs with
  | [] => d
  | r :: rs' => dec_from_runes (i + 1) rs' (assoc_set d (to_byte i) r)
  end.
Definition generate_decoder_from_runes (rs : list Z) : decoder :=
  dec_from_runes 0 rs [].

(** encoding/gsm7/charset/charset.go:88-126, the language identifiers. *)
Definition nli_default : Z := 0.
Definition nli_turkish : Z := 1.
Definition nli_spanish : Z := 2.
Definition nli_portuguese : Z := 3.
Definition nli_bengali : Z := 4.
Definition nli_gujarati : Z := 5.
Definition nli_hindi : Z := 6.
Definition nli_kannada : Z := 7.
Definition nli_malayalam : Z := 8.
Definition nli_oriya : Z := 9.
Definition nli_punjabi : Z := 10.
Definition nli_tamil : Z := 11.
Definition nli_telugu : Z := 12.
Definition nli_urdu : Z := 13.
Definition nli_end : Z := 14.

(** encoding/gsm7/charset/charset.go:9-14 [DefaultDecoder]. *)
Definition default_decoder : decoder := generate_decoder_from_runes defaultRunes.
(** encoding/gsm7/charset/charset.go:41-46 [DefaultEncoder]. *)
Definition default_encoder : encoder := generate_encoder_from_runes defaultRunes.
(** encoding/gsm7/charset/charset.go:28-30 [DefaultExtDecoder]. *)
Definition default_ext_decoder : decoder := defaultExtDecoder.
(** encoding/gsm7/charset/charset.go:60-65 [DefaultExtEncoder]. *)
Definition default_ext_encoder : encoder := generate_encoder defaultExtDecoder.

(** The source of a locking table: encoding/gsm7/charset/charset.go:169-183
    and 199-213 pair each language with a rune string or a map literal; the
    languages not listed (Spanish, unknown) use the default. *)
Inductive table := FromRunes (rs : list Z) | FromMap (d : decoder).

Definition locking_table (nli : Z) : table :=
  if nli =? nli_turkish then FromRunes turkishRunes
  else if nli =? nli_portuguese then FromRunes portugueseRunes
  else if nli =? nli_bengali then FromMap bengaliDecoder
  else if nli =? nli_gujarati then FromMap gujaratiDecoder
  else if nli =? nli_hindi then FromMap hindiDecoder
  else if nli =? nli_kannada then FromMap kannadaDecoder
  else if nli =? nli_malayalam then FromMap malayalamDecoder
  else if nli =? nli_oriya then FromMap oriyaDecoder
  else if nli =? nli_punjabi then FromMap punjabiDecoder
  else if nli =? nli_tamil then FromMap tamilDecoder
  else if nli =? nli_telugu then FromMap teluguDecoder
  else if nli =? nli_urdu then FromMap urduDecoder
  else FromRunes defaultRunes.

(** encoding/gsm7/charset/charset.go:184-198 [extDecoder] and 214-228
    [extEncoder]. *)
Definition shift_table (nli : Z) : decoder :=
  if nli =? nli_turkish then turkishExtDecoder
  else if nli =? nli_spanish then spanishExtDecoder
  else if nli =? nli_portuguese then portugueseExtDecoder
  else if nli =? nli_bengali then bengaliExtDecoder
  else if nli =? nli_gujarati then gujaratiExtDecoder
  else if nli =? nli_hindi then hindiExtDecoder
  else if nli =? nli_kannada then kannadaExtDecoder
  else if nli =? nli_malayalam then malayalamExtDecoder
  else if nli =? nli_oriya then oriyaExtDecoder
  else if nli =? nli_punjabi then punjabiExtDecoder
  else if nli =? nli_tamil then tamilExtDecoder
  else if nli =? nli_telugu then teluguExtDecoder
  else if nli =? nli_urdu then urduExtDecoder
  else defaultExtDecoder.

Definition table_decoder (t : table) : decoder :=
  match t with
  | FromRunes rs => generate_decoder_from_runes rs
  | FromMap d => d
  end.
Definition table_encoder (t : table) : encoder :=
  match t with
  | FromRunes rs => generate_encoder_from_runes rs
  | FromMap d => generate_encoder d
  end.

(** encoding/gsm7/charset/charset.go:17-25 [NewDecoder]. *)
Definition new_decoder (nli : Z) : decoder := table_decoder (locking_table nli).
(** encoding/gsm7/charset/charset.go:49-57 [NewEncoder]. *)
Definition new_encoder (nli : Z) : encoder := table_encoder (locking_table nli).
(** encoding/gsm7/charset/charset.go:33-38 [NewExtDecoder]. *)
Definition new_ext_decoder (nli : Z) : decoder := shift_table nli.
(** encoding/gsm7/charset/charset.go:68-76 [NewExtEncoder]. *)
Definition new_ext_encoder (nli : Z) : encoder := generate_encoder (shift_table nli).
