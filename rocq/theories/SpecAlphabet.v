(** Independent specification of the GSM 7-bit alphabets: 3GPP TS 23.038
    section 6.2.1 and annex A, and the blocks of the Unicode standard.  The
    alphabets in Latin script are written out, in UTF-8; for the others the part
    that all of them share is written out, and the rest is given by the block of
    the script. *)
From Coq Require Import List ZArith Bool String Ascii.
From Verif Require Import SpecText.
Import ListNotations.
Open Scope Z_scope.

(** The octets of a string constant. *)
Definition octets (s : string) : list Z :=
  map (fun c => Z.of_N (N_of_ascii c)) (list_ascii_of_string s).
Definition chr (n : nat) : string := String (ascii_of_nat n) EmptyString.
Definition LF := chr 10.
Definition FF := chr 12.
Definition CR := chr 13.
Definition ESC := chr 27.
Definition QUOTE := chr 34.

Open Scope string_scope.

(** A table: some codes, in increasing order, and the characters they stand
    for, in the same order, in UTF-8. *)
Record code_table := { codes : list Z; chars : list Z }.
Definition table_of (cs : list Z) (text : string) : code_table :=
  {| codes := cs; chars := octets text |}.
(** A table with a character for each of the 128 codes. *)
Definition alphabet (text : string) : code_table :=
  table_of (map Z.of_nat (seq 0 128)) text.

(** [listed e g r]: table [e] gives code [g] the character [r]. *)
Definition listed (e : code_table) (g r : Z) : Prop :=
  exists rs, utf8_text rs (chars e) /\ List.length rs = List.length (codes e) /\
    In (g, r) (combine (codes e) rs).

(** TS 23.038 6.2.1, the default alphabet, from code 0x00 to code 0x7F. *)
Definition default_alphabet : code_table := alphabet (
  "@£$¥èéùìòÇ" ++ LF ++ "Øø" ++ CR ++ "ÅåΔ_ΦΓΛΩΠΨΣΘΞ" ++ ESC ++ "ÆæßÉ" ++
  " !" ++ QUOTE ++ "#¤%&'()*+,-./0123456789:;<=>?" ++
  "¡ABCDEFGHIJKLMNOPQRSTUVWXYZÄÖÑÜ§" ++
  "¿abcdefghijklmnopqrstuvwxyzäöñüà").

(** Annex A.3.1, Turkish, and A.3.3, Portuguese. *)
Definition turkish_alphabet : code_table := alphabet (
  "@£$¥€éùıòÇ" ++ LF ++ "Ğğ" ++ CR ++ "ÅåΔ_ΦΓΛΩΠΨΣΘΞ" ++ ESC ++ "ŞşßÉ" ++
  " !" ++ QUOTE ++ "#¤%&'()*+,-./0123456789:;<=>?" ++
  "İABCDEFGHIJKLMNOPQRSTUVWXYZÄÖÑÜ§" ++
  "çabcdefghijklmnopqrstuvwxyzäöñüà").
Definition portuguese_alphabet : code_table := alphabet (
  "@£$¥êéúíóç" ++ LF ++ "Ôô" ++ CR ++ "ÁáΔ_ªÇÀ∞^\€Ó|" ++ ESC ++ "ÂâÊÉ" ++
  " !" ++ QUOTE ++ "#º%&'()*+,-./0123456789:;<=>?" ++
  "ÍABCDEFGHIJKLMNOPQRSTUVWXYZÃÕÚÜ§" ++
  "~abcdefghijklmnopqrstuvwxyzãõ`üà").

(** TS 23.038 6.2.1.1, and annexes A.2.1 Turkish, A.2.2 Spanish, A.2.3
    Portuguese. *)
Definition default_extension := table_of
  [10; 20; 40; 41; 47; 60; 61; 62; 64; 101]
  (FF ++ "^{}\[~]|€").
Definition turkish_extension := table_of
  [10; 20; 40; 41; 47; 60; 61; 62; 64; 71; 73; 83; 99; 101; 103; 105; 115]
  (FF ++ "^{}\[~]|ĞİŞç€ğış").
Definition spanish_extension := table_of
  [9; 10; 20; 40; 41; 47; 60; 61; 62; 64; 65; 73; 79; 85; 97; 101; 105; 111; 117]
  ("ç" ++ FF ++ "^{}\[~]|ÁÍÓÚá€íóú").
Definition portuguese_extension := table_of
  [5; 9; 10; 11; 12; 14; 15; 18; 19; 20; 21; 22; 23; 24; 25; 31; 40; 41; 47; 60; 61;
   62; 64; 65; 73; 79; 85; 91; 92; 97; 101; 105; 111; 117; 123; 124; 127]
  ("êç" ++ FF ++ "ÔôÁáΦΓ^ΩΠΨΣΘÊ{}\[~]|ÀÍÓÚÃÕÂ€íóúãõâ").

(** What the annexes of the other ten languages share. *)
Definition shared_alphabet := table_of
  ([10; 13; 27; 32; 33; 40; 41; 44; 46] ++ [48; 49; 50; 51; 52; 53; 54; 55; 56; 57; 58; 59; 63]
   ++ [97; 98; 99; 100; 101; 102; 103; 104; 105; 106; 107; 108; 109; 110; 111; 112; 113; 114;
       115; 116; 117; 118; 119; 120; 121; 122])
  (LF ++ CR ++ ESC ++ " !)(,.0123456789:;?abcdefghijklmnopqrstuvwxyz").
Definition shared_extension := table_of
  ([0; 1; 2; 3; 4; 5; 6; 7; 8; 9; 10; 11; 12; 13; 14; 15; 16; 17; 18; 19; 20; 21; 22; 23; 24;
    27; 40; 41; 47; 60; 61; 62; 64] ++
   [65; 66; 67; 68; 69; 70; 71; 72; 73; 74; 75; 76; 77; 78; 79; 80; 81; 82; 83; 84; 85; 86; 87;
    88; 89; 90; 101])
  ("@£$¥¿" ++ QUOTE ++ "¤%&'" ++ FF ++ "*+" ++ CR ++ "-/<=>¡^¡_#*" ++ ESC ++
   "{}\[~]|ABCDEFGHIJKLMNOPQRSTUVWXYZ€").

Close Scope string_scope.

(** The languages: TS 23.038 6.2.1.2.4, the national language identifiers. *)
Inductive language :=
  Turkish | Spanish | Portuguese | Bengali | Gujarati | Hindi | Kannada | Malayalam
| Oriya | Punjabi | Tamil | Telugu | Urdu.
Definition language_of (nli : Z) : option language :=
  match nli with
  | 1 => Some Turkish | 2 => Some Spanish | 3 => Some Portuguese | 4 => Some Bengali
  | 5 => Some Gujarati | 6 => Some Hindi | 7 => Some Kannada | 8 => Some Malayalam
  | 9 => Some Oriya | 10 => Some Punjabi | 11 => Some Tamil | 12 => Some Telugu
  | 13 => Some Urdu | _ => None
  end.

(** The Unicode block of the script of a language; the languages in Latin
    script have none here. *)
Definition block (l : language) : option (Z * Z) :=
  match l with
  | Hindi => Some (2304, 2431)      (* Devanagari, U+0900 to U+097F *)
  | Bengali => Some (2432, 2559)    (* Bengali, U+0980 *)
  | Punjabi => Some (2560, 2687)    (* Gurmukhi, U+0A00 *)
  | Gujarati => Some (2688, 2815)   (* Gujarati, U+0A80 *)
  | Oriya => Some (2816, 2943)      (* Oriya, U+0B00 *)
  | Tamil => Some (2944, 3071)      (* Tamil, U+0B80 *)
  | Telugu => Some (3072, 3199)     (* Telugu, U+0C00 *)
  | Kannada => Some (3200, 3327)    (* Kannada, U+0C80 *)
  | Malayalam => Some (3328, 3455)  (* Malayalam, U+0D00 *)
  | Urdu => Some (1536, 1791)       (* Arabic, U+0600 to U+06FF *)
  | Turkish | Spanish | Portuguese => None
  end.
Definition in_script (l : language) (r : Z) : Prop :=
  exists lo hi, block l = Some (lo, hi) /\ lo <= r <= hi.
(** The danda and the double danda are in the Devanagari block but are used
    with all scripts of India. *)
Definition danda (r : Z) : Prop := r = 2404 \/ r = 2405.

(** The tables for a national language identifier, for the languages in Latin
    script.  Spanish has no alphabet of its own; an unknown identifier stands for
    the default. *)
Definition latin_alphabet (l : option language) : option code_table :=
  match l with
  | None | Some Spanish => Some default_alphabet
  | Some Turkish => Some turkish_alphabet
  | Some Portuguese => Some portuguese_alphabet
  | Some _ => None
  end.
Definition latin_extension (l : option language) : option code_table :=
  match l with
  | None => Some default_extension
  | Some Turkish => Some turkish_extension
  | Some Spanish => Some spanish_extension
  | Some Portuguese => Some portuguese_extension
  | Some _ => None
  end.
