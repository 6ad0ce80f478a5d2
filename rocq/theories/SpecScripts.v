(** The alphabets of the ten languages that are not in Latin script: 3GPP TS 23.038
    annexes A.2.4 to A.2.13 and A.3.4 to A.3.13, letter by letter.  The nine scripts
    of India share one arrangement, that of their Unicode blocks, which are parallel:
    the letter at a place of one block corresponds to those at the same place of the
    others, if there is one.  Urdu is written out. *)
From Coq Require Import List ZArith Bool.
From Verif Require Import SpecAlphabet.
Import ListNotations.
Open Scope Z_scope.

(** The numbers from [a] to [b]. *)
Definition upto (a b : Z) : list Z := map (fun k => a + Z.of_nat k) (seq 0 (Z.to_nat (b - a + 1))).
Definition ranges (l : list (Z * Z)) : list Z := flat_map (fun r => upto (fst r) (snd r)) l.

(** The characters of each block in Unicode 5.1, that of the time of the standard,
    as places in the block. *)
Definition assigned (l : language) : list Z :=
  ranges match l with
  | Bengali => [(0x01, 0x03); (0x05, 0x0C); (0x0F, 0x10); (0x13, 0x28); (0x2A, 0x30); (0x32, 0x32); (0x36, 0x39); (0x3C, 0x44);
                (0x47, 0x48); (0x4B, 0x4E); (0x57, 0x57); (0x5C, 0x5D); (0x5F, 0x63); (0x66, 0x7A)]
  | Gujarati => [(0x01, 0x03); (0x05, 0x0D); (0x0F, 0x11); (0x13, 0x28); (0x2A, 0x30); (0x32, 0x33); (0x35, 0x39); (0x3C, 0x45);
                 (0x47, 0x49); (0x4B, 0x4D); (0x50, 0x50); (0x60, 0x63); (0x66, 0x6F); (0x71, 0x71)]
  | Hindi => [(0x01, 0x39); (0x3C, 0x4D); (0x50, 0x54); (0x58, 0x72); (0x7B, 0x7F)]
  | Kannada => [(0x02, 0x03); (0x05, 0x0C); (0x0E, 0x10); (0x12, 0x28); (0x2A, 0x33); (0x35, 0x39); (0x3C, 0x44); (0x46, 0x48);
                (0x4A, 0x4D); (0x55, 0x56); (0x5E, 0x5E); (0x60, 0x63); (0x66, 0x6F); (0x71, 0x72)]
  | Malayalam => [(0x02, 0x03); (0x05, 0x0C); (0x0E, 0x10); (0x12, 0x28); (0x2A, 0x39); (0x3D, 0x44); (0x46, 0x48); (0x4A, 0x4D);
                  (0x57, 0x57); (0x60, 0x63); (0x66, 0x75); (0x79, 0x7F)]
  | Oriya => [(0x01, 0x03); (0x05, 0x0C); (0x0F, 0x10); (0x13, 0x28); (0x2A, 0x30); (0x32, 0x33); (0x35, 0x39); (0x3C, 0x44);
              (0x47, 0x48); (0x4B, 0x4D); (0x56, 0x57); (0x5C, 0x5D); (0x5F, 0x63); (0x66, 0x71)]
  | Punjabi => [(0x01, 0x03); (0x05, 0x0A); (0x0F, 0x10); (0x13, 0x28); (0x2A, 0x30); (0x32, 0x33); (0x35, 0x36); (0x38, 0x39);
                (0x3C, 0x3C); (0x3E, 0x42); (0x47, 0x48); (0x4B, 0x4D); (0x51, 0x51); (0x59, 0x5C); (0x5E, 0x5E); (0x66, 0x75)]
  | Tamil => [(0x02, 0x03); (0x05, 0x0A); (0x0E, 0x10); (0x12, 0x15); (0x19, 0x1A); (0x1C, 0x1C); (0x1E, 0x1F); (0x23, 0x24);
              (0x28, 0x2A); (0x2E, 0x39); (0x3E, 0x42); (0x46, 0x48); (0x4A, 0x4D); (0x50, 0x50); (0x57, 0x57); (0x66, 0x7A)]
  | Telugu => [(0x01, 0x03); (0x05, 0x0C); (0x0E, 0x10); (0x12, 0x28); (0x2A, 0x33); (0x35, 0x39); (0x3D, 0x44); (0x46, 0x48);
               (0x4A, 0x4D); (0x55, 0x56); (0x58, 0x59); (0x60, 0x63); (0x66, 0x6F); (0x78, 0x7F)]
  | _ => []
  end.
Definition has (l : list Z) (x : Z) : bool := existsb (Z.eqb x) l.

(** The letters of the alphabet that are at the same code in each script, in the
    codes that the shared part (SpecAlphabet) leaves free before 0x60. *)
Definition common_codes : list Z :=
  ranges [(0x00, 0x09); (0x0B, 0x0C); (0x0E, 0x1A); (0x1C, 0x1F); (0x22, 0x27); (0x2A, 0x2B); (0x2D, 0x2D); (0x2F, 0x2F);
          (0x3C, 0x3E); (0x40, 0x5F)].
Definition common_places : list Z :=
  ranges [(0x01, 0x03); (0x05, 0x39); (0x3C, 0x4D)].
(** Six more, which each script chooses for itself. *)
Definition own_codes : list Z := [0x60; 0x7B; 0x7C; 0x7D; 0x7E; 0x7F].
Definition own_places (l : language) : list Z :=
  match l with
  | Bengali => [0x4E; 0x57; 0x5C; 0x5D; 0x70; 0x71]
  | Gujarati => [0x50; 0x60; 0x61; 0x62; 0x63; 0x71]
  | Hindi => [0x50; 0x72; 0x7B; 0x7C; 0x7E; 0x7F]
  | Kannada | Telugu => [0x55; 0x56; 0x60; 0x61; 0x62; 0x63]
  | Malayalam => [0x57; 0x60; 0x61; 0x62; 0x63; 0x79]
  | Oriya => [0x56; 0x57; 0x60; 0x61; 0x62; 0x63]
  | Punjabi => [0x51; 0x70; 0x71; 0x72; 0x73; 0x74]
  | Tamil => [0x50; 0x57; 0x70; 0x71; 0x72; 0x79]
  | _ => []
  end.
Definition first_of (l : language) : Z := match block l with Some (lo, _) => lo | None => 0 end.
Definition alphabet_letters (l : language) : list (Z * Z) :=
  map (fun p => (fst p, first_of l + snd p))
    (filter (fun p => has (assigned l) (snd p)) (combine common_codes common_places) ++ combine own_codes (own_places l)).

(** The extension: in the codes the shared part leaves free the danda and the
    double danda, the ten digits, and what is left of the block, in this order.
    Two Devanagari letters that Hindi does not use, short A and the glottal stop,
    are in neither table, and the dandas, which lie in the Devanagari block, come
    first; Bengali has no dandas, and Telugu leaves their codes free. *)
Definition digit_places : list Z := upto 0x66 0x6F.
Definition unused_places (l : language) : list Z := match l with Hindi => [0x04; 0x64; 0x65; 0x7D] | _ => [] end.
Definition left_places (l : language) : list Z :=
  filter (fun p => negb (has common_places p || has (own_places l) p || has digit_places p || has (unused_places l) p)) (assigned l).
Definition extension_codes : list Z :=
  ranges [(0x19, 0x1A); (0x1C, 0x27); (0x2A, 0x2E); (0x30, 0x3A)].
Definition extension_letters (l : language) : list (Z * Z) :=
  let letters := map (fun p => first_of l + p) (digit_places ++ left_places l) in
  match l with
  | Bengali => combine extension_codes letters
  | Telugu => combine (skipn 2 extension_codes) letters
  | _ => combine extension_codes ([0x964; 0x965] ++ letters)
  end.

(** Urdu. *)
Definition urdu_codes : list Z := common_codes ++ own_codes.
Definition urdu_letters : list (Z * Z) := combine urdu_codes
  ([0x627; 0x622; 0x628; 0x67B; 0x680; 0x67E; 0x6A6; 0x62A; 0x6C2; 0x67F] ++ [0x679; 0x67D] ++
   [0x67A; 0x67C; 0x62B; 0x62C; 0x681; 0x684; 0x683; 0x685; 0x686; 0x687; 0x62D; 0x62E; 0x62F] ++
   [0x68C; 0x688; 0x689; 0x68A] ++ [0x68F; 0x68D; 0x630; 0x631; 0x691; 0x693] ++ [0x699; 0x632] ++ [0x696] ++ [0x698] ++
   [0x69A; 0x633; 0x634] ++
   [0x635; 0x636; 0x637; 0x638; 0x639; 0x641; 0x642; 0x6A9; 0x6AA; 0x6AB; 0x6AF; 0x6B3; 0x6B1; 0x644; 0x645; 0x646;
    0x6BA; 0x6BB; 0x6BC; 0x648; 0x6C4; 0x6D5; 0x6C1; 0x6BE; 0x621; 0x6CC; 0x6D0; 0x6D2; 0x64D; 0x650; 0x64F; 0x657] ++
   [0x654; 0x655; 0x651; 0x653; 0x656; 0x670]).
Definition urdu_extension : list (Z * Z) := combine (extension_codes ++ [0x3B; 0x3F])
  ([0x600; 0x601] ++ upto 0x6F0 0x6F9 ++
   [0x60C; 0x60D; 0x60E; 0x60F; 0x610; 0x611; 0x612; 0x613; 0x614; 0x61B; 0x61F; 0x640; 0x652; 0x658; 0x66B; 0x66C; 0x672; 0x673] ++
   [0x6CD; 0x6D4]).

Definition letters (l : language) : list (Z * Z) := match l with Urdu => urdu_letters | _ => alphabet_letters l end.
Definition more_letters (l : language) : list (Z * Z) := match l with Urdu => urdu_extension | _ => extension_letters l end.
