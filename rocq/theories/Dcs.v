(** Model of encoding/tpdu/dcs.go. *)
From Verif Require Import GoBase.

(** encoding/tpdu/dcs.go:15-30 [Alphabet]: an int; the four constants. *)
Definition Alpha7Bit : Z := 0.
Definition Alpha8Bit : Z := 1.
Definition AlphaUCS2 : Z := 2.
Definition AlphaReserved : Z := 3.

(** Go [x &^ m] on a byte, e.g. encoding/tpdu/dcs.go:87. *)
Definition andnot8 (x m : Z) : Z := Z.land x (255 - m).

(** encoding/tpdu/dcs.go:35-55 [DCS.Alphabet].  The second component is the
    error: callers that ignore it use the first. *)
Definition dcs_alphabet_raw (d : Z) : Z * option gerr :=
  if Z.land d 128 =? 0 then
    let a := Z.land (Z.shiftr d 2) 3 in
    ((if a =? AlphaReserved then Alpha7Bit else a), None)
  else if Z.land d 224 =? 192 then (Alpha7Bit, None)
  else if Z.land d 240 =? 224 then (AlphaUCS2, None)
  else if Z.land d 240 =? 240 then
    ((if Z.land d 4 =? 4 then Alpha8Bit else Alpha7Bit), None)
  else (Alpha7Bit, Some ErrInvalid).

(** The idiom [alpha, _ := d.Alphabet()], e.g. encoding/tpdu/tpdu.go:343. *)
Definition dcs_alpha (d : Z) : Z := fst (dcs_alphabet_raw d).

(** The idiom [alpha, err := d.Alphabet(); if err != nil], e.g.
    encoding/tpdu/tpdu.go:935. *)
Definition dcs_alphabet (d : Z) : res Z :=
  match snd (dcs_alphabet_raw d) with
  | None => Ok (dcs_alpha d)
  | Some e => Err e
  end.

(** encoding/tpdu/dcs.go:84-97 [DCS.WithAlphabet]. *)
Definition dcs_with_alphabet (d a : Z) : res Z :=
  let set := Z.lor (andnot8 d 12) (shl8 (to_byte a) 2) in
  if Z.land d 128 =? 0 then Ok set
  else if (Z.land d 224 =? 192) && (a =? Alpha7Bit) then Ok d
  else if (Z.land d 240 =? 224) && (a =? AlphaUCS2) then Ok d
  else if (Z.land d 240 =? 240) && (a <=? Alpha8Bit) then Ok set
  else Err ErrInvalid.

(** encoding/tpdu/dcs.go:99-105. *)
Definition Dcs8BitData : Z := 4.
Definition DcsUCS2Data : Z := 8.

(** encoding/tpdu/dcs.go:109-126 [MessageClass]. *)
Definition MClassUnknown : Z := 4.

(** encoding/tpdu/dcs.go:130-139 [DCS.Class].  As for the alphabet the Go
    function also returns a value (MClassUnknown) with the error. *)
Definition dcs_class (d : Z) : res Z :=
  if (Z.land d 144 =? 16) || (Z.land d 240 =? 240) then Ok (Z.land d 3)
  else if (Z.land d 224 =? 192) || (Z.land d 240 =? 224) then Ok MClassUnknown
  else Err ErrInvalid.

(** encoding/tpdu/dcs.go:146-155 [DCS.WithClass]. *)
Definition dcs_with_class (d c : Z) : res Z :=
  if Z.land d 128 =? 0 then Ok (Z.lor (Z.lor (andnot8 d 3) 16) (to_byte c))
  else if Z.land d 240 =? 240 then Ok (Z.lor (andnot8 d 3) (to_byte c))
  else Err ErrInvalid.

(** encoding/tpdu/dcs.go:161-164 [DCS.Compressed]. *)
Definition dcs_compressed (d : Z) : bool := Z.land d 160 =? 32.
