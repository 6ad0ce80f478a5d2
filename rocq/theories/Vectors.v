(** The tables of the project's own unit tests, as checks of the model.
    Written by tools/vectors.py from the *_test.go files of /repo: each Example
    says that the model gives what the test expects of the code.  They are
    tests of the model, not proofs of properties. *)
From Verif Require Import GoBase Bcd Semioctet SevenBit Utf Ucs2 Charset Gsm7 Gsm7Options
  Dcs FirstOctet TpduError Address GoTime ValidityPeriod UserData Tpdu TpduLeft Segment Sms Collector
  PduMode Cmd.
Open Scope Z_scope.
Open Scope string_scope.
Import ListNotations.
Open Scope list_scope.

(** A tpdu.Address and a tpdu.InformationElement, as the tests write them. *)
Definition ad (toa : Z) (a : bytes) : address := {| a_toa := toa; a_addr := a |}.
Definition el (id : Z) (d : bytes) : ie := {| ie_id := id; ie_data := d |}.

(** The calls of collect_test.go:36-457: Collect for [Some], Close for [None],
    with what each Collect returns. *)
Fixpoint collect_all (s : cstate) (n : nat) (calls : list (option tpdu))
  : list (option (option (list tpdu) * option gerr)) :=
  match calls with
  | [] => []
  | None :: calls' => None :: collect_all (close s) n calls'
  | Some t :: calls' =>
      let '(s, r) := collect {| cf_timeout := true; cf_handler := true |} s
                       {| sg_id := n; sg_pdu := t |} in
      match r with
      | CReturn d e =>
          Some (match d with
                | Some l => Some (flat_map (fun x => match x with Some g => [sg_pdu g] | None => [] end) l)
                | None => None
                end, e) :: collect_all s (S n) calls'
      | CPanic => []
      end
  end.

(** encoding/bcd/bcd_test.go:24 zero *)
Example vec_bcd_decode_1 : bcd_decode 0 = Ok (0).
Proof. vm_compute. reflexivity. Qed.
(** encoding/bcd/bcd_test.go:30 thirteen *)
Example vec_bcd_decode_2 : bcd_decode 49 = Ok (13).
Proof. vm_compute. reflexivity. Qed.
(** encoding/bcd/bcd_test.go:36 thirty one *)
Example vec_bcd_decode_3 : bcd_decode 19 = Ok (31).
Proof. vm_compute. reflexivity. Qed.
(** encoding/bcd/bcd_test.go:42 ninety nine *)
Example vec_bcd_decode_4 : bcd_decode 153 = Ok (99).
Proof. vm_compute. reflexivity. Qed.
(** encoding/bcd/bcd_test.go:48 a9 *)
Example vec_bcd_decode_5 : bcd_decode 169 = Err (BcdInvalidOctet 169).
Proof. vm_compute. reflexivity. Qed.
(** encoding/bcd/bcd_test.go:54 9a *)
Example vec_bcd_decode_6 : bcd_decode 154 = Err (BcdInvalidOctet 154).
Proof. vm_compute. reflexivity. Qed.
(** encoding/bcd/bcd_test.go:60 ff *)
Example vec_bcd_decode_7 : bcd_decode 255 = Err (BcdInvalidOctet 255).
Proof. vm_compute. reflexivity. Qed.
(** encoding/bcd/bcd_test.go:79 zero *)
Example vec_bcd_decode_signed_1 : bcd_decode_signed 0 = Ok (0).
Proof. vm_compute. reflexivity. Qed.
(** encoding/bcd/bcd_test.go:85 thirteen *)
Example vec_bcd_decode_signed_2 : bcd_decode_signed 49 = Ok (13).
Proof. vm_compute. reflexivity. Qed.
(** encoding/bcd/bcd_test.go:91 thirty one *)
Example vec_bcd_decode_signed_3 : bcd_decode_signed 19 = Ok (31).
Proof. vm_compute. reflexivity. Qed.
(** encoding/bcd/bcd_test.go:97 seventy nine *)
Example vec_bcd_decode_signed_4 : bcd_decode_signed 151 = Ok (79).
Proof. vm_compute. reflexivity. Qed.
(** encoding/bcd/bcd_test.go:103 negative zero *)
Example vec_bcd_decode_signed_5 : bcd_decode_signed 8 = Ok (0).
Proof. vm_compute. reflexivity. Qed.
(** encoding/bcd/bcd_test.go:109 negative one *)
Example vec_bcd_decode_signed_6 : bcd_decode_signed 24 = Ok ((-1)).
Proof. vm_compute. reflexivity. Qed.
(** encoding/bcd/bcd_test.go:115 negative 19 *)
Example vec_bcd_decode_signed_7 : bcd_decode_signed 153 = Ok ((-19)).
Proof. vm_compute. reflexivity. Qed.
(** encoding/bcd/bcd_test.go:121 a9 *)
Example vec_bcd_decode_signed_8 : bcd_decode_signed 169 = Err (BcdInvalidOctet 169).
Proof. vm_compute. reflexivity. Qed.
(** encoding/bcd/bcd_test.go:127 negative 29 *)
Example vec_bcd_decode_signed_9 : bcd_decode_signed 154 = Ok ((-29)).
Proof. vm_compute. reflexivity. Qed.
(** encoding/bcd/bcd_test.go:133 negative 79 *)
Example vec_bcd_decode_signed_10 : bcd_decode_signed 159 = Ok ((-79)).
Proof. vm_compute. reflexivity. Qed.
(** encoding/bcd/bcd_test.go:139 ff *)
Example vec_bcd_decode_signed_11 : bcd_decode_signed 255 = Err (BcdInvalidOctet 255).
Proof. vm_compute. reflexivity. Qed.
(** encoding/bcd/bcd_test.go:165 zero *)
Example vec_bcd_encode_1 : bcd_encode 0 = Ok (0).
Proof. vm_compute. reflexivity. Qed.
(** encoding/bcd/bcd_test.go:171 thirteen *)
Example vec_bcd_encode_2 : bcd_encode 13 = Ok (49).
Proof. vm_compute. reflexivity. Qed.
(** encoding/bcd/bcd_test.go:177 thirty one *)
Example vec_bcd_encode_3 : bcd_encode 31 = Ok (19).
Proof. vm_compute. reflexivity. Qed.
(** encoding/bcd/bcd_test.go:183 ninety nine *)
Example vec_bcd_encode_4 : bcd_encode 99 = Ok (153).
Proof. vm_compute. reflexivity. Qed.
(** encoding/bcd/bcd_test.go:189 negative *)
Example vec_bcd_encode_5 : bcd_encode (-1) = Err (BcdInvalidInteger (-1)).
Proof. vm_compute. reflexivity. Qed.
(** encoding/bcd/bcd_test.go:195 hundred *)
Example vec_bcd_encode_6 : bcd_encode 100 = Err (BcdInvalidInteger 100).
Proof. vm_compute. reflexivity. Qed.
(** encoding/bcd/bcd_test.go:201 a9 *)
Example vec_bcd_encode_7 : bcd_encode 169 = Err (BcdInvalidInteger 169).
Proof. vm_compute. reflexivity. Qed.
(** encoding/bcd/bcd_test.go:207 9a *)
Example vec_bcd_encode_8 : bcd_encode 154 = Err (BcdInvalidInteger 154).
Proof. vm_compute. reflexivity. Qed.
(** encoding/bcd/bcd_test.go:213 ff *)
Example vec_bcd_encode_9 : bcd_encode 255 = Err (BcdInvalidInteger 255).
Proof. vm_compute. reflexivity. Qed.
(** encoding/bcd/bcd_test.go:232 zero *)
Example vec_bcd_encode_signed_1 : bcd_encode_signed 0 = Ok (0).
Proof. vm_compute. reflexivity. Qed.
(** encoding/bcd/bcd_test.go:238 thirteen *)
Example vec_bcd_encode_signed_2 : bcd_encode_signed 13 = Ok (49).
Proof. vm_compute. reflexivity. Qed.
(** encoding/bcd/bcd_test.go:244 thirty one *)
Example vec_bcd_encode_signed_3 : bcd_encode_signed 31 = Ok (19).
Proof. vm_compute. reflexivity. Qed.
(** encoding/bcd/bcd_test.go:250 seventy nine *)
Example vec_bcd_encode_signed_4 : bcd_encode_signed 79 = Ok (151).
Proof. vm_compute. reflexivity. Qed.
(** encoding/bcd/bcd_test.go:256 negative one *)
Example vec_bcd_encode_signed_5 : bcd_encode_signed (-1) = Ok (24).
Proof. vm_compute. reflexivity. Qed.
(** encoding/bcd/bcd_test.go:262 negative 19 *)
Example vec_bcd_encode_signed_6 : bcd_encode_signed (-19) = Ok (153).
Proof. vm_compute. reflexivity. Qed.
(** encoding/bcd/bcd_test.go:268 a9 *)
Example vec_bcd_encode_signed_7 : bcd_encode_signed 169 = Err (BcdInvalidInteger 169).
Proof. vm_compute. reflexivity. Qed.
(** encoding/bcd/bcd_test.go:274 negative 29 *)
Example vec_bcd_encode_signed_8 : bcd_encode_signed (-29) = Ok (154).
Proof. vm_compute. reflexivity. Qed.
(** encoding/bcd/bcd_test.go:280 negative 79 *)
Example vec_bcd_encode_signed_9 : bcd_encode_signed (-79) = Ok (159).
Proof. vm_compute. reflexivity. Qed.
(** encoding/bcd/bcd_test.go:286 ff *)
Example vec_bcd_encode_signed_10 : bcd_encode_signed 255 = Err (BcdInvalidInteger 255).
Proof. vm_compute. reflexivity. Qed.
(** encoding/semioctet/semioctet_test.go:24 nil *)
Example vec_semi_decode_1 : semi_decode 0 [] = Ok ([], 0).
Proof. vm_compute. reflexivity. Qed.
(** encoding/semioctet/semioctet_test.go:32 nil dst *)
Example vec_semi_decode_2 : semi_decode 0 [16; 50; 84; 118] = Ok ([], 0).
Proof. vm_compute. reflexivity. Qed.
(** encoding/semioctet/semioctet_test.go:40 nil src *)
Example vec_semi_decode_3 : semi_decode 3 [] = Ok ([], 0).
Proof. vm_compute. reflexivity. Qed.
(** encoding/semioctet/semioctet_test.go:48 empty dst *)
Example vec_semi_decode_4 : semi_decode 0 [16; 50; 84; 118] = Ok ([], 0).
Proof. vm_compute. reflexivity. Qed.
(** encoding/semioctet/semioctet_test.go:56 empty src *)
Example vec_semi_decode_5 : semi_decode 3 [] = Ok ([], 0).
Proof. vm_compute. reflexivity. Qed.
(** encoding/semioctet/semioctet_test.go:64 limit src *)
Example vec_semi_decode_6 : semi_decode 8 [16; 50; 84; 118] = Ok ([48; 49; 50; 51; 52; 53; 54; 55], 4).
Proof. vm_compute. reflexivity. Qed.
(** encoding/semioctet/semioctet_test.go:72 fill limit src *)
Example vec_semi_decode_7 : semi_decode 8 [16; 50; 84; 246] = Ok ([48; 49; 50; 51; 52; 53; 54], 4).
Proof. vm_compute. reflexivity. Qed.
(** encoding/semioctet/semioctet_test.go:80 fill limit even dst *)
Example vec_semi_decode_8 : semi_decode 6 [16; 50; 84; 246; 152] = Ok ([48; 49; 50; 51; 52; 53], 3).
Proof. vm_compute. reflexivity. Qed.
(** encoding/semioctet/semioctet_test.go:88 no fill limit even dst *)
Example vec_semi_decode_9 : semi_decode 6 [16; 50; 84; 118; 152] = Ok ([48; 49; 50; 51; 52; 53], 3).
Proof. vm_compute. reflexivity. Qed.
(** encoding/semioctet/semioctet_test.go:96 fill limit odd dst *)
Example vec_semi_decode_10 : semi_decode 5 [16; 50; 244; 118] = Ok ([48; 49; 50; 51; 52], 3).
Proof. vm_compute. reflexivity. Qed.
(** encoding/semioctet/semioctet_test.go:104 alphabet *)
Example vec_semi_decode_11 : semi_decode 15 [16; 50; 84; 118; 152; 186; 220; 254] = Ok ([48; 49; 50; 51; 52; 53; 54; 55; 56; 57; 42; 35; 97; 98; 99], 8).
Proof. vm_compute. reflexivity. Qed.
(** encoding/semioctet/semioctet_test.go:112 no fill limit even dst *)
Example vec_semi_decode_12 : semi_decode 6 [16; 50; 84; 118; 152] = Ok ([48; 49; 50; 51; 52; 53], 3).
Proof. vm_compute. reflexivity. Qed.
(** encoding/semioctet/semioctet_test.go:120 no fill limit odd dst *)
Example vec_semi_decode_13 : semi_decode 5 [16; 50; 84; 118] = Err SemiMissingFill.
Proof. vm_compute. reflexivity. Qed.
(** encoding/semioctet/semioctet_test.go:128 skip inter fill *)
Example vec_semi_decode_14 : semi_decode 10 [16; 50; 244; 118; 248] = Ok ([48; 49; 50; 51; 52; 54; 55; 56], 5).
Proof. vm_compute. reflexivity. Qed.
(** encoding/semioctet/semioctet_test.go:155 nil *)
Example vec_semi_encode_1 : semi_encode [] = Ok ([]).
Proof. vm_compute. reflexivity. Qed.
(** encoding/semioctet/semioctet_test.go:161 empty src *)
Example vec_semi_encode_2 : semi_encode [] = Ok ([]).
Proof. vm_compute. reflexivity. Qed.
(** encoding/semioctet/semioctet_test.go:167 even src *)
Example vec_semi_encode_3 : semi_encode [48; 49; 50; 51; 52; 53; 54; 55] = Ok ([16; 50; 84; 118]).
Proof. vm_compute. reflexivity. Qed.
(** encoding/semioctet/semioctet_test.go:173 odd src *)
Example vec_semi_encode_4 : semi_encode [48; 49; 50; 51; 52; 53; 54] = Ok ([16; 50; 84; 246]).
Proof. vm_compute. reflexivity. Qed.
(** encoding/semioctet/semioctet_test.go:179 alphabet *)
Example vec_semi_encode_5 : semi_encode [48; 49; 50; 51; 52; 53; 54; 55; 56; 57; 42; 35; 97; 98; 99] = Ok ([16; 50; 84; 118; 152; 186; 220; 254]).
Proof. vm_compute. reflexivity. Qed.
(** encoding/semioctet/semioctet_test.go:185 invalid digit *)
Example vec_semi_encode_6 : semi_encode [48; 49; 50; 51; 52; 53; 68; 54; 55; 56; 57] = Err (SemiInvalidDigit 68).
Proof. vm_compute. reflexivity. Qed.
(** encoding/gsm7/7bit_test.go:23 nil *)
Example vec_unpack7bit_1 : unpack7bit [] 0 = [].
Proof. vm_compute. reflexivity. Qed.
(** encoding/gsm7/7bit_test.go:29 empty *)
Example vec_unpack7bit_2 : unpack7bit [] 0 = [].
Proof. vm_compute. reflexivity. Qed.
(** encoding/gsm7/7bit_test.go:35 empty fill *)
Example vec_unpack7bit_3 : unpack7bit [] 1 = [].
Proof. vm_compute. reflexivity. Qed.
(** encoding/gsm7/7bit_test.go:41 cr *)
Example vec_unpack7bit_4 : unpack7bit [13] 0 = [13].
Proof. vm_compute. reflexivity. Qed.
(** encoding/gsm7/7bit_test.go:47 one *)
Example vec_unpack7bit_5 : unpack7bit [49] 0 = [49].
Proof. vm_compute. reflexivity. Qed.
(** encoding/gsm7/7bit_test.go:53 two *)
Example vec_unpack7bit_6 : unpack7bit [48; 25] 0 = [48; 50].
Proof. vm_compute. reflexivity. Qed.
(** encoding/gsm7/7bit_test.go:59 message *)
Example vec_unpack7bit_7 : unpack7bit [237; 242; 124; 30; 62; 151; 1] 0 = [109; 101; 115; 115; 97; 103; 101; 0].
Proof. vm_compute. reflexivity. Qed.
(** encoding/gsm7/7bit_test.go:65 seven *)
Example vec_unpack7bit_8 : unpack7bit [240; 48; 157; 94; 150; 187; 1] 0 = [112; 97; 116; 116; 101; 114; 110; 0].
Proof. vm_compute. reflexivity. Qed.
(** encoding/gsm7/7bit_test.go:71 eight *)
Example vec_unpack7bit_9 : unpack7bit [240; 48; 157; 94; 150; 187; 127] 0 = [112; 97; 116; 116; 101; 114; 110; 63].
Proof. vm_compute. reflexivity. Qed.
(** encoding/gsm7/7bit_test.go:77 nine *)
Example vec_unpack7bit_10 : unpack7bit [240; 48; 157; 94; 150; 187; 67; 33] 0 = [112; 97; 116; 116; 101; 114; 110; 33; 33].
Proof. vm_compute. reflexivity. Qed.
(** encoding/gsm7/7bit_test.go:83 long *)
Example vec_unpack7bit_11 : unpack7bit [97; 144; 189; 44; 207; 131; 216; 111; 247; 25; 68; 47; 207; 233; 32; 120; 152; 78; 47; 203; 221] 0 = [97; 32; 118; 101; 114; 121; 32; 108; 111; 110; 103; 32; 116; 101; 115; 116; 32; 112; 97; 116; 116; 101; 114; 110].
Proof. vm_compute. reflexivity. Qed.
(** encoding/gsm7/7bit_test.go:92 filler *)
Example vec_unpack7bit_12 : unpack7bit [230; 52; 155; 93; 150; 255; 0] 0 = [102; 105; 108; 108; 101; 114; 63; 0].
Proof. vm_compute. reflexivity. Qed.
(** encoding/gsm7/7bit_test.go:98 fill1 *)
Example vec_unpack7bit_13 : unpack7bit [254] 1 = [127].
Proof. vm_compute. reflexivity. Qed.
(** encoding/gsm7/7bit_test.go:104 fill2 *)
Example vec_unpack7bit_14 : unpack7bit [252; 1] 2 = [127; 0].
Proof. vm_compute. reflexivity. Qed.
(** encoding/gsm7/7bit_test.go:110 fill3 *)
Example vec_unpack7bit_15 : unpack7bit [248; 3] 3 = [127].
Proof. vm_compute. reflexivity. Qed.
(** encoding/gsm7/7bit_test.go:116 fill4 *)
Example vec_unpack7bit_16 : unpack7bit [240; 7] 4 = [127].
Proof. vm_compute. reflexivity. Qed.
(** encoding/gsm7/7bit_test.go:122 fill5 *)
Example vec_unpack7bit_17 : unpack7bit [224; 15] 5 = [127].
Proof. vm_compute. reflexivity. Qed.
(** encoding/gsm7/7bit_test.go:128 fill6 *)
Example vec_unpack7bit_18 : unpack7bit [192; 31] 6 = [127].
Proof. vm_compute. reflexivity. Qed.
(** encoding/gsm7/7bit_test.go:23 nil *)
Example vec_pack7bit_1 : pack7bit [] 0 = [].
Proof. vm_compute. reflexivity. Qed.
(** encoding/gsm7/7bit_test.go:29 empty *)
Example vec_pack7bit_2 : pack7bit [] 0 = [].
Proof. vm_compute. reflexivity. Qed.
(** encoding/gsm7/7bit_test.go:35 empty fill *)
Example vec_pack7bit_3 : pack7bit [] 1 = [].
Proof. vm_compute. reflexivity. Qed.
(** encoding/gsm7/7bit_test.go:41 cr *)
Example vec_pack7bit_4 : pack7bit [13] 0 = [13].
Proof. vm_compute. reflexivity. Qed.
(** encoding/gsm7/7bit_test.go:47 one *)
Example vec_pack7bit_5 : pack7bit [49] 0 = [49].
Proof. vm_compute. reflexivity. Qed.
(** encoding/gsm7/7bit_test.go:53 two *)
Example vec_pack7bit_6 : pack7bit [48; 50] 0 = [48; 25].
Proof. vm_compute. reflexivity. Qed.
(** encoding/gsm7/7bit_test.go:59 message *)
Example vec_pack7bit_7 : pack7bit [109; 101; 115; 115; 97; 103; 101; 0] 0 = [237; 242; 124; 30; 62; 151; 1].
Proof. vm_compute. reflexivity. Qed.
(** encoding/gsm7/7bit_test.go:65 seven *)
Example vec_pack7bit_8 : pack7bit [112; 97; 116; 116; 101; 114; 110; 0] 0 = [240; 48; 157; 94; 150; 187; 1].
Proof. vm_compute. reflexivity. Qed.
(** encoding/gsm7/7bit_test.go:71 eight *)
Example vec_pack7bit_9 : pack7bit [112; 97; 116; 116; 101; 114; 110; 63] 0 = [240; 48; 157; 94; 150; 187; 127].
Proof. vm_compute. reflexivity. Qed.
(** encoding/gsm7/7bit_test.go:77 nine *)
Example vec_pack7bit_10 : pack7bit [112; 97; 116; 116; 101; 114; 110; 33; 33] 0 = [240; 48; 157; 94; 150; 187; 67; 33].
Proof. vm_compute. reflexivity. Qed.
(** encoding/gsm7/7bit_test.go:83 long *)
Example vec_pack7bit_11 : pack7bit [97; 32; 118; 101; 114; 121; 32; 108; 111; 110; 103; 32; 116; 101; 115; 116; 32; 112; 97; 116; 116; 101; 114; 110] 0 = [97; 144; 189; 44; 207; 131; 216; 111; 247; 25; 68; 47; 207; 233; 32; 120; 152; 78; 47; 203; 221].
Proof. vm_compute. reflexivity. Qed.
(** encoding/gsm7/7bit_test.go:92 filler *)
Example vec_pack7bit_12 : pack7bit [102; 105; 108; 108; 101; 114; 63; 0] 0 = [230; 52; 155; 93; 150; 255; 0].
Proof. vm_compute. reflexivity. Qed.
(** encoding/gsm7/7bit_test.go:98 fill1 *)
Example vec_pack7bit_13 : pack7bit [127] 1 = [254].
Proof. vm_compute. reflexivity. Qed.
(** encoding/gsm7/7bit_test.go:104 fill2 *)
Example vec_pack7bit_14 : pack7bit [127; 0] 2 = [252; 1].
Proof. vm_compute. reflexivity. Qed.
(** encoding/gsm7/7bit_test.go:110 fill3 *)
Example vec_pack7bit_15 : pack7bit [127] 3 = [248; 3].
Proof. vm_compute. reflexivity. Qed.
(** encoding/gsm7/7bit_test.go:116 fill4 *)
Example vec_pack7bit_16 : pack7bit [127] 4 = [240; 7].
Proof. vm_compute. reflexivity. Qed.
(** encoding/gsm7/7bit_test.go:122 fill5 *)
Example vec_pack7bit_17 : pack7bit [127] 5 = [224; 15].
Proof. vm_compute. reflexivity. Qed.
(** encoding/gsm7/7bit_test.go:128 fill6 *)
Example vec_pack7bit_18 : pack7bit [127] 6 = [192; 31].
Proof. vm_compute. reflexivity. Qed.
(** encoding/gsm7/7bit_test.go:136 nil *)
Example vec_unpack7bit_ussd_1 : unpack7bit_ussd [] 0 = [].
Proof. vm_compute. reflexivity. Qed.
(** encoding/gsm7/7bit_test.go:142 empty *)
Example vec_unpack7bit_ussd_2 : unpack7bit_ussd [] 0 = [].
Proof. vm_compute. reflexivity. Qed.
(** encoding/gsm7/7bit_test.go:148 cr *)
Example vec_unpack7bit_ussd_3 : unpack7bit_ussd [13] 0 = [13].
Proof. vm_compute. reflexivity. Qed.
(** encoding/gsm7/7bit_test.go:154 one *)
Example vec_unpack7bit_ussd_4 : unpack7bit_ussd [49] 0 = [49].
Proof. vm_compute. reflexivity. Qed.
(** encoding/gsm7/7bit_test.go:160 two *)
Example vec_unpack7bit_ussd_5 : unpack7bit_ussd [48; 25] 0 = [48; 50].
Proof. vm_compute. reflexivity. Qed.
(** encoding/gsm7/7bit_test.go:166 message0 *)
Example vec_unpack7bit_ussd_6 : unpack7bit_ussd [237; 242; 124; 30; 62; 151; 1] 0 = [109; 101; 115; 115; 97; 103; 101; 0].
Proof. vm_compute. reflexivity. Qed.
(** encoding/gsm7/7bit_test.go:172 message *)
Example vec_unpack7bit_ussd_7 : unpack7bit_ussd [237; 242; 124; 30; 62; 151; 27] 0 = [109; 101; 115; 115; 97; 103; 101].
Proof. vm_compute. reflexivity. Qed.
(** encoding/gsm7/7bit_test.go:178 seven *)
Example vec_unpack7bit_ussd_8 : unpack7bit_ussd [240; 48; 157; 94; 150; 187; 27] 0 = [112; 97; 116; 116; 101; 114; 110].
Proof. vm_compute. reflexivity. Qed.
(** encoding/gsm7/7bit_test.go:184 eight *)
Example vec_unpack7bit_ussd_9 : unpack7bit_ussd [240; 48; 157; 94; 150; 187; 127] 0 = [112; 97; 116; 116; 101; 114; 110; 63].
Proof. vm_compute. reflexivity. Qed.
(** encoding/gsm7/7bit_test.go:190 nine *)
Example vec_unpack7bit_ussd_10 : unpack7bit_ussd [240; 48; 157; 94; 150; 187; 67; 33] 0 = [112; 97; 116; 116; 101; 114; 110; 33; 33].
Proof. vm_compute. reflexivity. Qed.
(** encoding/gsm7/7bit_test.go:196 long *)
Example vec_unpack7bit_ussd_11 : unpack7bit_ussd [97; 144; 189; 44; 207; 131; 216; 111; 247; 25; 68; 47; 207; 233; 32; 120; 152; 78; 47; 203; 221] 0 = [97; 32; 118; 101; 114; 121; 32; 108; 111; 110; 103; 32; 116; 101; 115; 116; 32; 112; 97; 116; 116; 101; 114; 110].
Proof. vm_compute. reflexivity. Qed.
(** encoding/gsm7/7bit_test.go:205 octet cr *)
Example vec_unpack7bit_ussd_12 : unpack7bit_ussd [240; 48; 157; 94; 150; 187; 27; 13] 0 = [112; 97; 116; 116; 101; 114; 110; 13].
Proof. vm_compute. reflexivity. Qed.
(** encoding/gsm7/7bit_test.go:211 filler *)
Example vec_unpack7bit_ussd_13 : unpack7bit_ussd [230; 52; 155; 93; 150; 255; 26] 0 = [102; 105; 108; 108; 101; 114; 63].
Proof. vm_compute. reflexivity. Qed.
(** encoding/gsm7/7bit_test.go:217 null filler *)
Example vec_unpack7bit_ussd_14 : unpack7bit_ussd [230; 52; 155; 93; 150; 255; 0] 0 = [102; 105; 108; 108; 101; 114; 63; 0].
Proof. vm_compute. reflexivity. Qed.
(** encoding/gsm7/7bit_test.go:223 fill1 *)
Example vec_unpack7bit_ussd_15 : unpack7bit_ussd [254] 1 = [127].
Proof. vm_compute. reflexivity. Qed.
(** encoding/gsm7/7bit_test.go:229 fill2 *)
Example vec_unpack7bit_ussd_16 : unpack7bit_ussd [252; 27] 2 = [127].
Proof. vm_compute. reflexivity. Qed.
(** encoding/gsm7/7bit_test.go:235 fill3 *)
Example vec_unpack7bit_ussd_17 : unpack7bit_ussd [248; 3] 3 = [127].
Proof. vm_compute. reflexivity. Qed.
(** encoding/gsm7/7bit_test.go:241 fill4 *)
Example vec_unpack7bit_ussd_18 : unpack7bit_ussd [240; 7] 4 = [127].
Proof. vm_compute. reflexivity. Qed.
(** encoding/gsm7/7bit_test.go:247 fill5 *)
Example vec_unpack7bit_ussd_19 : unpack7bit_ussd [224; 15] 5 = [127].
Proof. vm_compute. reflexivity. Qed.
(** encoding/gsm7/7bit_test.go:253 fill6 *)
Example vec_unpack7bit_ussd_20 : unpack7bit_ussd [192; 31] 6 = [127].
Proof. vm_compute. reflexivity. Qed.
(** encoding/gsm7/7bit_test.go:136 nil *)
Example vec_pack7bit_ussd_1 : pack7bit_ussd [] 0 = [].
Proof. vm_compute. reflexivity. Qed.
(** encoding/gsm7/7bit_test.go:142 empty *)
Example vec_pack7bit_ussd_2 : pack7bit_ussd [] 0 = [].
Proof. vm_compute. reflexivity. Qed.
(** encoding/gsm7/7bit_test.go:148 cr *)
Example vec_pack7bit_ussd_3 : pack7bit_ussd [13] 0 = [13].
Proof. vm_compute. reflexivity. Qed.
(** encoding/gsm7/7bit_test.go:154 one *)
Example vec_pack7bit_ussd_4 : pack7bit_ussd [49] 0 = [49].
Proof. vm_compute. reflexivity. Qed.
(** encoding/gsm7/7bit_test.go:160 two *)
Example vec_pack7bit_ussd_5 : pack7bit_ussd [48; 50] 0 = [48; 25].
Proof. vm_compute. reflexivity. Qed.
(** encoding/gsm7/7bit_test.go:166 message0 *)
Example vec_pack7bit_ussd_6 : pack7bit_ussd [109; 101; 115; 115; 97; 103; 101; 0] 0 = [237; 242; 124; 30; 62; 151; 1].
Proof. vm_compute. reflexivity. Qed.
(** encoding/gsm7/7bit_test.go:172 message *)
Example vec_pack7bit_ussd_7 : pack7bit_ussd [109; 101; 115; 115; 97; 103; 101] 0 = [237; 242; 124; 30; 62; 151; 27].
Proof. vm_compute. reflexivity. Qed.
(** encoding/gsm7/7bit_test.go:178 seven *)
Example vec_pack7bit_ussd_8 : pack7bit_ussd [112; 97; 116; 116; 101; 114; 110] 0 = [240; 48; 157; 94; 150; 187; 27].
Proof. vm_compute. reflexivity. Qed.
(** encoding/gsm7/7bit_test.go:184 eight *)
Example vec_pack7bit_ussd_9 : pack7bit_ussd [112; 97; 116; 116; 101; 114; 110; 63] 0 = [240; 48; 157; 94; 150; 187; 127].
Proof. vm_compute. reflexivity. Qed.
(** encoding/gsm7/7bit_test.go:190 nine *)
Example vec_pack7bit_ussd_10 : pack7bit_ussd [112; 97; 116; 116; 101; 114; 110; 33; 33] 0 = [240; 48; 157; 94; 150; 187; 67; 33].
Proof. vm_compute. reflexivity. Qed.
(** encoding/gsm7/7bit_test.go:196 long *)
Example vec_pack7bit_ussd_11 : pack7bit_ussd [97; 32; 118; 101; 114; 121; 32; 108; 111; 110; 103; 32; 116; 101; 115; 116; 32; 112; 97; 116; 116; 101; 114; 110] 0 = [97; 144; 189; 44; 207; 131; 216; 111; 247; 25; 68; 47; 207; 233; 32; 120; 152; 78; 47; 203; 221].
Proof. vm_compute. reflexivity. Qed.
(** encoding/gsm7/7bit_test.go:205 octet cr *)
Example vec_pack7bit_ussd_12 : pack7bit_ussd [112; 97; 116; 116; 101; 114; 110; 13] 0 = [240; 48; 157; 94; 150; 187; 27; 13].
Proof. vm_compute. reflexivity. Qed.
(** encoding/gsm7/7bit_test.go:211 filler *)
Example vec_pack7bit_ussd_13 : pack7bit_ussd [102; 105; 108; 108; 101; 114; 63] 0 = [230; 52; 155; 93; 150; 255; 26].
Proof. vm_compute. reflexivity. Qed.
(** encoding/gsm7/7bit_test.go:217 null filler *)
Example vec_pack7bit_ussd_14 : pack7bit_ussd [102; 105; 108; 108; 101; 114; 63; 0] 0 = [230; 52; 155; 93; 150; 255; 0].
Proof. vm_compute. reflexivity. Qed.
(** encoding/gsm7/7bit_test.go:223 fill1 *)
Example vec_pack7bit_ussd_15 : pack7bit_ussd [127] 1 = [254].
Proof. vm_compute. reflexivity. Qed.
(** encoding/gsm7/7bit_test.go:229 fill2 *)
Example vec_pack7bit_ussd_16 : pack7bit_ussd [127] 2 = [252; 27].
Proof. vm_compute. reflexivity. Qed.
(** encoding/gsm7/7bit_test.go:235 fill3 *)
Example vec_pack7bit_ussd_17 : pack7bit_ussd [127] 3 = [248; 3].
Proof. vm_compute. reflexivity. Qed.
(** encoding/gsm7/7bit_test.go:241 fill4 *)
Example vec_pack7bit_ussd_18 : pack7bit_ussd [127] 4 = [240; 7].
Proof. vm_compute. reflexivity. Qed.
(** encoding/gsm7/7bit_test.go:247 fill5 *)
Example vec_pack7bit_ussd_19 : pack7bit_ussd [127] 5 = [224; 15].
Proof. vm_compute. reflexivity. Qed.
(** encoding/gsm7/7bit_test.go:253 fill6 *)
Example vec_pack7bit_ussd_20 : pack7bit_ussd [127] 6 = [192; 31].
Proof. vm_compute. reflexivity. Qed.
(** encoding/gsm7/gsm7_test.go:55 empty *)
Example vec_gsm7_decode_1 : gsm7_decode (gsm7_new_decoder None None false) [] = Ok ([]).
Proof. vm_compute. reflexivity. Qed.
(** encoding/gsm7/gsm7_test.go:56 base *)
Example vec_gsm7_decode_2 : gsm7_decode (gsm7_new_decoder None None false) [109; 101; 115; 115; 97; 103; 101] = Ok ([109; 101; 115; 115; 97; 103; 101]).
Proof. vm_compute. reflexivity. Qed.
(** encoding/gsm7/gsm7_test.go:57 ext *)
Example vec_gsm7_decode_3 : gsm7_decode (gsm7_new_decoder None None false) [27; 40; 27; 41] = Ok ([123; 125]).
Proof. vm_compute. reflexivity. Qed.
(** encoding/gsm7/gsm7_test.go:58 escaped *)
Example vec_gsm7_decode_4 : gsm7_decode (gsm7_new_decoder None None false) [109; 101; 115; 27; 64; 115; 97; 103; 101] = Ok ([109; 101; 115; 124; 115; 97; 103; 101]).
Proof. vm_compute. reflexivity. Qed.
(** encoding/gsm7/gsm7_test.go:59 double escaped *)
Example vec_gsm7_decode_5 : gsm7_decode (gsm7_new_decoder None None false) [109; 101; 115; 27; 27; 64; 115; 97; 103; 101] = Ok ([109; 101; 115; 32; 194; 161; 115; 97; 103; 101]).
Proof. vm_compute. reflexivity. Qed.
(** encoding/gsm7/gsm7_test.go:60 dangling escape *)
Example vec_gsm7_decode_6 : gsm7_decode (gsm7_new_decoder None None false) [109; 101; 115; 115; 97; 103; 101; 27] = Ok ([109; 101; 115; 115; 97; 103; 101; 32]).
Proof. vm_compute. reflexivity. Qed.
(** encoding/gsm7/gsm7_test.go:69 base *)
Example vec_gsm7_decode_set_1 : gsm7_decode (with_charset (gsm7_new_decoder None None false) [(109, 77); (101, 69); (115, 83); (97, 65); (103, 71)]) [109; 101; 115; 115; 97; 103; 101] = Ok ([77; 69; 83; 83; 65; 71; 69]).
Proof. vm_compute. reflexivity. Qed.
(** encoding/gsm7/gsm7_test.go:70 ext *)
Example vec_gsm7_decode_set_2 : gsm7_decode (with_charset (gsm7_new_decoder None None false) [(109, 77); (101, 69); (115, 83); (97, 65); (103, 71)]) [27; 40; 27; 41] = Ok ([123; 125]).
Proof. vm_compute. reflexivity. Qed.
(** encoding/gsm7/gsm7_test.go:71 escaped *)
Example vec_gsm7_decode_set_3 : gsm7_decode (with_charset (gsm7_new_decoder None None false) [(109, 77); (101, 69); (115, 83); (97, 65); (103, 71)]) [109; 101; 115; 27; 64; 115; 97; 103; 101] = Ok ([77; 69; 83; 124; 83; 65; 71; 69]).
Proof. vm_compute. reflexivity. Qed.
(** encoding/gsm7/gsm7_test.go:72 double escaped *)
Example vec_gsm7_decode_set_4 : gsm7_decode (with_charset (gsm7_new_decoder None None false) [(109, 77); (101, 69); (115, 83); (97, 65); (103, 71)]) [109; 101; 115; 27; 27; 64; 115; 97; 103; 101] = Ok ([77; 69; 83; 32; 32; 83; 65; 71; 69]).
Proof. vm_compute. reflexivity. Qed.
(** encoding/gsm7/gsm7_test.go:73 dangling escape *)
Example vec_gsm7_decode_set_5 : gsm7_decode (with_charset (gsm7_new_decoder None None false) [(109, 77); (101, 69); (115, 83); (97, 65); (103, 71)]) [109; 101; 115; 115; 97; 103; 101; 27] = Ok ([77; 69; 83; 83; 65; 71; 69; 32]).
Proof. vm_compute. reflexivity. Qed.
(** encoding/gsm7/gsm7_test.go:74 unknown *)
Example vec_gsm7_decode_set_6 : gsm7_decode (with_charset (gsm7_new_decoder None None false) [(109, 77); (101, 69); (115, 83); (97, 65); (103, 71)]) [109; 101; 115; 77; 115; 97; 103; 101] = Ok ([77; 69; 83; 32; 83; 65; 71; 69]).
Proof. vm_compute. reflexivity. Qed.
(** encoding/gsm7/gsm7_test.go:83 base *)
Example vec_gsm7_decode_ext_1 : gsm7_decode (with_ext_charset (gsm7_new_decoder None None false) [(64, 81)]) [64] = Ok ([194; 161]).
Proof. vm_compute. reflexivity. Qed.
(** encoding/gsm7/gsm7_test.go:84 ext *)
Example vec_gsm7_decode_ext_2 : gsm7_decode (with_ext_charset (gsm7_new_decoder None None false) [(64, 81)]) [27; 64] = Ok ([81]).
Proof. vm_compute. reflexivity. Qed.
(** encoding/gsm7/gsm7_test.go:94 known *)
Example vec_gsm7_decode_strict_1 : gsm7_decode (with_ext_charset (with_charset (strict (gsm7_new_decoder None None false)) [(109, 77); (101, 69); (115, 83); (97, 65); (103, 71)]) [(101, 69); (120, 88); (116, 84)]) [109; 101; 115; 115; 97; 103; 101] = Ok ([77; 69; 83; 83; 65; 71; 69]).
Proof. vm_compute. reflexivity. Qed.
(** encoding/gsm7/gsm7_test.go:95 ext *)
Example vec_gsm7_decode_strict_2 : gsm7_decode (with_ext_charset (with_charset (strict (gsm7_new_decoder None None false)) [(109, 77); (101, 69); (115, 83); (97, 65); (103, 71)]) [(101, 69); (120, 88); (116, 84)]) [27; 101; 27; 120; 27; 116] = Ok ([69; 88; 84]).
Proof. vm_compute. reflexivity. Qed.
(** encoding/gsm7/gsm7_test.go:96 unknown *)
Example vec_gsm7_decode_strict_3 : gsm7_decode (with_ext_charset (with_charset (strict (gsm7_new_decoder None None false)) [(109, 77); (101, 69); (115, 83); (97, 65); (103, 71)]) [(101, 69); (120, 88); (116, 84)]) [109; 101; 115; 77; 115; 97; 103; 101] = Err (Gsm7InvalidSeptet 77).
Proof. vm_compute. reflexivity. Qed.
(** encoding/gsm7/gsm7_test.go:97 unknown ext *)
Example vec_gsm7_decode_strict_4 : gsm7_decode (with_ext_charset (with_charset (strict (gsm7_new_decoder None None false)) [(109, 77); (101, 69); (115, 83); (97, 65); (103, 71)]) [(101, 69); (120, 88); (116, 84)]) [109; 101; 115; 27; 109; 115; 97; 103; 101] = Err (Gsm7InvalidSeptet 109).
Proof. vm_compute. reflexivity. Qed.
(** encoding/gsm7/gsm7_test.go:105 empty *)
Example vec_gsm7_encode_1 : gsm7_encode (gsm7_new_encoder None None) [] = Ok ([]).
Proof. vm_compute. reflexivity. Qed.
(** encoding/gsm7/gsm7_test.go:106 base *)
Example vec_gsm7_encode_2 : gsm7_encode (gsm7_new_encoder None None) [109; 101; 115; 115; 97; 103; 101] = Ok ([109; 101; 115; 115; 97; 103; 101]).
Proof. vm_compute. reflexivity. Qed.
(** encoding/gsm7/gsm7_test.go:107 ext *)
Example vec_gsm7_encode_3 : gsm7_encode (gsm7_new_encoder None None) [123; 125] = Ok ([27; 40; 27; 41]).
Proof. vm_compute. reflexivity. Qed.
(** encoding/gsm7/gsm7_test.go:108 escaped *)
Example vec_gsm7_encode_4 : gsm7_encode (gsm7_new_encoder None None) [109; 101; 115; 124; 115; 97; 103; 101] = Ok ([109; 101; 115; 27; 64; 115; 97; 103; 101]).
Proof. vm_compute. reflexivity. Qed.
(** encoding/gsm7/gsm7_test.go:109 invalid *)
Example vec_gsm7_encode_5 : gsm7_encode (gsm7_new_encoder None None) [109; 101; 115; 197; 158; 115; 97; 103; 101] = Err (Gsm7InvalidUTF8 350).
Proof. vm_compute. reflexivity. Qed.
(** encoding/gsm7/gsm7_test.go:118 base *)
Example vec_gsm7_encode_set_1 : gsm7_encode (e_with_charset (gsm7_new_encoder None None) [(350, 64)]) [197; 158] = Ok ([64]).
Proof. vm_compute. reflexivity. Qed.
(** encoding/gsm7/gsm7_test.go:119 ext *)
Example vec_gsm7_encode_set_2 : gsm7_encode (e_with_charset (gsm7_new_encoder None None) [(350, 64)]) [124] = Ok ([27; 64]).
Proof. vm_compute. reflexivity. Qed.
(** encoding/gsm7/gsm7_test.go:128 base *)
Example vec_gsm7_encode_ext_1 : gsm7_encode (e_with_ext_charset (gsm7_new_encoder None None) [(350, 64)]) [194; 161] = Ok ([64]).
Proof. vm_compute. reflexivity. Qed.
(** encoding/gsm7/gsm7_test.go:129 ext *)
Example vec_gsm7_encode_ext_2 : gsm7_encode (e_with_ext_charset (gsm7_new_encoder None None) [(350, 64)]) [197; 158] = Ok ([27; 64]).
Proof. vm_compute. reflexivity. Qed.
(** encoding/ucs2/ucs2_test.go:24 nil *)
Example vec_ucs2_decode_1 : ucs2_decode [] = {| u2_runes := []; u2_err := None |}.
Proof. vm_compute. reflexivity. Qed.
(** encoding/ucs2/ucs2_test.go:30 empty *)
Example vec_ucs2_decode_2 : ucs2_decode [] = {| u2_runes := []; u2_err := None |}.
Proof. vm_compute. reflexivity. Qed.
(** encoding/ucs2/ucs2_test.go:36 odd *)
Example vec_ucs2_decode_3 : ucs2_decode [1; 2; 3; 4; 5] = {| u2_runes := []; u2_err := Some Ucs2InvalidLength |}.
Proof. vm_compute. reflexivity. Qed.
(** encoding/ucs2/ucs2_test.go:42 howdy *)
Example vec_ucs2_decode_4 : ucs2_decode [79; 96; 89; 125; 255; 1; 0; 72; 0; 111; 0; 119; 0; 100; 0; 121] = {| u2_runes := [20320; 22909; 65281; 72; 111; 119; 100; 121]; u2_err := None |}.
Proof. vm_compute. reflexivity. Qed.
(** encoding/ucs2/ucs2_test.go:51 grin *)
Example vec_ucs2_decode_5 : ucs2_decode [216; 61; 222; 1] = {| u2_runes := [128513]; u2_err := None |}.
Proof. vm_compute. reflexivity. Qed.
(** encoding/ucs2/ucs2_test.go:57 dangling surrogate *)
Example vec_ucs2_decode_6 : ucs2_decode [0; 72; 0; 111; 0; 119; 0; 100; 0; 121; 216; 61] = {| u2_runes := [72; 111; 119; 100; 121]; u2_err := Some (Ucs2DanglingSurrogate [216; 61]) |}.
Proof. vm_compute. reflexivity. Qed.
(** encoding/ucs2/ucs2_test.go:85 nil *)
Example vec_ucs2_encode_1 : ucs2_encode [] = [].
Proof. vm_compute. reflexivity. Qed.
(** encoding/ucs2/ucs2_test.go:90 empty *)
Example vec_ucs2_encode_2 : ucs2_encode [] = [].
Proof. vm_compute. reflexivity. Qed.
(** encoding/ucs2/ucs2_test.go:95 howdy *)
Example vec_ucs2_encode_3 : ucs2_encode [20320; 22909; 65281; 72; 111; 119; 100; 121] = [79; 96; 89; 125; 255; 1; 0; 72; 0; 111; 0; 119; 0; 100; 0; 121].
Proof. vm_compute. reflexivity. Qed.
(** encoding/ucs2/ucs2_test.go:103 grin *)
Example vec_ucs2_encode_4 : ucs2_encode [128513] = [216; 61; 222; 1].
Proof. vm_compute. reflexivity. Qed.
(** encoding/tpdu/address_test.go:37 empty *)
Example vec_addr_marshal_1 : addr_marshal (ad 0 []) = Ok ([0; 0]).
Proof. vm_compute. reflexivity. Qed.
(** encoding/tpdu/address_test.go:42 number *)
Example vec_addr_marshal_2 : addr_marshal (ad 145 [54; 49; 52; 48; 57; 56; 54; 53; 54; 50; 57]) = Ok ([11; 145; 22; 4; 137; 86; 38; 249]).
Proof. vm_compute. reflexivity. Qed.
(** encoding/tpdu/address_test.go:47 number alphabet *)
Example vec_addr_marshal_3 : addr_marshal (ad 145 [48; 49; 50; 51; 52; 53; 54; 55; 56; 57; 42; 35; 97; 98; 99]) = Ok ([15; 145; 16; 50; 84; 118; 152; 186; 220; 254]).
Proof. vm_compute. reflexivity. Qed.
(** encoding/tpdu/address_test.go:52 alpha *)
Example vec_addr_marshal_4 : addr_marshal (ad 209 [109; 101; 115; 115; 97; 103; 101; 115]) = Ok ([14; 209; 237; 242; 124; 30; 62; 151; 231]).
Proof. vm_compute. reflexivity. Qed.
(** encoding/tpdu/address_test.go:57 alpha odd *)
Example vec_addr_marshal_5 : addr_marshal (ad 209 [109; 101; 115; 115; 97; 103; 101]) = Ok ([13; 209; 237; 242; 124; 30; 62; 151; 1]).
Proof. vm_compute. reflexivity. Qed.
(** encoding/tpdu/address_test.go:62 alpha Vodafone *)
Example vec_addr_marshal_6 : addr_marshal (ad 208 [86; 111; 100; 97; 102; 111; 110; 101]) = Ok ([14; 208; 214; 55; 57; 108; 126; 187; 203]).
Proof. vm_compute. reflexivity. Qed.
(** encoding/tpdu/address_test.go:67 invalid number *)
Example vec_addr_marshal_7 : addr_marshal (ad 145 [54; 49; 52; 48; 102; 57; 56; 54; 53; 54]) = Err (EncodeErr "addr" (SemiInvalidDigit 102)).
Proof. vm_compute. reflexivity. Qed.
(** encoding/tpdu/address_test.go:74 invalid alpha euro *)
Example vec_addr_marshal_8 : addr_marshal (ad 209 [97; 32; 101; 117; 114; 111; 32; 226; 130; 172; 51; 50]) = Err (EncodeErr "addr" (Gsm7InvalidUTF8 8364)).
Proof. vm_compute. reflexivity. Qed.
(** encoding/tpdu/address_test.go:79 invalid alpha bar *)
Example vec_addr_marshal_9 : addr_marshal (ad 209 [97; 32; 98; 97; 114; 32; 124; 32]) = Err (EncodeErr "addr" (Gsm7InvalidUTF8 124)).
Proof. vm_compute. reflexivity. Qed.
(** encoding/tpdu/address_test.go:85 invalid alpha *)
Example vec_addr_marshal_10 : addr_marshal (ad 209 [109; 101; 115; 226; 140; 152; 115; 97; 103; 101; 115]) = Err (EncodeErr "addr" (Gsm7InvalidUTF8 8984)).
Proof. vm_compute. reflexivity. Qed.
(** encoding/tpdu/address_test.go:111 empty *)
Example vec_addr_unmarshal_1 : addr_unmarshal [0; 0] = Ok (ad 0 [], 2).
Proof. vm_compute. reflexivity. Qed.
(** encoding/tpdu/address_test.go:117 number *)
Example vec_addr_unmarshal_2 : addr_unmarshal [11; 145; 22; 4; 137; 86; 38; 249] = Ok (ad 145 [54; 49; 52; 48; 57; 56; 54; 53; 54; 50; 57], 8).
Proof. vm_compute. reflexivity. Qed.
(** encoding/tpdu/address_test.go:123 number alphabet *)
Example vec_addr_unmarshal_3 : addr_unmarshal [15; 145; 16; 50; 84; 118; 152; 186; 220; 254] = Ok (ad 145 [48; 49; 50; 51; 52; 53; 54; 55; 56; 57; 42; 35; 97; 98; 99], 10).
Proof. vm_compute. reflexivity. Qed.
(** encoding/tpdu/address_test.go:128 alpha *)
Example vec_addr_unmarshal_4 : addr_unmarshal [14; 209; 237; 242; 124; 30; 62; 151; 231] = Ok (ad 209 [109; 101; 115; 115; 97; 103; 101; 115], 9).
Proof. vm_compute. reflexivity. Qed.
(** encoding/tpdu/address_test.go:134 alpha odd *)
Example vec_addr_unmarshal_5 : addr_unmarshal [13; 209; 237; 242; 124; 30; 62; 151; 1] = Ok (ad 209 [109; 101; 115; 115; 97; 103; 101], 9).
Proof. vm_compute. reflexivity. Qed.
(** encoding/tpdu/address_test.go:140 alpha Vodafone *)
Example vec_addr_unmarshal_6 : addr_unmarshal [14; 208; 214; 55; 57; 108; 126; 187; 203] = Ok (ad 208 [86; 111; 100; 97; 102; 111; 110; 101], 9).
Proof. vm_compute. reflexivity. Qed.
(** encoding/tpdu/address_test.go:146 overlong number *)
Example vec_addr_unmarshal_7 : addr_unmarshal [11; 145; 22; 4; 137; 86; 38; 9] = Err (DecodeErr "addr" 2 SemiMissingFill).
Proof. vm_compute. reflexivity. Qed.
(** encoding/tpdu/address_test.go:152 short binary *)
Example vec_addr_unmarshal_8 : addr_unmarshal [0] = Err (DecodeErr "addr" 0 ErrUnderflow).
Proof. vm_compute. reflexivity. Qed.
(** encoding/tpdu/address_test.go:157 short number *)
Example vec_addr_unmarshal_9 : addr_unmarshal [11; 145; 22; 4; 137; 86] = Err (DecodeErr "addr" 2 ErrUnderflow).
Proof. vm_compute. reflexivity. Qed.
(** encoding/tpdu/address_test.go:163 short number pad *)
Example vec_addr_unmarshal_10 : addr_unmarshal [12; 145; 22; 4; 137; 86; 151; 247] = Err (DecodeErr "addr" 2 ErrUnderflow).
Proof. vm_compute. reflexivity. Qed.
(** encoding/tpdu/address_test.go:169 invalid alpha bar *)
Example vec_addr_unmarshal_11 : addr_unmarshal [10; 209; 237; 242; 124; 3; 156; 135; 207; 229; 57] = Err (DecodeErr "addr" 2 (Gsm7InvalidSeptet 64)).
Proof. vm_compute. reflexivity. Qed.
(** encoding/tpdu/address_test.go:175 underflow alpha *)
Example vec_addr_unmarshal_12 : addr_unmarshal [10; 209; 207; 229; 57] = Err (DecodeErr "addr" 2 ErrUnderflow).
Proof. vm_compute. reflexivity. Qed.
(** encoding/tpdu/timestamp_test.go:27 19700101 *)
Example vec_ts_marshal_1 : ts_marshal (go_date 1970 1 1 1 2 3 0) = Ok ([7; 16; 16; 16; 32; 48; 0]).
Proof. vm_compute. reflexivity. Qed.
(** encoding/tpdu/timestamp_test.go:35 19991231 *)
Example vec_ts_marshal_2 : ts_marshal (go_date 1999 12 31 23 59 59 (-900)) = Ok ([153; 33; 19; 50; 149; 149; 24]).
Proof. vm_compute. reflexivity. Qed.
(** encoding/tpdu/timestamp_test.go:43 20001231 *)
Example vec_ts_marshal_3 : ts_marshal (go_date 2000 12 31 23 59 59 900) = Ok ([0; 33; 19; 50; 149; 149; 16]).
Proof. vm_compute. reflexivity. Qed.
(** encoding/tpdu/timestamp_test.go:49 20170831 *)
Example vec_ts_marshal_4 : ts_marshal (go_date 2017 8 31 11 21 54 28800) = Ok ([113; 128; 19; 17; 18; 69; 35]).
Proof. vm_compute. reflexivity. Qed.
(** encoding/tpdu/timestamp_test.go:57 20700101 *)
Example vec_ts_marshal_5 : ts_marshal (go_date 2070 1 1 1 2 3 0) = Ok ([7; 16; 16; 16; 32; 48; 0]).
Proof. vm_compute. reflexivity. Qed.
(** encoding/tpdu/timestamp_test.go:65 21001231 *)
Example vec_ts_marshal_6 : ts_marshal (go_date 2100 12 31 23 59 59 900) = Ok ([0; 33; 19; 50; 149; 149; 16]).
Proof. vm_compute. reflexivity. Qed.
(** encoding/tpdu/timestamp_test.go:73 20701231 *)
Example vec_ts_marshal_7 : ts_marshal (go_date 2070 12 31 23 59 59 86400) = Err (BcdInvalidInteger 96).
Proof. vm_compute. reflexivity. Qed.
(** encoding/tpdu/timestamp_test.go:100 19700101 *)
Example vec_ts_unmarshal_1 : ts_unmarshal [7; 16; 16; 16; 32; 48; 0] = Ok (go_date 1970 1 1 1 2 3 0).
Proof. vm_compute. reflexivity. Qed.
(** encoding/tpdu/timestamp_test.go:108 19991231 *)
Example vec_ts_unmarshal_2 : ts_unmarshal [153; 33; 19; 50; 149; 149; 24] = Ok (go_date 1999 12 31 23 59 59 (-900)).
Proof. vm_compute. reflexivity. Qed.
(** encoding/tpdu/timestamp_test.go:116 20001231 *)
Example vec_ts_unmarshal_3 : ts_unmarshal [0; 33; 19; 50; 149; 149; 16] = Ok (go_date 2000 12 31 23 59 59 900).
Proof. vm_compute. reflexivity. Qed.
(** encoding/tpdu/timestamp_test.go:124 20170831 *)
Example vec_ts_unmarshal_4 : ts_unmarshal [113; 128; 19; 17; 18; 69; 35] = Ok (go_date 2017 8 31 11 21 54 28800).
Proof. vm_compute. reflexivity. Qed.
(** encoding/tpdu/timestamp_test.go:132 short *)
Example vec_ts_unmarshal_5 : ts_unmarshal [113; 128; 19; 17; 18; 69] = Err ErrUnderflow.
Proof. vm_compute. reflexivity. Qed.
(** encoding/tpdu/timestamp_test.go:138 invalid digit *)
Example vec_ts_unmarshal_6 : ts_unmarshal [161; 128; 19; 17; 18; 69; 0] = Err (BcdInvalidOctet 161).
Proof. vm_compute. reflexivity. Qed.
(** encoding/tpdu/timestamp_test.go:144 invalid signed digit *)
Example vec_ts_unmarshal_7 : ts_unmarshal [113; 128; 19; 17; 18; 69; 160] = Err (BcdInvalidOctet 160).
Proof. vm_compute. reflexivity. Qed.
(** encoding/tpdu/validityperiod_test.go:81 notpresent *)
Example vec_vp_marshal_1 : vp_marshal ({| vp_format := 0; vp_time := zero_time; vp_duration := 0; vp_efi := 0 |}) = Ok ([]).
Proof. vm_compute. reflexivity. Qed.
(** encoding/tpdu/validityperiod_test.go:82 absolute *)
Example vec_vp_marshal_2 : vp_marshal ({| vp_format := 3; vp_time := go_date 2017 8 31 11 21 54 28800; vp_duration := 0; vp_efi := 0 |}) = Ok ([113; 128; 19; 17; 18; 69; 35]).
Proof. vm_compute. reflexivity. Qed.
(** encoding/tpdu/validityperiod_test.go:91 relativeMinutes *)
Example vec_vp_marshal_3 : vp_marshal ({| vp_format := 2; vp_time := zero_time; vp_duration := 39600000000000; vp_efi := 0 |}) = Ok ([131]).
Proof. vm_compute. reflexivity. Qed.
(** encoding/tpdu/validityperiod_test.go:97 relativeHours *)
Example vec_vp_marshal_4 : vp_marshal ({| vp_format := 2; vp_time := zero_time; vp_duration := 82800000000000; vp_efi := 0 |}) = Ok ([165]).
Proof. vm_compute. reflexivity. Qed.
(** encoding/tpdu/validityperiod_test.go:103 relativeDays *)
Example vec_vp_marshal_5 : vp_marshal ({| vp_format := 2; vp_time := zero_time; vp_duration := 2505600000000000; vp_efi := 0 |}) = Ok ([195]).
Proof. vm_compute. reflexivity. Qed.
(** encoding/tpdu/validityperiod_test.go:109 relativeWeeks *)
Example vec_vp_marshal_6 : vp_marshal ({| vp_format := 2; vp_time := zero_time; vp_duration := 37497600000000000; vp_efi := 0 |}) = Ok ([254]).
Proof. vm_compute. reflexivity. Qed.
(** encoding/tpdu/validityperiod_test.go:115 relativeMax *)
Example vec_vp_marshal_7 : vp_marshal ({| vp_format := 2; vp_time := zero_time; vp_duration := 38102400000000000; vp_efi := 0 |}) = Ok ([255]).
Proof. vm_compute. reflexivity. Qed.
(** encoding/tpdu/validityperiod_test.go:121 enhancedNotPresent *)
Example vec_vp_marshal_8 : vp_marshal ({| vp_format := 1; vp_time := zero_time; vp_duration := 0; vp_efi := 0 |}) = Ok ([0; 0; 0; 0; 0; 0; 0]).
Proof. vm_compute. reflexivity. Qed.
(** encoding/tpdu/validityperiod_test.go:127 enhancedRelative5m *)
Example vec_vp_marshal_9 : vp_marshal ({| vp_format := 1; vp_time := zero_time; vp_duration := 0; vp_efi := 1 |}) = Ok ([1; 0; 0; 0; 0; 0; 0]).
Proof. vm_compute. reflexivity. Qed.
(** encoding/tpdu/validityperiod_test.go:133 enhancedRelative10m *)
Example vec_vp_marshal_10 : vp_marshal ({| vp_format := 1; vp_time := zero_time; vp_duration := 600000000000; vp_efi := 1 |}) = Ok ([1; 1; 0; 0; 0; 0; 0]).
Proof. vm_compute. reflexivity. Qed.
(** encoding/tpdu/validityperiod_test.go:140 enhancedRelativeSeconds *)
Example vec_vp_marshal_11 : vp_marshal ({| vp_format := 1; vp_time := zero_time; vp_duration := 3600000000000; vp_efi := 2 |}) = Ok ([2; 255; 0; 0; 0; 0; 0]).
Proof. vm_compute. reflexivity. Qed.
(** encoding/tpdu/validityperiod_test.go:147 enhancedHHMMSS *)
Example vec_vp_marshal_12 : vp_marshal ({| vp_format := 1; vp_time := zero_time; vp_duration := 11565000000000; vp_efi := 3 |}) = Ok ([3; 48; 33; 84; 0; 0; 0]).
Proof. vm_compute. reflexivity. Qed.
(** encoding/tpdu/validityperiod_test.go:155 invalid enhanced *)
Example vec_vp_marshal_13 : vp_marshal ({| vp_format := 1; vp_time := zero_time; vp_duration := 0; vp_efi := 255 |}) = Err (EncodeErr "fi" ErrInvalid).
Proof. vm_compute. reflexivity. Qed.
(** encoding/tpdu/validityperiod_test.go:182 notpresent *)
Example vec_vp_unmarshal_1 : vp_unmarshal vp_zero [] 0 = Ok ({| vp_format := 0; vp_time := zero_time; vp_duration := 0; vp_efi := 0 |}, 0).
Proof. vm_compute. reflexivity. Qed.
(** encoding/tpdu/validityperiod_test.go:183 absolute *)
Example vec_vp_unmarshal_2 : vp_unmarshal vp_zero [113; 128; 19; 17; 18; 69; 35] 3 = Ok ({| vp_format := 3; vp_time := go_date 2017 8 31 11 21 54 28800; vp_duration := 0; vp_efi := 0 |}, 7).
Proof. vm_compute. reflexivity. Qed.
(** encoding/tpdu/validityperiod_test.go:191 relativeMinutes *)
Example vec_vp_unmarshal_3 : vp_unmarshal vp_zero [131] 2 = Ok ({| vp_format := 2; vp_time := zero_time; vp_duration := 39600000000000; vp_efi := 0 |}, 1).
Proof. vm_compute. reflexivity. Qed.
(** encoding/tpdu/validityperiod_test.go:198 relativeHours *)
Example vec_vp_unmarshal_4 : vp_unmarshal vp_zero [165] 2 = Ok ({| vp_format := 2; vp_time := zero_time; vp_duration := 82800000000000; vp_efi := 0 |}, 1).
Proof. vm_compute. reflexivity. Qed.
(** encoding/tpdu/validityperiod_test.go:205 relativeDays *)
Example vec_vp_unmarshal_5 : vp_unmarshal vp_zero [195] 2 = Ok ({| vp_format := 2; vp_time := zero_time; vp_duration := 2505600000000000; vp_efi := 0 |}, 1).
Proof. vm_compute. reflexivity. Qed.
(** encoding/tpdu/validityperiod_test.go:212 relativeWeeks *)
Example vec_vp_unmarshal_6 : vp_unmarshal vp_zero [254] 2 = Ok ({| vp_format := 2; vp_time := zero_time; vp_duration := 37497600000000000; vp_efi := 0 |}, 1).
Proof. vm_compute. reflexivity. Qed.
(** encoding/tpdu/validityperiod_test.go:219 relativeMax *)
Example vec_vp_unmarshal_7 : vp_unmarshal vp_zero [255] 2 = Ok ({| vp_format := 2; vp_time := zero_time; vp_duration := 38102400000000000; vp_efi := 0 |}, 1).
Proof. vm_compute. reflexivity. Qed.
(** encoding/tpdu/validityperiod_test.go:226 enhancedNotPresent *)
Example vec_vp_unmarshal_8 : vp_unmarshal vp_zero [0; 0; 0; 0; 0; 0; 0] 1 = Ok ({| vp_format := 1; vp_time := zero_time; vp_duration := 0; vp_efi := 0 |}, 7).
Proof. vm_compute. reflexivity. Qed.
(** encoding/tpdu/validityperiod_test.go:233 enhancedRelative5m *)
Example vec_vp_unmarshal_9 : vp_unmarshal vp_zero [1; 0; 0; 0; 0; 0; 0] 1 = Ok ({| vp_format := 1; vp_time := zero_time; vp_duration := 300000000000; vp_efi := 1 |}, 7).
Proof. vm_compute. reflexivity. Qed.
(** encoding/tpdu/validityperiod_test.go:241 enhancedRelative10m *)
Example vec_vp_unmarshal_10 : vp_unmarshal vp_zero [1; 1; 0; 0; 0; 0; 0] 1 = Ok ({| vp_format := 1; vp_time := zero_time; vp_duration := 600000000000; vp_efi := 1 |}, 7).
Proof. vm_compute. reflexivity. Qed.
(** encoding/tpdu/validityperiod_test.go:249 enhancedRelativeSeconds *)
Example vec_vp_unmarshal_11 : vp_unmarshal vp_zero [2; 255; 0; 0; 0; 0; 0] 1 = Ok ({| vp_format := 1; vp_time := zero_time; vp_duration := 255000000000; vp_efi := 2 |}, 7).
Proof. vm_compute. reflexivity. Qed.
(** encoding/tpdu/validityperiod_test.go:257 enhancedHHMMSS *)
Example vec_vp_unmarshal_12 : vp_unmarshal vp_zero [3; 48; 33; 84; 0; 0; 0] 1 = Ok ({| vp_format := 1; vp_time := zero_time; vp_duration := 11565000000000; vp_efi := 3 |}, 7).
Proof. vm_compute. reflexivity. Qed.
(** encoding/tpdu/validityperiod_test.go:266 underflow relative *)
Example vec_vp_unmarshal_13 : vp_unmarshal vp_zero [] 2 = Err ErrUnderflow.
Proof. vm_compute. reflexivity. Qed.
(** encoding/tpdu/validityperiod_test.go:271 underflow enhanced *)
Example vec_vp_unmarshal_14 : vp_unmarshal vp_zero [0; 1] 1 = Err ErrUnderflow.
Proof. vm_compute. reflexivity. Qed.
(** encoding/tpdu/validityperiod_test.go:276 invalid vpf *)
Example vec_vp_unmarshal_15 : vp_unmarshal vp_zero [] 4 = Err (DecodeErr "vpf" 0 ErrInvalid).
Proof. vm_compute. reflexivity. Qed.
(** encoding/tpdu/validityperiod_test.go:281 invalid evpf *)
Example vec_vp_unmarshal_16 : vp_unmarshal vp_zero [7; 1; 45; 84; 0; 0; 0] 1 = Err (DecodeErr "enhanced" 0 ErrInvalid).
Proof. vm_compute. reflexivity. Qed.
(** encoding/tpdu/validityperiod_test.go:286 invalid enhancedHHMMSS *)
Example vec_vp_unmarshal_17 : vp_unmarshal vp_zero [3; 48; 45; 84; 0; 0; 0] 1 = Err (DecodeErr "enhanced" 1 (BcdInvalidOctet 45)).
Proof. vm_compute. reflexivity. Qed.
(** encoding/tpdu/validityperiod_test.go:291 nonzero pad enhancedNotPresent *)
Example vec_vp_unmarshal_18 : vp_unmarshal vp_zero [0; 1; 0; 0; 0; 0; 0] 1 = Err (DecodeErr "enhanced" 1 ErrNonZero).
Proof. vm_compute. reflexivity. Qed.
(** encoding/tpdu/validityperiod_test.go:296 nonzero pad enhancedRelative *)
Example vec_vp_unmarshal_19 : vp_unmarshal vp_zero [1; 0; 1; 0; 0; 0; 0] 1 = Err (DecodeErr "enhanced" 2 ErrNonZero).
Proof. vm_compute. reflexivity. Qed.
(** encoding/tpdu/userdata_test.go:25 empty *)
Example vec_udh_marshal_1 : udh_marshal [] = [].
Proof. vm_compute. reflexivity. Qed.
(** encoding/tpdu/userdata_test.go:30 one *)
Example vec_udh_marshal_2 : udh_marshal [el 1 [1; 2; 3]] = [5; 1; 3; 1; 2; 3].
Proof. vm_compute. reflexivity. Qed.
(** encoding/tpdu/userdata_test.go:37 three *)
Example vec_udh_marshal_3 : udh_marshal [el 1 [1; 2; 3]; el 1 [5; 6; 7]; el 2 [1; 2; 3]] = [15; 1; 3; 1; 2; 3; 1; 3; 5; 6; 7; 2; 3; 1; 2; 3].
Proof. vm_compute. reflexivity. Qed.
(** encoding/tpdu/userdata_test.go:64 one *)
Example vec_udh_unmarshal_1 : udh_unmarshal [5; 1; 3; 1; 2; 3] = Ok (Some [el 1 [1; 2; 3]], 6).
Proof. vm_compute. reflexivity. Qed.
(** encoding/tpdu/userdata_test.go:72 three *)
Example vec_udh_unmarshal_2 : udh_unmarshal [15; 1; 3; 1; 2; 3; 1; 3; 5; 6; 7; 2; 3; 1; 2; 3] = Ok (Some [el 1 [1; 2; 3]; el 1 [5; 6; 7]; el 2 [1; 2; 3]], 16).
Proof. vm_compute. reflexivity. Qed.
(** encoding/tpdu/userdata_test.go:82 short udhl *)
Example vec_udh_unmarshal_3 : udh_unmarshal [] = Err (DecodeErr "udhl" 0 ErrUnderflow).
Proof. vm_compute. reflexivity. Qed.
(** encoding/tpdu/userdata_test.go:88 short udh *)
Example vec_udh_unmarshal_4 : udh_unmarshal [5; 1; 3; 1; 2] = Err (DecodeErr "ie" 1 ErrUnderflow).
Proof. vm_compute. reflexivity. Qed.
(** encoding/tpdu/userdata_test.go:94 short ie *)
Example vec_udh_unmarshal_5 : udh_unmarshal [1; 1] = Err (DecodeErr "ie" 1 ErrUnderflow).
Proof. vm_compute. reflexivity. Qed.
(** encoding/tpdu/userdata_test.go:100 short ied *)
Example vec_udh_unmarshal_6 : udh_unmarshal [3; 1; 3; 1; 2] = Err (DecodeErr "ied" 3 ErrUnderflow).
Proof. vm_compute. reflexivity. Qed.
(** encoding/tpdu/userdata_test.go:164 empty *)
Example vec_concat_info_1 : concat_info [] = None.
Proof. vm_compute. reflexivity. Qed.
(** encoding/tpdu/userdata_test.go:171 empty data *)
Example vec_concat_info_2 : concat_info [el 0 []] = None.
Proof. vm_compute. reflexivity. Qed.
(** encoding/tpdu/userdata_test.go:180 nil data *)
Example vec_concat_info_3 : concat_info [el 0 []] = None.
Proof. vm_compute. reflexivity. Qed.
(** encoding/tpdu/userdata_test.go:189 concat8 *)
Example vec_concat_info_4 : concat_info [el 0 [3; 2; 1]] = Some (2, 1, 3).
Proof. vm_compute. reflexivity. Qed.
(** encoding/tpdu/userdata_test.go:198 id 1 *)
Example vec_concat_info_5 : concat_info [el 1 [3; 2; 1]] = None.
Proof. vm_compute. reflexivity. Qed.
(** encoding/tpdu/userdata_test.go:207 concat16 *)
Example vec_concat_info_6 : concat_info [el 8 [4; 3; 2; 1]] = Some (2, 1, 1027).
Proof. vm_compute. reflexivity. Qed.
(** encoding/tpdu/userdata_test.go:216 short concat8 *)
Example vec_concat_info_7 : concat_info [el 0 [2; 1]] = None.
Proof. vm_compute. reflexivity. Qed.
(** encoding/tpdu/userdata_test.go:225 short concat16 *)
Example vec_concat_info_8 : concat_info [el 8 [3; 2; 1]] = None.
Proof. vm_compute. reflexivity. Qed.
(** encoding/tpdu/userdata_test.go:249 empty *)
Example vec_concat_info8_1 : concat_info8 [] = None.
Proof. vm_compute. reflexivity. Qed.
(** encoding/tpdu/userdata_test.go:256 empty data *)
Example vec_concat_info8_2 : concat_info8 [el 0 []] = None.
Proof. vm_compute. reflexivity. Qed.
(** encoding/tpdu/userdata_test.go:265 nil data *)
Example vec_concat_info8_3 : concat_info8 [el 0 []] = None.
Proof. vm_compute. reflexivity. Qed.
(** encoding/tpdu/userdata_test.go:274 concat8 *)
Example vec_concat_info8_4 : concat_info8 [el 0 [3; 2; 1]] = Some (2, 1, 3).
Proof. vm_compute. reflexivity. Qed.
(** encoding/tpdu/userdata_test.go:283 id 1 *)
Example vec_concat_info8_5 : concat_info8 [el 1 [3; 2; 1]] = None.
Proof. vm_compute. reflexivity. Qed.
(** encoding/tpdu/userdata_test.go:292 concat16 *)
Example vec_concat_info8_6 : concat_info8 [el 8 [4; 3; 2; 1]] = None.
Proof. vm_compute. reflexivity. Qed.
(** encoding/tpdu/userdata_test.go:301 short concat8 *)
Example vec_concat_info8_7 : concat_info8 [el 0 [2; 1]] = None.
Proof. vm_compute. reflexivity. Qed.
(** encoding/tpdu/userdata_test.go:310 short concat16 *)
Example vec_concat_info8_8 : concat_info8 [el 8 [3; 2; 1]] = None.
Proof. vm_compute. reflexivity. Qed.
(** encoding/tpdu/userdata_test.go:334 empty *)
Example vec_concat_info16_1 : concat_info16 [] = None.
Proof. vm_compute. reflexivity. Qed.
(** encoding/tpdu/userdata_test.go:341 empty data *)
Example vec_concat_info16_2 : concat_info16 [el 0 []] = None.
Proof. vm_compute. reflexivity. Qed.
(** encoding/tpdu/userdata_test.go:350 nil data *)
Example vec_concat_info16_3 : concat_info16 [el 0 []] = None.
Proof. vm_compute. reflexivity. Qed.
(** encoding/tpdu/userdata_test.go:359 concat8 *)
Example vec_concat_info16_4 : concat_info16 [el 0 [3; 2; 1]] = None.
Proof. vm_compute. reflexivity. Qed.
(** encoding/tpdu/userdata_test.go:368 id 1 *)
Example vec_concat_info16_5 : concat_info16 [el 1 [3; 2; 1]] = None.
Proof. vm_compute. reflexivity. Qed.
(** encoding/tpdu/userdata_test.go:377 concat16 *)
Example vec_concat_info16_6 : concat_info16 [el 8 [4; 3; 2; 1]] = Some (2, 1, 1027).
Proof. vm_compute. reflexivity. Qed.
(** encoding/tpdu/userdata_test.go:386 short concat8 *)
Example vec_concat_info16_7 : concat_info16 [el 0 [2; 1]] = None.
Proof. vm_compute. reflexivity. Qed.
(** encoding/tpdu/userdata_test.go:395 short concat16 *)
Example vec_concat_info16_8 : concat_info16 [el 8 [3; 2; 1]] = None.
Proof. vm_compute. reflexivity. Qed.
(** encoding/tpdu/userdata_test.go:429 empty *)
Example vec_decode_user_data_1 : decode_user_data [] [] 0 [] = {| dd_text := []; dd_err := None |}.
Proof. vm_compute. reflexivity. Qed.
(** encoding/tpdu/userdata_test.go:436 message 7bit *)
Example vec_decode_user_data_2 : decode_user_data [109; 101; 115; 115; 97; 103; 101; 16] [] 0 [] = {| dd_text := [109; 101; 115; 115; 97; 103; 101; 206; 148]; dd_err := None |}.
Proof. vm_compute. reflexivity. Qed.
(** encoding/tpdu/userdata_test.go:444 message reserved *)
Example vec_decode_user_data_3 : decode_user_data [109; 101; 115; 115; 97; 103; 101; 16] [] 3 [] = {| dd_text := [109; 101; 115; 115; 97; 103; 101; 206; 148]; dd_err := None |}.
Proof. vm_compute. reflexivity. Qed.
(** encoding/tpdu/userdata_test.go:452 message 7bit esc *)
Example vec_decode_user_data_4 : decode_user_data [109; 101; 115; 115; 97; 103; 101; 27] [] 0 [] = {| dd_text := [109; 101; 115; 115; 97; 103; 101; 32]; dd_err := None |}.
Proof. vm_compute. reflexivity. Qed.
(** encoding/tpdu/userdata_test.go:460 message 7bit locking *)
Example vec_decode_user_data_5 : decode_user_data [1; 2; 3] [el 25 [7]] 0 [OptLocking [7]] = {| dd_text := [224; 178; 130; 224; 178; 131; 224; 178; 133]; dd_err := None |}.
Proof. vm_compute. reflexivity. Qed.
(** encoding/tpdu/userdata_test.go:470 message 7bit shift *)
Example vec_decode_user_data_6 : decode_user_data [27; 30; 27; 31; 27; 32] [el 24 [7]] 0 [OptShift [7]] = {| dd_text := [224; 179; 168; 224; 179; 169; 224; 179; 170]; dd_err := None |}.
Proof. vm_compute. reflexivity. Qed.
(** encoding/tpdu/userdata_test.go:479 message 8bit *)
Example vec_decode_user_data_7 : decode_user_data [109; 101; 115; 115; 97; 103; 101; 27] [] 1 [] = {| dd_text := [109; 101; 115; 115; 97; 103; 101; 27]; dd_err := None |}.
Proof. vm_compute. reflexivity. Qed.
(** encoding/tpdu/userdata_test.go:487 euro *)
Example vec_decode_user_data_8 : decode_user_data [27; 101] [] 0 [] = {| dd_text := [226; 130; 172]; dd_err := None |}.
Proof. vm_compute. reflexivity. Qed.
(** encoding/tpdu/userdata_test.go:495 grin *)
Example vec_decode_user_data_9 : decode_user_data [216; 61; 222; 1] [] 2 [] = {| dd_text := [240; 159; 152; 129]; dd_err := None |}.
Proof. vm_compute. reflexivity. Qed.
(** encoding/tpdu/userdata_test.go:505 message 7bit locking defaulted *)
Example vec_decode_user_data_10 : decode_user_data [1; 2; 3] [el 25 [7]] 0 [] = {| dd_text := [194; 163; 36; 194; 165]; dd_err := None |}.
Proof. vm_compute. reflexivity. Qed.
(** encoding/tpdu/userdata_test.go:515 message 7bit shift defaulted *)
Example vec_decode_user_data_11 : decode_user_data [27; 30; 27; 31; 27; 32] [el 24 [7]] 0 [] = {| dd_text := [195; 159; 195; 137; 32]; dd_err := None |}.
Proof. vm_compute. reflexivity. Qed.
(** encoding/tpdu/userdata_test.go:526 dangling surrogate *)
Example vec_decode_user_data_12 : decode_user_data [216; 61; 222; 1; 216; 61] [] 2 [] = {| dd_text := [240; 159; 152; 129]; dd_err := Some (Ucs2DanglingSurrogate [216; 61]) |}.
Proof. vm_compute. reflexivity. Qed.
(** encoding/tpdu/userdata_test.go:554 empty *)
Example vec_decode_user_data_all_1 : decode_user_data [] [] 0 [] = {| dd_text := []; dd_err := None |}.
Proof. vm_compute. reflexivity. Qed.
(** encoding/tpdu/userdata_test.go:561 message 7bit *)
Example vec_decode_user_data_all_2 : decode_user_data [109; 101; 115; 115; 97; 103; 101; 16] [] 0 [] = {| dd_text := [109; 101; 115; 115; 97; 103; 101; 206; 148]; dd_err := None |}.
Proof. vm_compute. reflexivity. Qed.
(** encoding/tpdu/userdata_test.go:568 message reserved *)
Example vec_decode_user_data_all_3 : decode_user_data [109; 101; 115; 115; 97; 103; 101; 16] [] 0 [] = {| dd_text := [109; 101; 115; 115; 97; 103; 101; 206; 148]; dd_err := None |}.
Proof. vm_compute. reflexivity. Qed.
(** encoding/tpdu/userdata_test.go:575 message 7bit esc *)
Example vec_decode_user_data_all_4 : decode_user_data [109; 101; 115; 115; 97; 103; 101; 27] [] 0 [] = {| dd_text := [109; 101; 115; 115; 97; 103; 101; 32]; dd_err := None |}.
Proof. vm_compute. reflexivity. Qed.
(** encoding/tpdu/userdata_test.go:582 message 7bit locking all cs *)
Example vec_decode_user_data_all_5 : decode_user_data [1; 2; 3] [el 25 [7]] 0 [OptAllCharsets] = {| dd_text := [224; 178; 130; 224; 178; 131; 224; 178; 133]; dd_err := None |}.
Proof. vm_compute. reflexivity. Qed.
(** encoding/tpdu/userdata_test.go:593 message 7bit locking kannada *)
Example vec_decode_user_data_all_6 : decode_user_data [1; 2; 3] [el 25 [7]] 0 [OptCharset [7]] = {| dd_text := [224; 178; 130; 224; 178; 131; 224; 178; 133]; dd_err := None |}.
Proof. vm_compute. reflexivity. Qed.
(** encoding/tpdu/userdata_test.go:604 message 7bit shift all cs *)
Example vec_decode_user_data_all_7 : decode_user_data [27; 30; 27; 31; 27; 32] [el 24 [7]] 0 [OptAllCharsets] = {| dd_text := [224; 179; 168; 224; 179; 169; 224; 179; 170]; dd_err := None |}.
Proof. vm_compute. reflexivity. Qed.
(** encoding/tpdu/userdata_test.go:615 message 7bit shift kannada *)
Example vec_decode_user_data_all_8 : decode_user_data [27; 30; 27; 31; 27; 32] [el 24 [7]] 0 [OptCharset [7]] = {| dd_text := [224; 179; 168; 224; 179; 169; 224; 179; 170]; dd_err := None |}.
Proof. vm_compute. reflexivity. Qed.
(** encoding/tpdu/userdata_test.go:626 euro *)
Example vec_decode_user_data_all_9 : decode_user_data [27; 101] [] 0 [] = {| dd_text := [226; 130; 172]; dd_err := None |}.
Proof. vm_compute. reflexivity. Qed.
(** encoding/tpdu/userdata_test.go:655 empty *)
Example vec_encode_user_data_1 : encode_user_data [] [] = ([], None, 0).
Proof. vm_compute. reflexivity. Qed.
(** encoding/tpdu/userdata_test.go:662 message 7bit *)
Example vec_encode_user_data_2 : encode_user_data [109; 101; 115; 115; 97; 103; 101; 206; 148] [] = ([109; 101; 115; 115; 97; 103; 101; 16], None, 0).
Proof. vm_compute. reflexivity. Qed.
(** encoding/tpdu/userdata_test.go:669 message 7bit all cs *)
Example vec_encode_user_data_3 : encode_user_data [109; 101; 115; 115; 97; 103; 101; 206; 148] [OptAllCharsets] = ([109; 101; 115; 115; 97; 103; 101; 16], None, 0).
Proof. vm_compute. reflexivity. Qed.
(** encoding/tpdu/userdata_test.go:678 message 7bit locking all cs *)
Example vec_encode_user_data_4 : encode_user_data [224; 178; 130; 224; 178; 131; 224; 178; 133] [OptAllCharsets] = ([1; 2; 3], Some [el 25 [7]], 0).
Proof. vm_compute. reflexivity. Qed.
(** encoding/tpdu/userdata_test.go:689 message 7bit shift all cs *)
Example vec_encode_user_data_5 : encode_user_data [224; 179; 168; 224; 179; 169; 224; 179; 170] [OptAllCharsets] = ([27; 30; 27; 31; 27; 32], Some [el 24 [7]], 0).
Proof. vm_compute. reflexivity. Qed.
(** encoding/tpdu/userdata_test.go:700 message 7bit kannada *)
Example vec_encode_user_data_6 : encode_user_data [224; 178; 130; 224; 178; 131; 224; 178; 133] [OptCharset [7]] = ([1; 2; 3], Some [el 25 [7]], 0).
Proof. vm_compute. reflexivity. Qed.
(** encoding/tpdu/userdata_test.go:711 message 7bit locking kannada *)
Example vec_encode_user_data_7 : encode_user_data [224; 178; 130; 224; 178; 131; 224; 178; 133] [OptLocking [7]] = ([1; 2; 3], Some [el 25 [7]], 0).
Proof. vm_compute. reflexivity. Qed.
(** encoding/tpdu/userdata_test.go:722 message 7bit shift kannada *)
Example vec_encode_user_data_8 : encode_user_data [224; 179; 168; 224; 179; 169; 224; 179; 170] [OptShift [7]] = ([27; 30; 27; 31; 27; 32], Some [el 24 [7]], 0).
Proof. vm_compute. reflexivity. Qed.
(** encoding/tpdu/userdata_test.go:733 message 7bit locking and shift urdu *)
Example vec_encode_user_data_9 : encode_user_data [104; 101; 108; 108; 111; 32; 216; 170; 216; 142] [OptLocking [13]; OptShift [13]] = ([104; 101; 108; 108; 111; 32; 7; 27; 42], Some [el 25 [13]; el 24 [13]], 0).
Proof. vm_compute. reflexivity. Qed.
(** encoding/tpdu/userdata_test.go:746 euro *)
Example vec_encode_user_data_10 : encode_user_data [226; 130; 172] [] = ([27; 101], None, 0).
Proof. vm_compute. reflexivity. Qed.
(** encoding/tpdu/userdata_test.go:753 grin *)
Example vec_encode_user_data_11 : encode_user_data [240; 159; 152; 129] [] = ([216; 61; 222; 1], None, 2).
Proof. vm_compute. reflexivity. Qed.
(** encoding/tpdu/userdata_test.go:760 grin all cs *)
Example vec_encode_user_data_12 : encode_user_data [240; 159; 152; 129] [OptAllCharsets] = ([216; 61; 222; 1], None, 2).
Proof. vm_compute. reflexivity. Qed.
(** encoding/tpdu/userdata_test.go:770 message ucs2 locking *)
Example vec_encode_user_data_13 : encode_user_data [224; 178; 130; 224; 178; 131; 224; 178; 133] [] = ([12; 130; 12; 131; 12; 133], None, 2).
Proof. vm_compute. reflexivity. Qed.
(** encoding/tpdu/userdata_test.go:777 message ucs2 shift *)
Example vec_encode_user_data_14 : encode_user_data [224; 179; 168; 224; 179; 169; 224; 179; 170] [] = ([12; 232; 12; 233; 12; 234], None, 2).
Proof. vm_compute. reflexivity. Qed.
(** encoding/tpdu/tpdu_internal_test.go:23 nil *)
Example vec_decode_ud_1 : bind (decode_ud zero_tpdu []) (fun t => Ok (UDH t, UD t)) = Err (DecodeErr "udl" 0 ErrUnderflow).
Proof. vm_compute. reflexivity. Qed.
(** encoding/tpdu/tpdu_internal_test.go:30 empty *)
Example vec_decode_ud_2 : bind (decode_ud zero_tpdu [0]) (fun t => Ok (UDH t, UD t)) = Ok (None, []).
Proof. vm_compute. reflexivity. Qed.
(** encoding/tpdu/tpdu_internal_test.go:37 7bit *)
Example vec_decode_ud_3 : bind (decode_ud zero_tpdu [7; 237; 242; 124; 30; 62; 151; 1]) (fun t => Ok (UDH t, UD t)) = Ok (None, [109; 101; 115; 115; 97; 103; 101]).
Proof. vm_compute. reflexivity. Qed.
(** encoding/tpdu/tpdu_internal_test.go:44 sm overlength 7bit *)
Example vec_decode_ud_4 : bind (decode_ud zero_tpdu [7; 237; 242; 124; 30; 62; 151; 241]) (fun t => Ok (UDH t, UD t)) = Err (DecodeErr "sm" 1 ErrOverlength).
Proof. vm_compute. reflexivity. Qed.
(** encoding/tpdu/tpdu_internal_test.go:51 sm underflow *)
Example vec_decode_ud_5 : bind (decode_ud zero_tpdu [7; 237; 242; 124; 30; 62; 151]) (fun t => Ok (UDH t, UD t)) = Err (DecodeErr "sm" 1 ErrUnderflow).
Proof. vm_compute. reflexivity. Qed.
(** encoding/tpdu/tpdu_internal_test.go:58 7bit udh *)
Example vec_decode_ud_6 : bind (decode_ud (set_FO zero_tpdu (64)) [14; 5; 0; 3; 1; 2; 3; 218; 229; 249; 60; 124; 46; 3]) (fun t => Ok (UDH t, UD t)) = Ok (Some [el 0 [1; 2; 3]], [109; 101; 115; 115; 97; 103; 101]).
Proof. vm_compute. reflexivity. Qed.
(** encoding/tpdu/tpdu_internal_test.go:68 8bit *)
Example vec_decode_ud_7 : bind (decode_ud (set_DCSf zero_tpdu (244)) [7; 237; 242; 124; 30; 62; 151; 1]) (fun t => Ok (UDH t, UD t)) = Ok (None, [237; 242; 124; 30; 62; 151; 1]).
Proof. vm_compute. reflexivity. Qed.
(** encoding/tpdu/tpdu_internal_test.go:75 ucs2 *)
Example vec_decode_ud_8 : bind (decode_ud (set_DCSf zero_tpdu (224)) [14; 0; 109; 0; 101; 0; 115; 0; 115; 0; 97; 0; 103; 0; 101]) (fun t => Ok (UDH t, UD t)) = Ok (None, [0; 109; 0; 101; 0; 115; 0; 115; 0; 97; 0; 103; 0; 101]).
Proof. vm_compute. reflexivity. Qed.
(** encoding/tpdu/tpdu_internal_test.go:88 odd ucs2 *)
Example vec_decode_ud_9 : bind (decode_ud (set_DCSf zero_tpdu (224)) [13; 0; 109; 0; 101; 0; 115; 0; 115; 0; 97; 0; 103; 0]) (fun t => Ok (UDH t, UD t)) = Err (DecodeErr "sm" 1 ErrOddUCS2Length).
Proof. vm_compute. reflexivity. Qed.
(** encoding/tpdu/tpdu_internal_test.go:98 udh only *)
Example vec_decode_ud_10 : bind (decode_ud (set_FO zero_tpdu (64)) [6; 5; 1; 3; 1; 2; 3]) (fun t => Ok (UDH t, UD t)) = Ok (Some [el 1 [1; 2; 3]], []).
Proof. vm_compute. reflexivity. Qed.
(** encoding/tpdu/tpdu_internal_test.go:105 bad dcs *)
Example vec_decode_ud_11 : bind (decode_ud (set_DCSf (set_FO zero_tpdu (64)) (170)) [6; 4; 1; 3; 1; 2]) (fun t => Ok (UDH t, UD t)) = Err (DecodeErr "alphabet" 1 ErrInvalid).
Proof. vm_compute. reflexivity. Qed.
(** encoding/tpdu/tpdu_internal_test.go:115 overlength *)
Example vec_decode_ud_12 : bind (decode_ud (set_FO zero_tpdu (64)) [6; 5; 1; 3; 1; 2; 3; 4]) (fun t => Ok (UDH t, UD t)) = Err (DecodeErr "ud" 1 ErrOverlength).
Proof. vm_compute. reflexivity. Qed.
(** encoding/tpdu/tpdu_internal_test.go:122 short udh *)
Example vec_decode_ud_13 : bind (decode_ud (set_FO zero_tpdu (64)) [5; 5; 1; 3; 1; 2]) (fun t => Ok (UDH t, UD t)) = Err (DecodeErr "udh.ie" 2 ErrUnderflow).
Proof. vm_compute. reflexivity. Qed.
(** encoding/tpdu/tpdu_internal_test.go:129 bad udh *)
Example vec_decode_ud_14 : bind (decode_ud (set_FO zero_tpdu (64)) [5; 4; 1; 3; 1; 2]) (fun t => Ok (UDH t, UD t)) = Err (DecodeErr "udh.ied" 4 ErrUnderflow).
Proof. vm_compute. reflexivity. Qed.
(** encoding/tpdu/tpdu_internal_test.go:155 empty 7bit *)
Example vec_encode_ud_1 : encode_ud zero_tpdu = Ok ([0]).
Proof. vm_compute. reflexivity. Qed.
(** encoding/tpdu/tpdu_internal_test.go:160 empty 8bit *)
Example vec_encode_ud_2 : encode_ud (set_DCSf zero_tpdu (244)) = Ok ([0]).
Proof. vm_compute. reflexivity. Qed.
(** encoding/tpdu/tpdu_internal_test.go:165 empty ucs2 *)
Example vec_encode_ud_3 : encode_ud (set_DCSf zero_tpdu (224)) = Ok ([0]).
Proof. vm_compute. reflexivity. Qed.
(** encoding/tpdu/tpdu_internal_test.go:170 7bit *)
Example vec_encode_ud_4 : encode_ud (set_UDf zero_tpdu ([109; 101; 115; 115; 97; 103; 101])) = Ok ([7; 237; 242; 124; 30; 62; 151; 1]).
Proof. vm_compute. reflexivity. Qed.
(** encoding/tpdu/tpdu_internal_test.go:175 7bit udh *)
Example vec_encode_ud_5 : encode_ud (set_UDf (set_UDHf (set_FO zero_tpdu (64)) (Some [el 0 [1; 2; 3]])) ([109; 101; 115; 115; 97; 103; 101])) = Ok ([14; 5; 0; 3; 1; 2; 3; 218; 229; 249; 60; 124; 46; 3]).
Proof. vm_compute. reflexivity. Qed.
(** encoding/tpdu/tpdu_internal_test.go:188 8bit udh *)
Example vec_encode_ud_6 : encode_ud (set_UDf (set_UDHf (set_DCSf (set_FO zero_tpdu (64)) (244)) (Some [el 0 [1; 2; 3]])) ([109; 101; 115; 115; 97; 103; 101])) = Ok ([13; 5; 0; 3; 1; 2; 3; 109; 101; 115; 115; 97; 103; 101]).
Proof. vm_compute. reflexivity. Qed.
(** encoding/tpdu/tpdu_internal_test.go:202 ucs2 udh *)
Example vec_encode_ud_7 : encode_ud (set_UDf (set_UDHf (set_DCSf (set_FO zero_tpdu (64)) (224)) (Some [el 0 [1; 2; 3]])) ([0; 109; 0; 101; 0; 115; 0; 115; 0; 97; 0; 103; 0; 101])) = Ok ([20; 5; 0; 3; 1; 2; 3; 0; 109; 0; 101; 0; 115; 0; 115; 0; 97; 0; 103; 0; 101]).
Proof. vm_compute. reflexivity. Qed.
(** encoding/tpdu/tpdu_internal_test.go:220 8bit *)
Example vec_encode_ud_8 : encode_ud (set_UDf (set_DCSf zero_tpdu (244)) ([237; 242; 124; 30; 62; 151; 1])) = Ok ([7; 237; 242; 124; 30; 62; 151; 1]).
Proof. vm_compute. reflexivity. Qed.
(** encoding/tpdu/tpdu_internal_test.go:227 ucs2 *)
Example vec_encode_ud_9 : encode_ud (set_UDf (set_DCSf zero_tpdu (224)) ([0; 109; 0; 101; 0; 115; 0; 115; 0; 97; 0; 103; 0; 101])) = Ok ([14; 0; 109; 0; 101; 0; 115; 0; 115; 0; 97; 0; 103; 0; 101]).
Proof. vm_compute. reflexivity. Qed.
(** encoding/tpdu/tpdu_internal_test.go:241 odd ucs2 *)
Example vec_encode_ud_10 : encode_ud (set_UDf (set_DCSf zero_tpdu (224)) ([0; 109; 0; 101; 0; 115; 0; 115; 0; 97; 0; 103; 0])) = Err (EncodeErr "sm" ErrOddUCS2Length).
Proof. vm_compute. reflexivity. Qed.
(** encoding/tpdu/tpdu_internal_test.go:252 udh only *)
Example vec_encode_ud_11 : encode_ud (set_UDHf (set_FO zero_tpdu (64)) (Some [el 1 [1; 2; 3]])) = Ok ([6; 5; 1; 3; 1; 2; 3]).
Proof. vm_compute. reflexivity. Qed.
(** encoding/tpdu/tpdu_internal_test.go:260 unknown alphabet *)
Example vec_encode_ud_12 : encode_ud (set_DCSf zero_tpdu (128)) = Err (EncodeErr "alphabet" ErrInvalid).
Proof. vm_compute. reflexivity. Qed.
(** encoding/tpdu/tpdu_internal_test.go:284 7bit *)
Example vec_chunk_1 : chunk [1; 2; 27; 4; 5; 6; 7; 8] 0 3 = Ok [[1; 2]; [27; 4; 5]; [6; 7; 8]].
Proof. vm_compute. reflexivity. Qed.
(** encoding/tpdu/tpdu_internal_test.go:295 8bit *)
Example vec_chunk_2 : chunk [1; 2; 27; 4; 5; 6; 7; 8] 1 3 = Ok [[1; 2; 27]; [4; 5; 6]; [7; 8]].
Proof. vm_compute. reflexivity. Qed.
(** encoding/tpdu/tpdu_internal_test.go:306 ucs2 *)
Example vec_chunk_3 : chunk [1; 2; 216; 4; 5; 6; 7; 8; 9; 10] 2 4 = Ok [[1; 2]; [216; 4; 5; 6]; [7; 8; 9; 10]].
Proof. vm_compute. reflexivity. Qed.
(** encoding/tpdu/tpdu_internal_test.go:334 nil *)
Example vec_chunk7_1 : chunk7 [] 2 = Ok [].
Proof. vm_compute. reflexivity. Qed.
(** encoding/tpdu/tpdu_internal_test.go:340 empty *)
Example vec_chunk7_2 : chunk7 [] 2 = Ok [].
Proof. vm_compute. reflexivity. Qed.
(** encoding/tpdu/tpdu_internal_test.go:346 integral *)
Example vec_chunk7_3 : chunk7 [1; 2; 3; 4] 2 = Ok [[1; 2]; [3; 4]].
Proof. vm_compute. reflexivity. Qed.
(** encoding/tpdu/tpdu_internal_test.go:355 residual *)
Example vec_chunk7_4 : chunk7 [1; 2; 3; 4] 3 = Ok [[1; 2; 3]; [4]].
Proof. vm_compute. reflexivity. Qed.
(** encoding/tpdu/tpdu_internal_test.go:364 three *)
Example vec_chunk7_5 : chunk7 [1; 2; 3; 4; 5; 6; 7; 8] 3 = Ok [[1; 2; 3]; [4; 5; 6]; [7; 8]].
Proof. vm_compute. reflexivity. Qed.
(** encoding/tpdu/tpdu_internal_test.go:374 escaped *)
Example vec_chunk7_6 : chunk7 [1; 2; 27; 4; 5; 6; 7; 8] 3 = Ok [[1; 2]; [27; 4; 5]; [6; 7; 8]].
Proof. vm_compute. reflexivity. Qed.
(** encoding/tpdu/tpdu_internal_test.go:384 double escaped *)
Example vec_chunk7_7 : chunk7 [1; 27; 27; 4; 5; 6; 7; 8] 3 = Ok [[1; 27; 27]; [4; 5; 6]; [7; 8]].
Proof. vm_compute. reflexivity. Qed.
(** encoding/tpdu/tpdu_internal_test.go:411 nil *)
Example vec_chunk8_1 : chunk8 [] 2 = Ok [].
Proof. vm_compute. reflexivity. Qed.
(** encoding/tpdu/tpdu_internal_test.go:417 empty *)
Example vec_chunk8_2 : chunk8 [] 2 = Ok [].
Proof. vm_compute. reflexivity. Qed.
(** encoding/tpdu/tpdu_internal_test.go:423 integral *)
Example vec_chunk8_3 : chunk8 [1; 2; 3; 4] 2 = Ok [[1; 2]; [3; 4]].
Proof. vm_compute. reflexivity. Qed.
(** encoding/tpdu/tpdu_internal_test.go:432 residual *)
Example vec_chunk8_4 : chunk8 [1; 2; 3; 4] 3 = Ok [[1; 2; 3]; [4]].
Proof. vm_compute. reflexivity. Qed.
(** encoding/tpdu/tpdu_internal_test.go:441 three *)
Example vec_chunk8_5 : chunk8 [1; 2; 3; 4; 5; 6; 7; 8] 3 = Ok [[1; 2; 3]; [4; 5; 6]; [7; 8]].
Proof. vm_compute. reflexivity. Qed.
(** encoding/tpdu/tpdu_internal_test.go:468 nil *)
Example vec_chunkU_1 : chunkU [] 2 = Ok [].
Proof. vm_compute. reflexivity. Qed.
(** encoding/tpdu/tpdu_internal_test.go:474 empty *)
Example vec_chunkU_2 : chunkU [] 2 = Ok [].
Proof. vm_compute. reflexivity. Qed.
(** encoding/tpdu/tpdu_internal_test.go:480 integral *)
Example vec_chunkU_3 : chunkU [1; 2; 3; 4] 2 = Ok [[1; 2]; [3; 4]].
Proof. vm_compute. reflexivity. Qed.
(** encoding/tpdu/tpdu_internal_test.go:489 odd bs *)
Example vec_chunkU_4 : chunkU [1; 2; 3; 4] 3 = Ok [[1; 2]; [3; 4]].
Proof. vm_compute. reflexivity. Qed.
(** encoding/tpdu/tpdu_internal_test.go:498 three *)
Example vec_chunkU_5 : chunkU [1; 2; 3; 4; 5; 6; 7; 8; 9; 10] 4 = Ok [[1; 2; 3; 4]; [5; 6; 7; 8]; [9; 10]].
Proof. vm_compute. reflexivity. Qed.
(** encoding/tpdu/tpdu_internal_test.go:508 surrogate *)
Example vec_chunkU_6 : chunkU [1; 2; 216; 4; 5; 6; 7; 8; 9; 10] 4 = Ok [[1; 2]; [216; 4; 5; 6]; [7; 8; 9; 10]].
Proof. vm_compute. reflexivity. Qed.
(** encoding/tpdu/tpdu_internal_test.go:518 odd msg *)
Example vec_chunkU_7 : chunkU [1; 2; 3; 4; 5; 6; 7; 8; 9] 4 = Ok [[1; 2; 3; 4]; [5; 6; 7; 8]; [9]].
Proof. vm_compute. reflexivity. Qed.
(** encoding/tpdu/tpdu_test.go:79 *)
Example vec_alphabet_1 : dcs_alphabet 0 = Ok (0).
Proof. vm_compute. reflexivity. Qed.
(** encoding/tpdu/tpdu_test.go:80 *)
Example vec_alphabet_2 : dcs_alphabet 4 = Ok (1).
Proof. vm_compute. reflexivity. Qed.
(** encoding/tpdu/tpdu_test.go:81 *)
Example vec_alphabet_3 : dcs_alphabet 8 = Ok (2).
Proof. vm_compute. reflexivity. Qed.
(** encoding/tpdu/tpdu_test.go:82 *)
Example vec_alphabet_4 : dcs_alphabet 12 = Ok (0).
Proof. vm_compute. reflexivity. Qed.
(** encoding/tpdu/tpdu_test.go:83 *)
Example vec_alphabet_5 : dcs_alphabet 128 = Err ErrInvalid.
Proof. vm_compute. reflexivity. Qed.
(** encoding/tpdu/tpdu_test.go:99 empty *)
Example vec_concat_1 : bind (tpdu_new [OptUDH (Some [])]) (fun t => Ok (tpdu_concat_info t)) = Ok (None).
Proof. vm_compute. reflexivity. Qed.
(** encoding/tpdu/tpdu_test.go:107 empty data *)
Example vec_concat_2 : bind (tpdu_new [OptUDH (Some [el 0 []])]) (fun t => Ok (tpdu_concat_info t)) = Ok (None).
Proof. vm_compute. reflexivity. Qed.
(** encoding/tpdu/tpdu_test.go:117 nil data *)
Example vec_concat_3 : bind (tpdu_new [OptUDH (Some [el 0 []])]) (fun t => Ok (tpdu_concat_info t)) = Ok (None).
Proof. vm_compute. reflexivity. Qed.
(** encoding/tpdu/tpdu_test.go:127 concat8 *)
Example vec_concat_4 : bind (tpdu_new [OptUDH (Some [el 0 [3; 2; 1]])]) (fun t => Ok (tpdu_concat_info t)) = Ok (Some (2, 1, 3)).
Proof. vm_compute. reflexivity. Qed.
(** encoding/tpdu/tpdu_test.go:137 id 1 *)
Example vec_concat_5 : bind (tpdu_new [OptUDH (Some [el 1 [3; 2; 1]])]) (fun t => Ok (tpdu_concat_info t)) = Ok (None).
Proof. vm_compute. reflexivity. Qed.
(** encoding/tpdu/tpdu_test.go:147 concat16 *)
Example vec_concat_6 : bind (tpdu_new [OptUDH (Some [el 8 [4; 3; 2; 1]])]) (fun t => Ok (tpdu_concat_info t)) = Ok (Some (2, 1, 1027)).
Proof. vm_compute. reflexivity. Qed.
(** encoding/tpdu/tpdu_test.go:157 short concat8 *)
Example vec_concat_7 : bind (tpdu_new [OptUDH (Some [el 0 [2; 1]])]) (fun t => Ok (tpdu_concat_info t)) = Ok (None).
Proof. vm_compute. reflexivity. Qed.
(** encoding/tpdu/tpdu_test.go:167 short concat16 *)
Example vec_concat_8 : bind (tpdu_new [OptUDH (Some [el 8 [3; 2; 1]])]) (fun t => Ok (tpdu_concat_info t)) = Ok (None).
Proof. vm_compute. reflexivity. Qed.
(** encoding/tpdu/tpdu_test.go:200 unsupported SMS type *)
Example vec_tpdu_marshal_1 : tpdu_marshal (set_FO (set_Direction zero_tpdu (1)) (3)) = Err (ErrUnsupportedSmsType 7).
Proof. vm_compute. reflexivity. Qed.
(** encoding/tpdu/tpdu_test.go:209 SmsCommand full *)
Example vec_tpdu_marshal_2 : tpdu_marshal (set_UDf (set_PIDf (set_DA (set_MN (set_CT (set_MR (set_FO (set_Direction zero_tpdu (1)) (2)) (66)) (137)) (52)) (ad 145 [54; 51; 57; 49])) (171)) ([97; 32; 99; 111; 109; 109; 97; 110; 100])) = Ok ([2; 66; 171; 137; 52; 4; 145; 54; 25; 9; 97; 32; 99; 111; 109; 109; 97; 110; 100]).
Proof. vm_compute. reflexivity. Qed.
(** encoding/tpdu/tpdu_test.go:227 SmsCommand bad da *)
Example vec_tpdu_marshal_3 : tpdu_marshal (set_UDf (set_PIDf (set_DA (set_MN (set_CT (set_MR (set_FO (set_Direction zero_tpdu (1)) (2)) (66)) (137)) (52)) (ad 145 [100; 51; 57; 49])) (171)) ([97; 32; 99; 111; 109; 109; 97; 110; 100])) = Err (EncodeErr "SmsCommand.da.addr" (SemiInvalidDigit 100)).
Proof. vm_compute. reflexivity. Qed.
(** encoding/tpdu/tpdu_test.go:242 SmsDeliver haha *)
Example vec_tpdu_marshal_4 : tpdu_marshal (set_UDf (set_SCTS (set_OA (set_FO (set_Direction zero_tpdu (0)) (4)) (ad 145 [54; 51; 57; 49])) (go_date 2015 5 17 23 2 50 28800)) ([72; 97; 104; 97; 104; 97; 104; 97])) = Ok ([4; 4; 145; 54; 25; 0; 0; 81; 80; 113; 50; 32; 5; 35; 8; 200; 48; 58; 140; 14; 163; 195]).
Proof. vm_compute. reflexivity. Qed.
(** encoding/tpdu/tpdu_test.go:259 SmsDeliver bad oa *)
Example vec_tpdu_marshal_5 : tpdu_marshal (set_UDf (set_SCTS (set_OA (set_FO (set_Direction zero_tpdu (0)) (4)) (ad 145 [100; 51; 57; 49])) (go_date 2015 5 17 23 2 50 28800)) ([72; 97; 104; 97; 104; 97; 104; 97])) = Err (EncodeErr "SmsDeliver.oa.addr" (SemiInvalidDigit 100)).
Proof. vm_compute. reflexivity. Qed.
(** encoding/tpdu/tpdu_test.go:274 SmsDeliver bad scts *)
Example vec_tpdu_marshal_6 : tpdu_marshal (set_UDf (set_SCTS (set_OA (set_FO (set_Direction zero_tpdu (0)) (4)) (ad 145 [54; 51; 57; 49])) (go_date 2015 5 17 23 2 50 86400)) ([72; 97; 104; 97; 104; 97; 104; 97])) = Err (EncodeErr "SmsDeliver.scts" (BcdInvalidInteger 96)).
Proof. vm_compute. reflexivity. Qed.
(** encoding/tpdu/tpdu_test.go:289 SmsDeliver bad ud *)
Example vec_tpdu_marshal_7 : tpdu_marshal (set_UDf (set_DCSf (set_SCTS (set_OA (set_FO (set_Direction zero_tpdu (0)) (4)) (ad 145 [54; 51; 57; 49])) (go_date 2015 5 17 23 2 50 28800)) (128)) ([72; 97; 104; 97; 104; 97; 104; 97])) = Err (EncodeErr "SmsDeliver.ud.alphabet" ErrInvalid).
Proof. vm_compute. reflexivity. Qed.
(** encoding/tpdu/tpdu_test.go:305 SmsDeliverReport minimal *)
Example vec_tpdu_marshal_8 : tpdu_marshal (set_FCS (set_FO (set_Direction zero_tpdu (1)) (0)) (18)) = Ok ([0; 18; 0]).
Proof. vm_compute. reflexivity. Qed.
(** encoding/tpdu/tpdu_test.go:315 SmsDeliverReport pid *)
Example vec_tpdu_marshal_9 : tpdu_marshal (set_UDf (set_DCSf (set_PIDf (set_PI (set_FCS (set_FO (set_Direction zero_tpdu (1)) (0)) (18)) (1)) (171)) (4)) ([114; 101; 112; 111; 114; 116])) = Ok ([0; 18; 1; 171]).
Proof. vm_compute. reflexivity. Qed.
(** encoding/tpdu/tpdu_test.go:331 SmsDeliverReport dcs *)
Example vec_tpdu_marshal_10 : tpdu_marshal (set_UDf (set_DCSf (set_PIDf (set_PI (set_FCS (set_FO (set_Direction zero_tpdu (1)) (0)) (18)) (2)) (171)) (4)) ([114; 101; 112; 111; 114; 116])) = Ok ([0; 18; 2; 4]).
Proof. vm_compute. reflexivity. Qed.
(** encoding/tpdu/tpdu_test.go:347 SmsDeliverReport ud *)
Example vec_tpdu_marshal_11 : tpdu_marshal (set_UDf (set_DCSf (set_PIDf (set_PI (set_FCS (set_FO (set_Direction zero_tpdu (1)) (0)) (18)) (4)) (171)) (4)) ([114; 101; 112; 111; 114; 116])) = Ok ([0; 18; 4; 6; 114; 101; 112; 111; 114; 116]).
Proof. vm_compute. reflexivity. Qed.
(** encoding/tpdu/tpdu_test.go:363 SmsDeliverReport full *)
Example vec_tpdu_marshal_12 : tpdu_marshal (set_UDf (set_DCSf (set_PIDf (set_PI (set_FCS (set_FO (set_Direction zero_tpdu (1)) (0)) (18)) (7)) (171)) (4)) ([114; 101; 112; 111; 114; 116])) = Ok ([0; 18; 7; 171; 4; 6; 114; 101; 112; 111; 114; 116]).
Proof. vm_compute. reflexivity. Qed.
(** encoding/tpdu/tpdu_test.go:380 SmsDeliverReport bad ud *)
Example vec_tpdu_marshal_13 : tpdu_marshal (set_UDf (set_DCSf (set_PI (set_FCS (set_FO (set_Direction zero_tpdu (1)) (0)) (18)) (6)) (128)) ([114; 101; 112; 111; 114; 116])) = Err (EncodeErr "SmsDeliverReport.ud.alphabet" ErrInvalid).
Proof. vm_compute. reflexivity. Qed.
(** encoding/tpdu/tpdu_test.go:393 SmsStatusReport minimal *)
Example vec_tpdu_marshal_14 : tpdu_marshal (set_ST (set_DT (set_SCTS (set_RA (set_MR (set_FO (set_Direction zero_tpdu (0)) (2)) (66)) (ad 145 [54; 51; 57; 49])) (go_date 2015 5 17 23 2 50 28800)) (go_date 2015 4 18 23 2 50 21600)) (171)) = Ok ([2; 66; 4; 145; 54; 25; 81; 80; 113; 50; 32; 5; 35; 81; 64; 129; 50; 32; 5; 66; 171]).
Proof. vm_compute. reflexivity. Qed.
(** encoding/tpdu/tpdu_test.go:416 SmsStatusReport full *)
Example vec_tpdu_marshal_15 : tpdu_marshal (set_UDf (set_DCSf (set_PIDf (set_ST (set_DT (set_SCTS (set_PI (set_RA (set_MR (set_FO (set_Direction zero_tpdu (0)) (6)) (66)) (ad 145 [54; 51; 57; 49])) (7)) (go_date 2015 5 17 23 2 50 28800)) (go_date 2015 4 18 23 2 50 21600)) (171)) (137)) (4)) ([114; 101; 112; 111; 114; 116])) = Ok ([6; 66; 4; 145; 54; 25; 81; 80; 113; 50; 32; 5; 35; 81; 64; 129; 50; 32; 5; 66; 171; 7; 137; 4; 6; 114; 101; 112; 111; 114; 116]).
Proof. vm_compute. reflexivity. Qed.
(** encoding/tpdu/tpdu_test.go:444 SmsStatusReport pidless *)
Example vec_tpdu_marshal_16 : tpdu_marshal (set_UDf (set_DCSf (set_PIDf (set_ST (set_DT (set_SCTS (set_PI (set_RA (set_MR (set_FO (set_Direction zero_tpdu (0)) (6)) (66)) (ad 145 [54; 51; 57; 49])) (6)) (go_date 2015 5 17 23 2 50 28800)) (go_date 2015 4 18 23 2 50 21600)) (171)) (137)) (4)) ([114; 101; 112; 111; 114; 116])) = Ok ([6; 66; 4; 145; 54; 25; 81; 80; 113; 50; 32; 5; 35; 81; 64; 129; 50; 32; 5; 66; 171; 6; 4; 6; 114; 101; 112; 111; 114; 116]).
Proof. vm_compute. reflexivity. Qed.
(** encoding/tpdu/tpdu_test.go:472 SmsStatusReport dcsless *)
Example vec_tpdu_marshal_17 : tpdu_marshal (set_UDf (set_DCSf (set_PIDf (set_ST (set_DT (set_SCTS (set_PI (set_RA (set_MR (set_FO (set_Direction zero_tpdu (0)) (6)) (66)) (ad 145 [54; 51; 57; 49])) (5)) (go_date 2015 5 17 23 2 50 28800)) (go_date 2015 4 18 23 2 50 21600)) (171)) (137)) (4)) ([114; 101; 112; 111; 114; 116])) = Ok ([6; 66; 4; 145; 54; 25; 81; 80; 113; 50; 32; 5; 35; 81; 64; 129; 50; 32; 5; 66; 171; 5; 137; 6; 114; 101; 112; 111; 114; 116]).
Proof. vm_compute. reflexivity. Qed.
(** encoding/tpdu/tpdu_test.go:500 SmsStatusReport bad ra *)
Example vec_tpdu_marshal_18 : tpdu_marshal (set_RA (set_MR (set_FO (set_Direction zero_tpdu (0)) (2)) (66)) (ad 145 [54; 51; 100; 49])) = Err (EncodeErr "SmsStatusReport.ra.addr" (SemiInvalidDigit 100)).
Proof. vm_compute. reflexivity. Qed.
(** encoding/tpdu/tpdu_test.go:511 SmsStatusReport bad scts *)
Example vec_tpdu_marshal_19 : tpdu_marshal (set_ST (set_DT (set_SCTS (set_RA (set_MR (set_FO (set_Direction zero_tpdu (0)) (2)) (66)) (ad 145 [54; 51; 57; 49])) (go_date 2015 5 17 23 2 50 86400)) (go_date 2015 4 18 23 2 50 21600)) (171)) = Err (EncodeErr "SmsStatusReport.scts" (BcdInvalidInteger 96)).
Proof. vm_compute. reflexivity. Qed.
(** encoding/tpdu/tpdu_test.go:531 SmsStatusReport bad dt *)
Example vec_tpdu_marshal_20 : tpdu_marshal (set_ST (set_DT (set_SCTS (set_RA (set_MR (set_FO (set_Direction zero_tpdu (0)) (2)) (66)) (ad 145 [54; 51; 57; 49])) (go_date 2015 5 17 23 2 50 28800)) (go_date 2015 4 18 23 2 50 86400)) (171)) = Err (EncodeErr "SmsStatusReport.dt" (BcdInvalidInteger 96)).
Proof. vm_compute. reflexivity. Qed.
(** encoding/tpdu/tpdu_test.go:551 SmsStatusReport bad ud *)
Example vec_tpdu_marshal_21 : tpdu_marshal (set_UDf (set_DCSf (set_PI (set_FO (set_Direction zero_tpdu (0)) (2)) (6)) (128)) ([114; 101; 112; 111; 114; 116])) = Err (EncodeErr "SmsStatusReport.ud.alphabet" ErrInvalid).
Proof. vm_compute. reflexivity. Qed.
(** encoding/tpdu/tpdu_test.go:563 SmsSubmit haha *)
Example vec_tpdu_marshal_22 : tpdu_marshal (set_UDf (set_DA (set_FO (set_Direction zero_tpdu (1)) (1)) (ad 145 [54; 51; 57; 49])) ([72; 97; 104; 97; 104; 97; 104; 97])) = Ok ([1; 0; 4; 145; 54; 25; 0; 0; 8; 200; 48; 58; 140; 14; 163; 195]).
Proof. vm_compute. reflexivity. Qed.
(** encoding/tpdu/tpdu_test.go:577 SmsSubmit vp *)
Example vec_tpdu_marshal_23 : tpdu_marshal (set_UDf (set_VPf (set_DA (set_FO (set_Direction zero_tpdu (1)) (1)) (ad 145 [54; 51; 57; 49])) ({| vp_format := 2; vp_time := zero_time; vp_duration := 6000000000000; vp_efi := 0 |})) ([72; 97; 104; 97; 104; 97; 104; 97])) = Ok ([1; 0; 4; 145; 54; 25; 0; 0; 19; 8; 200; 48; 58; 140; 14; 163; 195]).
Proof. vm_compute. reflexivity. Qed.
(** encoding/tpdu/tpdu_test.go:595 SmsSubmit bad da *)
Example vec_tpdu_marshal_24 : tpdu_marshal (set_UDf (set_DA (set_FO (set_Direction zero_tpdu (1)) (1)) (ad 145 [100; 51; 57; 49])) ([72; 97; 104; 97; 104; 97; 104; 97])) = Err (EncodeErr "SmsSubmit.da.addr" (SemiInvalidDigit 100)).
Proof. vm_compute. reflexivity. Qed.
(** encoding/tpdu/tpdu_test.go:606 SmsSubmit bad vp *)
Example vec_tpdu_marshal_25 : tpdu_marshal (set_UDf (set_VPf (set_DA (set_FO (set_Direction zero_tpdu (1)) (1)) (ad 145 [54; 51; 57; 49])) ({| vp_format := 6; vp_time := zero_time; vp_duration := 0; vp_efi := 0 |})) ([72; 97; 104; 97; 104; 97; 104; 97])) = Err (EncodeErr "SmsSubmit.vp.vpf" ErrInvalid).
Proof. vm_compute. reflexivity. Qed.
(** encoding/tpdu/tpdu_test.go:618 SmsSubmit bad ud *)
Example vec_tpdu_marshal_26 : tpdu_marshal (set_UDf (set_DCSf (set_DA (set_FO (set_Direction zero_tpdu (1)) (1)) (ad 145 [54; 51; 57; 49])) (128)) ([72; 97; 104; 97; 104; 97; 104; 97])) = Err (EncodeErr "SmsSubmit.ud.alphabet" ErrInvalid).
Proof. vm_compute. reflexivity. Qed.
(** encoding/tpdu/tpdu_test.go:630 SmsSubmitReport minimal *)
Example vec_tpdu_marshal_27 : tpdu_marshal (set_SCTS (set_FCS (set_FO (set_Direction zero_tpdu (0)) (1)) (18)) (go_date 2015 5 17 23 2 50 28800)) = Ok ([1; 18; 0; 81; 80; 113; 50; 32; 5; 35]).
Proof. vm_compute. reflexivity. Qed.
(** encoding/tpdu/tpdu_test.go:644 SmsSubmitReport pi *)
Example vec_tpdu_marshal_28 : tpdu_marshal (set_UDf (set_DCSf (set_PIDf (set_SCTS (set_PI (set_FCS (set_FO (set_Direction zero_tpdu (0)) (1)) (18)) (1)) (go_date 2015 5 17 23 2 50 28800)) (171)) (4)) ([114; 101; 112; 111; 114; 116])) = Ok ([1; 18; 1; 81; 80; 113; 50; 32; 5; 35; 171]).
Proof. vm_compute. reflexivity. Qed.
(** encoding/tpdu/tpdu_test.go:664 SmsSubmitReport dcs *)
Example vec_tpdu_marshal_29 : tpdu_marshal (set_UDf (set_DCSf (set_PIDf (set_SCTS (set_PI (set_FCS (set_FO (set_Direction zero_tpdu (0)) (1)) (18)) (2)) (go_date 2015 5 17 23 2 50 28800)) (171)) (4)) ([114; 101; 112; 111; 114; 116])) = Ok ([1; 18; 2; 81; 80; 113; 50; 32; 5; 35; 4]).
Proof. vm_compute. reflexivity. Qed.
(** encoding/tpdu/tpdu_test.go:684 SmsSubmitReport ud *)
Example vec_tpdu_marshal_30 : tpdu_marshal (set_UDf (set_DCSf (set_PIDf (set_SCTS (set_PI (set_FCS (set_FO (set_Direction zero_tpdu (0)) (1)) (18)) (4)) (go_date 2015 5 17 23 2 50 28800)) (171)) (4)) ([114; 101; 112; 111; 114; 116])) = Ok ([1; 18; 4; 81; 80; 113; 50; 32; 5; 35; 6; 114; 101; 112; 111; 114; 116]).
Proof. vm_compute. reflexivity. Qed.
(** encoding/tpdu/tpdu_test.go:705 SmsSubmitReport full *)
Example vec_tpdu_marshal_31 : tpdu_marshal (set_UDf (set_DCSf (set_PIDf (set_SCTS (set_PI (set_FCS (set_FO (set_Direction zero_tpdu (0)) (1)) (18)) (7)) (go_date 2015 5 17 23 2 50 28800)) (171)) (4)) ([114; 101; 112; 111; 114; 116])) = Ok ([1; 18; 7; 81; 80; 113; 50; 32; 5; 35; 171; 4; 6; 114; 101; 112; 111; 114; 116]).
Proof. vm_compute. reflexivity. Qed.
(** encoding/tpdu/tpdu_test.go:726 SmsSubmitReport bad scts *)
Example vec_tpdu_marshal_32 : tpdu_marshal (set_UDf (set_DCSf (set_SCTS (set_PI (set_FCS (set_FO (set_Direction zero_tpdu (0)) (1)) (18)) (7)) (go_date 2015 5 17 23 2 50 86400)) (128)) ([114; 101; 112; 111; 114; 116])) = Err (EncodeErr "SmsSubmitReport.scts" (BcdInvalidInteger 96)).
Proof. vm_compute. reflexivity. Qed.
(** encoding/tpdu/tpdu_test.go:742 SmsSubmitReport bad ud *)
Example vec_tpdu_marshal_33 : tpdu_marshal (set_UDf (set_DCSf (set_PI (set_FCS (set_FO (set_Direction zero_tpdu (0)) (1)) (18)) (6)) (128)) ([114; 101; 112; 111; 114; 116])) = Err (EncodeErr "SmsSubmitReport.ud.alphabet" ErrInvalid).
Proof. vm_compute. reflexivity. Qed.
(** encoding/tpdu/tpdu_test.go:772 single segment *)
Example vec_single_segment_1 : is_single_segment zero_tpdu = true.
Proof. vm_compute. reflexivity. Qed.
(** encoding/tpdu/tpdu_test.go:777 concat8 *)
Example vec_single_segment_2 : is_single_segment (set_UDHf zero_tpdu (Some [el 0 [1; 2; 1]])) = false.
Proof. vm_compute. reflexivity. Qed.
(** encoding/tpdu/tpdu_test.go:789 concat16 *)
Example vec_single_segment_3 : is_single_segment (set_UDHf zero_tpdu (Some [el 8 [0; 1; 2; 1]])) = false.
Proof. vm_compute. reflexivity. Qed.
(** encoding/tpdu/tpdu_test.go:801 no concat *)
Example vec_single_segment_4 : is_single_segment (set_UDHf zero_tpdu (Some [el 3 [1; 2; 1]])) = true.
Proof. vm_compute. reflexivity. Qed.
(** encoding/tpdu/tpdu_test.go:852 nil msg *)
Example vec_segment_1 : segment zero_tpdu [] {| sc_wide := false; sc_cr := None; sc_mr := None |} = Ok [].
Proof. vm_compute. reflexivity. Qed.
(** encoding/tpdu/tpdu_test.go:859 empty msg *)
Example vec_segment_2 : segment zero_tpdu [] {| sc_wide := false; sc_cr := None; sc_mr := None |} = Ok [].
Proof. vm_compute. reflexivity. Qed.
(** encoding/tpdu/tpdu_test.go:866 single segment *)
Example vec_segment_3 : segment zero_tpdu [104; 101; 108; 108; 111] {| sc_wide := false; sc_cr := None; sc_mr := None |} = Ok [(set_UDf zero_tpdu ([104; 101; 108; 108; 111]))].
Proof. vm_compute. reflexivity. Qed.
(** encoding/tpdu/tpdu_test.go:877 two segment 7bit *)
Example vec_segment_4 : segment zero_tpdu [116; 104; 105; 115; 32; 105; 115; 32; 97; 32; 118; 101; 114; 121; 32; 108; 111; 110; 103; 32; 109; 101; 115; 115; 97; 103; 101; 32; 116; 104; 97; 116; 32; 100; 111; 101; 115; 32; 110; 111; 116; 32; 102; 105; 116; 32; 105; 110; 32; 97; 32; 115; 105; 110; 103; 108; 101; 32; 83; 77; 83; 32; 109; 101; 115; 115; 97; 103; 101; 44; 32; 97; 116; 32; 108; 101; 97; 115; 116; 32; 105; 116; 32; 119; 105; 108; 108; 32; 105; 102; 32; 73; 32; 107; 101; 101; 112; 32; 97; 100; 100; 105; 110; 103; 32; 109; 111; 114; 101; 32; 116; 111; 32; 105; 116; 32; 97; 115; 32; 49; 54; 48; 32; 99; 104; 97; 114; 97; 99; 116; 101; 114; 115; 32; 105; 115; 32; 109; 111; 114; 101; 32; 116; 104; 97; 110; 32; 121; 111; 117; 32; 109; 105; 103; 104; 116; 32; 116; 104; 105; 110; 107] {| sc_wide := false; sc_cr := None; sc_mr := None |} = Ok [(set_UDf (set_UDHf (set_PI (set_FO zero_tpdu (64)) (4)) (Some [el 0 [1; 2; 1]])) ([116; 104; 105; 115; 32; 105; 115; 32; 97; 32; 118; 101; 114; 121; 32; 108; 111; 110; 103; 32; 109; 101; 115; 115; 97; 103; 101; 32; 116; 104; 97; 116; 32; 100; 111; 101; 115; 32; 110; 111; 116; 32; 102; 105; 116; 32; 105; 110; 32; 97; 32; 115; 105; 110; 103; 108; 101; 32; 83; 77; 83; 32; 109; 101; 115; 115; 97; 103; 101; 44; 32; 97; 116; 32; 108; 101; 97; 115; 116; 32; 105; 116; 32; 119; 105; 108; 108; 32; 105; 102; 32; 73; 32; 107; 101; 101; 112; 32; 97; 100; 100; 105; 110; 103; 32; 109; 111; 114; 101; 32; 116; 111; 32; 105; 116; 32; 97; 115; 32; 49; 54; 48; 32; 99; 104; 97; 114; 97; 99; 116; 101; 114; 115; 32; 105; 115; 32; 109; 111; 114; 101; 32; 116; 104; 97; 110; 32; 121; 111; 117; 32; 109; 105])); (set_UDf (set_UDHf (set_PI (set_FO zero_tpdu (64)) (4)) (Some [el 0 [1; 2; 2]])) ([103; 104; 116; 32; 116; 104; 105; 110; 107]))].
Proof. vm_compute. reflexivity. Qed.
(** encoding/tpdu/tpdu_test.go:907 three segment 7bit withMR *)
Example vec_segment_5 : segment zero_tpdu [116; 104; 105; 115; 32; 105; 115; 32; 97; 32; 118; 101; 114; 121; 32; 108; 111; 110; 103; 32; 109; 101; 115; 115; 97; 103; 101; 32; 116; 104; 97; 116; 32; 100; 111; 101; 115; 32; 110; 111; 116; 32; 102; 105; 116; 32; 105; 110; 32; 97; 32; 115; 105; 110; 103; 108; 101; 32; 83; 77; 83; 32; 109; 101; 115; 115; 97; 103; 101; 44; 32; 97; 116; 32; 108; 101; 97; 115; 116; 32; 105; 116; 32; 119; 105; 108; 108; 32; 105; 102; 32; 73; 32; 107; 101; 101; 112; 32; 97; 100; 100; 105; 110; 103; 32; 109; 111; 114; 101; 32; 116; 111; 32; 105; 116; 32; 97; 115; 32; 49; 54; 48; 32; 99; 104; 97; 114; 97; 99; 116; 101; 114; 115; 32; 105; 115; 32; 109; 111; 114; 101; 32; 116; 104; 97; 110; 32; 121; 111; 117; 32; 109; 105; 103; 104; 116; 32; 116; 104; 105; 110; 107; 44; 32; 98; 117; 116; 32; 119; 97; 105; 116; 44; 32; 116; 104; 101; 110; 32; 119; 101; 32; 97; 108; 115; 111; 32; 110; 101; 101; 100; 32; 97; 32; 114; 101; 97; 108; 108; 121; 32; 114; 101; 97; 108; 108; 121; 32; 108; 111; 110; 103; 32; 109; 101; 115; 115; 97; 103; 101; 32; 116; 111; 32; 116; 114; 105; 103; 103; 101; 114; 32; 97; 32; 116; 104; 114; 101; 101; 32; 115; 101; 103; 109; 101; 110; 116; 32; 99; 111; 110; 99; 97; 116; 101; 110; 97; 116; 105; 111; 110; 32; 119; 104; 105; 99; 104; 32; 114; 101; 113; 117; 105; 114; 101; 115; 32; 101; 118; 101; 110; 32; 109; 111; 114; 101; 32; 99; 104; 97; 114; 97; 99; 116; 101; 114; 115; 32; 116; 104; 97; 110; 32; 73; 32; 99; 97; 114; 101; 32; 116; 111; 32; 99; 111; 117; 110; 116] {| sc_wide := false; sc_cr := Some (counter_nth 6); sc_mr := Some (counter_nth 10) |} = Ok [(set_UDf (set_UDHf (set_PI (set_MR (set_FO zero_tpdu (64)) (11)) (4)) (Some [el 0 [7; 3; 1]])) ([116; 104; 105; 115; 32; 105; 115; 32; 97; 32; 118; 101; 114; 121; 32; 108; 111; 110; 103; 32; 109; 101; 115; 115; 97; 103; 101; 32; 116; 104; 97; 116; 32; 100; 111; 101; 115; 32; 110; 111; 116; 32; 102; 105; 116; 32; 105; 110; 32; 97; 32; 115; 105; 110; 103; 108; 101; 32; 83; 77; 83; 32; 109; 101; 115; 115; 97; 103; 101; 44; 32; 97; 116; 32; 108; 101; 97; 115; 116; 32; 105; 116; 32; 119; 105; 108; 108; 32; 105; 102; 32; 73; 32; 107; 101; 101; 112; 32; 97; 100; 100; 105; 110; 103; 32; 109; 111; 114; 101; 32; 116; 111; 32; 105; 116; 32; 97; 115; 32; 49; 54; 48; 32; 99; 104; 97; 114; 97; 99; 116; 101; 114; 115; 32; 105; 115; 32; 109; 111; 114; 101; 32; 116; 104; 97; 110; 32; 121; 111; 117; 32; 109; 105])); (set_UDf (set_UDHf (set_PI (set_MR (set_FO zero_tpdu (64)) (12)) (4)) (Some [el 0 [7; 3; 2]])) ([103; 104; 116; 32; 116; 104; 105; 110; 107; 44; 32; 98; 117; 116; 32; 119; 97; 105; 116; 44; 32; 116; 104; 101; 110; 32; 119; 101; 32; 97; 108; 115; 111; 32; 110; 101; 101; 100; 32; 97; 32; 114; 101; 97; 108; 108; 121; 32; 114; 101; 97; 108; 108; 121; 32; 108; 111; 110; 103; 32; 109; 101; 115; 115; 97; 103; 101; 32; 116; 111; 32; 116; 114; 105; 103; 103; 101; 114; 32; 97; 32; 116; 104; 114; 101; 101; 32; 115; 101; 103; 109; 101; 110; 116; 32; 99; 111; 110; 99; 97; 116; 101; 110; 97; 116; 105; 111; 110; 32; 119; 104; 105; 99; 104; 32; 114; 101; 113; 117; 105; 114; 101; 115; 32; 101; 118; 101; 110; 32; 109; 111; 114; 101; 32; 99; 104; 97; 114; 97; 99; 116; 101; 114; 115; 32; 116; 104; 97; 110; 32; 73; 32; 99])); (set_UDf (set_UDHf (set_PI (set_MR (set_FO zero_tpdu (64)) (13)) (4)) (Some [el 0 [7; 3; 3]])) ([97; 114; 101; 32; 116; 111; 32; 99; 111; 117; 110; 116]))].
Proof. vm_compute. reflexivity. Qed.
(** encoding/tpdu/tpdu_test.go:954 three segment 7bit with16BitConcatRef *)
Example vec_segment_6 : segment zero_tpdu [116; 104; 105; 115; 32; 105; 115; 32; 97; 32; 118; 101; 114; 121; 32; 108; 111; 110; 103; 32; 109; 101; 115; 115; 97; 103; 101; 32; 116; 104; 97; 116; 32; 100; 111; 101; 115; 32; 110; 111; 116; 32; 102; 105; 116; 32; 105; 110; 32; 97; 32; 115; 105; 110; 103; 108; 101; 32; 83; 77; 83; 32; 109; 101; 115; 115; 97; 103; 101; 44; 32; 97; 116; 32; 108; 101; 97; 115; 116; 32; 105; 116; 32; 119; 105; 108; 108; 32; 105; 102; 32; 73; 32; 107; 101; 101; 112; 32; 97; 100; 100; 105; 110; 103; 32; 109; 111; 114; 101; 32; 116; 111; 32; 105; 116; 32; 97; 115; 32; 49; 54; 48; 32; 99; 104; 97; 114; 97; 99; 116; 101; 114; 115; 32; 105; 115; 32; 109; 111; 114; 101; 32; 116; 104; 97; 110; 32; 121; 111; 117; 32; 109; 105; 103; 104; 116; 32; 116; 104; 105; 110; 107; 44; 32; 98; 117; 116; 32; 119; 97; 105; 116; 44; 32; 116; 104; 101; 110; 32; 119; 101; 32; 97; 108; 115; 111; 32; 110; 101; 101; 100; 32; 97; 32; 114; 101; 97; 108; 108; 121; 32; 114; 101; 97; 108; 108; 121; 32; 108; 111; 110; 103; 32; 109; 101; 115; 115; 97; 103; 101; 32; 116; 111; 32; 116; 114; 105; 103; 103; 101; 114; 32; 97; 32; 116; 104; 114; 101; 101; 32; 115; 101; 103; 109; 101; 110; 116; 32; 99; 111; 110; 99; 97; 116; 101; 110; 97; 116; 105; 111; 110; 32; 119; 104; 105; 99; 104; 32; 114; 101; 113; 117; 105; 114; 101; 115; 32; 101; 118; 101; 110; 32; 109; 111; 114; 101; 32; 99; 104; 97; 114; 97; 99; 116; 101; 114; 115; 32; 116; 104; 97; 110; 32; 73; 32; 99; 97; 114; 101; 32; 116; 111; 32; 99; 111; 117; 110; 116] {| sc_wide := true; sc_cr := Some (counter_nth 1287); sc_mr := Some (counter_nth 20) |} = Ok [(set_UDf (set_UDHf (set_PI (set_MR (set_FO zero_tpdu (64)) (21)) (4)) (Some [el 8 [5; 8; 3; 1]])) ([116; 104; 105; 115; 32; 105; 115; 32; 97; 32; 118; 101; 114; 121; 32; 108; 111; 110; 103; 32; 109; 101; 115; 115; 97; 103; 101; 32; 116; 104; 97; 116; 32; 100; 111; 101; 115; 32; 110; 111; 116; 32; 102; 105; 116; 32; 105; 110; 32; 97; 32; 115; 105; 110; 103; 108; 101; 32; 83; 77; 83; 32; 109; 101; 115; 115; 97; 103; 101; 44; 32; 97; 116; 32; 108; 101; 97; 115; 116; 32; 105; 116; 32; 119; 105; 108; 108; 32; 105; 102; 32; 73; 32; 107; 101; 101; 112; 32; 97; 100; 100; 105; 110; 103; 32; 109; 111; 114; 101; 32; 116; 111; 32; 105; 116; 32; 97; 115; 32; 49; 54; 48; 32; 99; 104; 97; 114; 97; 99; 116; 101; 114; 115; 32; 105; 115; 32; 109; 111; 114; 101; 32; 116; 104; 97; 110; 32; 121; 111; 117; 32; 109])); (set_UDf (set_UDHf (set_PI (set_MR (set_FO zero_tpdu (64)) (22)) (4)) (Some [el 8 [5; 8; 3; 2]])) ([105; 103; 104; 116; 32; 116; 104; 105; 110; 107; 44; 32; 98; 117; 116; 32; 119; 97; 105; 116; 44; 32; 116; 104; 101; 110; 32; 119; 101; 32; 97; 108; 115; 111; 32; 110; 101; 101; 100; 32; 97; 32; 114; 101; 97; 108; 108; 121; 32; 114; 101; 97; 108; 108; 121; 32; 108; 111; 110; 103; 32; 109; 101; 115; 115; 97; 103; 101; 32; 116; 111; 32; 116; 114; 105; 103; 103; 101; 114; 32; 97; 32; 116; 104; 114; 101; 101; 32; 115; 101; 103; 109; 101; 110; 116; 32; 99; 111; 110; 99; 97; 116; 101; 110; 97; 116; 105; 111; 110; 32; 119; 104; 105; 99; 104; 32; 114; 101; 113; 117; 105; 114; 101; 115; 32; 101; 118; 101; 110; 32; 109; 111; 114; 101; 32; 99; 104; 97; 114; 97; 99; 116; 101; 114; 115; 32; 116; 104; 97; 110; 32; 73])); (set_UDf (set_UDHf (set_PI (set_MR (set_FO zero_tpdu (64)) (23)) (4)) (Some [el 8 [5; 8; 3; 3]])) ([32; 99; 97; 114; 101; 32; 116; 111; 32; 99; 111; 117; 110; 116]))].
Proof. vm_compute. reflexivity. Qed.
(** encoding/tpdu/tpdu_test.go:1002 8bit *)
Example vec_segment_7 : segment (set_DCSf zero_tpdu (4)) [104; 101; 108; 108; 111] {| sc_wide := false; sc_cr := None; sc_mr := None |} = Ok [(set_UDf (set_DCSf zero_tpdu (4)) ([104; 101; 108; 108; 111]))].
Proof. vm_compute. reflexivity. Qed.
(** encoding/tpdu/tpdu_test.go:1016 ucs2 *)
Example vec_segment_8 : segment (set_DCSf zero_tpdu (8)) [104; 101; 108; 108; 111] {| sc_wide := false; sc_cr := None; sc_mr := None |} = Ok [(set_UDf (set_DCSf zero_tpdu (8)) ([104; 101; 108; 108; 111]))].
Proof. vm_compute. reflexivity. Qed.
(** encoding/tpdu/tpdu_test.go:1030 single segment withMR *)
Example vec_segment_9 : segment zero_tpdu [104; 101; 108; 108; 111] {| sc_wide := false; sc_cr := None; sc_mr := Some (counter_nth 42) |} = Ok [(set_UDf (set_MR zero_tpdu (43)) ([104; 101; 108; 108; 111]))].
Proof. vm_compute. reflexivity. Qed.
(** encoding/tpdu/tpdu_test.go:1205 command 7bit *)
Example vec_block_size_1 : ud_block_size (set_FO (set_Direction zero_tpdu (1)) (2)) = 166.
Proof. vm_compute. reflexivity. Qed.
(** encoding/tpdu/tpdu_test.go:1213 command 8bit *)
Example vec_block_size_2 : ud_block_size (set_DCSf (set_FO (set_Direction zero_tpdu (1)) (2)) (244)) = 146.
Proof. vm_compute. reflexivity. Qed.
(** encoding/tpdu/tpdu_test.go:1222 deliver 7bit *)
Example vec_block_size_3 : ud_block_size zero_tpdu = 160.
Proof. vm_compute. reflexivity. Qed.
(** encoding/tpdu/tpdu_test.go:1227 deliver UDH 7bit *)
Example vec_block_size_4 : ud_block_size (set_UDHf zero_tpdu (Some [el 1 [5; 6; 7]])) = 153.
Proof. vm_compute. reflexivity. Qed.
(** encoding/tpdu/tpdu_test.go:1236 deliver 8bit *)
Example vec_block_size_5 : ud_block_size (set_DCSf zero_tpdu (244)) = 140.
Proof. vm_compute. reflexivity. Qed.
(** encoding/tpdu/tpdu_test.go:1243 deliver UDH 8bit *)
Example vec_block_size_6 : ud_block_size (set_UDHf (set_DCSf zero_tpdu (244)) (Some [el 1 [5; 6; 7]])) = 134.
Proof. vm_compute. reflexivity. Qed.
(** encoding/tpdu/tpdu_test.go:1253 deliver UCS2 *)
Example vec_block_size_7 : ud_block_size (set_DCSf zero_tpdu (224)) = 140.
Proof. vm_compute. reflexivity. Qed.
(** encoding/tpdu/tpdu_test.go:1260 deliverreport RP-ACK 7bit *)
Example vec_block_size_8 : ud_block_size (set_Direction zero_tpdu (1)) = 181.
Proof. vm_compute. reflexivity. Qed.
(** encoding/tpdu/tpdu_test.go:1267 deliverreport RP-ERROR 7bit *)
Example vec_block_size_9 : ud_block_size (set_FCS (set_Direction zero_tpdu (1)) (144)) = 180.
Proof. vm_compute. reflexivity. Qed.
(** encoding/tpdu/tpdu_test.go:1275 deliverreport RP-ACK 8bit *)
Example vec_block_size_10 : ud_block_size (set_DCSf (set_Direction zero_tpdu (1)) (244)) = 159.
Proof. vm_compute. reflexivity. Qed.
(** encoding/tpdu/tpdu_test.go:1283 deliverreport RP-ERROR 8bit *)
Example vec_block_size_11 : ud_block_size (set_DCSf (set_FCS (set_Direction zero_tpdu (1)) (144)) (244)) = 158.
Proof. vm_compute. reflexivity. Qed.
(** encoding/tpdu/tpdu_test.go:1292 statusreport 7bit *)
Example vec_block_size_12 : ud_block_size (set_FO zero_tpdu (2)) = 149.
Proof. vm_compute. reflexivity. Qed.
(** encoding/tpdu/tpdu_test.go:1299 statusreport 8bit *)
Example vec_block_size_13 : ud_block_size (set_DCSf (set_FO zero_tpdu (2)) (244)) = 131.
Proof. vm_compute. reflexivity. Qed.
(** encoding/tpdu/tpdu_test.go:1307 statusreport UCS2 *)
Example vec_block_size_14 : ud_block_size (set_DCSf (set_FO zero_tpdu (2)) (224)) = 130.
Proof. vm_compute. reflexivity. Qed.
(** encoding/tpdu/tpdu_test.go:1315 submit 7bit *)
Example vec_block_size_15 : ud_block_size (set_FO (set_Direction zero_tpdu (1)) (1)) = 160.
Proof. vm_compute. reflexivity. Qed.
(** encoding/tpdu/tpdu_test.go:1323 submit 8bit *)
Example vec_block_size_16 : ud_block_size (set_DCSf (set_FO (set_Direction zero_tpdu (1)) (1)) (244)) = 140.
Proof. vm_compute. reflexivity. Qed.
(** encoding/tpdu/tpdu_test.go:1332 submit UCS2 *)
Example vec_block_size_17 : ud_block_size (set_DCSf (set_FO (set_Direction zero_tpdu (1)) (1)) (224)) = 140.
Proof. vm_compute. reflexivity. Qed.
(** encoding/tpdu/tpdu_test.go:1341 submitreport RP-ACK 7bit *)
Example vec_block_size_18 : ud_block_size (set_FO zero_tpdu (1)) = 173.
Proof. vm_compute. reflexivity. Qed.
(** encoding/tpdu/tpdu_test.go:1348 submitreport RP-ERROR 7bit *)
Example vec_block_size_19 : ud_block_size (set_FCS (set_FO zero_tpdu (1)) (144)) = 172.
Proof. vm_compute. reflexivity. Qed.
(** encoding/tpdu/tpdu_test.go:1356 submitreport RP-ACK 8bit *)
Example vec_block_size_20 : ud_block_size (set_DCSf (set_FO zero_tpdu (1)) (244)) = 152.
Proof. vm_compute. reflexivity. Qed.
(** encoding/tpdu/tpdu_test.go:1364 submitreport RP-ERROR 8bit *)
Example vec_block_size_21 : ud_block_size (set_DCSf (set_FCS (set_FO zero_tpdu (1)) (144)) (244)) = 151.
Proof. vm_compute. reflexivity. Qed.
(** encoding/tpdu/tpdu_test.go:1410 underflow fo *)
Example vec_tpdu_unmarshal_1 : tpdu_unmarshal (set_Direction zero_tpdu 0) [] = Err (DecodeErr "tpdu.firstOctet" 0 ErrUnderflow).
Proof. vm_compute. reflexivity. Qed.
(** encoding/tpdu/tpdu_test.go:1417 unsupported SMS type *)
Example vec_tpdu_unmarshal_2 : tpdu_unmarshal (set_Direction zero_tpdu 0) [3] = Err (DecodeErr "tpdu.firstOctet" 0 (ErrUnsupportedSmsType 6)).
Proof. vm_compute. reflexivity. Qed.
(** encoding/tpdu/tpdu_test.go:1424 SmsCommand *)
Example vec_tpdu_unmarshal_3 : tpdu_unmarshal (set_Direction zero_tpdu 1) [2; 66; 171; 137; 52; 4; 145; 54; 25; 9; 97; 32; 99; 111; 109; 109; 97; 110; 100] = Ok ((set_UDf (set_DCSf (set_PIDf (set_DA (set_MN (set_CT (set_MR (set_FO (set_Direction zero_tpdu (1)) (2)) (66)) (137)) (52)) (ad 145 [54; 51; 57; 49])) (171)) (4)) ([97; 32; 99; 111; 109; 109; 97; 110; 100]))).
Proof. vm_compute. reflexivity. Qed.
(** encoding/tpdu/tpdu_test.go:1443 SmsCommand underflow mr *)
Example vec_tpdu_unmarshal_4 : tpdu_unmarshal (set_Direction zero_tpdu 1) [2] = Err (DecodeErr "SmsCommand.mr" 1 ErrUnderflow).
Proof. vm_compute. reflexivity. Qed.
(** encoding/tpdu/tpdu_test.go:1453 SmsCommand underflow pid *)
Example vec_tpdu_unmarshal_5 : tpdu_unmarshal (set_Direction zero_tpdu 1) [2; 66] = Err (DecodeErr "SmsCommand.pid" 2 ErrUnderflow).
Proof. vm_compute. reflexivity. Qed.
(** encoding/tpdu/tpdu_test.go:1464 SmsCommand underflow ct *)
Example vec_tpdu_unmarshal_6 : tpdu_unmarshal (set_Direction zero_tpdu 1) [2; 66; 171] = Err (DecodeErr "SmsCommand.ct" 3 ErrUnderflow).
Proof. vm_compute. reflexivity. Qed.
(** encoding/tpdu/tpdu_test.go:1476 SmsCommand underflow mn *)
Example vec_tpdu_unmarshal_7 : tpdu_unmarshal (set_Direction zero_tpdu 1) [2; 66; 171; 137] = Err (DecodeErr "SmsCommand.mn" 4 ErrUnderflow).
Proof. vm_compute. reflexivity. Qed.
(** encoding/tpdu/tpdu_test.go:1489 SmsCommand underflow da *)
Example vec_tpdu_unmarshal_8 : tpdu_unmarshal (set_Direction zero_tpdu 1) [2; 66; 171; 137; 52; 4; 145; 54; 249; 9] = Err (DecodeErr "SmsCommand.da.addr" 7 ErrUnderflow).
Proof. vm_compute. reflexivity. Qed.
(** encoding/tpdu/tpdu_test.go:1503 SmsCommand underflow ud *)
Example vec_tpdu_unmarshal_9 : tpdu_unmarshal (set_Direction zero_tpdu 1) [2; 66; 171; 137; 52; 4; 145; 54; 25] = Err (DecodeErr "SmsCommand.ud.udl" 9 ErrUnderflow).
Proof. vm_compute. reflexivity. Qed.
(** encoding/tpdu/tpdu_test.go:1519 SmsDeliver haha *)
Example vec_tpdu_unmarshal_10 : tpdu_unmarshal (set_Direction zero_tpdu 0) [4; 4; 145; 54; 25; 0; 0; 81; 80; 113; 50; 32; 5; 35; 8; 200; 48; 58; 140; 14; 163; 195] = Ok ((set_UDf (set_SCTS (set_OA (set_FO (set_Direction zero_tpdu (0)) (4)) (ad 145 [54; 51; 57; 49])) (go_date 2015 5 17 23 2 50 28800)) ([72; 97; 104; 97; 104; 97; 104; 97]))).
Proof. vm_compute. reflexivity. Qed.
(** encoding/tpdu/tpdu_test.go:1538 SmsDeliver underflow oa *)
Example vec_tpdu_unmarshal_11 : tpdu_unmarshal (set_Direction zero_tpdu 0) [4; 4; 145; 54; 249; 0; 0] = Err (DecodeErr "SmsDeliver.oa.addr" 3 ErrUnderflow).
Proof. vm_compute. reflexivity. Qed.
(** encoding/tpdu/tpdu_test.go:1548 SmsDeliver underflow pid *)
Example vec_tpdu_unmarshal_12 : tpdu_unmarshal (set_Direction zero_tpdu 0) [4; 4; 145; 54; 25] = Err (DecodeErr "SmsDeliver.pid" 5 ErrUnderflow).
Proof. vm_compute. reflexivity. Qed.
(** encoding/tpdu/tpdu_test.go:1559 SmsDeliver underflow dcs *)
Example vec_tpdu_unmarshal_13 : tpdu_unmarshal (set_Direction zero_tpdu 0) [4; 4; 145; 54; 25; 0] = Err (DecodeErr "SmsDeliver.dcs" 6 ErrUnderflow).
Proof. vm_compute. reflexivity. Qed.
(** encoding/tpdu/tpdu_test.go:1570 SmsDeliver underflow scts *)
Example vec_tpdu_unmarshal_14 : tpdu_unmarshal (set_Direction zero_tpdu 0) [4; 4; 145; 54; 25; 0; 0; 81] = Err (DecodeErr "SmsDeliver.scts" 7 ErrUnderflow).
Proof. vm_compute. reflexivity. Qed.
(** encoding/tpdu/tpdu_test.go:1581 SmsDeliver bad scts *)
Example vec_tpdu_unmarshal_15 : tpdu_unmarshal (set_Direction zero_tpdu 0) [4; 4; 145; 54; 25; 0; 0; 81; 80; 241; 50; 32; 5; 35] = Err (DecodeErr "SmsDeliver.scts" 7 (BcdInvalidOctet 241)).
Proof. vm_compute. reflexivity. Qed.
(** encoding/tpdu/tpdu_test.go:1595 SmsDeliver underflow ud *)
Example vec_tpdu_unmarshal_16 : tpdu_unmarshal (set_Direction zero_tpdu 0) [4; 4; 145; 54; 25; 0; 0; 81; 80; 113; 50; 32; 5; 35; 8] = Err (DecodeErr "SmsDeliver.ud.sm" 15 ErrUnderflow).
Proof. vm_compute. reflexivity. Qed.
(** encoding/tpdu/tpdu_test.go:1613 SmsDeliverReport minimal *)
Example vec_tpdu_unmarshal_17 : tpdu_unmarshal (set_Direction zero_tpdu 1) [0; 18; 0] = Ok ((set_FCS (set_FO (set_Direction zero_tpdu (1)) (0)) (18))).
Proof. vm_compute. reflexivity. Qed.
(** encoding/tpdu/tpdu_test.go:1624 SmsDeliverReport pid *)
Example vec_tpdu_unmarshal_18 : tpdu_unmarshal (set_Direction zero_tpdu 1) [0; 18; 1; 171] = Ok ((set_PIDf (set_PI (set_FCS (set_FO (set_Direction zero_tpdu (1)) (0)) (18)) (1)) (171))).
Proof. vm_compute. reflexivity. Qed.
(** encoding/tpdu/tpdu_test.go:1637 SmsDeliverReport dcs *)
Example vec_tpdu_unmarshal_19 : tpdu_unmarshal (set_Direction zero_tpdu 1) [0; 18; 2; 4] = Ok ((set_DCSf (set_PI (set_FCS (set_FO (set_Direction zero_tpdu (1)) (0)) (18)) (2)) (4))).
Proof. vm_compute. reflexivity. Qed.
(** encoding/tpdu/tpdu_test.go:1650 SmsDeliverReport ud *)
Example vec_tpdu_unmarshal_20 : tpdu_unmarshal (set_Direction zero_tpdu 1) [0; 18; 6; 4; 6; 114; 101; 112; 111; 114; 116] = Ok ((set_UDf (set_DCSf (set_PI (set_FCS (set_FO (set_Direction zero_tpdu (1)) (0)) (18)) (6)) (4)) ([114; 101; 112; 111; 114; 116]))).
Proof. vm_compute. reflexivity. Qed.
(** encoding/tpdu/tpdu_test.go:1666 SmsDeliverReport underflow fcs *)
Example vec_tpdu_unmarshal_21 : tpdu_unmarshal (set_Direction zero_tpdu 1) [0] = Err (DecodeErr "SmsDeliverReport.fcs" 1 ErrUnderflow).
Proof. vm_compute. reflexivity. Qed.
(** encoding/tpdu/tpdu_test.go:1676 SmsDeliverReport underflow pi *)
Example vec_tpdu_unmarshal_22 : tpdu_unmarshal (set_Direction zero_tpdu 1) [0; 18] = Err (DecodeErr "SmsDeliverReport.pi" 2 ErrUnderflow).
Proof. vm_compute. reflexivity. Qed.
(** encoding/tpdu/tpdu_test.go:1687 SmsDeliverReport underflow pid *)
Example vec_tpdu_unmarshal_23 : tpdu_unmarshal (set_Direction zero_tpdu 1) [0; 18; 1] = Err (DecodeErr "SmsDeliverReport.pid" 3 ErrUnderflow).
Proof. vm_compute. reflexivity. Qed.
(** encoding/tpdu/tpdu_test.go:1699 SmsDeliverReport underflow dcs *)
Example vec_tpdu_unmarshal_24 : tpdu_unmarshal (set_Direction zero_tpdu 1) [0; 18; 2] = Err (DecodeErr "SmsDeliverReport.dcs" 3 ErrUnderflow).
Proof. vm_compute. reflexivity. Qed.
(** encoding/tpdu/tpdu_test.go:1711 SmsDeliverReport underflow ud *)
Example vec_tpdu_unmarshal_25 : tpdu_unmarshal (set_Direction zero_tpdu 1) [0; 18; 4] = Err (DecodeErr "SmsDeliverReport.ud.udl" 3 ErrUnderflow).
Proof. vm_compute. reflexivity. Qed.
(** encoding/tpdu/tpdu_test.go:1723 SmsStatusReport minimal *)
Example vec_tpdu_unmarshal_26 : tpdu_unmarshal (set_Direction zero_tpdu 0) [2; 66; 4; 145; 54; 25; 81; 80; 113; 50; 32; 5; 35; 81; 64; 129; 50; 32; 5; 66; 171] = Ok ((set_ST (set_DT (set_SCTS (set_RA (set_MR (set_FO (set_Direction zero_tpdu (0)) (2)) (66)) (ad 145 [54; 51; 57; 49])) (go_date 2015 5 17 23 2 50 28800)) (go_date 2015 4 18 23 2 50 21600)) (171))).
Proof. vm_compute. reflexivity. Qed.
(** encoding/tpdu/tpdu_test.go:1747 SmsStatusReport pid *)
Example vec_tpdu_unmarshal_27 : tpdu_unmarshal (set_Direction zero_tpdu 0) [2; 66; 4; 145; 54; 25; 81; 80; 113; 50; 32; 5; 35; 81; 64; 129; 50; 32; 5; 66; 171; 1; 137] = Ok ((set_PIDf (set_ST (set_DT (set_SCTS (set_PI (set_RA (set_MR (set_FO (set_Direction zero_tpdu (0)) (2)) (66)) (ad 145 [54; 51; 57; 49])) (1)) (go_date 2015 5 17 23 2 50 28800)) (go_date 2015 4 18 23 2 50 21600)) (171)) (137))).
Proof. vm_compute. reflexivity. Qed.
(** encoding/tpdu/tpdu_test.go:1774 SmsStatusReport dcs *)
Example vec_tpdu_unmarshal_28 : tpdu_unmarshal (set_Direction zero_tpdu 0) [2; 66; 4; 145; 54; 25; 81; 80; 113; 50; 32; 5; 35; 81; 64; 129; 50; 32; 5; 66; 171; 2; 4] = Ok ((set_DCSf (set_ST (set_DT (set_SCTS (set_PI (set_RA (set_MR (set_FO (set_Direction zero_tpdu (0)) (2)) (66)) (ad 145 [54; 51; 57; 49])) (2)) (go_date 2015 5 17 23 2 50 28800)) (go_date 2015 4 18 23 2 50 21600)) (171)) (4))).
Proof. vm_compute. reflexivity. Qed.
(** encoding/tpdu/tpdu_test.go:1801 SmsStatusReport ud *)
Example vec_tpdu_unmarshal_29 : tpdu_unmarshal (set_Direction zero_tpdu 0) [2; 66; 4; 145; 54; 25; 81; 80; 113; 50; 32; 5; 35; 81; 64; 129; 50; 32; 5; 66; 171; 6; 4; 6; 114; 101; 112; 111; 114; 116] = Ok ((set_UDf (set_DCSf (set_ST (set_DT (set_SCTS (set_PI (set_RA (set_MR (set_FO (set_Direction zero_tpdu (0)) (2)) (66)) (ad 145 [54; 51; 57; 49])) (6)) (go_date 2015 5 17 23 2 50 28800)) (go_date 2015 4 18 23 2 50 21600)) (171)) (4)) ([114; 101; 112; 111; 114; 116]))).
Proof. vm_compute. reflexivity. Qed.
(** encoding/tpdu/tpdu_test.go:1829 SmsStatusReport underflow mr *)
Example vec_tpdu_unmarshal_30 : tpdu_unmarshal (set_Direction zero_tpdu 0) [2] = Err (DecodeErr "SmsStatusReport.mr" 1 ErrUnderflow).
Proof. vm_compute. reflexivity. Qed.
(** encoding/tpdu/tpdu_test.go:1838 SmsStatusReport underflow ra *)
Example vec_tpdu_unmarshal_31 : tpdu_unmarshal (set_Direction zero_tpdu 0) [2; 66] = Err (DecodeErr "SmsStatusReport.ra.addr" 2 ErrUnderflow).
Proof. vm_compute. reflexivity. Qed.
(** encoding/tpdu/tpdu_test.go:1849 SmsStatusReport underflow scts *)
Example vec_tpdu_unmarshal_32 : tpdu_unmarshal (set_Direction zero_tpdu 0) [2; 66; 4; 145; 54; 25] = Err (DecodeErr "SmsStatusReport.scts" 6 ErrUnderflow).
Proof. vm_compute. reflexivity. Qed.
(** encoding/tpdu/tpdu_test.go:1861 SmsStatusReport underflow dt *)
Example vec_tpdu_unmarshal_33 : tpdu_unmarshal (set_Direction zero_tpdu 0) [2; 66; 4; 145; 54; 25; 81; 80; 113; 50; 32; 5; 35] = Err (DecodeErr "SmsStatusReport.dt" 13 ErrUnderflow).
Proof. vm_compute. reflexivity. Qed.
(** encoding/tpdu/tpdu_test.go:1880 SmsStatusReport bad scts *)
Example vec_tpdu_unmarshal_34 : tpdu_unmarshal (set_Direction zero_tpdu 0) [2; 66; 4; 145; 54; 25; 81; 80; 241; 50; 32; 5; 35] = Err (DecodeErr "SmsStatusReport.scts" 6 (BcdInvalidOctet 241)).
Proof. vm_compute. reflexivity. Qed.
(** encoding/tpdu/tpdu_test.go:1895 SmsStatusReport bad dt *)
Example vec_tpdu_unmarshal_35 : tpdu_unmarshal (set_Direction zero_tpdu 0) [2; 66; 4; 145; 54; 25; 81; 80; 113; 50; 32; 5; 35; 81; 64; 193; 50; 32; 5; 66] = Err (DecodeErr "SmsStatusReport.dt" 13 (BcdInvalidOctet 193)).
Proof. vm_compute. reflexivity. Qed.
(** encoding/tpdu/tpdu_test.go:1914 SmsStatusReport underflow st *)
Example vec_tpdu_unmarshal_36 : tpdu_unmarshal (set_Direction zero_tpdu 0) [2; 66; 4; 145; 54; 25; 81; 80; 113; 50; 32; 5; 35; 81; 64; 129; 50; 32; 5; 66] = Err (DecodeErr "SmsStatusReport.st" 20 ErrUnderflow).
Proof. vm_compute. reflexivity. Qed.
(** encoding/tpdu/tpdu_test.go:1937 SmsStatusReport underflow pid *)
Example vec_tpdu_unmarshal_37 : tpdu_unmarshal (set_Direction zero_tpdu 0) [2; 66; 4; 145; 54; 25; 81; 80; 113; 50; 32; 5; 35; 81; 64; 129; 50; 32; 5; 66; 171; 1] = Err (DecodeErr "SmsStatusReport.pid" 22 ErrUnderflow).
Proof. vm_compute. reflexivity. Qed.
(** encoding/tpdu/tpdu_test.go:1958 SmsStatusReport underflow dcs *)
Example vec_tpdu_unmarshal_38 : tpdu_unmarshal (set_Direction zero_tpdu 0) [2; 66; 4; 145; 54; 25; 81; 80; 113; 50; 32; 5; 35; 81; 64; 129; 50; 32; 5; 66; 171; 2] = Err (DecodeErr "SmsStatusReport.dcs" 22 ErrUnderflow).
Proof. vm_compute. reflexivity. Qed.
(** encoding/tpdu/tpdu_test.go:1983 SmsStatusReport underflow ud *)
Example vec_tpdu_unmarshal_39 : tpdu_unmarshal (set_Direction zero_tpdu 0) [2; 66; 4; 145; 54; 25; 81; 80; 113; 50; 32; 5; 35; 81; 64; 129; 50; 32; 5; 66; 171; 4] = Err (DecodeErr "SmsStatusReport.ud.udl" 22 ErrUnderflow).
Proof. vm_compute. reflexivity. Qed.
(** encoding/tpdu/tpdu_test.go:2008 SmsSubmit haha *)
Example vec_tpdu_unmarshal_40 : tpdu_unmarshal (set_Direction zero_tpdu 1) [1; 35; 4; 145; 54; 25; 52; 0; 8; 200; 48; 58; 140; 14; 163; 195] = Ok ((set_UDf (set_PIDf (set_DA (set_MR (set_FO (set_Direction zero_tpdu (1)) (1)) (35)) (ad 145 [54; 51; 57; 49])) (52)) ([72; 97; 104; 97; 104; 97; 104; 97]))).
Proof. vm_compute. reflexivity. Qed.
(** encoding/tpdu/tpdu_test.go:2024 SmsSubmit vp *)
Example vec_tpdu_unmarshal_41 : tpdu_unmarshal (set_Direction zero_tpdu 1) [17; 35; 4; 145; 54; 25; 52; 0; 69; 8; 200; 48; 58; 140; 14; 163; 195] = Ok ((set_UDf (set_VPf (set_PIDf (set_DA (set_MR (set_FO (set_Direction zero_tpdu (1)) (17)) (35)) (ad 145 [54; 51; 57; 49])) (52)) ({| vp_format := 2; vp_time := zero_time; vp_duration := 21000000000000; vp_efi := 0 |})) ([72; 97; 104; 97; 104; 97; 104; 97]))).
Proof. vm_compute. reflexivity. Qed.
(** encoding/tpdu/tpdu_test.go:2045 SmsSubmit underflow mr *)
Example vec_tpdu_unmarshal_42 : tpdu_unmarshal (set_Direction zero_tpdu 1) [1] = Err (DecodeErr "SmsSubmit.mr" 1 ErrUnderflow).
Proof. vm_compute. reflexivity. Qed.
(** encoding/tpdu/tpdu_test.go:2055 SmsSubmit underflow da *)
Example vec_tpdu_unmarshal_43 : tpdu_unmarshal (set_Direction zero_tpdu 1) [1; 35] = Err (DecodeErr "SmsSubmit.da.addr" 2 ErrUnderflow).
Proof. vm_compute. reflexivity. Qed.
(** encoding/tpdu/tpdu_test.go:2066 SmsSubmit bad da *)
Example vec_tpdu_unmarshal_44 : tpdu_unmarshal (set_Direction zero_tpdu 1) [1; 35; 4; 145; 54; 249; 0] = Err (DecodeErr "SmsSubmit.da.addr" 4 ErrUnderflow).
Proof. vm_compute. reflexivity. Qed.
(** encoding/tpdu/tpdu_test.go:2077 SmsSubmit underflow pid *)
Example vec_tpdu_unmarshal_45 : tpdu_unmarshal (set_Direction zero_tpdu 1) [1; 35; 4; 145; 54; 25] = Err (DecodeErr "SmsSubmit.pid" 6 ErrUnderflow).
Proof. vm_compute. reflexivity. Qed.
(** encoding/tpdu/tpdu_test.go:2089 SmsSubmit underflow dcs *)
Example vec_tpdu_unmarshal_46 : tpdu_unmarshal (set_Direction zero_tpdu 1) [1; 35; 4; 145; 54; 25; 0] = Err (DecodeErr "SmsSubmit.dcs" 7 ErrUnderflow).
Proof. vm_compute. reflexivity. Qed.
(** encoding/tpdu/tpdu_test.go:2101 SmsSubmit underflow vp *)
Example vec_tpdu_unmarshal_47 : tpdu_unmarshal (set_Direction zero_tpdu 1) [17; 35; 4; 145; 54; 25; 52; 0] = Err (DecodeErr "SmsSubmit.vp" 8 ErrUnderflow).
Proof. vm_compute. reflexivity. Qed.
(** encoding/tpdu/tpdu_test.go:2114 SmsSubmit bad vp *)
Example vec_tpdu_unmarshal_48 : tpdu_unmarshal (set_Direction zero_tpdu 1) [25; 35; 4; 145; 54; 25; 52; 0; 69; 8; 200; 48; 58; 140; 14; 163; 195] = Err (DecodeErr "SmsSubmit.vp" 8 (BcdInvalidOctet 200)).
Proof. vm_compute. reflexivity. Qed.
(** encoding/tpdu/tpdu_test.go:2130 SmsSubmit underflow ud *)
Example vec_tpdu_unmarshal_49 : tpdu_unmarshal (set_Direction zero_tpdu 1) [1; 35; 4; 145; 54; 25; 0; 0; 81; 80; 113; 50; 32; 5; 35; 8] = Err (DecodeErr "SmsSubmit.ud.sm" 9 ErrUnderflow).
Proof. vm_compute. reflexivity. Qed.
(** encoding/tpdu/tpdu_test.go:2145 SmsSubmitReport minimal *)
Example vec_tpdu_unmarshal_50 : tpdu_unmarshal (set_Direction zero_tpdu 0) [1; 18; 0; 81; 80; 113; 50; 32; 5; 35] = Ok ((set_SCTS (set_FCS (set_FO (set_Direction zero_tpdu (0)) (1)) (18)) (go_date 2015 5 17 23 2 50 28800))).
Proof. vm_compute. reflexivity. Qed.
(** encoding/tpdu/tpdu_test.go:2160 SmsSubmitReport pid *)
Example vec_tpdu_unmarshal_51 : tpdu_unmarshal (set_Direction zero_tpdu 0) [1; 18; 1; 81; 80; 113; 50; 32; 5; 35; 171] = Ok ((set_PIDf (set_SCTS (set_PI (set_FCS (set_FO (set_Direction zero_tpdu (0)) (1)) (18)) (1)) (go_date 2015 5 17 23 2 50 28800)) (171))).
Proof. vm_compute. reflexivity. Qed.
(** encoding/tpdu/tpdu_test.go:2177 SmsSubmitReport dcs *)
Example vec_tpdu_unmarshal_52 : tpdu_unmarshal (set_Direction zero_tpdu 0) [1; 18; 2; 81; 80; 113; 50; 32; 5; 35; 4] = Ok ((set_DCSf (set_SCTS (set_PI (set_FCS (set_FO (set_Direction zero_tpdu (0)) (1)) (18)) (2)) (go_date 2015 5 17 23 2 50 28800)) (4))).
Proof. vm_compute. reflexivity. Qed.
(** encoding/tpdu/tpdu_test.go:2194 SmsSubmitReport ud *)
Example vec_tpdu_unmarshal_53 : tpdu_unmarshal (set_Direction zero_tpdu 0) [1; 18; 6; 81; 80; 113; 50; 32; 5; 35; 4; 6; 114; 101; 112; 111; 114; 116] = Ok ((set_UDf (set_DCSf (set_SCTS (set_PI (set_FCS (set_FO (set_Direction zero_tpdu (0)) (1)) (18)) (6)) (go_date 2015 5 17 23 2 50 28800)) (4)) ([114; 101; 112; 111; 114; 116]))).
Proof. vm_compute. reflexivity. Qed.
(** encoding/tpdu/tpdu_test.go:2215 SmsSubmitReport underflow fcs *)
Example vec_tpdu_unmarshal_54 : tpdu_unmarshal (set_Direction zero_tpdu 0) [1] = Err (DecodeErr "SmsSubmitReport.fcs" 1 ErrUnderflow).
Proof. vm_compute. reflexivity. Qed.
(** encoding/tpdu/tpdu_test.go:2225 SmsSubmitReport underflow pi *)
Example vec_tpdu_unmarshal_55 : tpdu_unmarshal (set_Direction zero_tpdu 0) [1; 18] = Err (DecodeErr "SmsSubmitReport.pi" 2 ErrUnderflow).
Proof. vm_compute. reflexivity. Qed.
(** encoding/tpdu/tpdu_test.go:2236 SmsSubmitReport underflow scts *)
Example vec_tpdu_unmarshal_56 : tpdu_unmarshal (set_Direction zero_tpdu 0) [1; 18; 0] = Err (DecodeErr "SmsSubmitReport.scts" 3 ErrUnderflow).
Proof. vm_compute. reflexivity. Qed.
(** encoding/tpdu/tpdu_test.go:2247 SmsSubmitReport bad scts *)
Example vec_tpdu_unmarshal_57 : tpdu_unmarshal (set_Direction zero_tpdu 0) [1; 18; 0; 81; 80; 241; 50; 32; 5; 35] = Err (DecodeErr "SmsSubmitReport.scts" 3 (BcdInvalidOctet 241)).
Proof. vm_compute. reflexivity. Qed.
(** encoding/tpdu/tpdu_test.go:2258 SmsSubmitReport underflow pid *)
Example vec_tpdu_unmarshal_58 : tpdu_unmarshal (set_Direction zero_tpdu 0) [1; 18; 1; 81; 80; 113; 50; 32; 5; 35] = Err (DecodeErr "SmsSubmitReport.pid" 10 ErrUnderflow).
Proof. vm_compute. reflexivity. Qed.
(** encoding/tpdu/tpdu_test.go:2273 SmsSubmitReport underflow dcs *)
Example vec_tpdu_unmarshal_59 : tpdu_unmarshal (set_Direction zero_tpdu 0) [1; 18; 2; 81; 80; 113; 50; 32; 5; 35] = Err (DecodeErr "SmsSubmitReport.dcs" 10 ErrUnderflow).
Proof. vm_compute. reflexivity. Qed.
(** encoding/tpdu/tpdu_test.go:2288 SmsSubmitReport underflow ud *)
Example vec_tpdu_unmarshal_60 : tpdu_unmarshal (set_Direction zero_tpdu 0) [1; 18; 6; 81; 80; 113; 50; 32; 5; 35; 4] = Err (DecodeErr "SmsSubmitReport.ud.udl" 11 ErrUnderflow).
Proof. vm_compute. reflexivity. Qed.
(** encoding/tpdu/tpdu_test.go:1410 underflow fo *)
Example vec_tpdu_left_1 : unmarshal_left (set_Direction zero_tpdu 0) [] = (zero_tpdu, Err (DecodeErr "tpdu.firstOctet" 0 ErrUnderflow)).
Proof. vm_compute. reflexivity. Qed.
(** encoding/tpdu/tpdu_test.go:1417 unsupported SMS type *)
Example vec_tpdu_left_2 : unmarshal_left (set_Direction zero_tpdu 0) [3] = (zero_tpdu, Err (DecodeErr "tpdu.firstOctet" 0 (ErrUnsupportedSmsType 6))).
Proof. vm_compute. reflexivity. Qed.
(** encoding/tpdu/tpdu_test.go:1424 SmsCommand *)
Example vec_tpdu_left_3 : unmarshal_left (set_Direction zero_tpdu 1) [2; 66; 171; 137; 52; 4; 145; 54; 25; 9; 97; 32; 99; 111; 109; 109; 97; 110; 100] = ((set_UDf (set_DCSf (set_PIDf (set_DA (set_MN (set_CT (set_MR (set_FO (set_Direction zero_tpdu (1)) (2)) (66)) (137)) (52)) (ad 145 [54; 51; 57; 49])) (171)) (4)) ([97; 32; 99; 111; 109; 109; 97; 110; 100])), Ok (tt)).
Proof. vm_compute. reflexivity. Qed.
(** encoding/tpdu/tpdu_test.go:1443 SmsCommand underflow mr *)
Example vec_tpdu_left_4 : unmarshal_left (set_Direction zero_tpdu 1) [2] = ((set_FO (set_Direction zero_tpdu (1)) (2)), Err (DecodeErr "SmsCommand.mr" 1 ErrUnderflow)).
Proof. vm_compute. reflexivity. Qed.
(** encoding/tpdu/tpdu_test.go:1453 SmsCommand underflow pid *)
Example vec_tpdu_left_5 : unmarshal_left (set_Direction zero_tpdu 1) [2; 66] = ((set_MR (set_FO (set_Direction zero_tpdu (1)) (2)) (66)), Err (DecodeErr "SmsCommand.pid" 2 ErrUnderflow)).
Proof. vm_compute. reflexivity. Qed.
(** encoding/tpdu/tpdu_test.go:1464 SmsCommand underflow ct *)
Example vec_tpdu_left_6 : unmarshal_left (set_Direction zero_tpdu 1) [2; 66; 171] = ((set_PIDf (set_MR (set_FO (set_Direction zero_tpdu (1)) (2)) (66)) (171)), Err (DecodeErr "SmsCommand.ct" 3 ErrUnderflow)).
Proof. vm_compute. reflexivity. Qed.
(** encoding/tpdu/tpdu_test.go:1476 SmsCommand underflow mn *)
Example vec_tpdu_left_7 : unmarshal_left (set_Direction zero_tpdu 1) [2; 66; 171; 137] = ((set_PIDf (set_CT (set_MR (set_FO (set_Direction zero_tpdu (1)) (2)) (66)) (137)) (171)), Err (DecodeErr "SmsCommand.mn" 4 ErrUnderflow)).
Proof. vm_compute. reflexivity. Qed.
(** encoding/tpdu/tpdu_test.go:1489 SmsCommand underflow da *)
Example vec_tpdu_left_8 : unmarshal_left (set_Direction zero_tpdu 1) [2; 66; 171; 137; 52; 4; 145; 54; 249; 9] = ((set_PIDf (set_MN (set_CT (set_MR (set_FO (set_Direction zero_tpdu (1)) (2)) (66)) (137)) (52)) (171)), Err (DecodeErr "SmsCommand.da.addr" 7 ErrUnderflow)).
Proof. vm_compute. reflexivity. Qed.
(** encoding/tpdu/tpdu_test.go:1503 SmsCommand underflow ud *)
Example vec_tpdu_left_9 : unmarshal_left (set_Direction zero_tpdu 1) [2; 66; 171; 137; 52; 4; 145; 54; 25] = ((set_DCSf (set_PIDf (set_DA (set_MN (set_CT (set_MR (set_FO (set_Direction zero_tpdu (1)) (2)) (66)) (137)) (52)) (ad 145 [54; 51; 57; 49])) (171)) (4)), Err (DecodeErr "SmsCommand.ud.udl" 9 ErrUnderflow)).
Proof. vm_compute. reflexivity. Qed.
(** encoding/tpdu/tpdu_test.go:1519 SmsDeliver haha *)
Example vec_tpdu_left_10 : unmarshal_left (set_Direction zero_tpdu 0) [4; 4; 145; 54; 25; 0; 0; 81; 80; 113; 50; 32; 5; 35; 8; 200; 48; 58; 140; 14; 163; 195] = ((set_UDf (set_SCTS (set_OA (set_FO (set_Direction zero_tpdu (0)) (4)) (ad 145 [54; 51; 57; 49])) (go_date 2015 5 17 23 2 50 28800)) ([72; 97; 104; 97; 104; 97; 104; 97])), Ok (tt)).
Proof. vm_compute. reflexivity. Qed.
(** encoding/tpdu/tpdu_test.go:1538 SmsDeliver underflow oa *)
Example vec_tpdu_left_11 : unmarshal_left (set_Direction zero_tpdu 0) [4; 4; 145; 54; 249; 0; 0] = ((set_FO (set_Direction zero_tpdu (0)) (4)), Err (DecodeErr "SmsDeliver.oa.addr" 3 ErrUnderflow)).
Proof. vm_compute. reflexivity. Qed.
(** encoding/tpdu/tpdu_test.go:1548 SmsDeliver underflow pid *)
Example vec_tpdu_left_12 : unmarshal_left (set_Direction zero_tpdu 0) [4; 4; 145; 54; 25] = ((set_OA (set_FO (set_Direction zero_tpdu (0)) (4)) (ad 145 [54; 51; 57; 49])), Err (DecodeErr "SmsDeliver.pid" 5 ErrUnderflow)).
Proof. vm_compute. reflexivity. Qed.
(** encoding/tpdu/tpdu_test.go:1559 SmsDeliver underflow dcs *)
Example vec_tpdu_left_13 : unmarshal_left (set_Direction zero_tpdu 0) [4; 4; 145; 54; 25; 0] = ((set_OA (set_FO (set_Direction zero_tpdu (0)) (4)) (ad 145 [54; 51; 57; 49])), Err (DecodeErr "SmsDeliver.dcs" 6 ErrUnderflow)).
Proof. vm_compute. reflexivity. Qed.
(** encoding/tpdu/tpdu_test.go:1570 SmsDeliver underflow scts *)
Example vec_tpdu_left_14 : unmarshal_left (set_Direction zero_tpdu 0) [4; 4; 145; 54; 25; 0; 0; 81] = ((set_OA (set_FO (set_Direction zero_tpdu (0)) (4)) (ad 145 [54; 51; 57; 49])), Err (DecodeErr "SmsDeliver.scts" 7 ErrUnderflow)).
Proof. vm_compute. reflexivity. Qed.
(** encoding/tpdu/tpdu_test.go:1581 SmsDeliver bad scts *)
Example vec_tpdu_left_15 : unmarshal_left (set_Direction zero_tpdu 0) [4; 4; 145; 54; 25; 0; 0; 81; 80; 241; 50; 32; 5; 35] = ((set_OA (set_FO (set_Direction zero_tpdu (0)) (4)) (ad 145 [54; 51; 57; 49])), Err (DecodeErr "SmsDeliver.scts" 7 (BcdInvalidOctet 241))).
Proof. vm_compute. reflexivity. Qed.
(** encoding/tpdu/tpdu_test.go:1595 SmsDeliver underflow ud *)
Example vec_tpdu_left_16 : unmarshal_left (set_Direction zero_tpdu 0) [4; 4; 145; 54; 25; 0; 0; 81; 80; 113; 50; 32; 5; 35; 8] = ((set_SCTS (set_OA (set_FO (set_Direction zero_tpdu (0)) (4)) (ad 145 [54; 51; 57; 49])) (go_date 2015 5 17 23 2 50 28800)), Err (DecodeErr "SmsDeliver.ud.sm" 15 ErrUnderflow)).
Proof. vm_compute. reflexivity. Qed.
(** encoding/tpdu/tpdu_test.go:1613 SmsDeliverReport minimal *)
Example vec_tpdu_left_17 : unmarshal_left (set_Direction zero_tpdu 1) [0; 18; 0] = ((set_FCS (set_FO (set_Direction zero_tpdu (1)) (0)) (18)), Ok (tt)).
Proof. vm_compute. reflexivity. Qed.
(** encoding/tpdu/tpdu_test.go:1624 SmsDeliverReport pid *)
Example vec_tpdu_left_18 : unmarshal_left (set_Direction zero_tpdu 1) [0; 18; 1; 171] = ((set_PIDf (set_PI (set_FCS (set_FO (set_Direction zero_tpdu (1)) (0)) (18)) (1)) (171)), Ok (tt)).
Proof. vm_compute. reflexivity. Qed.
(** encoding/tpdu/tpdu_test.go:1637 SmsDeliverReport dcs *)
Example vec_tpdu_left_19 : unmarshal_left (set_Direction zero_tpdu 1) [0; 18; 2; 4] = ((set_DCSf (set_PI (set_FCS (set_FO (set_Direction zero_tpdu (1)) (0)) (18)) (2)) (4)), Ok (tt)).
Proof. vm_compute. reflexivity. Qed.
(** encoding/tpdu/tpdu_test.go:1650 SmsDeliverReport ud *)
Example vec_tpdu_left_20 : unmarshal_left (set_Direction zero_tpdu 1) [0; 18; 6; 4; 6; 114; 101; 112; 111; 114; 116] = ((set_UDf (set_DCSf (set_PI (set_FCS (set_FO (set_Direction zero_tpdu (1)) (0)) (18)) (6)) (4)) ([114; 101; 112; 111; 114; 116])), Ok (tt)).
Proof. vm_compute. reflexivity. Qed.
(** encoding/tpdu/tpdu_test.go:1666 SmsDeliverReport underflow fcs *)
Example vec_tpdu_left_21 : unmarshal_left (set_Direction zero_tpdu 1) [0] = ((set_FO (set_Direction zero_tpdu (1)) (0)), Err (DecodeErr "SmsDeliverReport.fcs" 1 ErrUnderflow)).
Proof. vm_compute. reflexivity. Qed.
(** encoding/tpdu/tpdu_test.go:1676 SmsDeliverReport underflow pi *)
Example vec_tpdu_left_22 : unmarshal_left (set_Direction zero_tpdu 1) [0; 18] = ((set_FCS (set_FO (set_Direction zero_tpdu (1)) (0)) (18)), Err (DecodeErr "SmsDeliverReport.pi" 2 ErrUnderflow)).
Proof. vm_compute. reflexivity. Qed.
(** encoding/tpdu/tpdu_test.go:1687 SmsDeliverReport underflow pid *)
Example vec_tpdu_left_23 : unmarshal_left (set_Direction zero_tpdu 1) [0; 18; 1] = ((set_PI (set_FCS (set_FO (set_Direction zero_tpdu (1)) (0)) (18)) (1)), Err (DecodeErr "SmsDeliverReport.pid" 3 ErrUnderflow)).
Proof. vm_compute. reflexivity. Qed.
(** encoding/tpdu/tpdu_test.go:1699 SmsDeliverReport underflow dcs *)
Example vec_tpdu_left_24 : unmarshal_left (set_Direction zero_tpdu 1) [0; 18; 2] = ((set_PI (set_FCS (set_FO (set_Direction zero_tpdu (1)) (0)) (18)) (2)), Err (DecodeErr "SmsDeliverReport.dcs" 3 ErrUnderflow)).
Proof. vm_compute. reflexivity. Qed.
(** encoding/tpdu/tpdu_test.go:1711 SmsDeliverReport underflow ud *)
Example vec_tpdu_left_25 : unmarshal_left (set_Direction zero_tpdu 1) [0; 18; 4] = ((set_PI (set_FCS (set_FO (set_Direction zero_tpdu (1)) (0)) (18)) (4)), Err (DecodeErr "SmsDeliverReport.ud.udl" 3 ErrUnderflow)).
Proof. vm_compute. reflexivity. Qed.
(** encoding/tpdu/tpdu_test.go:1723 SmsStatusReport minimal *)
Example vec_tpdu_left_26 : unmarshal_left (set_Direction zero_tpdu 0) [2; 66; 4; 145; 54; 25; 81; 80; 113; 50; 32; 5; 35; 81; 64; 129; 50; 32; 5; 66; 171] = ((set_ST (set_DT (set_SCTS (set_RA (set_MR (set_FO (set_Direction zero_tpdu (0)) (2)) (66)) (ad 145 [54; 51; 57; 49])) (go_date 2015 5 17 23 2 50 28800)) (go_date 2015 4 18 23 2 50 21600)) (171)), Ok (tt)).
Proof. vm_compute. reflexivity. Qed.
(** encoding/tpdu/tpdu_test.go:1747 SmsStatusReport pid *)
Example vec_tpdu_left_27 : unmarshal_left (set_Direction zero_tpdu 0) [2; 66; 4; 145; 54; 25; 81; 80; 113; 50; 32; 5; 35; 81; 64; 129; 50; 32; 5; 66; 171; 1; 137] = ((set_PIDf (set_ST (set_DT (set_SCTS (set_PI (set_RA (set_MR (set_FO (set_Direction zero_tpdu (0)) (2)) (66)) (ad 145 [54; 51; 57; 49])) (1)) (go_date 2015 5 17 23 2 50 28800)) (go_date 2015 4 18 23 2 50 21600)) (171)) (137)), Ok (tt)).
Proof. vm_compute. reflexivity. Qed.
(** encoding/tpdu/tpdu_test.go:1774 SmsStatusReport dcs *)
Example vec_tpdu_left_28 : unmarshal_left (set_Direction zero_tpdu 0) [2; 66; 4; 145; 54; 25; 81; 80; 113; 50; 32; 5; 35; 81; 64; 129; 50; 32; 5; 66; 171; 2; 4] = ((set_DCSf (set_ST (set_DT (set_SCTS (set_PI (set_RA (set_MR (set_FO (set_Direction zero_tpdu (0)) (2)) (66)) (ad 145 [54; 51; 57; 49])) (2)) (go_date 2015 5 17 23 2 50 28800)) (go_date 2015 4 18 23 2 50 21600)) (171)) (4)), Ok (tt)).
Proof. vm_compute. reflexivity. Qed.
(** encoding/tpdu/tpdu_test.go:1801 SmsStatusReport ud *)
Example vec_tpdu_left_29 : unmarshal_left (set_Direction zero_tpdu 0) [2; 66; 4; 145; 54; 25; 81; 80; 113; 50; 32; 5; 35; 81; 64; 129; 50; 32; 5; 66; 171; 6; 4; 6; 114; 101; 112; 111; 114; 116] = ((set_UDf (set_DCSf (set_ST (set_DT (set_SCTS (set_PI (set_RA (set_MR (set_FO (set_Direction zero_tpdu (0)) (2)) (66)) (ad 145 [54; 51; 57; 49])) (6)) (go_date 2015 5 17 23 2 50 28800)) (go_date 2015 4 18 23 2 50 21600)) (171)) (4)) ([114; 101; 112; 111; 114; 116])), Ok (tt)).
Proof. vm_compute. reflexivity. Qed.
(** encoding/tpdu/tpdu_test.go:1829 SmsStatusReport underflow mr *)
Example vec_tpdu_left_30 : unmarshal_left (set_Direction zero_tpdu 0) [2] = ((set_FO zero_tpdu (2)), Err (DecodeErr "SmsStatusReport.mr" 1 ErrUnderflow)).
Proof. vm_compute. reflexivity. Qed.
(** encoding/tpdu/tpdu_test.go:1838 SmsStatusReport underflow ra *)
Example vec_tpdu_left_31 : unmarshal_left (set_Direction zero_tpdu 0) [2; 66] = ((set_MR (set_FO (set_Direction zero_tpdu (0)) (2)) (66)), Err (DecodeErr "SmsStatusReport.ra.addr" 2 ErrUnderflow)).
Proof. vm_compute. reflexivity. Qed.
(** encoding/tpdu/tpdu_test.go:1849 SmsStatusReport underflow scts *)
Example vec_tpdu_left_32 : unmarshal_left (set_Direction zero_tpdu 0) [2; 66; 4; 145; 54; 25] = ((set_RA (set_MR (set_FO (set_Direction zero_tpdu (0)) (2)) (66)) (ad 145 [54; 51; 57; 49])), Err (DecodeErr "SmsStatusReport.scts" 6 ErrUnderflow)).
Proof. vm_compute. reflexivity. Qed.
(** encoding/tpdu/tpdu_test.go:1861 SmsStatusReport underflow dt *)
Example vec_tpdu_left_33 : unmarshal_left (set_Direction zero_tpdu 0) [2; 66; 4; 145; 54; 25; 81; 80; 113; 50; 32; 5; 35] = ((set_SCTS (set_RA (set_MR (set_FO (set_Direction zero_tpdu (0)) (2)) (66)) (ad 145 [54; 51; 57; 49])) (go_date 2015 5 17 23 2 50 28800)), Err (DecodeErr "SmsStatusReport.dt" 13 ErrUnderflow)).
Proof. vm_compute. reflexivity. Qed.
(** encoding/tpdu/tpdu_test.go:1880 SmsStatusReport bad scts *)
Example vec_tpdu_left_34 : unmarshal_left (set_Direction zero_tpdu 0) [2; 66; 4; 145; 54; 25; 81; 80; 241; 50; 32; 5; 35] = ((set_RA (set_MR (set_FO (set_Direction zero_tpdu (0)) (2)) (66)) (ad 145 [54; 51; 57; 49])), Err (DecodeErr "SmsStatusReport.scts" 6 (BcdInvalidOctet 241))).
Proof. vm_compute. reflexivity. Qed.
(** encoding/tpdu/tpdu_test.go:1895 SmsStatusReport bad dt *)
Example vec_tpdu_left_35 : unmarshal_left (set_Direction zero_tpdu 0) [2; 66; 4; 145; 54; 25; 81; 80; 113; 50; 32; 5; 35; 81; 64; 193; 50; 32; 5; 66] = ((set_SCTS (set_RA (set_MR (set_FO (set_Direction zero_tpdu (0)) (2)) (66)) (ad 145 [54; 51; 57; 49])) (go_date 2015 5 17 23 2 50 28800)), Err (DecodeErr "SmsStatusReport.dt" 13 (BcdInvalidOctet 193))).
Proof. vm_compute. reflexivity. Qed.
(** encoding/tpdu/tpdu_test.go:1914 SmsStatusReport underflow st *)
Example vec_tpdu_left_36 : unmarshal_left (set_Direction zero_tpdu 0) [2; 66; 4; 145; 54; 25; 81; 80; 113; 50; 32; 5; 35; 81; 64; 129; 50; 32; 5; 66] = ((set_DT (set_SCTS (set_RA (set_MR (set_FO (set_Direction zero_tpdu (0)) (2)) (66)) (ad 145 [54; 51; 57; 49])) (go_date 2015 5 17 23 2 50 28800)) (go_date 2015 4 18 23 2 50 21600)), Err (DecodeErr "SmsStatusReport.st" 20 ErrUnderflow)).
Proof. vm_compute. reflexivity. Qed.
(** encoding/tpdu/tpdu_test.go:1937 SmsStatusReport underflow pid *)
Example vec_tpdu_left_37 : unmarshal_left (set_Direction zero_tpdu 0) [2; 66; 4; 145; 54; 25; 81; 80; 113; 50; 32; 5; 35; 81; 64; 129; 50; 32; 5; 66; 171; 1] = ((set_ST (set_DT (set_SCTS (set_PI (set_RA (set_MR (set_FO (set_Direction zero_tpdu (0)) (2)) (66)) (ad 145 [54; 51; 57; 49])) (1)) (go_date 2015 5 17 23 2 50 28800)) (go_date 2015 4 18 23 2 50 21600)) (171)), Err (DecodeErr "SmsStatusReport.pid" 22 ErrUnderflow)).
Proof. vm_compute. reflexivity. Qed.
(** encoding/tpdu/tpdu_test.go:1958 SmsStatusReport underflow dcs *)
Example vec_tpdu_left_38 : unmarshal_left (set_Direction zero_tpdu 0) [2; 66; 4; 145; 54; 25; 81; 80; 113; 50; 32; 5; 35; 81; 64; 129; 50; 32; 5; 66; 171; 2] = ((set_ST (set_DT (set_SCTS (set_PI (set_RA (set_MR (set_FO (set_Direction zero_tpdu (0)) (2)) (66)) (ad 145 [54; 51; 57; 49])) (2)) (go_date 2015 5 17 23 2 50 28800)) (go_date 2015 4 18 23 2 50 21600)) (171)), Err (DecodeErr "SmsStatusReport.dcs" 22 ErrUnderflow)).
Proof. vm_compute. reflexivity. Qed.
(** encoding/tpdu/tpdu_test.go:1983 SmsStatusReport underflow ud *)
Example vec_tpdu_left_39 : unmarshal_left (set_Direction zero_tpdu 0) [2; 66; 4; 145; 54; 25; 81; 80; 113; 50; 32; 5; 35; 81; 64; 129; 50; 32; 5; 66; 171; 4] = ((set_ST (set_DT (set_SCTS (set_PI (set_RA (set_MR (set_FO (set_Direction zero_tpdu (0)) (2)) (66)) (ad 145 [54; 51; 57; 49])) (4)) (go_date 2015 5 17 23 2 50 28800)) (go_date 2015 4 18 23 2 50 21600)) (171)), Err (DecodeErr "SmsStatusReport.ud.udl" 22 ErrUnderflow)).
Proof. vm_compute. reflexivity. Qed.
(** encoding/tpdu/tpdu_test.go:2008 SmsSubmit haha *)
Example vec_tpdu_left_40 : unmarshal_left (set_Direction zero_tpdu 1) [1; 35; 4; 145; 54; 25; 52; 0; 8; 200; 48; 58; 140; 14; 163; 195] = ((set_UDf (set_PIDf (set_DA (set_MR (set_FO (set_Direction zero_tpdu (1)) (1)) (35)) (ad 145 [54; 51; 57; 49])) (52)) ([72; 97; 104; 97; 104; 97; 104; 97])), Ok (tt)).
Proof. vm_compute. reflexivity. Qed.
(** encoding/tpdu/tpdu_test.go:2024 SmsSubmit vp *)
Example vec_tpdu_left_41 : unmarshal_left (set_Direction zero_tpdu 1) [17; 35; 4; 145; 54; 25; 52; 0; 69; 8; 200; 48; 58; 140; 14; 163; 195] = ((set_UDf (set_VPf (set_PIDf (set_DA (set_MR (set_FO (set_Direction zero_tpdu (1)) (17)) (35)) (ad 145 [54; 51; 57; 49])) (52)) ({| vp_format := 2; vp_time := zero_time; vp_duration := 21000000000000; vp_efi := 0 |})) ([72; 97; 104; 97; 104; 97; 104; 97])), Ok (tt)).
Proof. vm_compute. reflexivity. Qed.
(** encoding/tpdu/tpdu_test.go:2045 SmsSubmit underflow mr *)
Example vec_tpdu_left_42 : unmarshal_left (set_Direction zero_tpdu 1) [1] = ((set_FO (set_Direction zero_tpdu (1)) (1)), Err (DecodeErr "SmsSubmit.mr" 1 ErrUnderflow)).
Proof. vm_compute. reflexivity. Qed.
(** encoding/tpdu/tpdu_test.go:2055 SmsSubmit underflow da *)
Example vec_tpdu_left_43 : unmarshal_left (set_Direction zero_tpdu 1) [1; 35] = ((set_MR (set_FO (set_Direction zero_tpdu (1)) (1)) (35)), Err (DecodeErr "SmsSubmit.da.addr" 2 ErrUnderflow)).
Proof. vm_compute. reflexivity. Qed.
(** encoding/tpdu/tpdu_test.go:2066 SmsSubmit bad da *)
Example vec_tpdu_left_44 : unmarshal_left (set_Direction zero_tpdu 1) [1; 35; 4; 145; 54; 249; 0] = ((set_MR (set_FO (set_Direction zero_tpdu (1)) (1)) (35)), Err (DecodeErr "SmsSubmit.da.addr" 4 ErrUnderflow)).
Proof. vm_compute. reflexivity. Qed.
(** encoding/tpdu/tpdu_test.go:2077 SmsSubmit underflow pid *)
Example vec_tpdu_left_45 : unmarshal_left (set_Direction zero_tpdu 1) [1; 35; 4; 145; 54; 25] = ((set_DA (set_MR (set_FO (set_Direction zero_tpdu (1)) (1)) (35)) (ad 145 [54; 51; 57; 49])), Err (DecodeErr "SmsSubmit.pid" 6 ErrUnderflow)).
Proof. vm_compute. reflexivity. Qed.
(** encoding/tpdu/tpdu_test.go:2089 SmsSubmit underflow dcs *)
Example vec_tpdu_left_46 : unmarshal_left (set_Direction zero_tpdu 1) [1; 35; 4; 145; 54; 25; 0] = ((set_DA (set_MR (set_FO (set_Direction zero_tpdu (1)) (1)) (35)) (ad 145 [54; 51; 57; 49])), Err (DecodeErr "SmsSubmit.dcs" 7 ErrUnderflow)).
Proof. vm_compute. reflexivity. Qed.
(** encoding/tpdu/tpdu_test.go:2101 SmsSubmit underflow vp *)
Example vec_tpdu_left_47 : unmarshal_left (set_Direction zero_tpdu 1) [17; 35; 4; 145; 54; 25; 52; 0] = ((set_PIDf (set_DA (set_MR (set_FO (set_Direction zero_tpdu (1)) (17)) (35)) (ad 145 [54; 51; 57; 49])) (52)), Err (DecodeErr "SmsSubmit.vp" 8 ErrUnderflow)).
Proof. vm_compute. reflexivity. Qed.
(** encoding/tpdu/tpdu_test.go:2114 SmsSubmit bad vp *)
Example vec_tpdu_left_48 : unmarshal_left (set_Direction zero_tpdu 1) [25; 35; 4; 145; 54; 25; 52; 0; 69; 8; 200; 48; 58; 140; 14; 163; 195] = ((set_PIDf (set_DA (set_MR (set_FO (set_Direction zero_tpdu (1)) (25)) (35)) (ad 145 [54; 51; 57; 49])) (52)), Err (DecodeErr "SmsSubmit.vp" 8 (BcdInvalidOctet 200))).
Proof. vm_compute. reflexivity. Qed.
(** encoding/tpdu/tpdu_test.go:2130 SmsSubmit underflow ud *)
Example vec_tpdu_left_49 : unmarshal_left (set_Direction zero_tpdu 1) [1; 35; 4; 145; 54; 25; 0; 0; 81; 80; 113; 50; 32; 5; 35; 8] = ((set_DA (set_MR (set_FO (set_Direction zero_tpdu (1)) (1)) (35)) (ad 145 [54; 51; 57; 49])), Err (DecodeErr "SmsSubmit.ud.sm" 9 ErrUnderflow)).
Proof. vm_compute. reflexivity. Qed.
(** encoding/tpdu/tpdu_test.go:2145 SmsSubmitReport minimal *)
Example vec_tpdu_left_50 : unmarshal_left (set_Direction zero_tpdu 0) [1; 18; 0; 81; 80; 113; 50; 32; 5; 35] = ((set_SCTS (set_FCS (set_FO (set_Direction zero_tpdu (0)) (1)) (18)) (go_date 2015 5 17 23 2 50 28800)), Ok (tt)).
Proof. vm_compute. reflexivity. Qed.
(** encoding/tpdu/tpdu_test.go:2160 SmsSubmitReport pid *)
Example vec_tpdu_left_51 : unmarshal_left (set_Direction zero_tpdu 0) [1; 18; 1; 81; 80; 113; 50; 32; 5; 35; 171] = ((set_PIDf (set_SCTS (set_PI (set_FCS (set_FO (set_Direction zero_tpdu (0)) (1)) (18)) (1)) (go_date 2015 5 17 23 2 50 28800)) (171)), Ok (tt)).
Proof. vm_compute. reflexivity. Qed.
(** encoding/tpdu/tpdu_test.go:2177 SmsSubmitReport dcs *)
Example vec_tpdu_left_52 : unmarshal_left (set_Direction zero_tpdu 0) [1; 18; 2; 81; 80; 113; 50; 32; 5; 35; 4] = ((set_DCSf (set_SCTS (set_PI (set_FCS (set_FO (set_Direction zero_tpdu (0)) (1)) (18)) (2)) (go_date 2015 5 17 23 2 50 28800)) (4)), Ok (tt)).
Proof. vm_compute. reflexivity. Qed.
(** encoding/tpdu/tpdu_test.go:2194 SmsSubmitReport ud *)
Example vec_tpdu_left_53 : unmarshal_left (set_Direction zero_tpdu 0) [1; 18; 6; 81; 80; 113; 50; 32; 5; 35; 4; 6; 114; 101; 112; 111; 114; 116] = ((set_UDf (set_DCSf (set_SCTS (set_PI (set_FCS (set_FO (set_Direction zero_tpdu (0)) (1)) (18)) (6)) (go_date 2015 5 17 23 2 50 28800)) (4)) ([114; 101; 112; 111; 114; 116])), Ok (tt)).
Proof. vm_compute. reflexivity. Qed.
(** encoding/tpdu/tpdu_test.go:2215 SmsSubmitReport underflow fcs *)
Example vec_tpdu_left_54 : unmarshal_left (set_Direction zero_tpdu 0) [1] = ((set_FO (set_Direction zero_tpdu (0)) (1)), Err (DecodeErr "SmsSubmitReport.fcs" 1 ErrUnderflow)).
Proof. vm_compute. reflexivity. Qed.
(** encoding/tpdu/tpdu_test.go:2225 SmsSubmitReport underflow pi *)
Example vec_tpdu_left_55 : unmarshal_left (set_Direction zero_tpdu 0) [1; 18] = ((set_FCS (set_FO (set_Direction zero_tpdu (0)) (1)) (18)), Err (DecodeErr "SmsSubmitReport.pi" 2 ErrUnderflow)).
Proof. vm_compute. reflexivity. Qed.
(** encoding/tpdu/tpdu_test.go:2236 SmsSubmitReport underflow scts *)
Example vec_tpdu_left_56 : unmarshal_left (set_Direction zero_tpdu 0) [1; 18; 0] = ((set_FCS (set_FO (set_Direction zero_tpdu (0)) (1)) (18)), Err (DecodeErr "SmsSubmitReport.scts" 3 ErrUnderflow)).
Proof. vm_compute. reflexivity. Qed.
(** encoding/tpdu/tpdu_test.go:2247 SmsSubmitReport bad scts *)
Example vec_tpdu_left_57 : unmarshal_left (set_Direction zero_tpdu 0) [1; 18; 0; 81; 80; 241; 50; 32; 5; 35] = ((set_FCS (set_FO (set_Direction zero_tpdu (0)) (1)) (18)), Err (DecodeErr "SmsSubmitReport.scts" 3 (BcdInvalidOctet 241))).
Proof. vm_compute. reflexivity. Qed.
(** encoding/tpdu/tpdu_test.go:2258 SmsSubmitReport underflow pid *)
Example vec_tpdu_left_58 : unmarshal_left (set_Direction zero_tpdu 0) [1; 18; 1; 81; 80; 113; 50; 32; 5; 35] = ((set_SCTS (set_PI (set_FCS (set_FO (set_Direction zero_tpdu (0)) (1)) (18)) (1)) (go_date 2015 5 17 23 2 50 28800)), Err (DecodeErr "SmsSubmitReport.pid" 10 ErrUnderflow)).
Proof. vm_compute. reflexivity. Qed.
(** encoding/tpdu/tpdu_test.go:2273 SmsSubmitReport underflow dcs *)
Example vec_tpdu_left_59 : unmarshal_left (set_Direction zero_tpdu 0) [1; 18; 2; 81; 80; 113; 50; 32; 5; 35] = ((set_SCTS (set_PI (set_FCS (set_FO (set_Direction zero_tpdu (0)) (1)) (18)) (2)) (go_date 2015 5 17 23 2 50 28800)), Err (DecodeErr "SmsSubmitReport.dcs" 10 ErrUnderflow)).
Proof. vm_compute. reflexivity. Qed.
(** encoding/tpdu/tpdu_test.go:2288 SmsSubmitReport underflow ud *)
Example vec_tpdu_left_60 : unmarshal_left (set_Direction zero_tpdu 0) [1; 18; 6; 81; 80; 113; 50; 32; 5; 35; 4] = ((set_DCSf (set_SCTS (set_PI (set_FCS (set_FO (set_Direction zero_tpdu (0)) (1)) (18)) (6)) (go_date 2015 5 17 23 2 50 28800)) (4)), Err (DecodeErr "SmsSubmitReport.ud.udl" 11 ErrUnderflow)).
Proof. vm_compute. reflexivity. Qed.
(** encoding/pdumode/smscaddress_test.go:23 empty *)
Example vec_smsc_marshal_1 : smsc_marshal (zero_address) = Ok ([0]).
Proof. vm_compute. reflexivity. Qed.
(** encoding/pdumode/smscaddress_test.go:29 number *)
Example vec_smsc_marshal_2 : smsc_marshal (ad 145 [54; 49; 52; 48; 57; 56; 54; 53; 54; 50; 57]) = Ok ([7; 145; 22; 4; 137; 86; 38; 249]).
Proof. vm_compute. reflexivity. Qed.
(** encoding/pdumode/smscaddress_test.go:37 number alphabet *)
Example vec_smsc_marshal_3 : smsc_marshal (ad 145 [48; 49; 50; 51; 52; 53; 54; 55; 56; 57; 42; 35; 97; 98; 99]) = Ok ([9; 145; 16; 50; 84; 118; 152; 186; 220; 254]).
Proof. vm_compute. reflexivity. Qed.
(** encoding/pdumode/smscaddress_test.go:45 alpha *)
Example vec_smsc_marshal_4 : smsc_marshal (ad 209 [109; 101; 115; 115; 97; 103; 101; 115]) = Err (EncodeErr "addr" (SemiInvalidDigit 109)).
Proof. vm_compute. reflexivity. Qed.
(** encoding/pdumode/smscaddress_test.go:53 invalid number *)
Example vec_smsc_marshal_5 : smsc_marshal (ad 145 [54; 49; 52; 48; 102; 57; 56; 54; 53; 54]) = Err (EncodeErr "addr" (SemiInvalidDigit 102)).
Proof. vm_compute. reflexivity. Qed.
(** encoding/pdumode/smscaddress_test.go:80 nil *)
Example vec_smsc_unmarshal_1 : smsc_unmarshal zero_address [] = Err (DecodeErr "length" 0 ErrUnderflow).
Proof. vm_compute. reflexivity. Qed.
(** encoding/pdumode/smscaddress_test.go:87 only toa *)
Example vec_smsc_unmarshal_2 : smsc_unmarshal zero_address [1; 0] = Ok (zero_address, 2).
Proof. vm_compute. reflexivity. Qed.
(** encoding/pdumode/smscaddress_test.go:94 number *)
Example vec_smsc_unmarshal_3 : smsc_unmarshal zero_address [7; 145; 22; 4; 137; 86; 38; 249] = Ok (ad 145 [54; 49; 52; 48; 57; 56; 54; 53; 54; 50; 57], 8).
Proof. vm_compute. reflexivity. Qed.
(** encoding/pdumode/smscaddress_test.go:103 number alphabet *)
Example vec_smsc_unmarshal_4 : smsc_unmarshal zero_address [9; 145; 16; 50; 84; 118; 152; 186; 220; 254] = Ok (ad 145 [48; 49; 50; 51; 52; 53; 54; 55; 56; 57; 42; 35; 97; 98; 99], 10).
Proof. vm_compute. reflexivity. Qed.
(** encoding/pdumode/smscaddress_test.go:112 alpha *)
Example vec_smsc_unmarshal_5 : smsc_unmarshal zero_address [8; 209; 237; 242; 124; 30; 62; 151; 231] = Ok (ad 209 [98; 99; 50; 97; 55; 99; 49; 99; 51; 55; 57; 55; 99], 9).
Proof. vm_compute. reflexivity. Qed.
(** encoding/pdumode/smscaddress_test.go:121 zero length *)
Example vec_smsc_unmarshal_6 : smsc_unmarshal zero_address [0] = Ok (zero_address, 1).
Proof. vm_compute. reflexivity. Qed.
(** encoding/pdumode/smscaddress_test.go:128 short number *)
Example vec_smsc_unmarshal_7 : smsc_unmarshal zero_address [11; 145; 22; 4; 137; 86] = Err (DecodeErr "addr" 2 ErrUnderflow).
Proof. vm_compute. reflexivity. Qed.
(** encoding/pdumode/smscaddress_test.go:135 short number pad *)
Example vec_smsc_unmarshal_8 : smsc_unmarshal zero_address [12; 145; 22; 4; 137; 86; 151; 247] = Err (DecodeErr "addr" 2 ErrUnderflow).
Proof. vm_compute. reflexivity. Qed.
(** encoding/pdumode/smscaddress_test.go:142 underflow alpha *)
Example vec_smsc_unmarshal_9 : smsc_unmarshal zero_address [5; 209; 207; 229; 57] = Err (DecodeErr "addr" 2 ErrUnderflow).
Proof. vm_compute. reflexivity. Qed.
(** encoding/pdumode/smscaddress_test.go:149 underflow toa *)
Example vec_smsc_unmarshal_10 : smsc_unmarshal zero_address [1] = Err (DecodeErr "toa" 1 ErrUnderflow).
Proof. vm_compute. reflexivity. Qed.
(** encoding/pdumode/pdu_test.go:28 empty *)
Example vec_pdu_unmarshal_1 : pdu_unmarshal [] = Err (DecodeErr "length" 0 ErrUnderflow).
Proof. vm_compute. reflexivity. Qed.
(** encoding/pdumode/pdu_test.go:35 valid *)
Example vec_pdu_unmarshal_2 : pdu_unmarshal [7; 145; 54; 25; 7; 0; 32; 57; 1; 2; 3; 4; 5; 6; 7; 8; 9] = Ok ({| p_smsc := ad 145 [54; 51; 57; 49; 55; 48; 48; 48; 48; 50; 57; 51]; p_tpdu := [1; 2; 3; 4; 5; 6; 7; 8; 9] |}).
Proof. vm_compute. reflexivity. Qed.
(** encoding/pdumode/pdu_test.go:67 nothex *)
Example vec_pdu_unmarshal_hex_1 : pdu_unmarshal_hex [110; 111; 116; 104; 101; 120] = Err (HexInvalidByte 110).
Proof. vm_compute. reflexivity. Qed.
(** encoding/pdumode/pdu_test.go:74 empty *)
Example vec_pdu_unmarshal_hex_2 : pdu_unmarshal_hex [] = Err (DecodeErr "length" 0 ErrUnderflow).
Proof. vm_compute. reflexivity. Qed.
(** encoding/pdumode/pdu_test.go:81 valid *)
Example vec_pdu_unmarshal_hex_3 : pdu_unmarshal_hex [48; 55; 57; 49; 51; 54; 49; 57; 48; 55; 48; 48; 50; 48; 51; 57; 48; 49; 48; 50; 48; 51; 48; 52; 48; 53; 48; 54; 48; 55; 48; 56; 48; 57] = Ok ({| p_smsc := ad 145 [54; 51; 57; 49; 55; 48; 48; 48; 48; 50; 57; 51]; p_tpdu := [1; 2; 3; 4; 5; 6; 7; 8; 9] |}).
Proof. vm_compute. reflexivity. Qed.
(** encoding/pdumode/pdu_test.go:108 empty *)
Example vec_pdu_marshal_1 : pdu_marshal {| p_smsc := zero_address; p_tpdu := [] |} = Ok ([0]).
Proof. vm_compute. reflexivity. Qed.
(** encoding/pdumode/pdu_test.go:115 valid *)
Example vec_pdu_marshal_2 : pdu_marshal {| p_smsc := ad 145 [54; 51; 57; 49; 55; 48; 48; 48; 48; 50; 57; 51]; p_tpdu := [1; 2; 3; 4; 5; 6; 7; 8; 9] |} = Ok ([7; 145; 54; 25; 7; 0; 32; 57; 1; 2; 3; 4; 5; 6; 7; 8; 9]).
Proof. vm_compute. reflexivity. Qed.
(** encoding/pdumode/pdu_test.go:123 invalid addr *)
Example vec_pdu_marshal_3 : pdu_marshal {| p_smsc := ad 0 [98; 97; 110; 97; 110; 97]; p_tpdu := [] |} = Err (EncodeErr "addr" (SemiInvalidDigit 110)).
Proof. vm_compute. reflexivity. Qed.
(** encoding/pdumode/pdu_test.go:146 empty *)
Example vec_pdu_marshal_hex_1 : pdu_marshal_hex {| p_smsc := zero_address; p_tpdu := [] |} = Ok ([48; 48]).
Proof. vm_compute. reflexivity. Qed.
(** encoding/pdumode/pdu_test.go:153 valid *)
Example vec_pdu_marshal_hex_2 : pdu_marshal_hex {| p_smsc := ad 145 [54; 51; 57; 49; 55; 48; 48; 48; 48; 50; 57; 51]; p_tpdu := [1; 2; 3; 4; 5; 6; 7; 8; 9] |} = Ok ([48; 55; 57; 49; 51; 54; 49; 57; 48; 55; 48; 48; 50; 48; 51; 57; 48; 49; 48; 50; 48; 51; 48; 52; 48; 53; 48; 54; 48; 55; 48; 56; 48; 57]).
Proof. vm_compute. reflexivity. Qed.
(** encoding/pdumode/pdu_test.go:162 invalid addr *)
Example vec_pdu_marshal_hex_3 : pdu_marshal_hex {| p_smsc := ad 0 [98; 97; 110; 97; 110; 97]; p_tpdu := [] |} = Err (EncodeErr "addr" (SemiInvalidDigit 110)).
Proof. vm_compute. reflexivity. Qed.
(** encode_test.go:30 nil *)
Example vec_encode_1 : encode [] [] = Ok ([]).
Proof. vm_compute. reflexivity. Qed.
(** encode_test.go:37 empty *)
Example vec_encode_2 : encode [] [] = Ok ([]).
Proof. vm_compute. reflexivity. Qed.
(** encode_test.go:44 single segment *)
Example vec_encode_3 : encode [104; 101; 108; 108; 111] [] = Ok ([(set_UDf (set_MR (set_FO (set_Direction zero_tpdu (1)) (1)) (1)) ([104; 101; 108; 108; 111]))]).
Proof. vm_compute. reflexivity. Qed.
(** encode_test.go:58 single segment grin *)
Example vec_encode_4 : encode [104; 101; 108; 108; 111; 32; 240; 159; 152; 129] [] = Ok ([(set_UDf (set_DCSf (set_PI (set_MR (set_FO (set_Direction zero_tpdu (1)) (1)) (1)) (2)) (8)) ([0; 104; 0; 101; 0; 108; 0; 108; 0; 111; 0; 32; 216; 61; 222; 1]))]).
Proof. vm_compute. reflexivity. Qed.
(** encode_test.go:77 three grins *)
Example vec_encode_5 : encode [240; 159; 152; 129; 240; 159; 152; 129; 240; 159; 152; 129] [] = Ok ([(set_UDf (set_DCSf (set_PI (set_MR (set_FO (set_Direction zero_tpdu (1)) (1)) (1)) (2)) (8)) ([216; 61; 222; 1; 216; 61; 222; 1; 216; 61; 222; 1]))]).
Proof. vm_compute. reflexivity. Qed.
(** encode_test.go:96 single segment unused urdu *)
Example vec_encode_6 : encode [104; 101; 108; 108; 111] [EoCharset (OptCharset [13])] = Ok ([(set_UDf (set_MR (set_FO (set_Direction zero_tpdu (1)) (1)) (1)) ([104; 101; 108; 108; 111]))]).
Proof. vm_compute. reflexivity. Qed.
(** encode_test.go:110 single segment with urdu *)
Example vec_encode_7 : encode [104; 101; 108; 108; 111; 32; 216; 170] [EoCharset (OptCharset [13])] = Ok ([(set_UDf (set_UDHf (set_PI (set_MR (set_FO (set_Direction zero_tpdu (1)) (65)) (1)) (4)) (Some [el 25 [13]])) ([104; 101; 108; 108; 111; 32; 7]))]).
Proof. vm_compute. reflexivity. Qed.
(** encode_test.go:128 single segment with locking urdu *)
Example vec_encode_8 : encode [104; 101; 108; 108; 111; 32; 216; 170] [EoCharset (OptLocking [13])] = Ok ([(set_UDf (set_UDHf (set_PI (set_MR (set_FO (set_Direction zero_tpdu (1)) (65)) (1)) (4)) (Some [el 25 [13]])) ([104; 101; 108; 108; 111; 32; 7]))]).
Proof. vm_compute. reflexivity. Qed.
(** encode_test.go:146 single segment with shift urdu *)
Example vec_encode_9 : encode [104; 101; 108; 108; 111; 32; 216; 142] [EoCharset (OptShift [13])] = Ok ([(set_UDf (set_UDHf (set_PI (set_MR (set_FO (set_Direction zero_tpdu (1)) (65)) (1)) (4)) (Some [el 24 [13]])) ([104; 101; 108; 108; 111; 32; 27; 42]))]).
Proof. vm_compute. reflexivity. Qed.
(** encode_test.go:164 single segment discovered urdu *)
Example vec_encode_10 : encode [104; 101; 108; 108; 111; 32; 216; 170; 216; 142] [EoCharset (OptAllCharsets)] = Ok ([(set_UDf (set_UDHf (set_PI (set_MR (set_FO (set_Direction zero_tpdu (1)) (65)) (1)) (4)) (Some [el 25 [13]; el 24 [13]])) ([104; 101; 108; 108; 111; 32; 7; 27; 42]))]).
Proof. vm_compute. reflexivity. Qed.
(** encode_test.go:183 single segment UCS2 *)
Example vec_encode_11 : encode [104; 101; 108; 108; 111; 33] [AsUCS2] = Ok ([(set_UDf (set_DCSf (set_PI (set_MR (set_FO (set_Direction zero_tpdu (1)) (1)) (1)) (2)) (8)) ([104; 101; 108; 108; 111; 33]))]).
Proof. vm_compute. reflexivity. Qed.
(** encode_test.go:199 dcs conflict *)
Example vec_encode_12 : encode [104; 101; 108; 108; 111; 32; 240; 159; 152; 129] [EoTemplateOption (OptDCS 128)] = Err ErrDcsConflict.
Proof. vm_compute. reflexivity. Qed.
(** encode_test.go:206 deliver single segment *)
Example vec_encode_13 : encode [104; 101; 108; 108; 111] [AsDeliver] = Ok ([(set_UDf (set_MR zero_tpdu (1)) ([104; 101; 108; 108; 111]))]).
Proof. vm_compute. reflexivity. Qed.
(** encode_test.go:218 number *)
Example vec_encode_14 : encode [104; 101; 108; 108; 111] [To [49; 50; 51; 52]] = Ok ([(set_UDf (set_DA (set_MR (set_FO (set_Direction zero_tpdu (1)) (1)) (1)) (ad 145 [49; 50; 51; 52])) ([104; 101; 108; 108; 111]))]).
Proof. vm_compute. reflexivity. Qed.
(** encode_test.go:233 deliver number *)
Example vec_encode_15 : encode [104; 101; 108; 108; 111] [AsDeliver; From [49; 50; 51; 52]] = Ok ([(set_UDf (set_MR (set_OA zero_tpdu (ad 145 [49; 50; 51; 52])) (1)) ([104; 101; 108; 108; 111]))]).
Proof. vm_compute. reflexivity. Qed.
(** encode_test.go:246 plus number *)
Example vec_encode_16 : encode [104; 101; 108; 108; 111] [To [43; 49; 50; 51; 52]] = Ok ([(set_UDf (set_DA (set_MR (set_FO (set_Direction zero_tpdu (1)) (1)) (1)) (ad 145 [49; 50; 51; 52])) ([104; 101; 108; 108; 111]))]).
Proof. vm_compute. reflexivity. Qed.
(** encode_test.go:261 two segment 7bit *)
Example vec_encode_17 : encode [116; 104; 105; 115; 32; 105; 115; 32; 97; 32; 118; 101; 114; 121; 32; 108; 111; 110; 103; 32; 109; 101; 115; 115; 97; 103; 101; 32; 116; 104; 97; 116; 32; 100; 111; 101; 115; 32; 110; 111; 116; 32; 102; 105; 116; 32; 105; 110; 32; 97; 32; 115; 105; 110; 103; 108; 101; 32; 83; 77; 83; 32; 109; 101; 115; 115; 97; 103; 101; 44; 32; 97; 116; 32; 108; 101; 97; 115; 116; 32; 105; 116; 32; 119; 105; 108; 108; 32; 105; 102; 32; 73; 32; 107; 101; 101; 112; 32; 97; 100; 100; 105; 110; 103; 32; 109; 111; 114; 101; 32; 116; 111; 32; 105; 116; 32; 97; 115; 32; 49; 54; 48; 32; 99; 104; 97; 114; 97; 99; 116; 101; 114; 115; 32; 105; 115; 32; 109; 111; 114; 101; 32; 116; 104; 97; 110; 32; 121; 111; 117; 32; 109; 105; 103; 104; 116; 32; 116; 104; 105; 110; 107] [To [49; 50; 51; 52]] = Ok ([(set_UDf (set_UDHf (set_PI (set_DA (set_MR (set_FO (set_Direction zero_tpdu (1)) (65)) (1)) (ad 145 [49; 50; 51; 52])) (4)) (Some [el 0 [1; 2; 1]])) ([116; 104; 105; 115; 32; 105; 115; 32; 97; 32; 118; 101; 114; 121; 32; 108; 111; 110; 103; 32; 109; 101; 115; 115; 97; 103; 101; 32; 116; 104; 97; 116; 32; 100; 111; 101; 115; 32; 110; 111; 116; 32; 102; 105; 116; 32; 105; 110; 32; 97; 32; 115; 105; 110; 103; 108; 101; 32; 83; 77; 83; 32; 109; 101; 115; 115; 97; 103; 101; 44; 32; 97; 116; 32; 108; 101; 97; 115; 116; 32; 105; 116; 32; 119; 105; 108; 108; 32; 105; 102; 32; 73; 32; 107; 101; 101; 112; 32; 97; 100; 100; 105; 110; 103; 32; 109; 111; 114; 101; 32; 116; 111; 32; 105; 116; 32; 97; 115; 32; 49; 54; 48; 32; 99; 104; 97; 114; 97; 99; 116; 101; 114; 115; 32; 105; 115; 32; 109; 111; 114; 101; 32; 116; 104; 97; 110; 32; 121; 111; 117; 32; 109; 105])); (set_UDf (set_UDHf (set_PI (set_DA (set_MR (set_FO (set_Direction zero_tpdu (1)) (65)) (2)) (ad 145 [49; 50; 51; 52])) (4)) (Some [el 0 [1; 2; 2]])) ([103; 104; 116; 32; 116; 104; 105; 110; 107]))]).
Proof. vm_compute. reflexivity. Qed.
(** encode_test.go:291 two segment 7bit with UDH *)
Example vec_encode_18 : encode [116; 104; 105; 115; 32; 105; 115; 32; 97; 32; 118; 101; 114; 121; 32; 108; 111; 110; 103; 32; 109; 101; 115; 115; 97; 103; 101; 32; 116; 104; 97; 116; 32; 100; 111; 101; 115; 32; 110; 111; 116; 32; 102; 105; 116; 32; 105; 110; 32; 97; 32; 115; 105; 110; 103; 108; 101; 32; 83; 77; 83; 32; 109; 101; 115; 115; 97; 103; 101; 44; 32; 97; 116; 32; 108; 101; 97; 115; 116; 32; 105; 116; 32; 119; 105; 108; 108; 32; 105; 102; 32; 73; 32; 107; 101; 101; 112; 32; 97; 100; 100; 105; 110; 103; 32; 109; 111; 114; 101; 32; 116; 111; 32; 105; 116; 32; 97; 115; 32; 49; 54; 48; 32; 99; 104; 97; 114; 97; 99; 116; 101; 114; 115; 32; 105; 115; 32; 109; 111; 114; 101; 32; 116; 104; 97; 110; 32; 121; 111; 117; 32; 109; 105; 103; 104; 116; 32; 116; 104; 105; 110; 107] [To [49; 50; 51; 52]; EoTemplateOption (OptUDH (Some [el 3 [1; 2; 3]]))] = Ok ([(set_UDf (set_UDHf (set_PI (set_DA (set_MR (set_FO (set_Direction zero_tpdu (1)) (65)) (1)) (ad 145 [49; 50; 51; 52])) (4)) (Some [el 3 [1; 2; 3]; el 0 [1; 2; 1]])) ([116; 104; 105; 115; 32; 105; 115; 32; 97; 32; 118; 101; 114; 121; 32; 108; 111; 110; 103; 32; 109; 101; 115; 115; 97; 103; 101; 32; 116; 104; 97; 116; 32; 100; 111; 101; 115; 32; 110; 111; 116; 32; 102; 105; 116; 32; 105; 110; 32; 97; 32; 115; 105; 110; 103; 108; 101; 32; 83; 77; 83; 32; 109; 101; 115; 115; 97; 103; 101; 44; 32; 97; 116; 32; 108; 101; 97; 115; 116; 32; 105; 116; 32; 119; 105; 108; 108; 32; 105; 102; 32; 73; 32; 107; 101; 101; 112; 32; 97; 100; 100; 105; 110; 103; 32; 109; 111; 114; 101; 32; 116; 111; 32; 105; 116; 32; 97; 115; 32; 49; 54; 48; 32; 99; 104; 97; 114; 97; 99; 116; 101; 114; 115; 32; 105; 115; 32; 109; 111; 114; 101; 32; 116; 104; 97; 110; 32])); (set_UDf (set_UDHf (set_PI (set_DA (set_MR (set_FO (set_Direction zero_tpdu (1)) (65)) (2)) (ad 145 [49; 50; 51; 52])) (4)) (Some [el 3 [1; 2; 3]; el 0 [1; 2; 2]])) ([121; 111; 117; 32; 109; 105; 103; 104; 116; 32; 116; 104; 105; 110; 107]))]).
Proof. vm_compute. reflexivity. Qed.
(** encode_test.go:331 two segment 7bit with template *)
Example vec_encode_19 : encode [116; 104; 105; 115; 32; 105; 115; 32; 97; 32; 118; 101; 114; 121; 32; 108; 111; 110; 103; 32; 109; 101; 115; 115; 97; 103; 101; 32; 116; 104; 97; 116; 32; 100; 111; 101; 115; 32; 110; 111; 116; 32; 102; 105; 116; 32; 105; 110; 32; 97; 32; 115; 105; 110; 103; 108; 101; 32; 83; 77; 83; 32; 109; 101; 115; 115; 97; 103; 101; 44; 32; 97; 116; 32; 108; 101; 97; 115; 116; 32; 105; 116; 32; 119; 105; 108; 108; 32; 105; 102; 32; 73; 32; 107; 101; 101; 112; 32; 97; 100; 100; 105; 110; 103; 32; 109; 111; 114; 101; 32; 116; 111; 32; 105; 116; 32; 97; 115; 32; 49; 54; 48; 32; 99; 104; 97; 114; 97; 99; 116; 101; 114; 115; 32; 105; 115; 32; 109; 111; 114; 101; 32; 116; 104; 97; 110; 32; 121; 111; 117; 32; 109; 105; 103; 104; 116; 32; 116; 104; 105; 110; 107] [To [49; 50; 51; 52]; EoTemplate (set_UDHf (set_DCSf (set_DA zero_tpdu (ad 145 [52; 51; 50; 49])) (52)) (Some [el 3 [1; 2; 3]])); AsSubmit] = Ok ([(set_UDf (set_UDHf (set_DCSf (set_PI (set_DA (set_MR (set_FO (set_Direction zero_tpdu (1)) (65)) (1)) (ad 145 [52; 51; 50; 49])) (4)) (52)) (Some [el 3 [1; 2; 3]; el 0 [1; 2; 1]])) ([116; 104; 105; 115; 32; 105; 115; 32; 97; 32; 118; 101; 114; 121; 32; 108; 111; 110; 103; 32; 109; 101; 115; 115; 97; 103; 101; 32; 116; 104; 97; 116; 32; 100; 111; 101; 115; 32; 110; 111; 116; 32; 102; 105; 116; 32; 105; 110; 32; 97; 32; 115; 105; 110; 103; 108; 101; 32; 83; 77; 83; 32; 109; 101; 115; 115; 97; 103; 101; 44; 32; 97; 116; 32; 108; 101; 97; 115; 116; 32; 105; 116; 32; 119; 105; 108; 108; 32; 105; 102; 32; 73; 32; 107; 101; 101; 112; 32; 97; 100; 100; 105; 110; 103; 32; 109; 111; 114; 101; 32; 116; 111; 32; 105; 116; 32; 97; 115; 32; 49; 54; 48; 32; 99; 104; 97; 114; 97; 99])); (set_UDf (set_UDHf (set_DCSf (set_PI (set_DA (set_MR (set_FO (set_Direction zero_tpdu (1)) (65)) (2)) (ad 145 [52; 51; 50; 49])) (4)) (52)) (Some [el 3 [1; 2; 3]; el 0 [1; 2; 2]])) ([116; 101; 114; 115; 32; 105; 115; 32; 109; 111; 114; 101; 32; 116; 104; 97; 110; 32; 121; 111; 117; 32; 109; 105; 103; 104; 116; 32; 116; 104; 105; 110; 107]))]).
Proof. vm_compute. reflexivity. Qed.
(** encode_test.go:376 two segment 8bit *)
Example vec_encode_20 : encode [116; 104; 105; 115; 32; 105; 115; 32; 97; 32; 118; 101; 114; 121; 32; 108; 111; 110; 103; 32; 109; 101; 115; 115; 97; 103; 101; 32; 116; 104; 97; 116; 32; 100; 111; 101; 115; 32; 110; 111; 116; 32; 102; 105; 116; 32; 105; 110; 32; 97; 32; 115; 105; 110; 103; 108; 101; 32; 83; 77; 83; 32; 109; 101; 115; 115; 97; 103; 101; 44; 32; 97; 116; 32; 108; 101; 97; 115; 116; 32; 105; 116; 32; 119; 105; 108; 108; 32; 105; 102; 32; 73; 32; 107; 101; 101; 112; 32; 97; 100; 100; 105; 110; 103; 32; 109; 111; 114; 101; 32; 116; 111; 32; 105; 116; 32; 97; 115; 32; 49; 54; 48; 32; 99; 104; 97; 114; 97; 99; 116; 101; 114; 115; 32; 105; 115; 32; 109; 111; 114; 101; 32; 116; 104; 97; 110; 32; 121; 111; 117; 32; 109; 105; 103; 104; 116; 32; 116; 104; 105; 110; 107] [To [49; 50; 51; 52]; As8Bit] = Ok ([(set_UDf (set_UDHf (set_DCSf (set_PI (set_DA (set_MR (set_FO (set_Direction zero_tpdu (1)) (65)) (1)) (ad 145 [49; 50; 51; 52])) (6)) (4)) (Some [el 0 [1; 2; 1]])) ([116; 104; 105; 115; 32; 105; 115; 32; 97; 32; 118; 101; 114; 121; 32; 108; 111; 110; 103; 32; 109; 101; 115; 115; 97; 103; 101; 32; 116; 104; 97; 116; 32; 100; 111; 101; 115; 32; 110; 111; 116; 32; 102; 105; 116; 32; 105; 110; 32; 97; 32; 115; 105; 110; 103; 108; 101; 32; 83; 77; 83; 32; 109; 101; 115; 115; 97; 103; 101; 44; 32; 97; 116; 32; 108; 101; 97; 115; 116; 32; 105; 116; 32; 119; 105; 108; 108; 32; 105; 102; 32; 73; 32; 107; 101; 101; 112; 32; 97; 100; 100; 105; 110; 103; 32; 109; 111; 114; 101; 32; 116; 111; 32; 105; 116; 32; 97; 115; 32; 49; 54; 48; 32; 99; 104; 97; 114; 97; 99; 116; 101; 114; 115; 32])); (set_UDf (set_UDHf (set_DCSf (set_PI (set_DA (set_MR (set_FO (set_Direction zero_tpdu (1)) (65)) (2)) (ad 145 [49; 50; 51; 52])) (6)) (4)) (Some [el 0 [1; 2; 2]])) ([105; 115; 32; 109; 111; 114; 101; 32; 116; 104; 97; 110; 32; 121; 111; 117; 32; 109; 105; 103; 104; 116; 32; 116; 104; 105; 110; 107]))]).
Proof. vm_compute. reflexivity. Qed.
(** encode_test.go:408 deliver two segment 7bit *)
Example vec_encode_21 : encode [116; 104; 105; 115; 32; 105; 115; 32; 97; 32; 118; 101; 114; 121; 32; 108; 111; 110; 103; 32; 109; 101; 115; 115; 97; 103; 101; 32; 116; 104; 97; 116; 32; 100; 111; 101; 115; 32; 110; 111; 116; 32; 102; 105; 116; 32; 105; 110; 32; 97; 32; 115; 105; 110; 103; 108; 101; 32; 83; 77; 83; 32; 109; 101; 115; 115; 97; 103; 101; 44; 32; 97; 116; 32; 108; 101; 97; 115; 116; 32; 105; 116; 32; 119; 105; 108; 108; 32; 105; 102; 32; 73; 32; 107; 101; 101; 112; 32; 97; 100; 100; 105; 110; 103; 32; 109; 111; 114; 101; 32; 116; 111; 32; 105; 116; 32; 97; 115; 32; 49; 54; 48; 32; 99; 104; 97; 114; 97; 99; 116; 101; 114; 115; 32; 105; 115; 32; 109; 111; 114; 101; 32; 116; 104; 97; 110; 32; 121; 111; 117; 32; 109; 105; 103; 104; 116; 32; 116; 104; 105; 110; 107] [AsDeliver; From [49; 50; 51; 52]] = Ok ([(set_UDf (set_UDHf (set_PI (set_MR (set_OA (set_FO zero_tpdu (64)) (ad 145 [49; 50; 51; 52])) (1)) (4)) (Some [el 0 [1; 2; 1]])) ([116; 104; 105; 115; 32; 105; 115; 32; 97; 32; 118; 101; 114; 121; 32; 108; 111; 110; 103; 32; 109; 101; 115; 115; 97; 103; 101; 32; 116; 104; 97; 116; 32; 100; 111; 101; 115; 32; 110; 111; 116; 32; 102; 105; 116; 32; 105; 110; 32; 97; 32; 115; 105; 110; 103; 108; 101; 32; 83; 77; 83; 32; 109; 101; 115; 115; 97; 103; 101; 44; 32; 97; 116; 32; 108; 101; 97; 115; 116; 32; 105; 116; 32; 119; 105; 108; 108; 32; 105; 102; 32; 73; 32; 107; 101; 101; 112; 32; 97; 100; 100; 105; 110; 103; 32; 109; 111; 114; 101; 32; 116; 111; 32; 105; 116; 32; 97; 115; 32; 49; 54; 48; 32; 99; 104; 97; 114; 97; 99; 116; 101; 114; 115; 32; 105; 115; 32; 109; 111; 114; 101; 32; 116; 104; 97; 110; 32; 121; 111; 117; 32; 109; 105])); (set_UDf (set_UDHf (set_PI (set_MR (set_OA (set_FO zero_tpdu (64)) (ad 145 [49; 50; 51; 52])) (2)) (4)) (Some [el 0 [1; 2; 2]])) ([103; 104; 116; 32; 116; 104; 105; 110; 107]))]).
Proof. vm_compute. reflexivity. Qed.
(** sms_test.go:26 two segment 7bit *)
Example vec_decode_1 : decode (map Some [(set_UDf zero_tpdu ([116; 104; 105; 115; 32; 105; 115; 32; 97; 32; 118; 101; 114; 121; 32; 108; 111; 110; 103; 32; 109; 101; 115; 115; 97; 103; 101; 32; 116; 104; 97; 116; 32; 100; 111; 101; 115; 32; 110; 111; 116; 32; 102; 105; 116; 32; 105; 110; 32; 97; 32; 115; 105; 110; 103; 108; 101; 32; 83; 77; 83; 32; 109; 101; 115; 115; 97; 103; 101; 44; 32; 97; 116; 32; 108; 101; 97; 115; 116; 32; 105; 116; 32; 119; 105; 108; 108; 32; 105; 102; 32; 73; 32; 107; 101; 101; 112; 32; 97; 100; 100; 105; 110; 103; 32; 109; 111; 114; 101; 32; 116; 111; 32; 105; 116; 32; 97; 115; 32; 49; 54; 48; 32; 99; 104; 97; 114; 97; 99; 116; 101; 114; 115; 32; 105; 115; 32; 109; 111; 114; 101; 32; 116; 104; 97; 110; 32; 121; 111; 117; 32; 109; 105])); (set_UDf zero_tpdu ([103; 104; 116; 32; 116; 104; 105; 110; 107]))]) [] = Ok ([116; 104; 105; 115; 32; 105; 115; 32; 97; 32; 118; 101; 114; 121; 32; 108; 111; 110; 103; 32; 109; 101; 115; 115; 97; 103; 101; 32; 116; 104; 97; 116; 32; 100; 111; 101; 115; 32; 110; 111; 116; 32; 102; 105; 116; 32; 105; 110; 32; 97; 32; 115; 105; 110; 103; 108; 101; 32; 83; 77; 83; 32; 109; 101; 115; 115; 97; 103; 101; 44; 32; 97; 116; 32; 108; 101; 97; 115; 116; 32; 105; 116; 32; 119; 105; 108; 108; 32; 105; 102; 32; 73; 32; 107; 101; 101; 112; 32; 97; 100; 100; 105; 110; 103; 32; 109; 111; 114; 101; 32; 116; 111; 32; 105; 116; 32; 97; 115; 32; 49; 54; 48; 32; 99; 104; 97; 114; 97; 99; 116; 101; 114; 115; 32; 105; 115; 32; 109; 111; 114; 101; 32; 116; 104; 97; 110; 32; 121; 111; 117; 32; 109; 105; 103; 104; 116; 32; 116; 104; 105; 110; 107]).
Proof. vm_compute. reflexivity. Qed.
(** sms_test.go:40 two segment 8bit *)
Example vec_decode_2 : decode (map Some [(set_UDf (set_DCSf zero_tpdu (4)) ([116; 104; 105; 115; 32; 105; 115; 32; 97; 32; 118; 101; 114; 121; 32; 108; 111; 110; 103; 32; 109; 101; 115; 115; 97; 103; 101; 32; 116; 104; 97; 116; 32; 100; 111; 101; 115; 32; 110; 111; 116; 32; 102; 105; 116; 32; 105; 110; 32; 97; 32; 115; 105; 110; 103; 108; 101; 32; 83; 77; 83; 32; 109; 101; 115; 115; 97; 103; 101; 44; 32; 97; 116; 32; 108; 101; 97; 115; 116; 32; 105; 116; 32; 119; 105; 108; 108; 32; 105; 102; 32; 73; 32; 107; 101; 101; 112; 32; 97; 100; 100; 105; 110; 103; 32; 109; 111; 114; 101; 32; 116; 111; 32; 105; 116; 32; 97; 115; 32; 49; 54; 48; 32; 99; 104; 97; 114; 97; 99; 116; 101; 114; 115; 32; 105; 115; 32; 109; 111; 114; 101; 32; 116; 104; 97; 110; 32; 121; 111; 117; 32; 109; 105])); (set_UDf (set_DCSf zero_tpdu (4)) ([103; 104; 116; 32; 116; 104; 105; 110; 107]))]) [] = Ok ([116; 104; 105; 115; 32; 105; 115; 32; 97; 32; 118; 101; 114; 121; 32; 108; 111; 110; 103; 32; 109; 101; 115; 115; 97; 103; 101; 32; 116; 104; 97; 116; 32; 100; 111; 101; 115; 32; 110; 111; 116; 32; 102; 105; 116; 32; 105; 110; 32; 97; 32; 115; 105; 110; 103; 108; 101; 32; 83; 77; 83; 32; 109; 101; 115; 115; 97; 103; 101; 44; 32; 97; 116; 32; 108; 101; 97; 115; 116; 32; 105; 116; 32; 119; 105; 108; 108; 32; 105; 102; 32; 73; 32; 107; 101; 101; 112; 32; 97; 100; 100; 105; 110; 103; 32; 109; 111; 114; 101; 32; 116; 111; 32; 105; 116; 32; 97; 115; 32; 49; 54; 48; 32; 99; 104; 97; 114; 97; 99; 116; 101; 114; 115; 32; 105; 115; 32; 109; 111; 114; 101; 32; 116; 104; 97; 110; 32; 121; 111; 117; 32; 109; 105; 103; 104; 116; 32; 116; 104; 105; 110; 107]).
Proof. vm_compute. reflexivity. Qed.
(** sms_test.go:56 single segment 8bit *)
Example vec_decode_3 : decode (map Some [(set_UDf (set_DCSf zero_tpdu (4)) ([116; 104; 105; 115; 32; 105; 115; 32; 110; 111; 116; 32; 97; 32; 118; 101; 114; 121; 32; 108; 111; 110; 103; 32; 109; 101; 115; 115; 97; 103; 101]))]) [] = Ok ([116; 104; 105; 115; 32; 105; 115; 32; 110; 111; 116; 32; 97; 32; 118; 101; 114; 121; 32; 108; 111; 110; 103; 32; 109; 101; 115; 115; 97; 103; 101]).
Proof. vm_compute. reflexivity. Qed.
(** sms_test.go:68 single segment 7bit *)
Example vec_decode_4 : decode (map Some [(set_UDf zero_tpdu ([104; 101; 108; 108; 111; 32; 3]))]) [] = Ok ([104; 101; 108; 108; 111; 32; 194; 165]).
Proof. vm_compute. reflexivity. Qed.
(** sms_test.go:79 single segment 7bit implicit urdu *)
Example vec_decode_5 : decode (map Some [(set_UDf (set_UDHf zero_tpdu (Some [el 25 [13]])) ([104; 101; 108; 108; 111; 32; 3]))]) [] = Ok ([104; 101; 108; 108; 111; 32; 217; 187]).
Proof. vm_compute. reflexivity. Qed.
(** sms_test.go:93 single segment 7bit explicit urdu *)
Example vec_decode_6 : decode (map Some [(set_UDf (set_UDHf zero_tpdu (Some [el 25 [13]])) ([104; 101; 108; 108; 111; 32; 3]))]) [OptCharset [13]] = Ok ([104; 101; 108; 108; 111; 32; 217; 187]).
Proof. vm_compute. reflexivity. Qed.
(** sms_test.go:107 single segment 7bit locking urdu *)
Example vec_decode_7 : decode (map Some [(set_UDf (set_UDHf zero_tpdu (Some [el 25 [13]])) ([104; 101; 108; 108; 111; 32; 3]))]) [OptLocking [13]] = Ok ([104; 101; 108; 108; 111; 32; 217; 187]).
Proof. vm_compute. reflexivity. Qed.
(** sms_test.go:121 single segment 7bit shift urdu *)
Example vec_decode_8 : decode (map Some [(set_UDf (set_UDHf zero_tpdu (Some [el 24 [13]])) ([104; 101; 108; 108; 111; 32; 27; 43]))]) [OptShift [13]] = Ok ([104; 101; 108; 108; 111; 32; 216; 143]).
Proof. vm_compute. reflexivity. Qed.
(** sms_test.go:135 single segment 7bit urdu unsupported *)
Example vec_decode_9 : decode (map Some [(set_UDf (set_UDHf zero_tpdu (Some [el 25 [13]])) ([104; 101; 108; 108; 111; 32; 3]))]) [OptCharset []] = Ok ([104; 101; 108; 108; 111; 32; 194; 165]).
Proof. vm_compute. reflexivity. Qed.
(** sms_test.go:149 ucs2 split surrogate *)
Example vec_decode_10 : decode (map Some [(set_UDf (set_DCSf zero_tpdu (8)) ([216; 61; 222; 1; 216; 61])); (set_UDf (set_DCSf zero_tpdu (8)) ([222; 1; 216; 61; 222; 1]))]) [] = Ok ([240; 159; 152; 129; 240; 159; 152; 129; 240; 159; 152; 129]).
Proof. vm_compute. reflexivity. Qed.
(** sms_test.go:165 ucs2 dangling surrogate *)
Example vec_decode_11 : decode (map Some [(set_UDf (set_DCSf zero_tpdu (8)) ([216; 61; 222; 1; 216; 61]))]) [] = Err (Ucs2DanglingSurrogate [216; 61]).
Proof. vm_compute. reflexivity. Qed.
(** sms_test.go:177 ucs2 odd length *)
Example vec_decode_12 : decode (map Some [(set_UDf (set_DCSf zero_tpdu (8)) ([216; 61; 222; 1; 216]))]) [] = Err Ucs2InvalidLength.
Proof. vm_compute. reflexivity. Qed.
(** sms_test.go:206 nil *)
Example vec_complete_1 : is_complete_message [] = false.
Proof. vm_compute. reflexivity. Qed.
(** sms_test.go:211 empty *)
Example vec_complete_2 : is_complete_message [] = false.
Proof. vm_compute. reflexivity. Qed.
(** sms_test.go:216 single segment *)
Example vec_complete_3 : is_complete_message [zero_tpdu] = true.
Proof. vm_compute. reflexivity. Qed.
(** sms_test.go:223 segment count mismatch *)
Example vec_complete_4 : is_complete_message [(set_UDHf zero_tpdu (Some [el 0 [3; 2; 1]]))] = false.
Proof. vm_compute. reflexivity. Qed.
(** sms_test.go:234 segments mismatch *)
Example vec_complete_5 : is_complete_message [(set_UDHf zero_tpdu (Some [el 0 [3; 2; 1]])); (set_UDHf zero_tpdu (Some [el 0 [3; 3; 2]]))] = false.
Proof. vm_compute. reflexivity. Qed.
(** sms_test.go:250 concatRef mismatch *)
Example vec_complete_6 : is_complete_message [(set_UDHf zero_tpdu (Some [el 0 [3; 2; 1]])); (set_UDHf zero_tpdu (Some [el 0 [4; 2; 2]]))] = false.
Proof. vm_compute. reflexivity. Qed.
(** sms_test.go:266 misordered segments *)
Example vec_complete_7 : is_complete_message [(set_UDHf zero_tpdu (Some [el 0 [3; 2; 2]])); (set_UDHf zero_tpdu (Some [el 0 [3; 2; 1]]))] = false.
Proof. vm_compute. reflexivity. Qed.
(** sms_test.go:282 missing concat *)
Example vec_complete_8 : is_complete_message [(set_UDHf zero_tpdu (Some [el 0 [3; 2; 1]])); zero_tpdu] = false.
Proof. vm_compute. reflexivity. Qed.
(** sms_test.go:294 no concat *)
Example vec_complete_9 : is_complete_message [zero_tpdu; (set_UDHf zero_tpdu (Some [el 3 [3; 2; 2]]))] = false.
Proof. vm_compute. reflexivity. Qed.
(** sms_test.go:306 two segments *)
Example vec_complete_10 : is_complete_message [(set_UDHf zero_tpdu (Some [el 0 [3; 2; 1]])); (set_UDHf zero_tpdu (Some [el 0 [3; 2; 2]]))] = true.
Proof. vm_compute. reflexivity. Qed.
(** sms_test.go:342 empty *)
Example vec_unmarshal_1 : unmarshal [] false = Err (DecodeErr "tpdu.firstOctet" 0 ErrUnderflow).
Proof. vm_compute. reflexivity. Qed.
(** sms_test.go:349 deliver single segment *)
Example vec_unmarshal_2 : unmarshal [4; 4; 145; 54; 25; 0; 0; 81; 80; 113; 50; 32; 5; 35; 8; 200; 48; 58; 140; 14; 163; 195] false = Ok ((set_UDf (set_SCTS (set_OA (set_FO zero_tpdu (4)) (ad 145 [54; 51; 57; 49])) (go_date 2015 5 17 23 2 50 28800)) ([72; 97; 104; 97; 104; 97; 104; 97]))).
Proof. vm_compute. reflexivity. Qed.
(** sms_test.go:367 submit single segment *)
Example vec_unmarshal_3 : unmarshal [49; 7; 4; 145; 54; 25; 0; 0; 169; 8; 200; 48; 58; 140; 14; 163; 195] true = Ok ((set_UDf (set_VPf (set_DA (set_MR (set_FO (set_Direction zero_tpdu (1)) (49)) (7)) (ad 145 [54; 51; 57; 49])) ({| vp_format := 2; vp_time := zero_time; vp_duration := 259200000000000; vp_efi := 0 |})) ([72; 97; 104; 97; 104; 97; 104; 97]))).
Proof. vm_compute. reflexivity. Qed.
(** sms_test.go:387 submitreport *)
Example vec_unmarshal_4 : unmarshal [6; 24; 4; 145; 54; 25; 17; 16; 17; 113; 149; 81; 64; 17; 16; 17; 113; 149; 113; 64; 0] false = Ok ((set_DT (set_SCTS (set_RA (set_MR (set_FO zero_tpdu (6)) (24)) (ad 145 [54; 51; 57; 49])) (go_date 2011 1 11 17 59 15 3600)) (go_date 2011 1 11 17 59 17 3600))).
Proof. vm_compute. reflexivity. Qed.
(** collect_test.go:37 the whole table, Close between its two parts *)
Example vec_collect_1 : collect_all new_collector 0 [Some (set_OA zero_tpdu (ad 145 [49; 50; 51; 52])); Some (set_UDHf (set_OA zero_tpdu (ad 145 [49; 50; 51; 52])) (Some [el 0 [1; 1; 1]])); Some (set_UDHf (set_OA zero_tpdu (ad 145 [49; 50; 51; 52])) (Some [el 0 [2; 2; 1]])); Some (set_UDHf (set_OA zero_tpdu (ad 145 [49; 50; 51; 52])) (Some [el 0 [2; 2; 2]])); Some (set_UDHf (set_OA zero_tpdu (ad 145 [49; 50; 51; 52])) (Some [el 0 [3; 3; 1]])); Some (set_UDHf (set_OA zero_tpdu (ad 145 [49; 50; 51; 52])) (Some [el 0 [3; 3; 2]])); Some (set_UDHf (set_OA zero_tpdu (ad 145 [49; 50; 51; 52])) (Some [el 0 [3; 3; 3]])); Some (set_UDHf (set_OA zero_tpdu (ad 145 [49; 50; 51; 52])) (Some [el 0 [4; 3; 1]])); Some (set_UDHf (set_OA zero_tpdu (ad 145 [49; 50; 51; 52])) (Some [el 0 [4; 3; 3]])); Some (set_UDHf (set_OA zero_tpdu (ad 145 [49; 50; 51; 52])) (Some [el 0 [4; 3; 3]])); Some (set_UDHf (set_OA zero_tpdu (ad 145 [49; 50; 51; 52])) (Some [el 0 [4; 3; 2]])); Some (set_UDHf (set_OA zero_tpdu (ad 145 [49; 50; 51; 52])) (Some [el 0 [5; 2; 1]])); Some (set_UDHf (set_OA zero_tpdu (ad 145 [49; 50; 51; 52])) (Some [el 0 [6; 2; 1]])); Some (set_UDHf (set_OA zero_tpdu (ad 145 [49; 50; 51; 52])) (Some [el 0 [5; 2; 2]])); Some (set_UDHf (set_OA zero_tpdu (ad 145 [49; 50; 51; 52])) (Some [el 0 [6; 2; 2]])); Some (set_UDHf (set_OA zero_tpdu (ad 145 [49; 50; 51; 52])) (Some [el 8 [4; 4; 2; 1]])); Some (set_UDHf (set_OA zero_tpdu (ad 145 [49; 50; 51; 52])) (Some [el 8 [4; 4; 2; 2]])); Some (set_UDHf (set_DA (set_FO (set_Direction zero_tpdu (1)) (1)) (ad 145 [49; 50; 51; 52])) (Some [el 0 [2; 2; 1]])); Some (set_UDHf (set_DA (set_FO (set_Direction zero_tpdu (1)) (1)) (ad 145 [49; 50; 51; 52])) (Some [el 0 [2; 2; 2]])); Some (set_UDHf (set_OA zero_tpdu (ad 145 [49; 50; 51; 52])) (Some [el 0 [7; 2; 0]])); Some (set_UDHf (set_OA zero_tpdu (ad 145 [49; 50; 51; 52])) (Some [el 0 [8; 2; 3]])); Some (set_UDHf (set_Direction zero_tpdu (1)) (Some [el 0 [8; 2; 1]])); None; Some (set_OA zero_tpdu (ad 145 [49; 50; 51; 52])); Some (set_UDHf (set_OA zero_tpdu (ad 145 [49; 50; 51; 52])) (Some [el 0 [4; 3; 1]]))] = [Some (Some [(set_OA zero_tpdu (ad 145 [49; 50; 51; 52]))], None); Some (Some [(set_UDHf (set_OA zero_tpdu (ad 145 [49; 50; 51; 52])) (Some [el 0 [1; 1; 1]]))], None); Some (None, None); Some (Some [(set_UDHf (set_OA zero_tpdu (ad 145 [49; 50; 51; 52])) (Some [el 0 [2; 2; 1]])); (set_UDHf (set_OA zero_tpdu (ad 145 [49; 50; 51; 52])) (Some [el 0 [2; 2; 2]]))], None); Some (None, None); Some (None, None); Some (Some [(set_UDHf (set_OA zero_tpdu (ad 145 [49; 50; 51; 52])) (Some [el 0 [3; 3; 1]])); (set_UDHf (set_OA zero_tpdu (ad 145 [49; 50; 51; 52])) (Some [el 0 [3; 3; 2]])); (set_UDHf (set_OA zero_tpdu (ad 145 [49; 50; 51; 52])) (Some [el 0 [3; 3; 3]]))], None); Some (None, None); Some (None, None); Some (None, Some ErrDuplicateSegment); Some (Some [(set_UDHf (set_OA zero_tpdu (ad 145 [49; 50; 51; 52])) (Some [el 0 [4; 3; 1]])); (set_UDHf (set_OA zero_tpdu (ad 145 [49; 50; 51; 52])) (Some [el 0 [4; 3; 2]])); (set_UDHf (set_OA zero_tpdu (ad 145 [49; 50; 51; 52])) (Some [el 0 [4; 3; 3]]))], None); Some (None, None); Some (None, None); Some (Some [(set_UDHf (set_OA zero_tpdu (ad 145 [49; 50; 51; 52])) (Some [el 0 [5; 2; 1]])); (set_UDHf (set_OA zero_tpdu (ad 145 [49; 50; 51; 52])) (Some [el 0 [5; 2; 2]]))], None); Some (Some [(set_UDHf (set_OA zero_tpdu (ad 145 [49; 50; 51; 52])) (Some [el 0 [6; 2; 1]])); (set_UDHf (set_OA zero_tpdu (ad 145 [49; 50; 51; 52])) (Some [el 0 [6; 2; 2]]))], None); Some (None, None); Some (Some [(set_UDHf (set_OA zero_tpdu (ad 145 [49; 50; 51; 52])) (Some [el 8 [4; 4; 2; 1]])); (set_UDHf (set_OA zero_tpdu (ad 145 [49; 50; 51; 52])) (Some [el 8 [4; 4; 2; 2]]))], None); Some (None, None); Some (Some [(set_UDHf (set_DA (set_FO (set_Direction zero_tpdu (1)) (1)) (ad 145 [49; 50; 51; 52])) (Some [el 0 [2; 2; 1]])); (set_UDHf (set_DA (set_FO (set_Direction zero_tpdu (1)) (1)) (ad 145 [49; 50; 51; 52])) (Some [el 0 [2; 2; 2]]))], None); Some (None, Some ErrReassemblyInconsistency); Some (None, Some ErrReassemblyInconsistency); Some (None, Some (ErrUnsupportedSmsType 1)); None; Some (None, Some ErrClosed); Some (None, Some ErrClosed)].
Proof. vm_compute. reflexivity. Qed.
(** cmd/smscounter/smscounter_test.go:21 std *)
Example vec_new_count_1 : new_count [99; 111; 110; 116; 101; 110; 116; 32; 111; 102; 32; 116; 104; 101; 32; 83; 77; 83] 0 = Ok {| k_encoding := "7BIT"; k_messages := 1; k_tlen := 18; k_llen := 18; k_pdulen := 160; k_remaining := 142 |}.
Proof. vm_compute. reflexivity. Qed.
(** cmd/smscounter/smscounter_test.go:28 grin *)
Example vec_new_count_2 : new_count [104; 101; 108; 108; 111; 32; 240; 159; 152; 129] 0 = Ok {| k_encoding := "UCS-2"; k_messages := 1; k_tlen := 8; k_llen := 8; k_pdulen := 70; k_remaining := 62 |}.
Proof. vm_compute. reflexivity. Qed.
(** cmd/smscounter/smscounter_test.go:35 urdu locking *)
Example vec_new_count_3 : new_count [104; 105; 32; 216; 170] 13 = Ok {| k_encoding := "7BIT"; k_messages := 1; k_tlen := 4; k_llen := 4; k_pdulen := 155; k_remaining := 151 |}.
Proof. vm_compute. reflexivity. Qed.
(** cmd/smscounter/smscounter_test.go:42 urdu extended *)
Example vec_new_count_4 : new_count [104; 105; 32; 216; 142] 13 = Ok {| k_encoding := "7BIT_EX"; k_messages := 1; k_tlen := 5; k_llen := 5; k_pdulen := 155; k_remaining := 150 |}.
Proof. vm_compute. reflexivity. Qed.
(** cmd/smscounter/smscounter_test.go:49 urdu locking and extended *)
Example vec_new_count_5 : new_count [104; 105; 32; 216; 170; 216; 142] 13 = Ok {| k_encoding := "7BIT_EX"; k_messages := 1; k_tlen := 6; k_llen := 6; k_pdulen := 152; k_remaining := 146 |}.
Proof. vm_compute. reflexivity. Qed.
(** cmd/smsdecode/smsdecode_test.go:24 invalid hex *)
Example vec_smsdecode_1 : bind (smsdecode [98; 97; 100; 32; 104; 101; 120] false false) (fun r => Ok (fst r)) = Err (HexInvalidByte 32).
Proof. vm_compute. reflexivity. Qed.
(** cmd/smsdecode/smsdecode_test.go:32 decode fail *)
Example vec_smsdecode_2 : bind (smsdecode [48; 49; 48; 48; 48; 53; 57; 49; 50; 49; 52; 51; 102; 53; 48; 48; 48; 48; 48; 98; 99; 56; 51; 50; 57; 98; 102; 100; 48; 54; 100; 100; 100; 102; 55; 50; 51; 54] false true) (fun r => Ok (fst r)) = Err (DecodeErr "SmsSubmit.ud.sm" 10 ErrUnderflow).
Proof. vm_compute. reflexivity. Qed.
(** cmd/smsdecode/smsdecode_test.go:44 pdumode decode fail *)
Example vec_smsdecode_3 : bind (smsdecode [48; 55; 57; 49; 49; 54; 49; 52; 50; 50; 48; 57; 57; 49] true true) (fun r => Ok (fst r)) = Err (DecodeErr "addr" 2 ErrUnderflow).
Proof. vm_compute. reflexivity. Qed.
(** cmd/smsdecode/smsdecode_test.go:56 submit *)
Example vec_smsdecode_4 : bind (smsdecode [48; 49; 48; 48; 48; 53; 57; 49; 50; 49; 52; 51; 102; 53; 48; 48; 48; 48; 48; 98; 99; 56; 51; 50; 57; 98; 102; 100; 48; 54; 100; 100; 100; 102; 55; 50; 51; 54; 49; 57] false true) (fun r => Ok (fst r)) = Ok ((set_UDf (set_DA (set_FO (set_Direction zero_tpdu (1)) (1)) (ad 145 [49; 50; 51; 52; 53])) ([72; 101; 108; 108; 111; 32; 119; 111; 114; 108; 100]))).
Proof. vm_compute. reflexivity. Qed.
(** cmd/smsdecode/smsdecode_test.go:71 submit pdumode *)
Example vec_smsdecode_5 : bind (smsdecode [48; 55; 57; 49; 49; 54; 49; 52; 50; 50; 48; 57; 57; 49; 102; 49; 48; 49; 48; 48; 48; 53; 57; 49; 50; 49; 52; 51; 102; 53; 48; 48; 48; 48; 48; 98; 99; 56; 51; 50; 57; 98; 102; 100; 48; 54; 100; 100; 100; 102; 55; 50; 51; 54; 49; 57] true true) (fun r => Ok (fst r)) = Ok ((set_UDf (set_DA (set_FO (set_Direction zero_tpdu (1)) (1)) (ad 145 [49; 50; 51; 52; 53])) ([72; 101; 108; 108; 111; 32; 119; 111; 114; 108; 100]))).
Proof. vm_compute. reflexivity. Qed.
