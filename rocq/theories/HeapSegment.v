(** Segment once more, on slices that share memory (see Heap.v).  The values
    computed are those of Segment.v; what is added is where they are kept. *)
From Verif Require Import GoBase Gsm7 Dcs FirstOctet UserData Tpdu Segment Heap.

(** encoding/tpdu/tpdu.go:17-113 [TPDU]: [ht_rest] holds the fields other than
    UDH and UD (its own UDH and UD are not used); [None] is the nil UDH.  The
    Data of an element (encoding/tpdu/userdata.go:27-30) is kept by value:
    Segment makes a new Data for each element it adds and changes no other. *)
Record htpdu := { ht_rest : tpdu; ht_udh : option gslice; ht_ud : gslice }.

(** What a TPDU holds, given the elements and the octets in memory. *)
Definition held_udh (hi : heap ie) (u : option gslice) : udh := option_map (view hi) u.
Definition held (hi : heap ie) (hb : heap Z) (t : htpdu) : tpdu :=
  set_UDf (set_UDHf (ht_rest t) (held_udh hi (ht_udh t))) (view hb (ht_ud t)).

(** encoding/tpdu/tpdu.go:288-296 [SetUDH] of a non-nil header. *)
Definition h_set_udh (t : htpdu) (u : gslice) : htpdu :=
  {| ht_rest := set_FO (set_PI (ht_rest t) (Z.lor (PI (ht_rest t)) PiUDL)) (Z.lor (FO (ht_rest t)) FoUDHI);
     ht_udh := Some u; ht_ud := ht_ud t |}.

(** encoding/tpdu/tpdu.go:201-203 and 220-222. *)
Definition h_with_mr (mr : option (nat -> Z)) (i : nat) (t : htpdu) : htpdu :=
  {| ht_rest := with_mr mr i (ht_rest t); ht_udh := ht_udh t; ht_ud := ht_ud t |}.

(** encoding/tpdu/tpdu.go:1136-1146, 1159-1165 and 1193-1204: the loops of
    chunk7Bit, chunk8Bit and chunkUCS2, which cut [msg[bstart:bend]] out of the
    message; here the bounds of the cuts, [last] telling where a block that
    would end at [bend] ends instead. *)
Fixpoint cuts_loop (last : Z -> res Z) (fuel : nat) (n bs bstart bend : Z) : res (list (Z * Z)) :=
  match fuel with
  | O => Diverge
  | S fuel' =>
      if bend <? n then
        bend <- last bend ;;
        if (0 <=? bstart) && (bstart <=? bend) then
          rest <- cuts_loop last fuel' n bs bend (bend + bs) ;;
          Ok ((bstart, bend) :: rest)
        else Panic
      else if (0 <=? bstart) && (bstart <=? n) then Ok [(bstart, n)] else Panic
  end.

(** encoding/tpdu/tpdu.go:1138-1140: not between an escape and its character. *)
Definition last7 (msg : list Z) (bend : Z) : res Z :=
  b1 <- idx msg (bend - 1) ;;
  split <- (if b1 =? esc then b2 <- idx msg (bend - 2) ;; Ok (negb (b2 =? esc)) else Ok false) ;;
  Ok (if split : bool then bend - 1 else bend).
(** encoding/tpdu/tpdu.go:1159-1161. *)
Definition last8 (bend : Z) : res Z := Ok bend.
(** encoding/tpdu/tpdu.go:1195-1198: not between the halves of a pair. *)
Definition lastU (msg : list Z) (bend : Z) : res Z :=
  _ <- slice msg (bend - 2) bend ;;
  h <- idx msg (bend - 2) ;;
  l <- idx msg (bend - 1) ;;
  let r := h * 256 + l in
  Ok (if (surrHighStart <=? r) && (r <? surrLowStart) then bend - 2 else bend).

(** encoding/tpdu/tpdu.go:1113-1205 [chunk], [chunk7Bit], [chunk8Bit] and
    [chunkUCS2]; the array of blocks itself is not shared with anyone. *)
Definition cuts (msg : list Z) (alpha bs : Z) : res (list (Z * Z)) :=
  if len msg =? 0 then Ok [] else
  let bs := if alpha =? AlphaUCS2 then bs - bs mod 2 else bs in
  _ <- chunk_prologue msg bs ;;
  cuts_loop (if alpha =? AlphaUCS2 then lastU msg else if alpha =? Alpha8Bit then last8 else last7 msg)
    (S (length msg)) (len msg) bs 0 bs.

(** encoding/tpdu/tpdu.go:218-227, the loop over the blocks.  The header is
    copied to a new array for each TPDU; the UDs are slices of the message. *)
Fixpoint h_make_segments (grow : nat -> nat -> nat) (junk : ie) (hi : heap ie) (t : htpdu) (u : gslice) (msg : gslice)
    (cfg : seg_cfg) (ref count : Z) (i : nat) (cs : list (Z * Z)) : heap ie * list htpdu :=
  match cs with
  | [] => (hi, [])
  | (lo, hi') :: cs' =>
      let t1 := h_with_mr (sc_mr cfg) i t in
      let (h1, u1) := gappend grow junk hi (reslice00 u) (view hi u) in
      let (h2, u2) := gappend grow junk h1 u1 [new_ie (sc_wide cfg) ref count (Z.of_nat i + 1)] in
      let t2 := h_set_udh t1 u2 in
      let t3 := {| ht_rest := ht_rest t2; ht_udh := ht_udh t2;
                   ht_ud := reslice msg (Z.to_nat lo) (Z.to_nat hi') |} in
      let (h3, ts) := h_make_segments grow junk h2 t u msg cfg ref count (S i) cs' in
      (h3, t3 :: ts)
  end.

(** encoding/tpdu/tpdu.go:189-229 [TPDU.Segment]: the memory for header
    elements afterwards, and the TPDUs. *)
Definition h_segment (grow : nat -> nat -> nat) (junk : ie) (hi : heap ie) (hb : heap Z) (t : htpdu) (msg : gslice)
    (cfg : seg_cfg) : res (heap ie * list htpdu) :=
  if (s_len msg =? 0)%nat then Ok (hi, []) else
  let bs := ud_block_size (held hi hb t) in
  if Z.of_nat (s_len msg) <=? bs then
    Ok (hi, [h_with_mr (sc_mr cfg) 0 {| ht_rest := ht_rest t; ht_udh := ht_udh t; ht_ud := msg |}])
  else
    let u0 := match ht_udh t with Some u => u | None => nil_slice end in
    let (h1, u1) := gappend grow junk hi u0 [new_ie (sc_wide cfg) 0 0 0] in
    let t1 := h_set_udh t u1 in
    let bs := ud_block_size (held h1 hb t1) in
    let u2 := reslice u1 0 (s_len u1 - 1) in
    let t2 := {| ht_rest := ht_rest t1; ht_udh := Some u2; ht_ud := ht_ud t1 |} in
    cs <- cuts (view hb msg) (dcs_alpha (DCS (ht_rest t))) bs ;;
    let ref := match sc_cr cfg with Some f => f 0%nat | None => 1 end in
    Ok (h_make_segments grow junk h1 t2 u2 msg cfg ref (len cs) 0 cs).
