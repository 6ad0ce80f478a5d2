(** Model of the segmentation part of encoding/tpdu/tpdu.go. *)
From Verif Require Import GoBase Gsm7 Dcs FirstOctet UserData Tpdu.

(** encoding/tpdu/tpdu.go:319-362 [TPDU.UDBlockSize].  Go's [/] truncates;
    [bs &^= 1] on a possibly negative int clears bit 0. *)
Definition ud_block_size (t : tpdu) : Z :=
  let st := tpdu_type t in
  let bs :=
    if (st =? SmsSubmit) || (st =? SmsDeliver) then 140
    else if st =? SmsCommand then 146
    else if st =? SmsSubmitReport then (if FCS t =? 0 then 152 else 151)
    else if st =? SmsDeliverReport then (if FCS t =? 0 then 159 else 158)
    else if st =? SmsStatusReport then 131
    else 0 in
  let alpha := dcs_alpha (DCS t) in
  let hl := tpdu_udhl t in
  if alpha =? Alpha7Bit then
    let bs := Z.quot (bs * 8) 7 in
    if hl =? 0 then bs else bs - Z.quot ((hl + 1) * 8 + 6) 7
  else
    let bs := if 0 <? hl then bs - (hl + 1) else bs in
    if alpha =? AlphaUCS2 then bs - bs mod 2 else bs.

(** encoding/tpdu/tpdu.go:1093-1098 [newInfoElement]. *)
Definition new_ie8 (ref count seg : Z) : ie :=
  {| ie_id := 0; ie_data := [to_byte ref; to_byte count; to_byte seg] |}.
(** encoding/tpdu/tpdu.go:1100-1106 [newInfoElement16bit]. *)
Definition new_ie16 (ref count seg : Z) : ie :=
  {| ie_id := 8;
     ie_data := [(ref mod 65536) / 256; ref mod 256; to_byte count; to_byte seg] |}.
Definition new_ie (wide : bool) : Z -> Z -> Z -> ie := if wide then new_ie16 else new_ie8.

(** encoding/tpdu/tpdu.go:1136-1146, the loop of [chunk7Bit] and the final
    append.  Iterations are bounded by [fuel]. *)
Fixpoint chunk7_loop (fuel : nat) (msg : list Z) (bs bstart bend : Z)
  : res (list (list Z)) :=
  match fuel with
  | O => Diverge
  | S fuel' =>
      if bend <? len msg then
        b1 <- idx msg (bend - 1) ;;
        split <- (if b1 =? esc then b2 <- idx msg (bend - 2) ;; Ok (negb (b2 =? esc))
                  else Ok false) ;;
        let bend := if split : bool then bend - 1 else bend in
        c <- slice msg bstart bend ;;
        rest <- chunk7_loop fuel' msg bs bend (bend + bs) ;;
        Ok (c :: rest)
      else
        c <- slice_from msg bstart ;;
        Ok [c]
  end.

(** encoding/tpdu/tpdu.go:1128-1147 [chunk7Bit].  [make] panics when its
    capacity is negative. *)
Definition chunk_prologue (msg : list Z) (bs : Z) : res unit :=
  q <- godiv (len msg) bs ;;
  if 1 + q <? 0 then Panic else Ok tt.

Definition chunk7 (msg : list Z) (bs : Z) : res (list (list Z)) :=
  if len msg =? 0 then Ok [] else
  _ <- chunk_prologue msg bs ;;
  chunk7_loop (S (length msg)) msg bs 0 bs.

(** encoding/tpdu/tpdu.go:1151-1166 [chunk8Bit]. *)
Fixpoint chunk8_loop (fuel : nat) (msg : list Z) (bs bstart bend : Z)
  : res (list (list Z)) :=
  match fuel with
  | O => Diverge
  | S fuel' =>
      if bend <? len msg then
        c <- slice msg bstart bend ;;
        rest <- chunk8_loop fuel' msg bs bend (bend + bs) ;;
        Ok (c :: rest)
      else
        c <- slice_from msg bstart ;;
        Ok [c]
  end.

Definition chunk8 (msg : list Z) (bs : Z) : res (list (list Z)) :=
  if len msg =? 0 then Ok [] else
  _ <- chunk_prologue msg bs ;;
  chunk8_loop (S (length msg)) msg bs 0 bs.

(** encoding/tpdu/tpdu.go:1168-1171. *)
Definition surrHighStart : Z := 55296.
Definition surrLowStart : Z := 56320.

(** encoding/tpdu/tpdu.go:1193-1204, the loop of [chunkUCS2]. *)
Fixpoint chunkU_loop (fuel : nat) (msg : list Z) (bs bstart bend : Z)
  : res (list (list Z)) :=
  match fuel with
  | O => Diverge
  | S fuel' =>
      if bend <? len msg then
        _ <- slice msg (bend - 2) bend ;;
        h <- idx msg (bend - 2) ;;
        l <- idx msg (bend - 1) ;;
        let r := h * 256 + l in
        let bend := if (surrHighStart <=? r) && (r <? surrLowStart)
                    then bend - 2 else bend in
        c <- slice msg bstart bend ;;
        rest <- chunkU_loop fuel' msg bs bend (bend + bs) ;;
        Ok (c :: rest)
      else
        c <- slice_from msg bstart ;;
        Ok [c]
  end.

(** encoding/tpdu/tpdu.go:1182-1205 [chunkUCS2]. *)
Definition chunkU (msg : list Z) (bs : Z) : res (list (list Z)) :=
  if len msg =? 0 then Ok [] else
  let bs := bs - bs mod 2 in
  _ <- chunk_prologue msg bs ;;
  chunkU_loop (S (length msg)) msg bs 0 bs.

(** encoding/tpdu/tpdu.go:1113-1122 [chunk]. *)
Definition chunk (msg : list Z) (alpha bs : Z) : res (list (list Z)) :=
  if alpha =? AlphaUCS2 then chunkU msg bs
  else if alpha =? Alpha8Bit then chunk8 msg bs
  else chunk7 msg bs.

(** encoding/tpdu/tpdu.go:168-177 [segmentationConfig].  A Counter is the
    stream of the values its successive Count() calls return. *)
Record seg_cfg := {
  sc_wide : bool;                  (* With16BitConcatRef *)
  sc_cr : option (nat -> Z);       (* WithConcatRef *)
  sc_mr : option (nat -> Z) }.     (* WithMR *)

(** No segmentation options, encoding/tpdu/tpdu.go:193. *)
Definition seg_cfg_default : seg_cfg := {| sc_wide := false; sc_cr := None; sc_mr := None |}.

(** [sg.MR = byte(cfg.mr.Count())], encoding/tpdu/tpdu.go:201-203 and 220-222. *)
Definition with_mr (mr : option (nat -> Z)) (i : nat) (t : tpdu) : tpdu :=
  match mr with
  | Some f => set_MR t (to_byte (f i))
  | None => t
  end.

(** encoding/tpdu/tpdu.go:218-227, segment [i] of a multi-part message. *)
Definition make_segment (t : tpdu) (cfg : seg_cfg) (ref count : Z) (i : nat)
           (c : bytes) : tpdu :=
  let t := with_mr (sc_mr cfg) i t in
  let h := ies (UDH t) ++ [new_ie (sc_wide cfg) ref count (Z.of_nat i + 1)] in
  set_UDf (set_udh t (Some h)) c.

Fixpoint make_segments (t : tpdu) (cfg : seg_cfg) (ref count : Z) (i : nat)
         (cs : list bytes) : list tpdu :=
  match cs with
  | [] => []
  | c :: cs' => make_segment t cfg ref count i c
                  :: make_segments t cfg ref count (S i) cs'
  end.

(** encoding/tpdu/tpdu.go:189-229 [TPDU.Segment].  The UDH truncated back to
    the template's elements (line 209) is a non-nil slice.  Slices
    are values here; HeapSegment.v models the memory they share. *)
Definition segment (t : tpdu) (msg : bytes) (cfg : seg_cfg) : res (list tpdu) :=
  if len msg =? 0 then Ok [] else
  let bs := ud_block_size t in
  if len msg <=? bs then
    Ok [with_mr (sc_mr cfg) 0 (set_UDf t msg)]
  else
    let l := ies (UDH t) in
    let t := set_udh t (Some (l ++ [new_ie (sc_wide cfg) 0 0 0])) in
    let bs := ud_block_size t in
    let t := set_UDHf t (Some l) in
    chunks <- chunk msg (dcs_alpha (DCS t)) bs ;;
    let count := len chunks in
    let ref := match sc_cr cfg with Some f => f 0%nat | None => 1 end in
    Ok (make_segments t cfg ref count 0 chunks).
