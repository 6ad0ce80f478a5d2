(** C81: the TPDUs Segment returns, exactly.  [segment] models tpdu.Segment; what it
    should return is SpecBlocks. *)
From Verif Require Import GoBase GoLemmas SafeLemmas SpecDcs UserData Tpdu Segment SpecSegTpdu SpecTpdu SpecDecode SpecBlocks BlocksProofs P_Segment.

(** Any template of either direction, with whatever type, alphabet, header and other
    fields, any message, and any counters. *)
Theorem C81_segment : forall (mo : bool) t msg cfg segs,
  Direction t = (if mo then 1 else 0) -> is_byte (FO t) -> is_byte (DCS t) ->
  (segment t msg cfg = Ok segs <-> segmented mo t cfg msg segs).
Proof. exact segmented_iff. Qed.
Print Assumptions C81_segment.

(** The description leaves no choice. *)
Theorem C81_one : forall (mo : bool) t msg cfg segs segs',
  Direction t = (if mo then 1 else 0) -> is_byte (FO t) -> is_byte (DCS t) ->
  segmented mo t cfg msg segs -> segmented mo t cfg msg segs' -> segs = segs'.
Proof.
  intros mo t msg cfg segs segs' HD HF HB H H'. apply (segmented_iff mo t msg cfg _ HD HF HB) in H, H'. congruence.
Qed.
Print Assumptions C81_one.

(** What a TPDU of a message holds: the well-known numbers for a template without
    header, alone and in several parts, with a reference of one octet or of two. *)
Theorem C81_rooms : forall (mo : bool) t, FO t mod 4 = (if mo then 1 else 0) ->
  room_in mo t 0 = nth (Z.to_nat (alphabet_in t)) [160; 140; 140] 160 /\
  room_in mo t 6 = nth (Z.to_nat (alphabet_in t)) [153; 134; 134] 153 /\
  room_in mo t 7 = nth (Z.to_nat (alphabet_in t)) [152; 133; 132] 152.
Proof.
  intros mo t HF. unfold room_in, most_octets. rewrite HF.
  assert (H : alphabet_in t = 0 \/ alphabet_in t = 1 \/ alphabet_in t = 2).
  { unfold alphabet_in, alphabet_of. destruct (coding_group (DCS t)); try tauto.
    - pose proof (Z.mod_pos_bound (DCS t / 4) 4 eq_refl). set (m := DCS t / 4 mod 4) in *.
      assert (D : m = 0 \/ m = 1 \/ m = 2 \/ m = 3) by lia. destruct D as [-> |[-> |[-> | ->]]]; cbn; tauto.
    - pose proof (Z.mod_pos_bound (DCS t / 4) 2 eq_refl). set (m := DCS t / 4 mod 2) in *.
      assert (D : m = 0 \/ m = 1) by lia. destruct D as [-> | ->]; tauto. }
  destruct mo; destruct H as [-> |[-> | ->]]; repeat split; reflexivity.
Qed.
Print Assumptions C81_rooms.

(** 170 septets with an escape at the end of the first block, which goes into the
    second with what it escapes. *)
Definition eg_escape : list Z := repeat 97 152 ++ 27 :: repeat 101 17.
Example C81_instance : exists segs,
  segmented true (submit_template 0) seg_cfg_default eg_escape segs /\
  map UD segs = [repeat 97 152; 27 :: repeat 101 17].
Proof.
  exists (match segment (submit_template 0) eg_escape seg_cfg_default with Ok l => l | _ => [] end). split.
  - apply C81_segment; [reflexivity|unfold is_byte; cbn; lia|unfold is_byte; cbn; lia|vm_compute; reflexivity].
  - vm_compute; reflexivity.
Qed.
(** A surrogate pair over the end of the first block of a UCS-2 message. *)
Definition eg_pair : list Z := repeat 0 132 ++ [216; 61; 222; 0] ++ repeat 1 6.
Example C81_instance_pair : exists segs,
  segmented true (submit_template 8) seg_cfg_default eg_pair segs /\
  map UD segs = [repeat 0 132; [216; 61; 222; 0] ++ repeat 1 6].
Proof.
  exists (match segment (submit_template 8) eg_pair seg_cfg_default with Ok l => l | _ => [] end). split.
  - apply C81_segment; [reflexivity|unfold is_byte; cbn; lia|unfold is_byte; cbn; lia|vm_compute; reflexivity].
  - vm_compute; reflexivity.
Qed.
