(** C55, continued: what a TPDU and each of the two readers say of the part. *)
From Verif Require Import GoBase GoLemmas SafeLemmas UserData Tpdu SegmentProofs SegmentFitProofs SpecHeader P_Header.

(** ConcatInfo8 and ConcatInfo16 look at the last element of their kind only,
    and only if it has the right length. *)
Theorem C55_concat_info8 : forall l p, concat_info8 l = Some p <->
  exists i ref total seq, last_with 0 l i /\ ie_data i = [ref; total; seq] /\ p = (total, seq, ref).
Proof.
  intros l p. unfold concat_info8. split.
  - destruct (find_ie l 0) as [i|] eqn:E; [|discriminate]. apply C55_ie in E.
    destruct (ie_data i) as [|r [|t [|s [|? ?]]]] eqn:ED; try discriminate. intros H. injection H as <-. eauto 10.
  - intros (i & r & t & s & E & ED & ->). apply C55_ie in E. now rewrite E, ED.
Qed.
Print Assumptions C55_concat_info8.

Theorem C55_concat_info16 : forall l p, concat_info16 l = Some p <->
  exists i hi lo total seq, last_with 8 l i /\ ie_data i = [hi; lo; total; seq] /\ p = (total, seq, 256 * hi + lo).
Proof.
  intros l p. unfold concat_info16. split.
  - destruct (find_ie l 8) as [i|] eqn:E; [|discriminate]. apply C55_ie in E.
    destruct (ie_data i) as [|h [|o [|t [|s [|? ?]]]]] eqn:ED; try discriminate. intros H. injection H as <-.
    exists i, h, o, t, s. split; [exact E|]. split; [exact ED|]. f_equal. lia.
  - intros (i & h & o & t & s & E & ED & ->). apply C55_ie in E. rewrite E, ED. do 2 f_equal. lia.
Qed.
Print Assumptions C55_concat_info16.

(** The header of a TPDU; no header is like an empty one. *)
Definition elements_of (t : tpdu) : list ie := match UDH t with Some l => l | None => [] end.

(** ConcatInfo of a TPDU is that of its header; IsSingleSegment is true exactly
    of the TPDUs whose header does not say which part they are; UDHL is the
    number of octets of the header behind the first. *)
Theorem C55_tpdu : forall t,
  (forall p, tpdu_concat_info t = Some p <-> says_part (elements_of t) p) /\
  (is_single_segment t = true <-> forall p, ~ says_part (elements_of t) p) /\
  (elements_of t = [] -> tpdu_udhl t = 0 /\ is_single_segment t = true) /\
  (elements_of t <> [] -> len (udh_marshal (elements_of t)) = 1 + tpdu_udhl t).
Proof.
  intros t. assert (E : ies (UDH t) = elements_of t) by (unfold elements_of; now destruct (UDH t)).
  split; [|split; [|split]].
  - intros p. unfold tpdu_concat_info. rewrite E. apply C55_concat_info.
  - unfold is_single_segment, tpdu_concat_info. rewrite E. split.
    + intros H p K. apply C55_concat_info in K. now rewrite K in H.
    + intros H. destruct (concat_info (elements_of t)) as [p|] eqn:K; [|reflexivity].
      apply C55_concat_info in K. now destruct (H p).
  - intros N. unfold tpdu_udhl, is_single_segment, tpdu_concat_info. rewrite E, N. now split.
  - intros N. unfold tpdu_udhl. rewrite E. rewrite udh_marshal_len. destruct (elements_of t) as [|i l]; [congruence|].
    cbn [udhl]. unfold ie_len. pose proof (len_nonneg (ie_data i)). pose proof (udhl_nonneg l).
    destruct (Z.eqb_spec (2 + len (ie_data i) + udhl l) 0); lia.
Qed.
Print Assumptions C55_tpdu.

Example C55_tpdu_instance : (* part 2 of 3 of message 7; a port addressing element *)
  let t := set_UDHf zero_tpdu (Some [{| ie_id := 5; ie_data := [11; 132; 0; 0] |}; {| ie_id := 0; ie_data := [7; 3; 2] |}]) in
  let u := set_UDHf zero_tpdu (Some [{| ie_id := 5; ie_data := [11; 132; 0; 0] |}]) in
  tpdu_concat_info t = Some (3, 2, 7) /\ is_single_segment t = false /\ tpdu_udhl t = 11 /\
  is_single_segment u = true /\ tpdu_udhl u = 6 /\ elements_of u <> [].
Proof. repeat split; discriminate. Qed.
