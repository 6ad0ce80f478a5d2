(** Concrete cases meeting the hypotheses of C15, C17, C19 and C48. *)
From Verif Require Import GoBase GoLemmas SpecText SpecSegment SpecSegTpdu Gsm7 Dcs FirstOctet UserData Tpdu
  Segment SegmentProofs SegmentFitProofs Sms Collector SpecCollect CollectorProofs P_Segment P_Collect.

(** C15: 306 octets of 8-bit data from a template with a header of its own take
    three TPDUs of at most 131 octets; the division shown, also into three, takes
    no more than that of each. *)
Definition ported : tpdu :=
  set_udh (submit_template 4) (Some [{| ie_id := 4; ie_data := [240] |}]).
Example C15_instance_8bit :
  let msg := repeat 200 306 in
  exists segs, segment ported msg seg_cfg_default = Ok segs /\ length segs = 3%nat /\
    (forall s, In s segs -> 131 <= ud_block_size s) /\
    division (fun _ => True) 131 msg [repeat 200 100; repeat 200 100; repeat 200 106].
Proof.
  eexists. split; [vm_compute; reflexivity|]. split; [reflexivity|]. split.
  - intros s H. cbn [In] in H. destruct H as [<-|[<-|[<-|[]]]]; vm_compute; discriminate.
  - split; [vm_compute; reflexivity|]. repeat (apply Forall_cons || apply Forall_nil); split; try exact I; rewrite repeat_length; lia.
Qed.

(** The same of the 7-bit message of C14, whose euro sign is on the boundary. *)
Example C15_instance_7bit :
  exists segs, segment (submit_template 0) euro_msg seg_cfg_default = Ok segs /\ length segs = 2%nat /\
    (forall s, In s segs -> 153 <= ud_block_size s) /\
    division gsm7_pairs 153 euro_msg [repeat 97 152; [27; 101] ++ repeat 97 20].
Proof.
  eexists. split; [vm_compute; reflexivity|]. split; [reflexivity|]. split.
  - intros s H. cbn [In] in H. destruct H as [<-|[<-|[]]]; vm_compute; discriminate.
  - apply C14_instance_whole.
Qed.

(** One octet over the block size is 141 octets of user data. *)
Example C15_instance_maximal :
  let t := set_UDf (submit_template 4) (repeat 1 141) in
  submit_or_deliver t /\ tpdu_alphabet t = Ok Alpha8Bit /\ ud_block_size t = 140 /\ len (UD t) = 141 /\
  encode_ud t = Ok (141 :: repeat 1 141).
Proof. split; [left; reflexivity|]. repeat split; vm_compute; reflexivity. Qed.

(** C17: the element of the template comes first in the header of each part. *)
Example C17_instance : exists s1 s2,
  segment (set_PIDf ported 5) (repeat 200 140)
    {| sc_wide := false; sc_cr := Some (fun _ => 300); sc_mr := Some (fun k => 254 + 2 * Z.of_nat k) |}
    = Ok [s1; s2] /\
  UDH s1 = Some [{| ie_id := 4; ie_data := [240] |}; {| ie_id := 0; ie_data := [44; 2; 1] |}] /\
  UDH s2 = Some [{| ie_id := 4; ie_data := [240] |}; {| ie_id := 0; ie_data := [44; 2; 2] |}] /\
  MR s1 = 254 /\ MR s2 = 0 /\ PID s1 = 5 /\ PID s2 = 5 /\ len (UD s1) = 131 /\ len (UD s2) = 9.
Proof. eexists _, _. split; [vm_compute; reflexivity|]. repeat split; vm_compute; reflexivity. Qed.

(** C19: a header of 119 octets meets both conditions, with nothing to spare, for UCS-2. *)
Definition crowded : tpdu :=
  set_udh (submit_template 8) (Some [{| ie_id := 112; ie_data := repeat 0 117 |}]).
Example C19_instance :
  0 <= tpdu_type crowded <= SmsCommand /\ udhl (ies (UDH crowded)) = 119 /\
  ud_block_size (set_udh crowded (Some (ies (UDH crowded) ++ [new_ie true 0 0 0]))) = 14 /\
  exists segs, segment crowded (concat (repeat [0; 97] 18)) seg_cfg_default = Ok segs /\ len segs = 3.
Proof.
  split; [vm_compute; split; discriminate|]. split; [reflexivity|]. split; [reflexivity|].
  eexists. split; vm_compute; reflexivity.
Qed.

(** C48: of the three entries shown by Pipes the second is filled later, by the
    second part, and so is the third, by the part that makes Collect return them. *)
Example C48_instance : exists id,
  let s := fst (run with_timeout new_collector [EvCollect (ex_seg 0 7 3 1)]) in
  let s1 := fst (run with_timeout s [EvCollect (ex_seg 1 7 3 2)]) in
  let '(s', o) := step with_timeout s1 (EvCollect (ex_seg 2 7 3 3)) in
  reachable with_timeout any_event s /\ map snd (pipes s) = [id] /\
  pipe_segs s id = [Some (ex_seg 0 7 3 1); None; None] /\
  pipe_segs s1 id = [Some (ex_seg 0 7 3 1); Some (ex_seg 1 7 3 2); None] /\
  is_part (ex_seg 2 7 3 3) = true /\
  o = OCollect (CReturn (Some [Some (ex_seg 0 7 3 1); Some (ex_seg 1 7 3 2); Some (ex_seg 2 7 3 3)]) None) /\
  pipe_segs s' id = [Some (ex_seg 0 7 3 1); Some (ex_seg 1 7 3 2); Some (ex_seg 2 7 3 3)].
Proof.
  exists 0%nat. cbn zeta. match goal with |- let '(_, _) := ?p in _ => let q := eval vm_compute in p in change p with q end.
  split; [eexists; split; [|reflexivity]; repeat constructor|]. repeat split; vm_compute; reflexivity.
Qed.
