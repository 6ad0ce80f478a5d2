(** C84: smsdeliver, from its arguments to what it writes.  Specification in
    SpecDeliver.v. *)
From Coq Require Import Permutation String.
From Verif Require Import GoBase GoLemmas SafeLemmas Utf Address UserData Tpdu PduMode Sms Collector Cmd SpecCmd SpecRefuse Print ErrorText PrintTools
  DeliverReport SpecDeliver DeliverProofs.

(** ** C84 *)

(** What is logged and printed, and how it ends, is that of the program of
    SpecDeliver. *)
Theorem C84_session : forall pm args,
  exists z, session pm args [] None (fst (smsdeliver pm args)) z /\
    match snd (smsdeliver pm args) with
    | SdFatal e => z = Stopped e
    | SdDone _ => exists w o, z = Left_over w o
    | SdPanic => z = Crashed
    | SdHang => False
    end.
Proof.
  intros pm args. destruct (loop_session pm args 0 new_collector [] None holds_new) as (z & A & B).
  exists z. split; [exact A|]. unfold smsdeliver. destruct (snd _); try contradiction; try exact B.
  destruct B as (ws & po & B & _). eauto.
Qed.
Print Assumptions C84_session.

(** Nothing else satisfies that program. *)
Theorem C84_determined : forall pm args ls z ls' z',
  session pm args [] None ls z -> session pm args [] None ls' z' -> ls = ls' /\ z = z'.
Proof. intros pm args ls z ls' z' H H'. exact (session_fun pm args [] None ls z H ls' z' H'). Qed.
Print Assumptions C84_determined.

(** Standard output and exit status: the messages in the order they are
    complete; then, unless the command stopped or crashed, a report of each message
    of which parts are left, in any order. *)
Theorem C84_output : forall pm args out status, deliver_run pm args out status ->
  if (length args =? 0)%nat then out = [] /\ status = 1
  else exists ls z rest, session pm args [] None ls z /\ ends z rest status /\ out = written ls ++ rest.
Proof.
  intros pm args out status H. destruct (loop_session pm args 0 new_collector [] None holds_new) as (z & A & B).
  change (smsdeliver_loop pm args 0 new_collector) with (smsdeliver pm args) in A, B.
  assert (NE : args <> [] -> (length args =? 0)%nat = false) by (destruct args; [congruence|reflexivity]).
  destruct H as [->|ls e N E|ls s at_ kvs N E PE AT|ls N E]; [split; reflexivity| | |];
    rewrite (NE N); rewrite E in A, B; cbn [fst snd] in A, B.
  - subst z. exists ls, (Stopped e), []. rewrite app_nil_r. split; [exact A|]. split; [split; reflexivity|reflexivity].
  - destruct B as (ws & po & -> & HD). eexists ls, _, (report_text at_ kvs). split; [exact A|].
    split; [exact (report_ends s ws po at_ kvs HD AT PE)|reflexivity].
  - subst z. exists ls, Crashed, []. rewrite app_nil_r. split; [exact A|]. split; [split; reflexivity|reflexivity].
Qed.
Print Assumptions C84_output.

(** It always ends; the status is the same however the map is printed and
    wherever the TPDUs are, and so is all it writes if the status is not 0. *)
Theorem C84_ends : forall pm args,
  (exists out status, deliver_run pm args out status) /\
  forall out status out' status', deliver_run pm args out status -> deliver_run pm args out' status' ->
    status' = status /\ (status <> 0 -> out' = out).
Proof.
  intros pm args. split.
  - destruct args as [|a args]; [exists [], 1; now constructor|].
    destruct (C84_session pm (a :: args)) as (z & _ & B). destruct (smsdeliver pm (a :: args)) as [ls r] eqn:E.
    cbn [snd] in B. destruct r as [s|e| |].
    + eexists _, 0. apply (dr_done _ _ ls s (fun _ => 1) (shown_pipes s)); try congruence; [apply Permutation_refl|lia].
    + eexists _, 1. apply (dr_fatal _ _ ls e); congruence.
    + eexists _, 2. apply (dr_panic _ _ ls); congruence.
    + contradiction.
  - intros out status out' status' H H'. destruct H, H'; split; try congruence; try lia.
    all: try (intros _; congruence).
Qed.
Print Assumptions C84_ends.

(** What is left is of messages of which another part is missing, and a part is
    left once: a report shows the part and a <nil>. *)
Theorem C84_left : forall pm args ls w o t, session pm args [] None ls (Left_over w o) -> In t w ->
  1 <= part_no t <= part_count t /\ the_part w t (part_no t) = Some t /\
  exists k, 1 <= k <= part_count t /\ the_part w t k = None.
Proof.
  intros pm args ls w o t H HI. destruct (session_fits _ _ _ _ _ _ H ltac:(intros u []) w o eq_refl t HI) as (A1 & A2 & A3 & A4).
  split; [exact A2|]. split; [exact A4|]. apply fits_missing. split; auto.
Qed.
Print Assumptions C84_left.

(** When the command panics: with those arguments, and no others, for which the
    program of SpecDeliver crashes. *)
Theorem C53_exactly : forall pm args,
  snd (smsdeliver pm args) = SdPanic <-> exists ls, session pm args [] None ls Crashed.
Proof.
  intros pm args. destruct (C84_session pm args) as (z & A & B). split.
  - intros E. rewrite E in B. subst z. eauto.
  - intros (ls & H). destruct (C84_determined _ _ _ _ _ _ H A) as (_ & E). destruct (snd (smsdeliver pm args)); subst; try congruence.
    + destruct B as (w & o & B). congruence.
    + contradiction.
Qed.
Print Assumptions C53_exactly.

(** Part [i] of [n] with reference [r] from +639100, one letter each. *)
Definition part_octets (r n i c : Z) : bytes :=
  [64; 4; 145; 54; 25; 0; 0; 81; 80; 113; 50; 32; 5; 35; 8; 5; 0; 3; r; n; i; c].
Definition part_args : list bytes :=
  map hex_encode [part_octets 1 2 2 196; part_octets 7 3 1 194; part_octets 7 3 1 200; part_octets 1 2 1 194;
                  part_octets 9 2 3 194; [0; 1; 2]; part_octets 7 3 3 202].
(** "ab" is complete with the fourth argument; the third repeats the second, the
    fifth is part 3 of 2, the sixth too short; of "?" parts 1 and 3 are left. *)
Definition part_lines : list sd_line :=
  [SdLog ErrDuplicateSegment; SdPrint (str "+6391") [97; 98]; SdLog ErrReassemblyInconsistency;
   SdLog (DecodeErr "SmsDeliver.oa.addr" 3 ErrUnderflow)].
Definition part_out : bytes :=
  str "+6391: ab" ++ [10] ++ str "incomplete reassembly:  0:91:6391:7:3" ++ [10] ++ str "[0xc000001 <nil> 0xc000005]" ++ [10].
Example C84_instance :
  fst (smsdeliver false part_args) = part_lines /\ deliver_run false part_args part_out 0.
Proof.
  split; [vm_compute; reflexivity|].
  set (s := match snd (smsdeliver false part_args) with SdDone s => s | _ => new_collector end).
  replace part_out with (deliver_text part_lines ++ report_text (fun g => 201326592 + Z.of_nat (sg_id g)) (shown_pipes s))
    by (vm_compute; reflexivity).
  apply dr_done with (s := s); [discriminate|vm_compute; reflexivity|reflexivity|intros g; lia].
Qed.
Example C84_left_instance : exists ls w o t, session false [hex_encode (part_octets 7 3 1 194)] [] None ls (Left_over w o) /\ In t w.
Proof.
  eexists _, _, _, _. split.
  - eapply se_read; [eexists; split; [eexists; split; vm_compute; reflexivity|vm_compute; reflexivity]| | |apply se_end];
      vm_compute; reflexivity.
  - left. reflexivity.
Qed.

(** SUBMIT-REPORT TPDUs with part [i] of [n] and a letter of text each. *)
Definition other_octets (n i c : Z) : bytes :=
  [65; 1; 4; 81; 80; 113; 50; 32; 5; 35; 8; 5; 0; 3; 7; n; i; c].
Definition other_args (l : list (Z * Z)) : list bytes :=
  map (fun '(n, i) => hex_encode (other_octets n i 194)) l.
(** A pile of two is decoded, with no sender; part 3 of 3 behind part 1 of 2
    crashes, and so does part 1 of 2 behind part 2 of 4, with two places empty;
    parts 1 and 2 of 4 behind part 3 of 3 leave a full pile. *)
Example C84_other :
  fst (smsdeliver false (other_args [(2, 1); (2, 2)])) = [SdLog (ErrUnsupportedSmsType 2); SdPrint [] [97; 97]] /\
  deliver_run false (other_args [(2, 1); (3, 3)]) [] 2 /\
  deliver_run false (other_args [(4, 2); (2, 1)]) [] 2 /\
  deliver_run false (other_args [(3, 3); (4, 1); (4, 2)])
    (str "incomplete reassembly:  " ++ [10] ++ str "[0xc000001 0xc000002 0xc000000]" ++ [10]) 0.
Proof.
  split; [vm_compute; reflexivity|]. split; [|split].
  - change (@nil Z) with (deliver_text [SdLog (ErrUnsupportedSmsType 2)]). apply dr_panic; [discriminate|vm_compute; reflexivity].
  - change (@nil Z) with (deliver_text [SdLog (ErrUnsupportedSmsType 2)]). apply dr_panic; [discriminate|vm_compute; reflexivity].
  - set (args := other_args [(3, 3); (4, 1); (4, 2)]).
    set (s := match snd (smsdeliver false args) with SdDone s => s | _ => new_collector end).
    replace (str "incomplete reassembly:  " ++ _) with
      (deliver_text (repeat (SdLog (ErrUnsupportedSmsType 2)) 3) ++ report_text (fun g => 201326592 + Z.of_nat (sg_id g)) (shown_pipes s))
      by (vm_compute; reflexivity).
    apply dr_done with (s := s); [discriminate|vm_compute; reflexivity|reflexivity|intros g; lia].
Qed.
Example C53_exactly_instance : exists ls, session false (other_args [(2, 1); (3, 3)]) [] None ls Crashed.
Proof. apply C53_exactly. vm_compute. reflexivity. Qed.
