(** Lemmas for C73. *)
From Verif Require Import GoBase GoLemmas SafeLemmas Dcs FirstOctet TpduError Address GoTime ValidityPeriod UserData Tpdu Sms PduMode
  TpduProofs SegmentProofs Heap SpecHeap HeapProofs HeapRead.

Definition nowhere (a i : nat) : Prop := False.
(** [s] is in an array made between [h] and [h']. *)
Definition fresh (h h' : heap Z) (s : gslice) : Prop :=
  s_cap s = 0%nat \/ (length h <= s_arr s < length h')%nat.
Definition good (h h' : heap Z) (l : list gslice) : Prop :=
  Forall (ok_slice h') l /\ Forall (fresh h h') l /\ ForallOrdPairs disjoint l.
Definition outcome_is {A B} (r : res A) (v : res B) (P : A -> B -> Prop) : Prop :=
  match r, v with
  | Ok a, Ok b => P a b
  | Err e, Err e' => e = e'
  | Panic, Panic => True
  | Diverge, Diverge => True
  | _, _ => False
  end.

Lemma nowhere_view (h h' : heap Z) s : only nowhere h h' -> ok_slice h s -> view h' s = view h s.
Proof. intros O K. eapply only_view; [exact O|exact K|]. intros a i _ []. Qed.
Lemma nowhere_trans (h1 h2 h3 : heap Z) : only nowhere h1 h2 -> only nowhere h2 h3 -> only nowhere h1 h3.
Proof. intros A B. eapply only_trans; [exact A|exact B|]. intros a i _ []. Qed.

Lemma append_nil grow junk h xs h' s : gappend grow junk h nil_slice xs = (h', s) ->
  only nowhere h h' /\ view h' s = xs /\ good h h' [s].
Proof.
  intros H. assert (ON : ok_slice h nil_slice) by (split; [cbn; lia|left; reflexivity]).
  destruct (gappend_spec _ _ _ _ _ _ _ ON H) as (O & OK & V & L & D). cbn [nil_slice s_len s_cap s_arr s_off] in *.
  split; [|split].
  - eapply only_weaken; [exact O|]. intros a i _ (_ & B & C). cbn in *. unfold nowhere. lia.
  - rewrite V. reflexivity.
  - split; [constructor; auto|]. split; [|repeat constructor]. constructor; [|constructor].
    unfold fresh. destruct D as [D|D]; [left; lia|right; lia].
Qed.

Lemma disjoint_fresh h1 h2 h3 s t : fresh h1 h2 s -> fresh h2 h3 t -> disjoint s t.
Proof. intros A B a i ((E1 & R1) & (E2 & R2)). unfold fresh in *. lia. Qed.

Lemma good_app h1 h2 h3 l m : good h1 h2 l -> only nowhere h2 h3 -> good h2 h3 m -> (length h1 <= length h2)%nat -> good h1 h3 (l ++ m).
Proof.
  intros (A1 & A2 & A3) O (B1 & B2 & B3) L. pose proof O as (L2 & _). split; [|split].
  - apply Forall_app. split; [|assumption]. eapply Forall_impl; [|exact A1]. intros s. now apply (only_ok nowhere).
  - apply Forall_app. split; eapply Forall_impl; try eassumption; intros s; unfold fresh; lia.
  - clear A1 B1. induction A3 as [|s l H A3 IH]; [exact B3|]. inversion A2 as [|? ? F A2']; subst. cbn [app].
    constructor; [|auto]. apply Forall_app. split; [assumption|]. eapply Forall_impl; [|exact B2]. intros t Ht.
    eapply disjoint_fresh; eassumption.
Qed.
Lemma good_nil h h' : good h h' [].
Proof. repeat constructor. Qed.
Lemma good_nil_slice h h' : good h h' [nil_slice].
Proof. repeat constructor. Qed.
Lemma good_later h1 h2 h3 l : good h1 h2 l -> only nowhere h2 h3 -> (length h1 <= length h2)%nat -> good h1 h3 l.
Proof. intros A O L. rewrite <- (app_nil_r l). eapply good_app; eauto. apply good_nil. Qed.

Lemma held_later h h' l : Forall (ok_slice h) (map ri_data l) -> only nowhere h h' ->
  map (ie_held h') l = map (ie_held h) l.
Proof.
  intros H O. apply map_ext_in. intros i Hi. unfold ie_held. f_equal. apply nowhere_view; [assumption|].
  rewrite Forall_forall in H. apply H. now apply in_map.
Qed.

Lemma udh_loop_spec grow junk src : forall fuel h lim ri h' r, ok_slice h src ->
  h_udh_loop grow junk fuel h src lim ri = (h', r) ->
  only nowhere h h' /\ outcome_is r (udh_loop fuel (view h src) lim ri) (fun l m => m = map (ie_held h') l /\ good h h' (map ri_data l)).
Proof.
  induction fuel as [|fuel IH]; intros h lim ri h' r OK H; cbn [h_udh_loop udh_loop] in *.
  - destruct (negb (ri <? lim)); injection H as <- <-; (split; [apply only_refl|]); cbn; auto using good_nil.
  - destruct (negb (ri <? lim)).
    { injection H as <- <-. split; [apply only_refl|]. cbn. auto using good_nil. }
    destruct (lim <? ri + 2); [injection H as <- <-; split; [apply only_refl|reflexivity]|].
    destruct (idx (view h src) ri) as [id|e| |]; cbn [htry bind] in *;
      try (injection H as <- <-; split; [apply only_refl|]; reflexivity || exact I).
    destruct (idx (view h src) (ri + 1)) as [iedl|e| |]; cbn [htry bind] in *;
      try (injection H as <- <-; split; [apply only_refl|]; reflexivity || exact I).
    destruct (len (view h src) <? ri + 1 + 1 + iedl); [injection H as <- <-; split; [apply only_refl|reflexivity]|].
    destruct (slice (view h src) (ri + 1 + 1) (ri + 1 + 1 + iedl)) as [data|e| |]; cbn [htry bind] in *;
      try (injection H as <- <-; split; [apply only_refl|]; reflexivity || exact I).
    destruct (gappend grow junk h nil_slice data) as [h1 s] eqn:EA.
    destruct (append_nil _ _ _ _ _ _ EA) as (O1 & V1 & G1).
    destruct (h_udh_loop grow junk fuel h1 src lim (ri + 1 + 1 + iedl)) as [h2 r2] eqn:EL.
    destruct (IH _ _ _ _ _ (only_ok _ _ _ _ O1 OK) EL) as (O2 & R2).
    rewrite (nowhere_view _ _ _ O1 OK) in R2.
    assert (O12 : only nowhere h h2) by (eapply nowhere_trans; eassumption).
    unfold hbind in H. cbn [fst snd] in H.
    destruct r2 as [l|e| |]; destruct (udh_loop fuel (view h src) lim (ri + 1 + 1 + iedl)) as [m|e'| |]; cbn [outcome_is] in R2; try contradiction;
      cbn [htry bind] in *; injection H as <- <-; (split; [assumption|]); cbn [outcome_is]; auto.
    destruct R2 as (-> & G2). split.
    + cbn [map]. f_equal. unfold ie_held. cbn [ri_id ri_data]. f_equal.
      rewrite (nowhere_view _ _ _ O2); [now rewrite V1|]. destruct G1 as (F & _). now inversion F.
    + cbn [map ri_data]. change (s :: map ri_data l) with ([s] ++ map ri_data l). eapply good_app; try eassumption. apply O1.
Qed.

Lemma udh_spec grow junk h src h' r : ok_slice h src -> h_udh_unmarshal grow junk h src = (h', r) ->
  only nowhere h h' /\ outcome_is r (udh_unmarshal (view h src))
    (fun a b => b = (option_map (map (ie_held h')) (fst a), snd a) /\
                good h h' (match fst a with Some l => map ri_data l | None => [] end)).
Proof.
  intros OK H. unfold h_udh_unmarshal, udh_unmarshal in *. cbv zeta in *.
  destruct (len (view h src) <? 1); [injection H as <- <-; split; [apply only_refl|reflexivity]|].
  destruct (idx (view h src) 0) as [b|e| |]; cbn [htry bind] in *;
    try (injection H as <- <-; split; [apply only_refl|]; reflexivity || exact I).
  destruct (len (view h src) <? b + 1); [injection H as <- <-; split; [apply only_refl|reflexivity]|].
  destruct (h_udh_loop grow junk (length (view h src)) h src (b + 1) 1) as [h2 r2] eqn:E.
  destruct (udh_loop_spec _ _ _ _ _ _ _ _ _ OK E) as (O & R). unfold hbind in H. cbn [fst snd] in H.
  destruct r2 as [l|e| |]; destruct (udh_loop (length (view h src)) (view h src) (b + 1) 1) as [m|e'| |];
    cbn [outcome_is] in R; try contradiction; cbn [htry bind] in *; injection H as <- <-; (split; [assumption|]); cbn [outcome_is]; auto.
  destruct R as (-> & G). destruct l; cbn; auto.
Qed.

Lemma skipn_firstn' {A} (l : list A) n m : skipn n (firstn m l) = firstn (m - n) (skipn n l).
Proof. apply skipn_firstn_comm. Qed.

Lemma ok_tail (h : heap Z) s lo : ok_slice h s -> 0 <= lo <= len (view h s) -> ok_slice h (tail_from s lo) /\
  slice_from (view h s) lo = Ok (view h (tail_from s lo)).
Proof.
  intros OK L. pose proof (view_length _ _ OK) as VL. pose proof OK as (A & B). split.
  - unfold len in L. unfold tail_from, reslice, ok_slice. cbn [s_len s_cap s_arr s_off]. split; [lia|]. destruct B as [B|B]; [left; lia|].
    destruct (s_cap s - Z.to_nat lo)%nat eqn:E; [now left|right; lia].
  - unfold slice_from, slice. btrue ((0 <=? lo) && (lo <=? len (view h s)) && (len (view h s) <=? len (view h s))).
    f_equal. unfold len in *. rewrite firstn_all2 by (rewrite skipn_length; lia).
    unfold tail_from, reslice, view. cbn [s_len s_cap s_arr s_off]. rewrite skipn_firstn_comm. f_equal.
    now rewrite skipn_plus.
Qed.

(** [decode_ud] keeps everything but the user data and the header. *)
Lemma decode_ud_spec grow junk h t src h' r : ok_slice h src -> UD t = [] -> UDH t = None ->
  h_decode_ud grow junk h t src = (h', r) ->
  only nowhere h h' /\ outcome_is r (decode_ud t (view h src)) (fun a b => b = rt_held h' a /\ good h h' (rt_slices a)).
Proof.
  intros OK EU EH H. unfold h_decode_ud, decode_ud in *. cbv zeta in *.
  assert (EQ : forall h0 : heap Z, t = rt_held h0 {| rt_rest := t; rt_udh := None; rt_ud := nil_slice |}).
  { intros h0. unfold rt_held. cbn [rt_rest rt_udh rt_ud option_map]. replace (view h0 nil_slice) with (@nil Z) by reflexivity.
    revert EU EH. dtpdu t. cbn. now intros -> ->. }
  destruct (len (view h src) <? 1) eqn:E1; [injection H as <- <-; split; [apply only_refl|reflexivity]|].
  destruct (idx (view h src) 0) as [udl|e| |]; cbn [htry bind] in *;
    try (injection H as <- <-; split; [apply only_refl|]; reflexivity || exact I).
  destruct (udl =? 0).
  { injection H as <- <-. split; [apply only_refl|]. cbn [outcome_is]. split; [apply EQ|]. apply good_nil_slice. }
  destruct (on_err (tpdu_alphabet t) (new_decode_error "alphabet" 1)) as [alphabet|e| |]; cbn [htry bind] in *;
    try (injection H as <- <-; split; [apply only_refl|]; reflexivity || exact I).
  set (sml7 := if alphabet =? Alpha7Bit then udl else 0) in *.
  set (udl' := if alphabet =? Alpha7Bit then (sml7 * 7 + 7) / 8 else udl) in *. clearbody udl'.
  destruct (len (view h src) <? 1 + udl'); [injection H as <- <-; split; [apply only_refl|reflexivity]|].
  destruct (1 + udl' <? len (view h src)); [injection H as <- <-; split; [apply only_refl|reflexivity]|].
  destruct (ok_tail h src 1 OK ltac:(lia)) as (OKT & ET).
  match type of H with hbind ?x _ = _ => destruct x as [h1 r1] eqn:EX end.
  match goal with |- only nowhere h h' /\ outcome_is r (bind ?x _) _ => set (vh := x) end.
  assert (S : only nowhere h h1 /\ outcome_is r1 vh
    (fun a b => b = (option_map (map (ie_held h1)) (fst a), snd a) /\ good h h1 (match fst a with Some l => map ri_data l | None => [] end))).
  { subst vh. destruct (fo_udhi (FO t)).
    - rewrite ET. cbn [bind]. unfold hon_err in EX.
      destruct (h_udh_unmarshal grow junk h (tail_from src 1)) as [h2 r2] eqn:EU2. cbn [fst snd] in EX. injection EX as <- <-.
      destruct (udh_spec _ _ _ _ _ _ OKT EU2) as (O & R). split; [assumption|].
      destruct r2, (udh_unmarshal (view h (tail_from src 1))); cbn [outcome_is on_err] in *; congruence || auto.
    - injection EX as <- <-. split; [apply only_refl|]. cbn. split; [reflexivity|apply good_nil]. }
  clearbody vh. destruct S as (O1 & S). unfold hbind in H. cbn [fst snd] in H.
  destruct r1 as [[u hl]|e| |], vh as [[u' hl']|e'| |]; cbn [outcome_is] in S; try contradiction; cbn [htry bind] in *;
    try (injection H as <- <-; split; [assumption|]; assumption || exact I).
  destruct S as (S & G). cbn [fst snd] in S, G. injection S as -> ->.
  set (l := match u with Some l => map ri_data l | None => [] end) in *.
  assert (ok_l : forall s, In s l -> ok_slice h1 s) by (destruct G as (F & _); rewrite Forall_forall in F; exact F).
  assert (later : forall h2, only nowhere h1 h2 -> option_map (map (ie_held h2)) u = option_map (map (ie_held h1)) u).
  { intros h2 O. destruct u as [x|]; [|reflexivity]. cbn [option_map]. f_equal. apply held_later; [|assumption].
    apply Forall_forall. exact ok_l. }
  destruct (1 + hl =? len (view h src)).
  { injection H as <- <-. split; [assumption|]. cbn [outcome_is]. split.
    - unfold rt_held. cbn [rt_rest rt_udh rt_ud]. f_equal. replace (view h1 nil_slice) with (@nil Z) by reflexivity.
      rewrite <- EU. now dtpdu t.
    - unfold rt_slices. cbn [rt_udh rt_ud]. fold l. eapply good_app; [exact G|apply only_refl|apply good_nil_slice|apply O1]. }
  destruct (slice_from (view h src) (1 + hl)) as [s|e| |]; cbn [htry bind] in *;
    try (injection H as <- <-; split; [assumption|]; reflexivity || exact I).
  assert (FIN : forall sm h2 d, gappend grow junk h1 nil_slice sm = (h2, d) -> (h2, Ok {| rt_rest := t; rt_udh := u; rt_ud := d |}) = (h', r) ->
    only nowhere h h' /\ outcome_is r (Ok (set_UDHf (set_UDf t sm) (option_map (map (ie_held h1)) u))) (fun a b => b = rt_held h' a /\ good h h' (rt_slices a))).
  { intros sm h2 d EA EF. injection EF as <- <-. destruct (append_nil _ _ _ _ _ _ EA) as (O2 & V2 & G2).
    split; [eapply nowhere_trans; eassumption|]. cbn [outcome_is]. split.
    - unfold rt_held. cbn [rt_rest rt_udh rt_ud]. now rewrite (later _ O2), V2.
    - unfold rt_slices. cbn [rt_udh rt_ud]. fold l. eapply good_app; try eassumption. apply O1. }
  destruct (alphabet =? Alpha7Bit).
  - destruct (on_err (decode_7bit sml7 hl s) (new_decode_error "sm" (1 + hl))) as [sm|e| |]; cbn [htry bind] in *;
      try (injection H as <- <-; split; [assumption|]; reflexivity || exact I).
    destruct (gappend grow junk h1 nil_slice sm) as [h2 d] eqn:EA. eapply FIN; eassumption.
  - destruct ((alphabet =? AlphaUCS2) && (Z.land (len s) 1 =? 1)); [injection H as <- <-; split; [assumption|reflexivity]|].
    destruct (gappend grow junk h1 nil_slice s) as [h2 d] eqn:EA. eapply FIN; eassumption.
Qed.

(** The readers of Tpdu.v are the heads followed by [decode_ud]. *)
Definition finish (src : bytes) (tr : tpdu * option Z) : res tpdu :=
  match snd tr with
  | None => Ok (fst tr)
  | Some ri => s <- slice_from src ri ;; on_err (decode_ud (fst tr) s) (new_decode_error "ud" ri)
  end.

Ltac split_head :=
  repeat match goal with
  | |- (if ?c then _ else _) = bind (if ?c then _ else _) _ => destruct c; [try reflexivity|try reflexivity]
  | |- bind ?x _ = bind (bind ?x _) _ => let a := fresh "a" in destruct x as [a|?e| |] eqn:?; cbn [bind]; try reflexivity
  | |- context [let '(_, _) := ?a in _] => is_var a; destruct a
  end.

Lemma finish_buf t (src b : bytes) p : src = p ++ b ->
  finish src (t, Some (len src - len b)) = on_err (decode_ud t b) (new_decode_error "ud" (len src - len b)).
Proof.
  intros ->. unfold finish. cbn [fst snd]. rewrite len_app. replace (len p + len b - len b) with (len p) by lia.
  unfold slice_from, slice. rewrite len_app. pose proof (len_nonneg p). pose proof (len_nonneg b).
  btrue ((0 <=? len p) && (len p <=? len p + len b) && (len p + len b <=? len p + len b)). cbn [bind].
  unfold len. rewrite Nat2Z.id, skipn_app, skipn_all, Nat.sub_diag. cbn [app skipn]. rewrite firstn_all2; [reflexivity|lia].
Qed.
Lemma read_byte_split f o b x b' : read_byte f o b = Ok (x, b') -> b = [x] ++ b'.
Proof. destruct b; cbn; [discriminate|]. intros H. apply ok_pair in H as (-> & ->). reflexivity. Qed.
Lemma buf_next_split n b : exists p, b = p ++ buf_next n b.
Proof. exists (firstn (Z.to_nat n) b). symmetry. apply firstn_skipn. Qed.
Lemma slice_from_split (s b : bytes) n : slice_from s n = Ok b -> exists p, s = p ++ b.
Proof.
  unfold slice_from, slice. destruct (_ && _ && _) eqn:E; [|discriminate]. intros H. apply ok_inj in H as <-.
  exists (firstn (Z.to_nat n) s). rewrite (firstn_all2 (n := Z.to_nat (len s - n))); [symmetry; apply firstn_skipn|].
  rewrite skipn_length. unfold len in *. lia.
Qed.

Lemma command_head t s : unmarshal_command t s = bind (head_command t s) (finish s).
Proof.
  unfold unmarshal_command, head_command. cbv zeta. split_head.
  repeat match goal with H : read_byte _ _ _ = Ok (_, _) |- _ => apply read_byte_split in H end.
  destruct (buf_next_split z3 b2) as (p & EB). symmetry. eapply finish_buf with (p := [z] ++ [z0] ++ [z1] ++ [z2] ++ p).
  rewrite <- !app_assoc, <- EB. congruence.
Qed.
Lemma deliver_head t s : unmarshal_deliver t s = bind (head_deliver t s) (finish s).
Proof.
  unfold unmarshal_deliver, head_deliver. cbv zeta. split_head.
  repeat match goal with H : read_byte _ _ _ = Ok (_, _) |- _ => apply read_byte_split in H end.
  match goal with H : slice_from _ _ = Ok _ |- _ => destruct (slice_from_split _ _ _ H) as (q & EQ) end.
  match goal with |- context [buf_next 7 ?b] => destruct (buf_next_split 7 b) as (p & EB) end.
  symmetry. eapply finish_buf with (p := q ++ [_] ++ [_] ++ p). rewrite <- !app_assoc, <- EB. rewrite EQ. f_equal. 
  subst. reflexivity.
Qed.
Lemma optionals_head t s ri : unmarshal_optionals t s ri = bind (head_optionals t s ri) (finish s).
Proof.
  unfold unmarshal_optionals, head_optionals. split_head. unfold finish. cbn [fst snd]. now destruct (pi_udl (PI t1)).
Qed.
Lemma deliver_report_head t s : unmarshal_deliver_report t s = bind (head_deliver_report t s) (finish s).
Proof. unfold unmarshal_deliver_report, head_deliver_report. cbv zeta. split_head. apply optionals_head. Qed.
Lemma submit_report_head t s : unmarshal_submit_report t s = bind (head_submit_report t s) (finish s).
Proof. unfold unmarshal_submit_report, head_submit_report. cbv zeta. split_head. apply optionals_head. Qed.
Lemma status_report_head t s : unmarshal_status_report t s = bind (head_status_report t s) (finish s).
Proof. unfold unmarshal_status_report, head_status_report. cbv zeta. split_head. apply optionals_head. Qed.
Lemma submit_head t s : unmarshal_submit t s = bind (head_submit t s) (finish s).
Proof. unfold unmarshal_submit, head_submit. cbv zeta. split_head. all: unfold finish; cbn [fst snd]; reflexivity. Qed.

(** The heads leave user data and header alone. *)
Definition kept (t : tpdu) (r : res (tpdu * option Z)) : Prop :=
  match r with Ok (t', _) => UD t' = UD t /\ UDH t' = UDH t | _ => True end.
Ltac kept_step :=
  repeat match goal with
  | |- kept _ (if ?c then _ else _) => destruct c
  | |- kept _ (bind ?x _) => let a := fresh "a" in destruct x as [a|?e| |]; cbn [bind]; [|exact I|exact I|exact I]
  | |- kept _ (Err _) => exact I
  | |- context [let '(_, _) := ?a in _] => is_var a; destruct a
  end.
Lemma kept_optionals t t0 s ri : UD t = UD t0 -> UDH t = UDH t0 -> kept t0 (head_optionals t s ri).
Proof.
  intros E1 E2. unfold head_optionals. unfold kept.
  repeat (match goal with |- context [if ?c then _ else _] => destruct c end; cbn [bind]; try exact I;
          try (destruct (idx s _); cbn [bind]; try exact I));
  rewrite <- E1, <- E2; dtpdu t; cbn; auto.
Qed.
Lemma kept_command t s : kept t (head_command t s).
Proof. unfold head_command. cbv zeta. kept_step. dtpdu t. cbn. auto. Qed.
Lemma kept_deliver t s : kept t (head_deliver t s).
Proof. unfold head_deliver. cbv zeta. kept_step. dtpdu t. cbn. auto. Qed.
Lemma kept_submit t s : kept t (head_submit t s).
Proof. unfold head_submit. cbv zeta. kept_step. dtpdu t. cbn. auto. Qed.
Lemma kept_deliver_report t s : kept t (head_deliver_report t s).
Proof. unfold head_deliver_report. cbv zeta. kept_step. apply kept_optionals; dtpdu t; reflexivity. Qed.
Lemma kept_submit_report t s : kept t (head_submit_report t s).
Proof. unfold head_submit_report. cbv zeta. kept_step. apply kept_optionals; dtpdu t; reflexivity. Qed.
Lemma kept_status_report t s : kept t (head_status_report t s).
Proof. unfold head_status_report. cbv zeta. kept_step; [apply kept_optionals; dtpdu t; reflexivity|]. dtpdu t. cbn. auto. Qed.
Lemma kept_head t s : kept t (head t s).
Proof.
  unfold head. cbv zeta. repeat destruct (_ =? _); auto using kept_command, kept_deliver, kept_submit, kept_deliver_report, kept_submit_report, kept_status_report.
Qed.

Lemma unmarshal_head t src : tpdu_unmarshal t src =
  if len src <? 1 then Err (new_decode_error "tpdu.firstOctet" 0 ErrUnderflow) else
  fo <- idx src 0 ;;
  s <- slice_from src 1 ;;
  let st := tpdu_type (set_FO t fo) in
  if (0 <=? st) && (st <=? 5)
  then on_err (bind (head (set_FO t fo) s) (finish s)) (new_decode_error (sms_type_string st) 1)
  else Err (new_decode_error "tpdu.firstOctet" 0 (ErrUnsupportedSmsType st)).
Proof.
  unfold tpdu_unmarshal. destruct (len src <? 1); [reflexivity|]. destruct (idx src 0) as [fo|e| |]; [|reflexivity..]. cbn [bind].
  destruct (slice_from src 1) as [s|e| |]; [|reflexivity..]. cbn [bind]. cbv zeta. unfold head. cbv zeta.
  rewrite deliver_head, deliver_report_head, submit_report_head, submit_head, status_report_head, command_head.
  set (st := tpdu_type (set_FO t fo)). unfold SmsDeliver, SmsDeliverReport, SmsSubmitReport, SmsSubmit, SmsStatusReport, SmsCommand.
  destruct (st =? 0) eqn:E0; [now btrue ((0 <=? st) && (st <=? 5))|].
  destruct (st =? 1) eqn:E1; [now btrue ((0 <=? st) && (st <=? 5))|].
  destruct (st =? 2) eqn:E2; [now btrue ((0 <=? st) && (st <=? 5))|].
  destruct (st =? 3) eqn:E3; [now btrue ((0 <=? st) && (st <=? 5))|].
  destruct (st =? 4) eqn:E4; [now btrue ((0 <=? st) && (st <=? 5))|].
  destruct (st =? 5) eqn:E5; [now btrue ((0 <=? st) && (st <=? 5))|].
  now bfalse ((0 <=? st) && (st <=? 5)).
Qed.

Lemma finish_spec grow junk h src tr h' r : ok_slice h src -> UD (fst tr) = [] -> UDH (fst tr) = None ->
  h_finish grow junk h src tr = (h', r) ->
  only nowhere h h' /\ outcome_is r (finish (view h src) tr) (fun a b => b = rt_held h' a /\ good h h' (rt_slices a)).
Proof.
  intros OK EU EH H. unfold h_finish, finish in *. destruct (snd tr) as [ri|].
  - destruct (slice_from (view h src) ri) as [s|e| |] eqn:ES; cbn [htry bind] in *;
      try (injection H as <- <-; split; [apply only_refl|]; reflexivity || exact I).
    assert (L : 0 <= ri <= len (view h src)).
    { unfold slice_from, slice in ES. destruct (_ && _ && _) eqn:E in ES; [lia|discriminate]. }
    destruct (ok_tail h src ri OK L) as (OKT & ET). rewrite ET in ES. apply ok_inj in ES as <-.
    unfold hon_err in H. destruct (h_decode_ud grow junk h (fst tr) (tail_from src ri)) as [h1 r1] eqn:ED.
    cbn [fst snd] in H. injection H as <- <-. destruct (decode_ud_spec _ _ _ _ _ _ _ OKT EU EH ED) as (O & R).
    split; [assumption|]. destruct r1, (decode_ud (fst tr) (view h (tail_from src ri))); cbn [outcome_is on_err] in *; congruence || auto.
  - injection H as <- <-. split; [apply only_refl|]. cbn [outcome_is]. split; [|apply good_nil_slice].
    unfold rt_held. cbn [rt_rest rt_udh rt_ud option_map]. replace (view h nil_slice) with (@nil Z) by reflexivity.
    destruct tr as [t o]. cbn [fst] in *. revert EU EH. dtpdu t. cbn. now intros -> ->.
Qed.

Lemma tpdu_unmarshal_spec grow junk h t src h' r : ok_slice h src -> UD t = [] -> UDH t = None ->
  h_tpdu_unmarshal grow junk h t src = (h', r) ->
  only nowhere h h' /\ outcome_is r (tpdu_unmarshal t (view h src)) (fun a b => b = rt_held h' a /\ good h h' (rt_slices a)).
Proof.
  intros OK EU EH H. rewrite unmarshal_head. unfold h_tpdu_unmarshal in H. cbv zeta in H.
  destruct (len (view h src) <? 1) eqn:E1; [injection H as <- <-; split; [apply only_refl|reflexivity]|].
  destruct (idx (view h src) 0) as [fo|e| |]; cbn [htry bind] in *;
    try (injection H as <- <-; split; [apply only_refl|]; reflexivity || exact I).
  destruct (ok_tail h src 1 OK ltac:(lia)) as (OKT & ET). rewrite ET. cbn [bind]. cbv zeta.
  destruct ((0 <=? tpdu_type (set_FO t fo)) && (tpdu_type (set_FO t fo) <=? 5));
    [|injection H as <- <-; split; [apply only_refl|reflexivity]].
  unfold hon_err in H. match type of H with (fst ?x, _) = _ => destruct x as [h1 r1] eqn:EX end. cbn [fst snd] in H. injection H as <- <-.
  pose proof (kept_head (set_FO t fo) (view h (tail_from src 1))) as K.
  assert (S : only nowhere h h1 /\ outcome_is r1 (bind (head (set_FO t fo) (view h (tail_from src 1))) (finish (view h (tail_from src 1))))
                (fun a b => b = rt_held h1 a /\ good h h1 (rt_slices a))).
  { destruct (head (set_FO t fo) (view h (tail_from src 1))) as [[t' o]|e| |]; cbn [htry bind] in *;
      try (injection EX as <- <-; split; [apply only_refl|]; reflexivity || exact I).
    cbn [kept] in K. destruct K as (K1 & K2). eapply finish_spec; [exact OKT| | |exact EX]; cbn [fst].
    - rewrite K1, <- EU. now dtpdu t.
    - rewrite K2, <- EH. now dtpdu t. }
  destruct S as (O & R). split; [assumption|].
  destruct r1, (bind (head (set_FO t fo) (view h (tail_from src 1))) (finish (view h (tail_from src 1)))); cbn [outcome_is on_err] in *; congruence || auto.
Qed.

Lemma h_unmarshal_spec grow junk h src mo h' r : ok_slice h src -> h_unmarshal grow junk h src mo = (h', r) ->
  only nowhere h h' /\ outcome_is r (unmarshal (view h src) mo) (fun a b => b = rt_held h' a /\ good h h' (rt_slices a)).
Proof. intros OK H. eapply tpdu_unmarshal_spec; [exact OK| | |exact H]; reflexivity. Qed.
