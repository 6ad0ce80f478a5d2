(** Lemmas for what the tools print. *)
From Coq Require Import String Ascii.
From Verif Require Import GoBase GoLemmas SafeLemmas Utf SpecText UtfProofs Charset Address Tpdu Sms Collector CollectorMsgProofs Cmd Print PrintProofs
  PduMode PduModeProofs SpecErrorText SpecTools ErrorText ErrorTextProofs PrintTools.

(** Texts that follow each other. *)
Lemma flat_map_front {A} (Q : A -> Prop) (f f' : A -> bytes) l :
  (forall a x y, In a l -> f a ++ x = f' a ++ y -> Q a /\ x = y) ->
  forall x y, flat_map f l ++ x = flat_map f' l ++ y -> Forall Q l /\ x = y.
Proof.
  induction l as [|a l IH]; intros H x y E; [now split|]. cbn [flat_map] in E. rewrite <- !app_assoc in E.
  apply H in E as [HQ E]; [|now left]. apply IH in E as [HF E]; [|intros; apply H; [now right|assumption]]. split; [now constructor|exact E].
Qed.

(** ** Cells *)
(** A cell has a character between two spaces (a space if it is empty), a name
    or a number. *)
Lemma fmt_04x_chars n : 0 <= n -> ~ In 32 (fmt_04x n) /\ (4 <= length (fmt_04x n))%nat /\ Forall alnum (fmt_04x n).
Proof.
  intros H. pose proof (fmt_x_alnum n H) as F. unfold fmt_04x.
  assert (G : Forall alnum (repeat 48 (4 - length (fmt_x n)) ++ fmt_x n)).
  { apply Forall_app. split; [|exact F]. apply Forall_forall. intros c I. apply repeat_spec in I as ->. unfold alnum. lia. }
  split; [|split; [|exact G]].
  - eapply not_in_class; [exact G|unfold alnum; lia].
  - rewrite app_length, repeat_length. lia.
Qed.
Lemma fmt_04x_inj n n' : 1024 <= n -> 1024 <= n' -> fmt_04x n = fmt_04x n' -> n = n'.
Proof.
  intros H H' E. unfold fmt_04x in E.
  pose proof (hex_text hex_digit val_lower lower_back n) as [V _]; [lia|]. pose proof (hex_text hex_digit val_lower lower_back n') as [V' _]; [lia|].
  fold (fmt_x n) in V. fold (fmt_x n') in V'. apply (f_equal (hvalue val_lower)) in E. rewrite !hvalue_zeros in E by reflexivity. congruence.
Qed.

Lemma cell_shape v : match v with Some r => scalar r | None => True end -> shown_as v (cell v).
Proof.
  destruct v as [v|]; intros S.
  - unfold cell, special.
    destruct (v =? 10) eqn:E1; [apply Z.eqb_eq in E1 as ->; apply (sh_name 10 76 70); cbn; auto|].
    destruct (v =? 13) eqn:E2; [apply Z.eqb_eq in E2 as ->; apply (sh_name 13 67 82); cbn; auto|].
    destruct (v =? 12) eqn:E3; [apply Z.eqb_eq in E3 as ->; apply (sh_name 12 70 70); cbn; auto|].
    destruct (v =? 32) eqn:E4; [apply Z.eqb_eq in E4 as ->; apply (sh_name 32 83 80); cbn; auto|].
    destruct (v =? 27) eqn:E5; [apply Z.eqb_eq in E5 as ->; apply sh_esc|].
    destruct (v =? 8364) eqn:E6; [apply Z.eqb_eq in E6 as ->; apply (sh_char (Some 8364) 8364 S); right; repeat split; [lia|now right]|].
    destruct (1024 <=? v) eqn:E7.
    + apply sh_code; [lia|exact S].
    + apply (sh_char (Some v) v S). right. split; [lia|]. split; [reflexivity|lia].
  - apply (sh_char None 32); [unfold scalar; lia|now left].
Qed.

Lemma cell_front v v' x y :
  match v with Some r => scalar r | None => True end -> match v' with Some r => scalar r | None => True end ->
  cell v ++ x = cell v' ++ y -> v = v' /\ x = y.
Proof.
  intros S S' E.
  assert (H : v = v'); [|subst v'; now apply app_inv_head in E].
  apply cell_shape in S. apply cell_shape in S'. revert S S' E. generalize (cell v) (cell v'). intros c c'.
  assert (C1 : forall n l m, 1024 <= n -> (fmt_04x n ++ [32]) ++ l = 32 :: m -> False).
  { intros n l m H E. destruct (fmt_04x_chars n ltac:(lia)) as (_ & L & F). destruct (fmt_04x n) as [|d ds]; [cbn in L; lia|].
    injection E as -> _. apply Forall_inv in F. unfold alnum in F. lia. }
  assert (C2 : forall n l m, 1024 <= n -> (fmt_04x n ++ [32]) ++ l = 69 :: 83 :: 67 :: 32 :: m -> False).
  { intros n l m H E. destruct (fmt_04x_chars n ltac:(lia)) as (N & L & _). rewrite <- app_assoc in E. cbn [app] in E.
    change (69 :: 83 :: 67 :: 32 :: m) with ([69; 83; 67] ++ 32 :: m) in E. apply split_first in E as [E _]; [|exact N|cbn; lia].
    rewrite E in L. cbn in L. lia. }
  intros [v1 w1 W1 K1|v1 a1 b1 I1| |v1 L1 W1] [v2 w2 W2 K2|v2 a2 b2 I2| |v2 L2 W2] E; try discriminate E.
  - injection E as E. rewrite <- !app_assoc in E. apply rune_front in E as ->; [|assumption..].
    destruct K1 as [[? ->]|(? & -> & _)], K2 as [[? ->]|(? & -> & _)]; try reflexivity; contradiction.
  - exfalso. injection E as E _. cbn [In] in I2. decompose [or] I2; try contradiction; match goal with H : _ = (_, _, _) |- _ => injection H as <- <- <- end; discriminate E.
  - exfalso. symmetry in E. cbn [app] in E. now apply C1 in E.
  - exfalso. injection E as E _. cbn [In] in I1. decompose [or] I1; try contradiction; match goal with H : _ = (_, _, _) |- _ => injection H as <- <- <- end; discriminate E.
  - injection E as E1 E2 _. cbn [In] in I1, I2. decompose [or] I1; try contradiction; decompose [or] I2; try contradiction;
      repeat match goal with H : _ = (_, _, _) |- _ => injection H as <- <- <- end; first [reflexivity|discriminate].
  - exfalso. symmetry in E. cbn [app] in E. now apply C1 in E.
  - reflexivity.
  - exfalso. symmetry in E. cbn [app] in E. now apply C2 in E.
  - exfalso. cbn [app] in E. now apply C1 in E.
  - exfalso. cbn [app] in E. now apply C1 in E.
  - exfalso. cbn [app] in E. now apply C2 in E.
  - rewrite <- !app_assoc in E. cbn [app] in E. apply split_first in E as [E _]; [|apply fmt_04x_chars; lia..].
    now apply fmt_04x_inj in E as ->.
Qed.

(** ** Tables *)
Lemma display_inj m m' :
  (forall k v, assoc m k = Some v -> scalar v) -> (forall k v, assoc m' k = Some v -> scalar v) ->
  display m = display m' -> forall k, 0 <= k < 128 -> assoc m k = assoc m' k.
Proof.
  intros S S' E. unfold display in E. do 3 apply app_inv_head in E. rewrite <- (app_nil_r (flat_map (display_row m) rows)), <- (app_nil_r (flat_map (display_row m') rows)) in E.
  apply (flat_map_front (fun r => Forall (fun c => assoc m (to_byte (c * 16 + r)) = assoc m' (to_byte (c * 16 + r))) columns)) in E as [E _].
  - intros k K. rewrite Forall_forall in E.
    assert (I : In (k mod 16) rows).
    { assert (0 <= k mod 16 < 16) by lia. unfold rows. cbn [In]. lia. }
    assert (J : In (k / 16) columns).
    { assert (0 <= k / 16 < 8) by lia. unfold columns. cbn [In]. lia. }
    specialize (E _ I). rewrite Forall_forall in E. specialize (E _ J). replace (to_byte (k / 16 * 16 + k mod 16)) with k in E; [exact E|].
    unfold to_byte. lia.
  - intros r x y _ H. unfold display_row in H. rewrite <- !app_assoc in H. do 3 apply app_inv_head in H.
    apply (flat_map_front (fun c => assoc m (to_byte (c * 16 + r)) = assoc m' (to_byte (c * 16 + r)))) in H as [H1 H2].
    + split; [exact H1|]. now apply app_inv_head in H2.
    + intros c x1 y1 _ H1. apply cell_front in H1; [assumption|..].
      * destruct (assoc m _) eqn:A; [now apply S in A|exact I].
      * destruct (assoc m' _) eqn:A; [now apply S' in A|exact I].
Qed.

(** ** smssubmit *)
Lemma submit_lines_inj ls : forall ls' i, Forall one_line ls -> Forall one_line ls' ->
  submit_lines i ls = submit_lines i ls' -> ls = ls'.
Proof.
  induction ls as [|l ls IH]; intros [|l' ls'] i F F' E; try discriminate E; [reflexivity|]. cbn [submit_lines] in E.
  apply app_inv_head in E. apply app_inv_head in E. apply app_inv_head in E. apply app_inv_head in E. cbn [app] in E.
  apply split_first in E as [-> E]; [|apply one_line_in; now apply Forall_inv in F|apply one_line_in; now apply Forall_inv in F'].
  f_equal. apply (IH _ _ (Forall_inv_tail F) (Forall_inv_tail F') E).
Qed.
Lemma submit_text_inj ls ls' : Forall one_line ls -> Forall one_line ls' -> submit_text ls = submit_text ls' -> ls = ls'.
Proof.
  intros F F' E.
  assert (X : forall l r, submit_text [l] = submit_lines 0 r -> False).
  { intros l [|a r] H; discriminate H. }
  destruct ls as [|l [|l2 ls]], ls' as [|l' [|l2' ls']].
  - reflexivity. - symmetry in E. now apply (X l' []) in E. - now apply submit_lines_inj in E.
  - now apply (X l []) in E.
  - unfold submit_text in E. do 2 apply app_inv_head in E. now apply app_inv_tail in E as ->.
  - now apply (X l (l' :: l2' :: ls')) in E.
  - now apply submit_lines_inj in E.
  - symmetry in E. now apply (X l' (l :: l2 :: ls)) in E.
  - now apply submit_lines_inj in E.
Qed.
Lemma hex_decode_one_line s : forall b, hex_decode s = Ok b -> one_line s.
Proof.
  assert (H : forall n s b, (length s <= n)%nat -> hex_decode s = Ok b -> one_line s).
  { induction n as [|n IH]; intros [|c [|d s']] b L H; try (cbn in L; lia); try constructor; try (cbn in H; destruct (from_hex_char c); discriminate H).
    all: cbn [hex_decode] in H; destruct (from_hex_char c) as [hc|] eqn:HC; [|discriminate H]; destruct (from_hex_char d) as [hd|] eqn:HD; [|discriminate H];
      destruct (hex_decode s') as [b'| | |] eqn:HS; try discriminate H.
    - intros ->. discriminate HC.
    - constructor; [intros ->; discriminate HD|]. apply (IH s' b'); [cbn in L; lia|exact HS]. }
  intros b. now apply (H (length s)).
Qed.

(** ** smscounter *)
Lemma count_string_inj c c' : one_line (str (k_encoding c)) -> one_line (str (k_encoding c')) ->
  count_string c = count_string c' -> c = c'.
Proof.
  intros O O' E. unfold count_string in E.
  assert (N : forall n, one_line (fmt_int n)).
  { intros n. apply Forall_forall. intros x I. apply fmt_int_chars in I. lia. }
  rewrite <- (app_nil_r (pline "remaining: " (fmt_int (k_remaining c)))), <- (app_nil_r (pline "remaining: " (fmt_int (k_remaining c')))) in E.
  apply pline_inj in E as [E0 E]; [|assumption..]. do 5 (apply pline_inj in E as [? E]; [|apply N..]).
  apply str_inj in E0. repeat match goal with H : fmt_int _ = fmt_int _ |- _ => apply fmt_int_inj in H end.
  destruct c, c'. simpl in *. congruence.
Qed.

(** ** smsdeliver *)
Definition messages_of (ls : list sd_line) : list (bytes * bytes) :=
  flat_map (fun l => match l with SdPrint n m => [(n, m)] | SdLog _ => [] end) ls.
Lemma deliver_messages ls : deliver_text ls = flat_map (fun p => fst p ++ str ": " ++ snd p ++ [10]) (messages_of ls).
Proof.
  unfold deliver_text, messages_of. induction ls as [|[n m|e] ls IH]; cbn [flat_map app]; [reflexivity| |exact IH].
  now rewrite IH.
Qed.
Lemma deliver_inj ls : forall ls', Forall (fun p => ~ In 58 (fst p) /\ ~ In 10 (snd p)) ls -> Forall (fun p => ~ In 58 (fst p) /\ ~ In 10 (snd p)) ls' ->
  flat_map (fun p => fst p ++ str ": " ++ snd p ++ [10]) ls = flat_map (fun p => fst p ++ str ": " ++ snd p ++ [10]) ls' -> ls = ls'.
Proof.
  induction ls as [|[n m] ls IH]; intros [|[n' m'] ls'] F F' E.
  - reflexivity.
  - exfalso. cbn [flat_map fst snd] in E. apply (f_equal (@length Z)) in E. rewrite !app_length in E. cbn in E. lia.
  - exfalso. cbn [flat_map fst snd] in E. apply (f_equal (@length Z)) in E. rewrite !app_length in E. cbn in E. lia.
  - cbn [flat_map fst snd] in E. rewrite <- !app_assoc in E. change (str ": ") with [58; 32] in E. cbn [app] in E.
    apply split_first in E as [-> E]; [|apply (Forall_inv F)|apply (Forall_inv F')]. injection E as E.
    apply split_first in E as [-> E]; [|apply (Forall_inv F)|apply (Forall_inv F')].
    f_equal. apply (IH _ (Forall_inv_tail F) (Forall_inv_tail F') E).
Qed.
