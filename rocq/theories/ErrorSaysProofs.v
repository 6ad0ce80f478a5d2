(** Proofs about what the texts of errors say (for P_ErrorSays.v). *)
From Coq Require Import String Ascii.
From Verif Require Import GoBase GoLemmas SafeLemmas Utf SpecText UtfProofs Collector Print ErrorText SpecErrorText ErrorTextProofs SpecShown
  SpecErrorSays.

(** Zeros in front. *)
Lemma pad_numeral alphabet w n b : nth 0 alphabet 0 = 48 -> (1 <= w)%nat -> numeral alphabet 1 n b ->
  numeral alphabet w n (repeat 48 (w - length b) ++ b).
Proof.
  intros Z0 W (ds & -> & H2 & H3 & H4 & _ & H5). rewrite map_length.
  exists (repeat O (w - length ds) ++ ds). rewrite map_app. split.
  { f_equal. generalize (w - length ds)%nat. induction n0; [reflexivity|]. cbn [repeat map]. now rewrite Z0, IHn0. }
  split.
  { apply Forall_app. split; [|assumption]. apply Forall_forall. intros x I. apply repeat_spec in I. subst. destruct ds; [contradiction|]. inversion H2. lia. }
  split.
  { rewrite fold_left_app. rewrite <- H3 at 1. f_equal. generalize (w - length ds)%nat. induction n0; [reflexivity|]. cbn [repeat fold_left].
    now rewrite Z.mul_0_r. }
  split; [intros E; apply app_eq_nil in E as [_ E]; contradiction|].
  rewrite app_length, repeat_length. split; [lia|].
  destruct (w - length ds)%nat eqn:E; cbn [repeat app hd]; [|lia]. intros F. specialize (H5 F). destruct ds; [contradiction|]. cbn in *. lia.
Qed.

Section Loop.
Context (B : Z) (digit : Z -> Z) (alphabet : bytes).
Context (two : 2 <= B) (size : len alphabet = B) (dig : forall d, 0 <= d < B -> digit d = nth (Z.to_nat d) alphabet 0).
Fixpoint digits_loop (fuel : nat) (n : Z) (acc : bytes) : bytes :=
  match fuel with
  | O => acc
  | S f => let acc := digit (n mod B) :: acc in if n <? B then acc else digits_loop f (n / B) acc
  end.
Let value (ds : list nat) : Z := fold_left (fun a d => len alphabet * a + Z.of_nat d) ds 0.
Let char (d : nat) : Z := nth d alphabet 0.
Lemma digits_loop_spec fuel : forall n acc, 0 <= n < 2 ^ Z.of_nat fuel -> (0 < fuel)%nat ->
  exists ds, digits_loop fuel n acc = map char ds ++ acc /\ Forall (fun d => (d < length alphabet)%nat) ds /\
    value ds = n /\ ds <> [] /\ (hd O ds = O -> length ds = 1%nat).
Proof.
  induction fuel as [|f IH]; intros n acc HN HF; [lia|]. cbn [digits_loop].
  assert (M : 0 <= n mod B < B) by (apply Z.mod_pos_bound; lia).
  assert (ML : (Z.to_nat (n mod B) < length alphabet)%nat) by (unfold len in size; lia).
  destruct (Z.ltb_spec n B) as [L|L].
  - exists [Z.to_nat (n mod B)]. cbn [map app]. unfold char at 1. rewrite <- dig by assumption. split; [reflexivity|].
    split; [now constructor|]. split; [unfold value; cbn [fold_left]; rewrite Z2Nat.id, Z.mod_small by lia; lia|]. split; [discriminate|reflexivity].
  - assert (HP : 2 ^ Z.of_nat (S f) = 2 * 2 ^ Z.of_nat f) by (rewrite Nat2Z.inj_succ, Z.pow_succ_r; lia).
    assert (Q1 : 1 <= n / B) by (apply Z.div_le_lower_bound; lia).
    assert (Q2 : n / B < 2 ^ Z.of_nat f) by (apply Z.div_lt_upper_bound; nia).
    destruct f as [|f]; [cbn in Q2; lia|].
    destruct (IH (n / B) (digit (n mod B) :: acc)) as (ds & H1 & H2 & H3 & H4 & H5); [lia|lia|].
    exists (ds ++ [Z.to_nat (n mod B)]). rewrite H1, map_app, <- app_assoc. cbn [map app]. unfold char at 3. rewrite <- dig by assumption.
    split; [reflexivity|]. split; [apply Forall_app; split; [assumption|now constructor]|]. split.
    + unfold value in *. rewrite fold_left_app, H3. cbn [fold_left]. rewrite Z2Nat.id, size by lia.
      pose proof (Z.div_mod n B ltac:(lia)). lia.
    + split; [destruct ds; discriminate|]. destruct ds as [|d ds]; [contradiction|]. cbn [hd app]. intros ->.
      specialize (H5 eq_refl). destruct ds; [|discriminate]. exfalso. revert H3. unfold value. cbn [fold_left Z.of_nat]. lia.
Qed.
Lemma digits_numeral n : 0 <= n -> numeral alphabet 1 n (digits_loop (S (Z.to_nat (Z.log2 n))) n []).
Proof.
  intros H. destruct (digits_loop_spec (S (Z.to_nat (Z.log2 n))) n []) as (ds & H1 & H2 & H3 & H4 & H5).
  - split; [assumption|]. rewrite Nat2Z.inj_succ, Z2Nat.id by apply Z.log2_nonneg.
    destruct (Z.eq_dec n 0) as [->|]; [reflexivity|]. apply Z.log2_spec. lia.
  - lia.
  - rewrite app_nil_r in H1. exists ds. rewrite H1. repeat split; try assumption. destruct ds; [contradiction|cbn; lia].
Qed.
End Loop.

Lemma hex_loop_digits digit fuel : forall n acc, hex_loop digit fuel n acc = digits_loop 16 digit fuel n acc.
Proof. induction fuel as [|f IH]; intros n acc; [reflexivity|]. cbn [hex_loop digits_loop]. now rewrite IH. Qed.
Lemma dec_loop_digits fuel : forall n acc, dec_loop fuel n acc = digits_loop 10 (fun d => 48 + d) fuel n acc.
Proof. induction fuel as [|f IH]; intros n acc; [reflexivity|]. cbn [dec_loop digits_loop]. now rewrite IH. Qed.

Lemma dec_chars d : 0 <= d < 10 -> 48 + d = nth (Z.to_nat d) (ascii_text "0123456789") 0.
Proof.
  intros H. pose proof (zrange_sweep 10 (fun d => 48 + d =? nth (Z.to_nat d) (ascii_text "0123456789") 0) ltac:(vm_compute; reflexivity) d H) as E.
  cbn beta in E. lia.
Qed.
Lemma lower_chars d : 0 <= d < 16 -> hex_digit d = nth (Z.to_nat d) (ascii_text "0123456789abcdef") 0.
Proof.
  intros H. pose proof (zrange_sweep 16 (fun d => hex_digit d =? nth (Z.to_nat d) (ascii_text "0123456789abcdef") 0) ltac:(vm_compute; reflexivity) d H) as E.
  cbn beta in E. lia.
Qed.
Lemma upper_chars d : 0 <= d < 16 -> hex_digit_upper d = nth (Z.to_nat d) (ascii_text "0123456789ABCDEF") 0.
Proof.
  intros H. pose proof (zrange_sweep 16 (fun d => hex_digit_upper d =? nth (Z.to_nat d) (ascii_text "0123456789ABCDEF") 0) ltac:(vm_compute; reflexivity) d H) as E.
  cbn beta in E. lia.
Qed.

Lemma fmt_d_numeral n : 0 <= n -> decimal n (fmt_d n).
Proof. intros H. unfold fmt_d. rewrite dec_loop_digits. apply digits_numeral; [lia|reflexivity|exact dec_chars|assumption]. Qed.
Lemma fmt_x_numeral n : 0 <= n -> lower_hex 1 n (fmt_x n).
Proof. intros H. unfold fmt_x. rewrite hex_loop_digits. apply digits_numeral; [lia|reflexivity|exact lower_chars|assumption]. Qed.
Lemma fmt_U_numeral n : 0 <= n -> exists x, upper_hex 4 n x /\ fmt_U n = ascii_text "U+" ++ x.
Proof.
  intros H. unfold fmt_U. eexists. split; [|reflexivity]. apply pad_numeral; [reflexivity|lia|].
  rewrite hex_loop_digits. apply digits_numeral; [lia|reflexivity|exact upper_chars|assumption].
Qed.
Lemma fmt_02x_numeral n : is_byte n -> lower_hex 2 n (fmt_02x n).
Proof.
  intros H. unfold is_byte in H. exists [Z.to_nat (n / 16); Z.to_nat (n mod 16)].
  change (length (ascii_text "0123456789abcdef")) with 16%nat. change (len (ascii_text "0123456789abcdef")) with 16.
  cbn [map]. rewrite <- !lower_chars by lia. split; [reflexivity|]. split; [apply Forall_cons; [lia|apply Forall_cons; [lia|constructor]]|]. split; [cbn [fold_left]; lia|].
  split; [discriminate|]. cbn. lia.
Qed.
Lemma fmt_int_integer n : integer n (fmt_int n).
Proof.
  unfold integer, fmt_int. destruct (n <? 0) eqn:E.
  - exists (fmt_d (- n)). split; [apply fmt_d_numeral; lia|reflexivity].
  - apply fmt_d_numeral. lia.
Qed.

Lemma error_text_says e : proper_error e -> says e (error_text e).
Proof.
  assert (NB : forall n, is_byte n -> 0 <= n) by (unfold is_byte; lia).
  assert (NS : forall n, scalar n -> 0 <= n) by (unfold scalar; lia).
  induction e as [| | | | | |b| |f o c IH|f c IH|b|i| |d|g|r| |b|b| | | | |]; intros P; cbn [proper_error] in P; cbn [says error_text]; try reflexivity.
  - exists (fmt_x b). split; [apply fmt_x_numeral; auto|reflexivity].
  - destruct P as [P1 P2]. exists (fmt_int o), (error_text c). split; [apply fmt_int_integer|]. split; [now apply IH|]. reflexivity.
  - destruct P as [P1 P2]. exists (error_text c). split; [now apply IH|]. reflexivity.
  - exists (fmt_02x b). split; [now apply fmt_02x_numeral|reflexivity].
  - exists (fmt_int i). split; [apply fmt_int_integer|reflexivity].
  - exists (encode_rune d), (fmt_x d). split; [apply encode_rune_spec; now apply byte_scalar|]. split; [apply fmt_x_numeral; auto|reflexivity].
  - exists (fmt_02x g). split; [now apply fmt_02x_numeral|reflexivity].
  - destruct (fmt_U_numeral r) as (x & U & ->); [auto|]. exists (encode_rune r), x. split; [now apply encode_rune_spec|]. split; [assumption|].
    rewrite <- !app_assoc. reflexivity.
  - destruct P as [L F]. destruct b as [|h [|l [|]]]; try (cbn in L; lia). inversion F as [|? ? H1 F']; subst. inversion F' as [|? ? H2 _]; subst.
    exists h, l, (fmt_x h), (fmt_x l). split; [reflexivity|]. split; [apply fmt_x_numeral; auto|]. split; [apply fmt_x_numeral; auto|].
    unfold fmt_sharp_v. cbn [flat_map]. rewrite !app_nil_r, <- !app_assoc. reflexivity.
  - unfold fmt_sharp_U. destruct (fmt_U_numeral b) as (x & U & ->); [auto|]. exists (encode_rune b), x.
    split; [apply encode_rune_spec; now apply byte_scalar|]. split; [assumption|]. rewrite <- !app_assoc.
    unfold is_byte in P. unfold in_range.
    destruct ((b <? 32) || ((127 <=? b) && (b <=? 160)) || (b =? 173)) eqn:E;
      match goal with |- context [if ?c then _ else _] => (replace c with true by lia) || (replace c with false by lia) end; reflexivity.
Qed.
