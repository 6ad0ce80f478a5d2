(** Proofs about the texts of errors. *)
From Coq Require Import String Ascii.
From Verif Require Import GoBase GoLemmas SafeLemmas Utf SpecText UtfProofs SpecDigits Collector CollectorMsgProofs Print PrintProofs
  ErrorText SpecErrorText.

(** ** Hexadecimal *)
Definition hvalue (v : Z -> Z) (l : bytes) : Z := fold_left (fun a d => a * 16 + v d) l 0.
Lemma hvalue_app v l d : hvalue v (l ++ [d]) = hvalue v l * 16 + v d.
Proof. unfold hvalue. now rewrite fold_left_app. Qed.
Lemma hvalue_zeros v k l : v 48 = 0 -> hvalue v (repeat 48 k ++ l) = hvalue v l.
Proof. intros H. unfold hvalue. rewrite fold_left_app. f_equal. induction k as [|k IH]; [reflexivity|]. cbn [repeat fold_left]. now rewrite H. Qed.

Definition alnum (c : Z) : Prop := 48 <= c <= 57 \/ 65 <= c <= 90 \/ 97 <= c <= 122.
Section Hex.
Context (digit v : Z -> Z) (back : forall n, 0 <= n < 16 -> v (digit n) = n /\ alnum (digit n)).
Lemma hex_loop_spec fuel : forall n acc, 0 <= n < 2 ^ Z.of_nat fuel -> (0 < fuel)%nat ->
  exists ds, hex_loop digit fuel n acc = ds ++ acc /\ hvalue v ds = n /\ Forall alnum ds.
Proof.
  induction fuel as [|f IH]; intros n acc HN HF; [lia|]. cbn [hex_loop].
  destruct (back (n mod 16)) as (V & D); [lia|].
  destruct (n <? 16) eqn:E.
  - exists [digit (n mod 16)]. split; [reflexivity|]. split; [unfold hvalue; cbn [fold_left]; lia|]. now constructor.
  - assert (HP : 2 ^ Z.of_nat (S f) = 2 * 2 ^ Z.of_nat f) by (rewrite Nat2Z.inj_succ, Z.pow_succ_r; lia).
    destruct f as [|f]; [cbn in HN; lia|].
    destruct (IH (n / 16) (digit (n mod 16) :: acc)) as (ds & A & B & C); [lia|lia|].
    exists (ds ++ [digit (n mod 16)]). rewrite A, <- app_assoc. split; [reflexivity|].
    rewrite hvalue_app, B, V. split; [lia|]. apply Forall_app. split; [assumption|]. now constructor.
Qed.
Lemma hex_text n : 0 <= n -> hvalue v (hex_loop digit (S (Z.to_nat (Z.log2 n))) n []) = n /\
  Forall alnum (hex_loop digit (S (Z.to_nat (Z.log2 n))) n []).
Proof.
  intros H. destruct (hex_loop_spec (S (Z.to_nat (Z.log2 n))) n []) as (ds & A & B & C).
  - split; [assumption|]. rewrite Nat2Z.inj_succ, Z2Nat.id by apply Z.log2_nonneg.
    destruct (Z.eq_dec n 0) as [->|]; [reflexivity|]. apply Z.log2_spec. lia.
  - lia.
  - rewrite app_nil_r in A. rewrite A. auto.
Qed.
End Hex.

Definition val_lower c := if c <=? 57 then c - 48 else c - 87.
Definition val_upper c := if c <=? 57 then c - 48 else c - 55.
Lemma lower_back n : 0 <= n < 16 -> val_lower (hex_digit n) = n /\ alnum (hex_digit n).
Proof. intros H. unfold val_lower, hex_digit, alnum. destruct (n <? 10) eqn:E; (split; [match goal with |- context [?a <=? 57] => destruct (a <=? 57) eqn:E2 end; lia|lia]). Qed.
Lemma upper_back n : 0 <= n < 16 -> val_upper (hex_digit_upper n) = n /\ alnum (hex_digit_upper n).
Proof. intros H. unfold val_upper, hex_digit_upper, alnum. destruct (n <? 10) eqn:E; (split; [match goal with |- context [?a <=? 57] => destruct (a <=? 57) eqn:E2 end; lia|lia]). Qed.

Lemma fmt_x_alnum n : 0 <= n -> Forall alnum (fmt_x n).
Proof. intros H. exact (proj2 (hex_text _ _ lower_back n H)). Qed.
Lemma fmt_x_inj n n' : 0 <= n -> 0 <= n' -> fmt_x n = fmt_x n' -> n = n'.
Proof.
  intros H H' E. rewrite <- (proj1 (hex_text _ _ lower_back n H)), <- (proj1 (hex_text _ _ lower_back n' H')). fold (fmt_x n) (fmt_x n').
  now rewrite E.
Qed.
Definition U_char (c : Z) : Prop := alnum c \/ c = 43.
Lemma fmt_U_chars n : 0 <= n -> Forall U_char (fmt_U n).
Proof.
  intros H. unfold fmt_U. apply Forall_app. split; [repeat constructor; unfold U_char, alnum; cbn; lia|].
  apply Forall_app. split.
  - apply Forall_forall. intros c I. apply repeat_spec in I. subst. unfold U_char, alnum. lia.
  - eapply Forall_impl; [|exact (proj2 (hex_text _ _ upper_back n H))]. now left.
Qed.
Lemma fmt_U_inj n n' : 0 <= n -> 0 <= n' -> fmt_U n = fmt_U n' -> n = n'.
Proof.
  intros H H' E. unfold fmt_U in E. apply app_inv_head in E. apply (f_equal (hvalue val_upper)) in E.
  rewrite !hvalue_zeros in E by reflexivity.
  rewrite (proj1 (hex_text _ _ upper_back n H)), (proj1 (hex_text _ _ upper_back n' H')) in E. exact E.
Qed.
Lemma not_in_class (P : Z -> Prop) l c : Forall P l -> ~ P c -> ~ In c l.
Proof. intros F N I. rewrite Forall_forall in F. auto. Qed.
Ltac class := unfold U_char, alnum; lia.

Lemma sharp_U_inj n n' : 0 <= n -> 0 <= n' -> fmt_sharp_U n = fmt_sharp_U n' -> n = n'.
Proof.
  intros H H'. unfold fmt_sharp_U. pose proof (fmt_U_chars n H) as F. pose proof (fmt_U_chars n' H') as F'.
  assert (S : forall a b, Forall U_char a -> Forall U_char b -> ~ In 32 a /\ ~ In 32 b).
  { intros a b A B. split; eapply not_in_class; try eassumption; class. }
  destruct (_ || _ || _) eqn:C; destruct (in_range n' 32 126 || _ || _) eqn:C'; intros E.
  - cbn [str map list_ascii_of_string app] in E. apply split_first in E as [E _]; [now apply fmt_U_inj|apply (S _ _ F F')..].
  - exfalso. rewrite app_nil_r in E. apply (proj2 (S _ _ F F')). rewrite <- E. apply in_or_app. right. now left.
  - exfalso. rewrite app_nil_r in E. apply (proj1 (S _ _ F F')). rewrite E. apply in_or_app. right. now left.
  - rewrite !app_nil_r in E. now apply fmt_U_inj.
Qed.

(** A list of octets. *)
Definition octet_item (x : Z) : bytes := str ", 0x" ++ fmt_x x.
Lemma item_end x : is_byte x -> ~ In 44 (fmt_x x) /\ ~ In 125 (fmt_x x).
Proof. intros H. pose proof (fmt_x_alnum x (proj1 H)) as F. split; (eapply not_in_class; [eassumption|class]). Qed.
Lemma items_inj : forall l l' b b', is_byte b -> is_byte b' -> Forall is_byte l -> Forall is_byte l' ->
  fmt_x b ++ flat_map octet_item l ++ str "}" = fmt_x b' ++ flat_map octet_item l' ++ str "}" -> b = b' /\ l = l'.
Proof.
  induction l as [|x l IH]; intros [|x' l'] b b' B B' F F' E.
  - apply app_inv_tail in E. split; [|reflexivity]. now apply fmt_x_inj; [apply B|apply B'|].
  - exfalso. cbn [flat_map] in E. unfold octet_item at 1 in E. cbn [flat_map app] in E.
    destruct (item_end b B) as (N1 & _).
    assert (I : In 44 (fmt_x b ++ [125])).
    { change (str "}") with [125] in E. rewrite E. apply in_or_app. right. now left. }
    apply in_app_or in I as [I|[I|[]]]; [now apply N1|discriminate].
  - exfalso. cbn [flat_map] in E. unfold octet_item at 1 in E. cbn [flat_map app] in E.
    destruct (item_end b' B') as (N1 & _).
    assert (I : In 44 (fmt_x b' ++ [125])).
    { change (str "}") with [125] in E. rewrite <- E. apply in_or_app. right. now left. }
    apply in_app_or in I as [I|[I|[]]]; [now apply N1|discriminate].
  - cbn [flat_map] in E. unfold octet_item at 1 3 in E. rewrite <- !app_assoc in E.
    change (str ", 0x") with ([44] ++ [32; 48; 120]) in E. cbn [app] in E.
    apply split_first in E as [E1 E2]; [|apply (item_end b B)|apply (item_end b' B')].
    injection E2 as E2. apply IH in E2 as [-> ->]; [|now apply Forall_inv in F|now apply Forall_inv in F'|now apply Forall_inv_tail in F|now apply Forall_inv_tail in F'].
    split; [|reflexivity]. now apply fmt_x_inj; [apply B|apply B'|].
Qed.
Lemma sharp_v_inj l l' : Forall is_byte l -> Forall is_byte l' -> fmt_sharp_v l = fmt_sharp_v l' -> l = l'.
Proof.
  intros F F' E. unfold fmt_sharp_v in E. apply app_inv_head in E.
  destruct l as [|b l], l' as [|b' l']; [reflexivity|discriminate|discriminate|].
  rewrite <- !app_assoc in E. apply app_inv_head in E. apply items_inj in E as [-> ->]; [reflexivity|..].
  - now apply Forall_inv in F. - now apply Forall_inv in F'. - now apply Forall_inv_tail in F. - now apply Forall_inv_tail in F'.
Qed.

(** Decimal with a sign. *)
Lemma fmt_int_chars n c : In c (fmt_int n) -> c = 45 \/ 48 <= c <= 57.
Proof.
  unfold fmt_int. intros I. destruct (n <? 0) eqn:E.
  - destruct I as [<-|I]; [now left|]. destruct (fmt_d_spec (- n)) as (_ & F); [lia|]. rewrite Forall_forall in F. right. now apply F.
  - destruct (fmt_d_spec n) as (_ & F); [lia|]. rewrite Forall_forall in F. right. now apply F.
Qed.
Lemma fmt_int_inj n n' : fmt_int n = fmt_int n' -> n = n'.
Proof.
  unfold fmt_int. intros E.
  assert (N : forall a b, 0 <= b -> 45 :: a = fmt_d b -> False).
  { intros a b B H. destruct (fmt_d_spec b B) as (_ & F). rewrite <- H in F. apply Forall_inv in F. lia. }
  destruct (n <? 0) eqn:C, (n' <? 0) eqn:C'.
  - injection E as E. apply fmt_d_inj in E; lia.
  - exfalso. eapply N; [|exact E]. lia.
  - exfalso. eapply N; [|symmetry; exact E]. lia.
  - apply fmt_d_inj in E; lia.
Qed.

(** Names. *)
Lemma str_inj s : forall s', str s = str s' -> s = s'.
Proof.
  unfold str. induction s as [|c s IH]; intros [|c' s'] E; try discriminate; [reflexivity|].
  cbn [list_ascii_of_string map] in E. injection E as E1 E2. apply IH in E2 as ->. f_equal.
  rewrite <- (ascii_nat_embedding c), <- (ascii_nat_embedding c'). f_equal. lia.
Qed.
Definition path_char (c : Z) : Prop := alnum c \/ c = 46.
Lemma path_chars s : field_path s = true -> Forall path_char (str s).
Proof.
  induction s as [|c s IH]; intros H; [constructor|]. cbn [field_path] in H. apply andb_true_iff in H as [H1 H2].
  constructor; [|now apply IH]. unfold name_char in H1. unfold path_char, alnum. lia.
Qed.
Lemma path_no s c : field_path s = true -> ~ path_char c -> ~ In c (str s).
Proof. intros H N. eapply not_in_class; [now apply path_chars|exact N]. Qed.

(** Characters. *)
Lemma rune_front r r' x x' : scalar r -> scalar r' -> encode_rune r ++ x = encode_rune r' ++ x' -> r = r'.
Proof.
  intros S S' E. apply (f_equal decode_rune) in E. rewrite !(decode_rune_char _ _ _ (encode_rune_spec _ S)),
    (decode_rune_char _ _ _ (encode_rune_spec _ S')) in E. congruence.
Qed.
Lemma byte_scalar b : is_byte b -> scalar b.
Proof. unfold is_byte, scalar. lia. Qed.

Lemma error_text_inj e : forall e', proper_error e -> proper_error e' -> error_text e = error_text e' -> e = e'.
Proof.
  induction e; intros e' P P' E; destruct e'; try reflexivity; try (exfalso; clear -E; discriminate E); cbn [error_text] in E; cbn [proper_error] in P, P';
    apply app_inv_head in E.
  - apply fmt_x_inj in E; [now subst|apply P|apply P'].
  - destruct P as (A & B), P' as (A' & B').
    change (str " at octet ") with (32 :: str "at octet ") in E. cbn [app] in E.
    apply split_first in E as [E1 E2]; [|apply path_no; [assumption|unfold path_char, alnum; lia]..]. apply str_inj in E1 as <-.
    apply app_inv_head in E2. change (str ": ") with [58; 32] in E2. cbn [app] in E2.
    apply split_first in E2 as [E1 E2]; [|intros I; apply fmt_int_chars in I; lia..]. apply fmt_int_inj in E1 as <-.
    injection E2 as E2. f_equal. now apply IHe.
  - destruct P as (A & B), P' as (A' & B').
    change (str ": ") with [58; 32] in E. cbn [app] in E.
    apply split_first in E as [E1 E2]; [|apply path_no; [assumption|unfold path_char, alnum; lia]..]. apply str_inj in E1 as <-.
    injection E2 as E2. f_equal. now apply IHe.
  - apply fmt_02x_inj in E; [now subst|assumption..].
  - apply fmt_int_inj in E. now subst.
  - apply rune_front in E; [now subst|now apply byte_scalar..].
  - apply fmt_02x_inj in E; [now subst|assumption..].
  - apply rune_front in E; [now subst|assumption..].
  - apply sharp_v_inj in E; [now subst|apply P|apply P'].
  - apply sharp_U_inj in E; [now subst|apply P|apply P'].
Qed.
