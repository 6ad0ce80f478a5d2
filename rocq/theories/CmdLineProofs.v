(** Lemmas on the command lines of the tools. *)
From Coq Require Import String.
From Verif Require Import GoBase GoLemmas SafeLemmas Utf Gsm7 Dcs FirstOctet Address UserData Tpdu Segment SegmentProofs SegmentOptProofs
  SegmentFitProofs SpecSegTpdu Sms SpecSelect SpecDcs UserDataProofs SpecSms SmsProofs SpecSegment EncodeProofs Cmd CountProofs Print PrintTools
  CmdLine SpecCmdLine.

(** ** Integers *)
Definition fits_hex (base : Z) (hex : bool) : Prop := 2 <= base <= 16 /\ (10 < base -> hex = true).

Lemma digit_of_iff c d : digit_of c = Some d <-> digit_value c d.
Proof.
  unfold digit_of, digit_value, lower. split.
  - intros H. destruct ((48 <=? c) && (c <=? 57)) eqn:E1; [injection H as <-; left; lia|].
    destruct ((65 <=? c) && (c <=? 90)) eqn:E2.
    + destruct ((97 <=? c + 32) && (c + 32 <=? 122)) eqn:E3; [|discriminate]. injection H as <-. right. right. lia.
    + destruct ((97 <=? c) && (c <=? 122)) eqn:E3; [|discriminate]. injection H as <-. right. left. lia.
  - intros [(A & ->)|[(A & ->)|(A & ->)]].
    + replace ((48 <=? c) && (c <=? 57)) with true by lia. reflexivity.
    + replace ((48 <=? c) && (c <=? 57)) with false by lia. replace ((65 <=? c) && (c <=? 90)) with false by lia.
      replace ((97 <=? c) && (c <=? 122)) with true by lia. f_equal. lia.
    + replace ((48 <=? c) && (c <=? 57)) with false by lia. replace ((65 <=? c) && (c <=? 90)) with true by lia.
      replace ((97 <=? c + 32) && (c + 32 <=? 122)) with true by lia. f_equal. lia.
Qed.
Lemma digit_not_under c d : digit_value c d -> c <> 95 /\ 0 <= d.
Proof. unfold digit_value. lia. Qed.
Lemma digit_seen base hex c d : fits_hex base hex -> digit_value c d -> d < base ->
  ((48 <=? c) && (c <=? 57)) || (hex && (97 <=? lower c) && (lower c <=? 102)) = true.
Proof.
  unfold fits_hex, lower, digit_value. intros (A & B) [(C & ->)|[(C & ->)|(C & ->)]] D; [lia| |].
  - rewrite B by lia. replace ((65 <=? c) && (c <=? 90)) with false by lia. lia.
  - rewrite B by lia. replace ((65 <=? c) && (c <=? 90)) with true by lia. lia.
Qed.

Lemma loop_grouped base hex : fits_hex base hex -> forall s n v saw, digits_loop base s n = Some v ->
  underscores_loop hex s saw = true -> s <> [] ->
  exists ds, v = fold_left (fun n d => n * base + d) ds n /\
    (grouped base s ds \/ (saw = 0 /\ exists s', s = 95 :: s' /\ grouped base s' ds)).
Proof.
  intros FH. induction s as [|c s IH]; intros n v saw H U NE; [congruence|]. cbn [digits_loop underscores_loop] in *.
  unfold underscore in *. destruct (Z.eqb_spec c 95) as [->|NU].
  - change (((48 <=? 95) && (95 <=? 57)) || (hex && (97 <=? lower 95) && (lower 95 <=? 102))) with (false || (hex && false && true)) in U.
    replace (false || (hex && false && true)) with false in U by (destruct hex; reflexivity).
    destruct (Z.eqb_spec saw 0) as [->|]; [|discriminate]. destruct s as [|c s]; [discriminate|].
    destruct (IH n v 1 H U ltac:(discriminate)) as (ds & E & [G|(F & _)]); [|discriminate]. exists ds. split; [exact E|]. right. eauto.
  - destruct (digit_of c) as [d|] eqn:ED; [|discriminate]. destruct (base <=? d) eqn:EB; [discriminate|].
    apply digit_of_iff in ED. rewrite (digit_seen base hex c d FH ED ltac:(lia)) in U.
    destruct s as [|c' s].
    + cbn [digits_loop] in H. injection H as <-. exists [d]. split; [reflexivity|]. left. constructor; [exact ED|lia].
    + destruct (IH _ _ _ H U ltac:(discriminate)) as (ds & E & [G|(_ & s' & E' & G)]).
      * exists (d :: ds). split; [exact E|]. left. apply gr_next; [exact ED|lia|exact G].
      * rewrite E'. exists (d :: ds). split; [exact E|]. left. apply gr_under; [exact ED|lia|exact G].
Qed.
Lemma loop_plain base hex : fits_hex base hex -> forall s n v saw, digits_loop base s n = Some v ->
  existsb (Z.eqb underscore) s = false -> saw <> 1 -> underscores_loop hex s saw = true.
Proof.
  intros FH. induction s as [|c s IH]; intros n v saw H E NS; cbn [digits_loop underscores_loop existsb] in *.
  - replace (saw =? 1) with false by lia. reflexivity.
  - unfold underscore in *. apply orb_false_elim in E as (E1 & E2). rewrite Z.eqb_sym, E1 in H.
    destruct (digit_of c) as [d|] eqn:ED; [|discriminate]. destruct (base <=? d) eqn:EB; [discriminate|].
    apply digit_of_iff in ED. rewrite (digit_seen base hex c d FH ED ltac:(lia)). eapply IH; [exact H|exact E2|lia].
Qed.
Lemma grouped_loop base hex : fits_hex base hex -> forall s ds, grouped base s ds ->
  (forall n, digits_loop base s n = Some (fold_left (fun n d => n * base + d) ds n)) /\
  (forall saw, underscores_loop hex s saw = true) /\ s <> [].
Proof.
  intros FH. induction 1 as [c d HD HB|c d s ds HD HB _ IH|c d s ds HD HB _ IH];
    pose proof (digit_not_under c d HD) as (NU & _); pose proof (digit_seen base hex c d FH HD HB) as SE;
    apply digit_of_iff in HD.
  - split; [|split]; [| |discriminate]; intros; cbn [digits_loop underscores_loop fold_left].
    + unfold underscore. replace (c =? 95) with false by lia. rewrite HD. replace (base <=? d) with false by lia. reflexivity.
    + rewrite SE. reflexivity.
  - destruct IH as (A & B & C). split; [|split]; [| |discriminate]; intros; cbn [digits_loop underscores_loop fold_left].
    + unfold underscore. replace (c =? 95) with false by lia. rewrite HD. replace (base <=? d) with false by lia. apply A.
    + rewrite SE. apply B.
  - destruct IH as (A & B & C). split; [|split]; [| |discriminate]; intros; cbn [digits_loop underscores_loop fold_left].
    + unfold underscore. replace (c =? 95) with false by lia. rewrite HD. replace (base <=? d) with false by lia. cbn. apply A.
    + rewrite SE. change (((48 <=? 95) && (95 <=? 57)) || (hex && (97 <=? lower 95) && (lower 95 <=? 102))) with (false || (hex && false && true)).
      replace (false || (hex && false && true)) with false by (destruct hex; reflexivity). unfold underscore. cbn. apply B.
Qed.

(** The parts of a literal: base, digits, and the check of the underscores. *)
Definition literal (s : bytes) : Z * bytes :=
  match s with
  | z :: c :: d :: ds =>
      if z =? 48 then
        if lower c =? 98 then (2, d :: ds)
        else if lower c =? 111 then (8, d :: ds)
        else if lower c =? 120 then (16, d :: ds)
        else (8, c :: d :: ds)
      else (10, s)
  | z :: s' => if z =? 48 then (8, s') else (10, s)
  | [] => (10, s)
  end.
Lemma parse_uint_eq s : parse_uint s =
  (let '(base, ds) := literal s in
  if len s =? 0 then None
  else match digits_loop base ds 0 with
       | None => None
       | Some n =>
           if existsb (Z.eqb underscore) ds && negb (underscore_ok s) then None
           else if 2 ^ 64 <=? n then None else Some n
       end).
Proof. reflexivity. Qed.

Lemma lower_letter c l : 97 <= l <= 122 -> lower c = l -> c = l \/ c = l - 32.
Proof. unfold lower. destruct ((65 <=? c) && (c <=? 90)) eqn:E; lia. Qed.

(** How a literal is taken apart: by its prefix. *)
Inductive split_lit : bytes -> Z -> bytes -> Prop :=
| sp_dec c s : c <> 48 -> split_lit (c :: s) 10 (c :: s)
| sp_zero : split_lit [48] 8 []
| sp_pre base p s : prefix base p -> s <> [] -> (p = [48] -> forall c s', s = c :: s' -> lower c <> 98 /\ lower c <> 111 /\ lower c <> 120) ->
    split_lit (p ++ s) base s
| sp_short c : (lower c = 98 \/ lower c = 111 \/ lower c = 120) -> split_lit [48; c] 8 [c].
Lemma literal_split s : s <> [] -> split_lit s (fst (literal s)) (snd (literal s)).
Proof.
  intros NE. destruct s as [|z [|c [|d ds]]]; [congruence| | |]; cbn [literal].
  - destruct (Z.eqb_spec z 48) as [->|N]; [apply sp_zero|now apply sp_dec].
  - destruct (Z.eqb_spec z 48) as [->|N]; [|now apply sp_dec]. cbn [fst snd].
    destruct (Z.eqb_spec (lower c) 98) as [E|N1]; [apply sp_short; auto|].
    destruct (Z.eqb_spec (lower c) 111) as [E|N2]; [apply sp_short; auto|].
    destruct (Z.eqb_spec (lower c) 120) as [E|N3]; [apply sp_short; auto|].
    apply (sp_pre 8 [48] [c]); [|discriminate|].
    + right. left. split; [reflexivity|]. left. reflexivity.
    + intros _ c' s' E. injection E as <- _. auto.
  - destruct (Z.eqb_spec z 48) as [->|N]; [|now apply sp_dec].
    assert (PRE : forall base, prefix base [48; c] -> split_lit (48 :: c :: d :: ds) base (d :: ds)).
    { intros base HP. apply (sp_pre base [48; c] (d :: ds)); [exact HP|discriminate|discriminate]. }
    destruct (Z.eqb_spec (lower c) 98) as [E|N1].
    { cbn [fst snd]. apply PRE. left. split; [reflexivity|]. destruct (lower_letter c 98 ltac:(lia) E) as [-> | ->]; [left|right]; reflexivity. }
    destruct (Z.eqb_spec (lower c) 111) as [E|N2].
    { cbn [fst snd]. apply PRE. right. left. split; [reflexivity|]. right. destruct (lower_letter c 111 ltac:(lia) E) as [-> | ->]; [left|right]; reflexivity. }
    destruct (Z.eqb_spec (lower c) 120) as [E|N3].
    { cbn [fst snd]. apply PRE. right. right. split; [reflexivity|]. destruct (lower_letter c 120 ltac:(lia) E) as [-> | ->]; [left|right]; reflexivity. }
    cbn [fst snd]. apply (sp_pre 8 [48] (c :: d :: ds)); [|discriminate|].
    + right. left. split; [reflexivity|]. left. reflexivity.
    + intros _ c' s' E. injection E as <- _. auto.
Qed.
Lemma split_literal s base ds : split_lit s base ds -> literal s = (base, ds).
Proof.
  intros [c s0 N| |b p s0 HP NE NL|c HC].
  - destruct s0 as [|c1 [|c2 s0]]; cbn [literal]; replace (c =? 48) with false by lia; reflexivity.
  - reflexivity.
  - destruct HP as [(-> & [-> | ->])|[(-> & [-> |[-> | ->]])|(-> & [-> | ->])]]; destruct s0 as [|c s0]; try congruence; cbn; try reflexivity.
    destruct (NL eq_refl c s0 eq_refl) as (A & B & C). destruct s0 as [|c2 s0]; cbn; [reflexivity|].
    replace (lower c =? 98) with false by lia. replace (lower c =? 111) with false by lia. replace (lower c =? 120) with false by lia. reflexivity.
  - reflexivity.
Qed.
(** The check of the underscores behind the prefix. *)
Lemma under_split s base ds : split_lit s base ds -> ds <> [] -> exists hex saw,
  fits_hex base hex /\ underscore_ok s = underscores_loop hex ds saw /\ saw <> 1 /\
  (saw = 0 <-> exists p, prefix base p /\ s = p ++ ds) \/ base = 8 /\ exists c, ds = [c] /\ (lower c = 98 \/ lower c = 111 \/ lower c = 120).
Proof.
  intros [c s0 N| |b p s0 HP NE NL|c HC] ND.
  - exists false, 2. left. split; [split; [lia|lia]|]. split; [|split; [lia|split; [lia|]]].
    + destruct s0 as [|c1 s0]; cbn [underscore_ok]; [reflexivity|]. replace (c =? 48) with false by lia. reflexivity.
    + intros (p & HP & E). exfalso. apply N. destruct HP as [(_ & [-> | ->])|[(_ & [-> |[-> | ->]])|(_ & [-> | ->])]]; apply (f_equal (hd 0)) in E; exact E.
  - congruence.
  - exists (b =? 16), 0. left. split; [|split; [|split; [lia|split; [eauto|reflexivity]]]].
    + destruct HP as [(-> & _)|[(-> & _)|(-> & _)]]; split; try lia.
    + destruct HP as [(-> & [-> | ->])|[(-> & [-> |[-> | ->]])|(-> & [-> | ->])]]; destruct s0 as [|c s0]; try congruence; try reflexivity.
      destruct (NL eq_refl c s0 eq_refl) as (A & B & C). cbn [app str list_ascii_of_string map underscore_ok]. unfold underscore_ok.
      change (str "0" ++ c :: s0) with (48 :: c :: s0). cbv iota beta.
      replace (lower c =? 98) with false by lia. replace (lower c =? 111) with false by lia. replace (lower c =? 120) with false by lia.
      cbn [orb andb Z.eqb Pos.eqb]. reflexivity.
  - exists false, 0. right. split; [reflexivity|]. exists c. auto.
Qed.
Lemma short_none c : lower c = 98 \/ lower c = 111 \/ lower c = 120 -> digits_loop 8 [c] 0 = None.
Proof.
  intros H. assert (c = 98 \/ c = 66 \/ c = 111 \/ c = 79 \/ c = 120 \/ c = 88) as C.
  { destruct H as [H|[H|H]]; apply lower_letter in H; lia. }
  destruct C as [-> |[-> |[-> |[-> |[-> | ->]]]]]; reflexivity.
Qed.
Lemma parse_uint_iff s n : parse_uint s = Some n <-> natural s n /\ n < 2 ^ 64.
Proof.
  rewrite parse_uint_eq. split.
  - intros H. assert (NE0 : s <> []) by (intros ->; discriminate).
    pose proof (literal_split s NE0) as SP. destruct (literal s) as [base ds] eqn:EL. cbn [fst snd] in SP.
    replace (len s =? 0) with false in H by (destruct s; [congruence|rewrite len_cons; pose proof (len_nonneg s); lia]).
    destruct (digits_loop base ds 0) as [v|] eqn:ED; [|discriminate].
    destruct (existsb (Z.eqb underscore) ds && negb (underscore_ok s)) eqn:EU; [discriminate|].
    destruct (2 ^ 64 <=? v) eqn:EV; [discriminate|]. injection H as ->. split; [|lia].
    destruct ds as [|c ds].
    { inversion SP as [| |b p s1 HP NE NL E|]; subst; [|congruence]. cbn in ED. injection ED as <-. apply na_zero. }
    destruct (under_split s base (c :: ds) SP ltac:(discriminate)) as (hex & saw & [(FH & EO & NS & SW)|(-> & c' & E & HC)]).
    2:{ injection E as -> ->. rewrite (short_none c' HC) in ED. discriminate. }
    assert (UL : underscores_loop hex (c :: ds) saw = true).
    { destruct (existsb (Z.eqb underscore) (c :: ds)) eqn:EE; [cbn [andb] in EU; rewrite <- EO; now destruct (underscore_ok s)|].
      now apply (loop_plain base hex FH _ _ _ _ ED). }
    destruct (loop_grouped base hex FH _ _ _ _ ED UL ltac:(discriminate)) as (ns & -> & [G|(S0 & s' & E & G)]).
    + inversion SP as [c0 s1 N E1 E2 E3| |b p s1 HP NE NL E1|c0 HC E1 E2 E3]; subst.
      * now apply na_decimal.
      * now apply (na_prefix base).
      * rewrite (short_none _ HC) in ED. discriminate.
    + apply SW in S0 as (p & HP & ->). rewrite E. now apply (na_prefix_under base).
  - intros (H & R).
    assert (GO : forall s base ds ns, split_lit s base ds -> ds <> [] ->
      (forall hex saw, fits_hex base hex -> (saw = 0 <-> exists p, prefix base p /\ s = p ++ ds) -> underscores_loop hex ds saw = true) ->
      digits_loop base ds 0 = Some (number_of base ns) -> number_of base ns < 2 ^ 64 ->
      (let '(base, ds) := literal s in
       if len s =? 0 then None
       else match digits_loop base ds 0 with
       | None => None
       | Some n => if existsb (Z.eqb underscore) ds && negb (underscore_ok s) then None else if 2 ^ 64 <=? n then None else Some n
       end) = Some (number_of base ns)).
    { clear. intros s base ds ns SP NE UO DL R. rewrite (split_literal _ _ _ SP). rewrite DL.
      assert (NS : s <> []).
      { intros ->. inversion SP as [| |b p s1 HP NE' NL E|]; subst. apply app_eq_nil in E as (_ & E). congruence. }
      replace (len s =? 0) with false by (destruct s; [congruence|rewrite len_cons; pose proof (len_nonneg s); lia]).
      replace (2 ^ 64 <=? number_of base ns) with false by lia.
      destruct (under_split s base ds SP NE) as (hex & saw & [(FH & EO & _ & SW)|(-> & c & -> & HC)]).
      - rewrite EO, (UO hex saw FH SW), andb_false_r. reflexivity.
      - rewrite (short_none c HC) in DL. discriminate. }
    assert (PG : forall base p s ds, prefix base p -> grouped base s ds ->
      split_lit (p ++ s) base s /\ split_lit (p ++ 95 :: s) base (95 :: s) /\ fits_hex base (base =? 16)).
    { clear. intros base p s ds HP G. assert (FH : fits_hex base (base =? 16)).
      { destruct HP as [(-> & _)|[(-> & _)|(-> & _)]]; split; lia. }
      destruct (grouped_loop base _ FH s ds G) as (_ & _ & NE). split; [|split; [|exact FH]]; apply sp_pre; auto; try discriminate.
      - intros -> c s' ->. assert (base = 8) as ->.
        { destruct HP as [(-> & [F|F])|[(-> & _)|(-> & [F|F])]]; [discriminate F|discriminate F|reflexivity|discriminate F|discriminate F]. }
        assert (exists d, digit_value c d /\ d < 8) as (d & HD & LT) by (inversion G; eauto).
        unfold lower. unfold digit_value in HD. destruct ((65 <=? c) && (c <=? 90)) eqn:E; lia.
      - intros _ c s' E. injection E as <- _. cbn. lia. }
    destruct H as [|c s ds N G|base p s ds HP G|base p s ds HP G].
    + reflexivity.
    + assert (FH : fits_hex 10 false) by (split; lia). destruct (grouped_loop 10 false FH _ _ G) as (A & B & C).
      eapply GO; [now apply sp_dec|discriminate| |apply A|exact R].
      intros hex saw FH' _. now apply (grouped_loop 10 hex FH' _ _ G).
    + destruct (PG base p s ds HP G) as (S1 & _ & FH). destruct (grouped_loop base _ FH _ _ G) as (A & _ & C).
      eapply GO; [exact S1|exact C| |apply A|exact R]. intros hex saw FH' _. now apply (grouped_loop base hex FH' _ _ G).
    + destruct (PG base p s ds HP G) as (_ & S1 & FH). destruct (grouped_loop base _ FH _ _ G) as (A & _ & C).
      eapply GO; [exact S1|discriminate| |cbn; apply A|exact R]. intros hex saw FH' SW.
      assert (saw = 0) as -> by (apply SW; eauto). cbn [underscores_loop].
      change (((48 <=? 95) && (95 <=? 57)) || (hex && (97 <=? lower 95) && (lower 95 <=? 102))) with (false || (hex && false && true)).
      replace (false || (hex && false && true)) with false by (destruct hex; reflexivity). cbn.
      now apply (grouped_loop base hex FH' _ _ G).
Qed.
Lemma natural_nonneg s n : natural s n -> 0 <= n.
Proof.
  assert (P : forall base s ds, 0 <= base -> grouped base s ds -> forall n, 0 <= n -> 0 <= fold_left (fun n d => n * base + d) ds n).
  { intros base s0 ds HB G. induction G as [c d HD _|c d s0 ds HD _ _ IH|c d s0 ds HD _ _ IH]; intros m HM;
      apply digit_not_under in HD as (_ & HD); cbn [fold_left]; [|apply IH|apply IH]; nia. }
  intros [|c s0 ds N G|base p s0 ds HP G|base p s0 ds HP G]; [lia| | |]; unfold number_of; eapply P; try exact G; try lia;
    destruct HP as [(-> & _)|[(-> & _)|(-> & _)]]; lia.
Qed.
Lemma natural_head s n : natural s n -> exists c s', s = c :: s' /\ c <> 43 /\ c <> 45.
Proof.
  intros [|c s0 ds N G|base p s0 ds HP G|base p s0 ds HP G].
  - exists 48, []. split; [reflexivity|lia].
  - exists c, s0. split; [reflexivity|]. assert (exists d, digit_value c d) as (d & HD) by (inversion G; eauto). unfold digit_value in HD. lia.
  - destruct HP as [(_ & [-> | ->])|[(_ & [-> |[-> | ->]])|(_ & [-> | ->])]]; (eexists 48, _; split; [reflexivity|lia]).
  - destruct HP as [(_ & [-> | ->])|[(_ & [-> |[-> | ->]])|(_ & [-> | ->])]]; (eexists 48, _; split; [reflexivity|lia]).
Qed.
Lemma parse_int_iff s z : parse_int s = Some z <-> integer s z.
Proof.
  unfold parse_int, integer. split.
  - intros H.
    assert (GO : forall neg u, match parse_uint u with
      | None => None
      | Some n => if negb neg && (2 ^ 63 <=? n) then None else if neg && (2 ^ 63 <? n) then None else Some (if neg then - n else n)
      end = Some z -> exists n, natural u n /\ z = (if neg then - n else n) /\ - 2 ^ 63 <= z < 2 ^ 63).
    { clear. intros neg u H. destruct (parse_uint u) as [n|] eqn:E; [|discriminate]. apply parse_uint_iff in E as (N & _).
      pose proof (natural_nonneg _ _ N). exists n. split; [exact N|]. destruct neg; cbn [negb andb] in H.
      - destruct (2 ^ 63 <? n) eqn:F; [discriminate|]. injection H as <-. split; [reflexivity|]. change (2 ^ 63) with 9223372036854775808 in *. lia.
      - destruct (2 ^ 63 <=? n) eqn:F; [discriminate|]. injection H as <-. split; [reflexivity|]. change (2 ^ 63) with 9223372036854775808 in *. lia. }
    destruct s as [|c s].
    { destruct (GO false [] H) as (n & N & _). apply natural_head in N as (? & ? & F & _). discriminate. }
    destruct (Z.eqb_spec c 43) as [->|N1].
    { destruct (GO false s H) as (n & N & E & R). split; [exact R|]. right. left. exists s, n. auto. }
    destruct (Z.eqb_spec c 45) as [->|N2].
    { destruct (GO true s H) as (n & N & E & R). split; [exact R|]. right. right. exists s, n. auto. }
    destruct (GO false (c :: s) H) as (n & N & E & R). split; [exact R|]. left. exists n. auto.
  - change (2 ^ 63) with 9223372036854775808.
    assert (PU : forall u n, natural u n -> n <= 9223372036854775808 -> parse_uint u = Some n).
    { intros u n N L. apply parse_uint_iff. split; [exact N|]. change (2 ^ 64) with 18446744073709551616. lia. }
    intros (R & [(n & N & ->)|[(s' & n & -> & N & ->)|(s' & n & -> & N & ->)]]); pose proof (natural_nonneg _ _ N).
    + destruct (natural_head _ _ N) as (c & s' & -> & N1 & N2). replace (c =? 43) with false by lia. replace (c =? 45) with false by lia.
      rewrite (PU _ _ N) by lia. cbn [negb andb]. replace (9223372036854775808 <=? n) with false by lia. reflexivity.
    + cbn [Z.eqb Pos.eqb]. rewrite (PU _ _ N) by lia. cbn [negb andb]. replace (9223372036854775808 <=? n) with false by lia. reflexivity.
    + cbn [Z.eqb Pos.eqb]. rewrite (PU _ _ N) by lia. cbn [negb andb]. replace (9223372036854775808 <? n) with false by lia. reflexivity.
Qed.

(** ** Values *)
Lemma same_iff a b : same a b = true <-> a = b.
Proof. unfold same. destruct (list_eq_dec Z.eq_dec a b); split; congruence. Qed.
Lemma same_refl a : same a a = true.
Proof. now apply same_iff. Qed.
Lemma bool_iff s b : parse_bool s = Some b <->
  In s (map str (if b then ["1"; "t"; "T"; "true"; "TRUE"; "True"] else ["0"; "f"; "F"; "false"; "FALSE"; "False"])%string).
Proof.
  assert (EX : forall l, existsb (fun w => same s (str w)) l = true <-> In s (map str l)).
  { intros l. rewrite existsb_exists, in_map_iff. split; intros (w & A & B); exists w; [apply same_iff in B; auto|].
    split; [exact B|]. now apply same_iff. }
  unfold parse_bool.
  destruct (existsb (fun w => same s (str w)) ["1"; "t"; "T"; "TRUE"; "true"; "True"]%string) eqn:E1.
  - apply EX in E1. cbn [map In] in E1. split.
    + intros H. injection H as <-. cbn [map In]. tauto.
    + destruct b; [reflexivity|]. intros H. exfalso. cbn [map In] in H.
      repeat (destruct E1 as [E1|E1]; [rewrite <- E1 in H; repeat (destruct H as [H|H]; [discriminate H|]); exact H|]). exact E1.
  - destruct (existsb (fun w => same s (str w)) ["0"; "f"; "F"; "FALSE"; "false"; "False"]%string) eqn:E2.
    + apply EX in E2. cbn [map In] in E2. split.
      * intros H. injection H as <-. cbn [map In]. tauto.
      * destruct b; [|reflexivity]. intros H. exfalso. rewrite <- not_true_iff_false, EX in E1. apply E1. cbn [map In] in *. tauto.
    + split; [discriminate|]. intros H. exfalso. rewrite <- not_true_iff_false, EX in E1, E2. cbn [map In] in *. destruct b; cbn [map In] in H; tauto.
Qed.
Lemma value_iff k s v : set_value k s = Some v <-> value k s v.
Proof.
  destruct k; cbn [set_value value].
  - destruct (parse_bool s) as [b|] eqn:E; cbn [option_map].
    + split.
      * intros H. injection H as <-. exists b. split; [reflexivity|]. now apply bool_iff.
      * intros (b' & -> & H). apply bool_iff in H. congruence.
    + split; [discriminate|]. intros (b & _ & H). apply bool_iff in H. congruence.
  - split; [now injection 1|]. now intros ->.
  - destruct (parse_int s) as [z|] eqn:E; cbn [option_map].
    + split.
      * intros H. injection H as <-. exists z. split; [now apply parse_int_iff|reflexivity].
      * intros (z' & H & ->). apply parse_int_iff in H. congruence.
    + split; [discriminate|]. intros (z & H & _). apply parse_int_iff in H. congruence.
Qed.
Lemma no_value k s : (forall x, ~ value k s x) <-> set_value k s = None.
Proof.
  split.
  - intros H. destruct (set_value k s) as [v|] eqn:E; [|reflexivity]. apply value_iff in E. now apply H in E.
  - intros E x H. apply value_iff in H. congruence.
Qed.

(** ** Words *)
Lemma cut_name n tail : a_name n -> tail = [] \/ (exists v, tail = 61 :: v) ->
  cut_value (n ++ tail) = (n, match tail with [] => None | _ :: v => Some v end).
Proof.
  intros (NI & c & x & -> & _) HT. revert c NI. induction x as [|d x IH]; intros c NI.
  - destruct HT as [-> |(v & ->)]; reflexivity.
  - cbn [app] in *. change (cut_value (c :: d :: x ++ tail)) with (if d =? equals then ([c], Some (x ++ tail)) else let '(m, y) := cut_value (d :: x ++ tail) in (c :: m, y)).
    unfold equals. replace (d =? 61) with false.
    + rewrite IH; [reflexivity|]. intros F. apply NI. now right.
    + symmetry. apply Z.eqb_neq. intros ->. apply NI. right. now left.
Qed.
Lemma cut_split : forall s c m y, s <> [] -> hd 0 s = c -> c <> 45 -> c <> 61 -> cut_value s = (m, y) ->
  a_name m /\ s = m ++ match y with None => [] | Some v => 61 :: v end.
Proof.
  assert (P : forall s c m y, c <> 61 -> cut_value (c :: s) = (m, y) ->
    ~ In 61 m /\ (exists x, m = c :: x) /\ c :: s = m ++ match y with None => [] | Some v => 61 :: v end).
  { induction s as [|d s IH]; intros c m y NE H.
    - cbn in H. injection H as <- <-. split; [intros [F|[]]; congruence|]. split; [now exists []|reflexivity].
    - change (cut_value (c :: d :: s)) with (if d =? equals then ([c], Some s) else let '(m, y) := cut_value (d :: s) in (c :: m, y)) in H.
      unfold equals in H. destruct (Z.eqb_spec d 61) as [->|ND].
      + injection H as <- <-. split; [intros [F|[]]; congruence|]. split; [now exists []|reflexivity].
      + destruct (cut_value (d :: s)) as [m1 y1] eqn:E. injection H as <- <-. destruct (IH d m1 y1 ND E) as (A & (x & B) & C).
        split; [intros [F|F]; [congruence|now apply A]|]. split; [now exists m1|]. cbn [app]. now rewrite <- C. }
  intros s c m y NE HC N1 N2 H. destruct s as [|c' s]; [congruence|]. cbn [hd] in HC. subst c'.
  destruct (P s c m y N2 H) as (A & (x & B) & C). split; [|exact C]. split; [exact A|]. exists c, x. auto.
Qed.

Section Flags.
Context (defs : list (bytes * kind)) (PF : proper_flags defs).

Lemma kind_iff n k : flag_kind defs n = Some k <-> In (n, k) defs.
Proof.
  destruct PF as (ND & _). unfold flag_kind. clear PF. induction defs as [|[m j] l IH]; [cbn; split; [discriminate|tauto]|].
  cbn [find fst map] in *. apply NoDup_cons_iff in ND as (NI & ND). destruct (same m n) eqn:E.
  - apply same_iff in E. subst m. cbn [option_map snd]. split.
    + intros H. injection H as ->. now left.
    + intros [H|H]; [now injection H as ->|]. exfalso. apply NI. apply (in_map fst) in H. exact H.
  - rewrite (IH ND). split; [now right|]. intros [H|H]; [|exact H]. injection H as -> _. rewrite same_refl in E. discriminate.
Qed.
Lemma kind_none n : flag_kind defs n = None <-> ~ known defs n.
Proof.
  split.
  - intros H (k & HI). apply kind_iff in HI. congruence.
  - intros H. destruct (flag_kind defs n) as [k|] eqn:E; [|reflexivity]. exfalso. apply H. exists k. now apply kind_iff.
Qed.
Lemma known_name n k : In (n, k) defs -> a_name n.
Proof. destruct PF as (_ & F). intros H. rewrite Forall_forall in F. exact (F _ H). Qed.

(** What parse_flags does with a word that is the name of a flag and possibly a value. *)
Definition one_flag (n : bytes) (y : option bytes) (args' : list bytes) : list (bytes * fval) * fend :=
  match flag_kind defs n with
  | None => if same n (str "help") || same n (str "h") then ([], FHelp) else ([], FBad)
  | Some KBool =>
      match set_value KBool (match y with Some v => v | None => str "true" end) with
      | Some v => let '(st, e) := parse_flags defs args' in ((n, v) :: st, e)
      | None => ([], FBad)
      end
  | Some k =>
      match y with
      | Some v =>
          match set_value k v with
          | Some v => let '(st, e) := parse_flags defs args' in ((n, v) :: st, e)
          | None => ([], FBad)
          end
      | None =>
          match args' with
          | v :: args'' =>
              match set_value k v with
              | Some v => let '(st, e) := parse_flags defs args'' in ((n, v) :: st, e)
              | None => ([], FBad)
              end
          | [] => ([], FBad)
          end
      end
  end.
Lemma parse_word (d n tail : bytes) args' : minus d -> a_name n -> tail = [] \/ (exists v, tail = 61 :: v) ->
  parse_flags defs ((d ++ n ++ tail) :: args') = one_flag n (match tail with [] => None | _ :: v => Some v end) args'.
Proof.
  intros HD HN HT. pose proof HN as (NI & c & x & EN & NC).
  assert (N61 : c <> 61) by (intros ->; apply NI; rewrite EN; now left).
  assert (CUT : cut_value (c :: x ++ tail) = (n, match tail with [] => None | _ :: v => Some v end)).
  { rewrite <- (cut_name n tail HN HT), EN. reflexivity. }
  assert (E45 : (c =? 45) = false) by lia. assert (E61 : (c =? 61) = false) by lia.
  destruct HD as [-> | ->]; rewrite EN; cbn [app parse_flags]; unfold dash, equals; change (45 =? 45) with true; cbn [negb andb].
  - rewrite ?E45. cbn [andb]. rewrite ?E45, ?E61. cbn [orb]. rewrite CUT, <- EN. reflexivity.
  - rewrite ?len_cons. replace (1 + len (x ++ tail) =? 0) with false by (pose proof (len_nonneg (x ++ tail)); lia).
    rewrite ?E45, ?E61. cbn [orb]. rewrite CUT, <- EN. reflexivity.
Qed.

Lemma line_parse args st e : line defs args st e -> parse_flags defs args = (st, e).
Proof.
  induction 1 as [|w ws HP|ws|d n ws st e HD HI _ IH|d n k v x ws st e HD HI HV _ IH|d n k v x ws st e HD HI NB HV _ IH|
    d n tail ws HD HN NK HT|d c x ws H|d n tail ws HD HN NK N1 N2 HT|d n k v ws HD HI NV|d n k v ws HD HI NB NV|d n k HD HI NB].
  - reflexivity.
  - destruct HP as [-> |[-> |(c & x & -> & NC)]]; [reflexivity..|]. cbn [parse_flags]. unfold dash. replace (c =? 45) with false by lia. now destruct x.
  - reflexivity.
  - replace (d ++ n) with (d ++ n ++ []) by now rewrite app_nil_r. rewrite (parse_word d n [] ws HD (known_name _ _ HI) (or_introl eq_refl)).
    unfold one_flag. rewrite (proj2 (kind_iff n KBool) HI). change (set_value KBool (str "true")) with (Some (VBool true)). now rewrite IH.
  - rewrite (parse_word d n (61 :: v) ws HD (known_name _ _ HI)) by eauto. unfold one_flag. rewrite (proj2 (kind_iff n k) HI).
    apply value_iff in HV. destruct k; rewrite HV, IH; reflexivity.
  - replace (d ++ n) with (d ++ n ++ []) by now rewrite app_nil_r. rewrite (parse_word d n [] _ HD (known_name _ _ HI) (or_introl eq_refl)).
    unfold one_flag. rewrite (proj2 (kind_iff n k) HI). apply value_iff in HV. destruct k; [congruence| |]; rewrite HV, IH; reflexivity.
  - assert (AN : a_name n).
    { destruct HN as [-> | ->]; (split; [intros F; repeat (destruct F as [F|F]; [discriminate F|]); exact F|]); eexists _, _; (split; [reflexivity|discriminate]). }
    rewrite (parse_word d n tail ws HD AN HT). unfold one_flag. rewrite (proj2 (kind_none n) NK).
    destruct HN as [-> | ->]; rewrite same_refl; [now rewrite orb_true_r|reflexivity].
  - destruct H as [(-> & ->)|(-> & [-> | ->])]; reflexivity.
  - rewrite (parse_word d n tail ws HD HN HT). unfold one_flag. rewrite (proj2 (kind_none n) NK).
    destruct (same n (str "help")) eqn:E1; [apply same_iff in E1; congruence|].
    destruct (same n (str "h")) eqn:E2; [apply same_iff in E2; congruence|reflexivity].
  - rewrite (parse_word d n (61 :: v) ws HD (known_name _ _ HI)) by eauto. unfold one_flag. rewrite (proj2 (kind_iff n k) HI).
    apply no_value in NV. destruct k; rewrite NV; reflexivity.
  - replace (d ++ n) with (d ++ n ++ []) by now rewrite app_nil_r. rewrite (parse_word d n [] _ HD (known_name _ _ HI) (or_introl eq_refl)).
    unfold one_flag. rewrite (proj2 (kind_iff n k) HI). apply no_value in NV. destruct k; [congruence| |]; rewrite NV; reflexivity.
  - replace (d ++ n) with (d ++ n ++ []) by now rewrite app_nil_r. rewrite (parse_word d n [] _ HD (known_name _ _ HI) (or_introl eq_refl)).
    unfold one_flag. rewrite (proj2 (kind_iff n k) HI). destruct k; [congruence| |]; reflexivity.
Qed.

Lemma line_eq args st e : line defs args st e -> line defs args (fst (parse_flags defs args)) (snd (parse_flags defs args)).
Proof. intros L. rewrite (line_parse _ _ _ L). exact L. Qed.

Lemma word_cases w : plain w \/ w = [45; 45] \/ (exists d c x, w = d ++ c :: x /\ (d = [45] /\ c = 61 \/ d = [45; 45] /\ (c = 45 \/ c = 61))) \/
  exists d n tail : bytes, w = d ++ n ++ tail /\ minus d /\ a_name n /\ (tail = [] \/ exists v, tail = 61 :: v).
Proof.
  assert (NAME : forall d c x, minus d -> c <> 45 -> c <> 61 -> exists d' n tail : bytes, d ++ c :: x = d' ++ n ++ tail /\ minus d' /\ a_name n /\ (tail = [] \/ exists v, tail = 61 :: v)).
  { intros d c x HD N1 N2. destruct (cut_value (c :: x)) as [m y] eqn:E.
    destruct (cut_split (c :: x) c m y ltac:(discriminate) eq_refl N1 N2 E) as (AN & EQ). rewrite EQ.
    exists d, m. destruct y as [v|]; [exists (61 :: v)|exists []]; (split; [reflexivity|]); (split; [exact HD|]); (split; [exact AN|]); [right; eauto|now left]. }
  destruct w as [|m [|c x]]; [now left; left| |].
  - left. destruct (Z.eq_dec m 45) as [->|N]; [right; now left|]. right. right. exists m, []. auto.
  - destruct (Z.eq_dec m 45) as [->|N]; [|left; right; right; exists m, (c :: x); auto]. right.
    destruct (Z.eq_dec c 45) as [->|N1].
    + destruct x as [|c x]; [now left|]. right. destruct (Z.eq_dec c 45) as [->|N2]; [left; exists [45; 45], 45, x; auto|].
      destruct (Z.eq_dec c 61) as [->|N3]; [left; exists [45; 45], 61, x; auto|]. right.
      apply (NAME [45; 45] c x); [now right|assumption..].
    + right. destruct (Z.eq_dec c 61) as [->|N3]; [left; exists [45], 61, x; auto|]. right. apply (NAME [45] c x); [now left|assumption..].
Qed.
Lemma parse_line : forall m args, (length args <= m)%nat -> line defs args (fst (parse_flags defs args)) (snd (parse_flags defs args)).
Proof.
  induction m as [|m IH]; intros args HL.
  { destruct args; [constructor|cbn in HL; lia]. }
  destruct args as [|w ws]; [constructor|]. cbn [length] in HL.
  destruct (word_cases w) as [HP|[-> |[(d & c & x & -> & H)|(d & n & tail & -> & HD & AN & HT)]]].
  - pose proof (li_plain defs w ws HP) as L. exact (line_eq _ _ _ L).
  - apply li_stop.
  - pose proof (li_syntax defs d c x ws H) as L. exact (line_eq _ _ _ L).
  - cut (line defs ((d ++ n ++ tail) :: ws) (fst (one_flag n (match tail with [] => None | _ :: v => Some v end) ws)) (snd (one_flag n (match tail with [] => None | _ :: v => Some v end) ws))).
    { rewrite <- (parse_word d n tail ws HD AN HT). intros L. exact L. }
    unfold one_flag. destruct (flag_kind defs n) as [k|] eqn:EK.
    2:{ apply kind_none in EK. destruct (same n (str "help")) eqn:E1; cbn [orb].
        { apply same_iff in E1. cbn [fst snd]. apply li_help; auto. }
        destruct (same n (str "h")) eqn:E2; cbn [fst snd].
        { apply same_iff in E2. apply li_help; auto. }
        apply li_unknown; auto; intros ->; rewrite same_refl in *; discriminate. }
    apply kind_iff in EK. specialize (IH).
    assert (REC : forall args', (length args' <= m)%nat -> line defs args' (fst (parse_flags defs args')) (snd (parse_flags defs args'))) by exact IH.
    clear IH. destruct HT as [-> |(v & ->)].
    + rewrite app_nil_r. destruct k.
      * change (set_value KBool (str "true")) with (Some (VBool true)). specialize (REC ws ltac:(lia)).
        destruct (parse_flags defs ws) as [st e]. cbn [fst snd] in *. now apply li_switch.
      * destruct ws as [|v ws]; [now apply (li_missing defs d n KString)|]. cbn [length] in HL. specialize (REC ws ltac:(lia)).
        destruct (set_value KString v) as [x|] eqn:EV.
        -- pose proof (proj1 (value_iff KString v x) EV) as HV. destruct (parse_flags defs ws) as [st e]. cbn [fst snd] in *. now apply (li_next defs d n KString).
        -- pose proof (proj2 (no_value KString v) EV) as NV. now apply (li_invalid_next defs d n KString).
      * destruct ws as [|v ws]; [now apply (li_missing defs d n KInt)|]. cbn [length] in HL. specialize (REC ws ltac:(lia)).
        destruct (set_value KInt v) as [x|] eqn:EV.
        -- pose proof (proj1 (value_iff KInt v x) EV) as HV. destruct (parse_flags defs ws) as [st e]. cbn [fst snd] in *. now apply (li_next defs d n KInt).
        -- pose proof (proj2 (no_value KInt v) EV) as NV. now apply (li_invalid_next defs d n KInt).
    + specialize (REC ws ltac:(lia)).
      assert (GO : line defs ((d ++ n ++ 61 :: v) :: ws)
        (fst match set_value k v with Some x => let '(st, e) := parse_flags defs ws in ((n, x) :: st, e) | None => ([], FBad) end)
        (snd match set_value k v with Some x => let '(st, e) := parse_flags defs ws in ((n, x) :: st, e) | None => ([], FBad) end)).
      { destruct (set_value k v) as [x|] eqn:EV.
        - apply value_iff in EV. destruct (parse_flags defs ws) as [st e]. cbn [fst snd] in *. now apply (li_equal defs d n k).
        - pose proof (proj2 (no_value k v) EV) as NV. now apply (li_invalid defs d n k). }
      destruct k; exact GO.
Qed.
Lemma line_iff args st e : parse_flags defs args = (st, e) <-> line defs args st e.
Proof.
  split; [|apply line_parse]. intros H. pose proof (parse_line (length args) args (le_n _)) as L. now rewrite H in L.
Qed.
End Flags.

(** ** The values of the flags *)
Lemma final_chosen name : forall st dflt, chosen st (str name) dflt (final name dflt st).
Proof.
  induction st as [|[n v] st IH]; intros dflt; [left; split; [intros []|reflexivity]|]. cbn [final].
  destruct (same n (str name)) eqn:E.
  - apply same_iff in E. subst n. right. destruct (IH v) as [(NI & ->)|(b & a & EQ & NI)].
    + exists [], st. auto.
    + exists ((str name, v) :: b), a. rewrite EQ at 1. auto.
  - destruct (IH dflt) as [(NI & ->)|(b & a & EQ & NI)].
    + left. split; [|reflexivity]. intros [F|F]; [|now apply NI]. cbn [fst] in F. subst n. rewrite same_refl in E. discriminate.
    + right. exists ((n, v) :: b), a. rewrite EQ at 1. auto.
Qed.
Lemma final_app name : forall b a dflt, final name dflt (b ++ a) = final name (final name dflt b) a.
Proof. induction b as [|[n v] b IH]; intros a dflt; [reflexivity|]. cbn [app final]. apply IH. Qed.
Lemma final_none name : forall st dflt, ~ In (str name) (map fst st) -> final name dflt st = dflt.
Proof.
  induction st as [|[n v] st IH]; intros dflt NI; [reflexivity|]. cbn [final map fst In] in *.
  destruct (same n (str name)) eqn:E; [exfalso; apply NI; left; now apply same_iff|]. apply IH. tauto.
Qed.
Lemma chosen_iff st name dflt v : chosen st (str name) dflt v <-> final name dflt st = v.
Proof.
  split; [|intros <-; apply final_chosen]. intros [(NI & ->)|(b & a & -> & NI)]; [now apply final_none|].
  rewrite final_app. cbn [final]. rewrite same_refl. now apply final_none.
Qed.

(** The values have the type of their flag, and strings are of the octets of the
    arguments. *)
Lemma line_typed defs args st e : line defs args st e -> Forall (Forall is_byte) args ->
  Forall (fun nv => exists k s, In (fst nv, k) defs /\ value k s (snd nv) /\ Forall is_byte s) st.
Proof.
  induction 1 as [|w ws HP|ws|d n ws st e HD HI _ IH|d n k v x ws st e HD HI HV _ IH|d n k v x ws st e HD HI NB HV _ IH|
    d n tail ws HD HN NK HT|d c x ws H|d n tail ws HD HN NK N1 N2 HT|d n k v ws HD HI NV|d n k v ws HD HI NB NV|d n k HD HI NB];
    intros HB; try constructor.
  - exists KBool, (str "true"). split; [exact HI|]. split; [exists true; split; [reflexivity|right; right; right; left; reflexivity]|].
    change (Forall is_byte [116; 114; 117; 101]). repeat constructor; unfold is_byte; lia.
  - apply IH. now inversion HB.
  - exists k, v. split; [exact HI|]. split; [exact HV|]. apply Forall_inv in HB. apply Forall_app in HB as (_ & HB).
    apply Forall_app in HB as (_ & HB). now inversion HB.
  - apply IH. now inversion HB.
  - exists k, v. split; [exact HI|]. split; [exact HV|]. inversion HB as [|? ? _ HB']. now inversion HB'.
  - apply IH. inversion HB as [|? ? _ HB']. now inversion HB'.
Qed.
Lemma line_typed_any defs args st e : line defs args st e ->
  Forall (fun nv => exists k s, In (fst nv, k) defs /\ value k s (snd nv)) st.
Proof.
  induction 1 as [|w ws HP|ws|d n ws st e HD HI _ IH|d n k v x ws st e HD HI HV _ IH|d n k v x ws st e HD HI NB HV _ IH|
    d n tail ws HD HN NK HT|d c x ws H|d n tail ws HD HN NK N1 N2 HT|d n k v ws HD HI NV|d n k v ws HD HI NB NV|d n k HD HI NB];
    try constructor; try assumption.
  - exists KBool, (str "true"). split; [exact HI|]. exists true. split; [reflexivity|right; right; right; left; reflexivity].
  - exists k, v. auto.
  - exists k, v. auto.
Qed.
Lemma final_typed defs args st e name k dflt : proper_flags defs -> line defs args st e -> In (str name, k) defs ->
  final name dflt st = dflt \/ exists s, value k s (final name dflt st).
Proof.
  intros PF HL HI. destruct (final_chosen name st dflt) as [(_ & ->)|(b & a & EQ & _)]; [now left|]. right.
  pose proof (line_typed_any _ _ _ _ HL) as F. rewrite EQ in F. apply Forall_app in F as (_ & F). apply Forall_inv in F.
  destruct F as (k' & s & HI' & HV). cbn [fst snd] in *. apply (kind_iff defs PF) in HI, HI'. assert (k' = k) as -> by congruence.
  exists s. exact HV.
Qed.
Lemma final_bytes defs args st e name dflt s : Forall (Forall is_byte) args -> line defs args st e ->
  dflt = VString [] -> final name dflt st = VString s -> Forall is_byte s.
Proof.
  intros HB HL -> E. destruct (final_chosen name st (VString [])) as [(_ & E')|(b & a & EQ & _)].
  - rewrite E in E'. injection E' as ->. constructor.
  - pose proof (line_typed _ _ _ _ HL HB) as F. rewrite EQ in F. apply Forall_app in F as (_ & F). apply Forall_inv in F.
    destruct F as (k & s' & _ & HV & HS). cbn [snd] in HV. rewrite E in HV. destruct k; cbn [value] in HV.
    + destruct HV as (? & HV & _). discriminate HV.
    + injection HV as ->. exact HS.
    + destruct HV as (? & _ & HV). discriminate HV.
Qed.
Lemma bool_flag defs args st e name : proper_flags defs -> line defs args st e -> In (str name, KBool) defs ->
  forall b, final_bool name st = b <-> chosen st (str name) (VBool false) (VBool b).
Proof.
  intros PF HL HI b. rewrite chosen_iff. unfold final_bool.
  destruct (final_typed _ _ _ _ _ _ (VBool false) PF HL HI) as [->|(s & b' & -> & _)]; split; congruence.
Qed.
Lemma string_flag defs args st e name : proper_flags defs -> line defs args st e -> In (str name, KString) defs ->
  forall s, final_string name st = s <-> chosen st (str name) (VString []) (VString s).
Proof.
  intros PF HL HI b. rewrite chosen_iff. unfold final_string.
  destruct (final_typed _ _ _ _ _ _ (VString []) PF HL HI) as [->|(s & ->)]; split; congruence.
Qed.
Lemma int_flag defs args st e name : proper_flags defs -> line defs args st e -> In (str name, KInt) defs ->
  forall z, final_int name st = z <-> chosen st (str name) (VInt 0) (VInt z).
Proof.
  intros PF HL HI b. rewrite chosen_iff. unfold final_int.
  destruct (final_typed _ _ _ _ _ _ (VInt 0) PF HL HI) as [->|(s & z & _ & ->)]; split; congruence.
Qed.

(** ** The flags of the tools *)
Lemma proper_dec defs : (let names := map fst defs in
    forallb (fun n => negb (existsb (Z.eqb 61) n) && match n with c :: _ => negb (c =? 45) | [] => false end) names &&
    (length (nodup (list_eq_dec Z.eq_dec) names) =? length names)%nat) = true -> proper_flags defs.
Proof.
  cbn zeta. intros H. apply andb_true_iff in H as (H1 & H2). split.
  - pose proof (NoDup_nodup (list_eq_dec Z.eq_dec) (map fst defs)) as ND. apply Nat.eqb_eq in H2. eapply NoDup_incl_NoDup; [exact ND|exact (Nat.eq_le_incl _ _ (eq_sym H2))|]. intros x HX. now apply nodup_In in HX.
  - rewrite forallb_forall in H1. apply Forall_forall. intros d HD. specialize (H1 (fst d) (in_map fst _ _ HD)).
    apply andb_true_iff in H1 as (A & B). split.
    + intros HI. apply negb_true_iff in A. rewrite <- not_true_iff_false, existsb_exists in A. apply A. exists 61. now split.
    + destruct (fst d) as [|c x]; [discriminate|]. exists c, x. split; [reflexivity|]. apply negb_true_iff, Z.eqb_neq in B. exact B.
Qed.
Lemma smsdecode_proper : proper_flags smsdecode_flags. Proof. apply proper_dec. vm_compute. reflexivity. Qed.
Lemma smsdeliver_proper : proper_flags smsdeliver_flags. Proof. apply proper_dec. vm_compute. reflexivity. Qed.
Lemma smssubmit_proper : proper_flags smssubmit_flags. Proof. apply proper_dec. vm_compute. reflexivity. Qed.
Lemma smscounter_proper : proper_flags smscounter_flags. Proof. apply proper_dec. vm_compute. reflexivity. Qed.

(** ** smssubmit *)
Lemma submit_lines_spec : forall hs i, 0 <= i ->
  submit_lines i hs = concat (map (fun k => str "Submit TPDU " ++ fmt_int (i + Z.of_nat k) ++ str ":" ++ [10] ++ nth (k - 1) hs [] ++ [10]) (seq 1 (length hs))).
Proof.
  induction hs as [|h hs IH]; intros i HI; [reflexivity|]. cbn [submit_lines length seq map concat].
  rewrite <- !app_assoc. change (nth (1 - 1) (h :: hs) []) with h. change (Z.of_nat 1) with 1. do 5 f_equal. cbn [app]. f_equal.
  rewrite (IH (i + 1)) by lia. rewrite <- (seq_shift _ 1), map_map. f_equal. apply map_ext_in. intros k HK. apply in_seq in HK.
  replace (i + Z.of_nat (S k)) with (i + 1 + Z.of_nat k) by lia. replace (S k - 1)%nat with (S (k - 1)) by lia. reflexivity.
Qed.
Lemma submit_text_spec hs : submit_text hs = submitted hs.
Proof.
  unfold submit_text, submitted. destruct hs as [|h [|h' hs]]; [reflexivity..|]. rewrite (submit_lines_spec (h :: h' :: hs) 0) by lia.
  f_equal.
Qed.
Lemma submit_encodes msg number nli : Forall is_byte msg -> exists pdus, encode msg (To number :: count_opts nli) = Ok pdus.
Proof.
  intros HB. unfold encode.
  set (e := {| e_eopts := language_opts nli; e_pdu := set_DA plain_submit (new_address_number number); e_msg_count := 0; e_concat_ref := 0 |}).
  assert (EE : sms_new_encoder (AsSubmit :: To number :: count_opts nli) = e).
  { unfold e, count_opts, language_opts. destruct (nli =? 0); reflexivity. }
  rewrite EE. unfold encoder_encode. cbn [fold_left].
  pose proof (prepare_cases e msg) as HP.
  change (DCS (e_pdu e)) with 0 in HP. specialize (HP ltac:(unfold is_byte; lia)).
  change (given_encoded 0) with false in HP. cbv iota in HP.
  change (e_eopts e) with (language_opts nli) in HP.
  destruct (encode_user_data msg (language_opts nli)) as [[ud h] a] eqn:EU.
  destruct HP as [HC HP].
  assert (alphabet_expressible (coding_group 0) (choice_alpha (choose msg (language_opts nli))) = true) as EX
    by (destruct (choose _ _); reflexivity).
  rewrite EX in HP. destruct HP as (t & ET & HA & HBt & _ & HU & HF & _ & HT).
  assert (HL : udhl (ies (UDH t)) <= 119).
  { rewrite HU. unfold prep_header. destruct h as [l|]; [|cbn; lia]. destruct HC as [HC _].
    cbn [ies] in *. rewrite (udhl_ids _ _ HC). pose proof (choice_header_small (choose msg (language_opts nli))). lia. }
  assert (HTy : tpdu_type t = SmsSubmit).
  { unfold tpdu_type. rewrite HT. cbn [FO Direction]. rewrite HF. destruct h; reflexivity. }
  destruct (segment_total t ud (encoder_seg_cfg e)) as (pdus & HS).
  { left. pose proof (multi_size_room t (sc_wide (encoder_seg_cfg e))) as HM.
    rewrite HTy in HM. unfold SmsSubmit, SmsCommand in HM. specialize (HM ltac:(lia) ltac:(lia) HL).
    pose proof (largest_unit_4 (dcs_alpha (DCS t))). lia. }
  exists pdus. rewrite ET. cbn [bind]. rewrite HS. reflexivity.
Qed.
Lemma smssubmit_total number msg nli : Forall is_byte msg -> exists pdus,
  encode msg (To number :: count_opts nli) = Ok pdus /\
  smssubmit_text number msg nli = Ok (submitted (map (fun p => match tpdu_marshal p with Ok b => hex_encode b | _ => [] end) pdus)).
Proof.
  intros HB. destruct (submit_encodes msg number nli HB) as (pdus & E). exists pdus. split; [exact E|].
  unfold smssubmit_text, smssubmit.
  assert (encode msg ([AsSubmit; To number] ++ (if negb (nli =? 0) then [EoCharset (OptCharset [nli])] else [])) =
          encode msg (To number :: count_opts nli)) as ->.
  { unfold count_opts, language_opts. destruct (nli =? 0); reflexivity. }
  rewrite E. cbn [bind]. now rewrite submit_text_spec.
Qed.
