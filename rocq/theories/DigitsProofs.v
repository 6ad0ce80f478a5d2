(** Lemmas for C04 and C05. *)
From Verif Require Import GoBase GoLemmas Bcd Semioctet SpecDigits.

Lemma encode_digit_code d e : encode_digit d = Some e <->
  exists c, (c < 15)%nat /\ d = nth c semi_alphabet 0 /\ e = Z.of_nat c.
Proof.
  unfold encode_digit. split.
  - intros H.
    destruct ((48 <=? d) && (d <=? 57)) eqn:E1.
    { injection H as <-. exists (Z.to_nat (d - 48)). split; [lia|]. split; [|lia].
      assert (C : d = 48 \/ d = 49 \/ d = 50 \/ d = 51 \/ d = 52 \/ d = 53 \/ d = 54
                \/ d = 55 \/ d = 56 \/ d = 57) by lia.
      repeat destruct C as [->|C]; try reflexivity. now rewrite C. }
    repeat match type of H with
    | (if ?b then _ else _) = _ => destruct b eqn:?
    end; try discriminate; injection H as <-.
    + exists 10%nat. split; [lia|]. split; [cbn; lia|reflexivity].
    + exists 11%nat. split; [lia|]. split; [cbn; lia|reflexivity].
    + exists 12%nat. split; [lia|]. split; [cbn; lia|reflexivity].
    + exists 13%nat. split; [lia|]. split; [cbn; lia|reflexivity].
    + exists 14%nat. split; [lia|]. split; [cbn; lia|reflexivity].
  - intros (c & Hc & -> & ->).
    do 15 (destruct c as [|c]; [reflexivity|]). lia.
Qed.

Lemma encode_digit_some d : is_semi_digit d -> exists e, encode_digit d = Some e.
Proof.
  intros H. apply In_nth with (d := 0) in H as (c & Hc & <-).
  exists (Z.of_nat c). apply encode_digit_code. exists c. auto.
Qed.
Lemma encode_digit_none d : ~ is_semi_digit d -> encode_digit d = None.
Proof.
  intros H. destruct (encode_digit d) eqn:E; [|reflexivity].
  apply encode_digit_code in E as (c & Hc & -> & _).
  exfalso. apply H. now apply nth_In.
Qed.

Lemma semi_code d : is_semi_digit d -> exists c, (c < 15)%nat /\ d = nth c semi_alphabet 0.
Proof. intros H. apply In_nth with (d := 0) in H as (c & Hc & <-). eauto. Qed.

(** Pairwise induction. *)
Lemma list_ind2 {A} (P : list A -> Prop) :
  P [] -> (forall x, P [x]) -> (forall x y l, P l -> P (x :: y :: l)) -> forall l, P l.
Proof.
  intros H0 H1 H2. fix F 1. intros [|x [|y l]]; [exact H0|apply H1|apply H2, F].
Qed.

Definition lo_sweep : forallb (fun a => forallb (fun b =>
  (to_byte (Z.lor a (Z.shiftl b 4)) =? a + 16 * b) && (Z.land (a + 16 * b) 15 =? a)
  && (Z.shiftr (a + 16 * b) 4 =? b)) (zrange 16)) (zrange 16) = true.
Proof. vm_compute. reflexivity. Qed.
Lemma nibbles a b : 0 <= a < 16 -> 0 <= b < 16 ->
  to_byte (Z.lor a (Z.shiftl b 4)) = a + 16 * b /\
  Z.land (a + 16 * b) 15 = a /\ Z.shiftr (a + 16 * b) 4 = b.
Proof.
  intros Ha Hb. pose proof (zrange_sweep2 _ _ _ lo_sweep a b Ha Hb) as E. cbn beta in E. lia.
Qed.

Lemma semi_encode_loop_ok ds : Forall is_semi_digit ds ->
  exists p, semi_encode_loop ds None = Ok p /\ semi_packed ds p.
Proof.
  induction ds as [|x|x y ds IH] using list_ind2; intros H.
  - exists []. split; [reflexivity|constructor].
  - inversion H as [|? ? Hx _]; subst. destruct (semi_code _ Hx) as (c & Hc & ->).
    cbn [semi_encode_loop].
    rewrite (proj2 (encode_digit_code (nth c semi_alphabet 0) (Z.of_nat c)))
      by (exists c; auto).
    change 240 with (Z.shiftl 15 4).
    destruct (nibbles (Z.of_nat c) 15) as (-> & _); [lia..|].
    eexists; split; [reflexivity|now constructor].
  - inversion H as [|? ? Hx H']; subst. inversion H' as [|? ? Hy Hds]; subst.
    destruct (IH Hds) as (p & Hp & HP).
    destruct (semi_code _ Hx) as (c & Hc & ->). destruct (semi_code _ Hy) as (c' & Hc' & ->).
    cbn [semi_encode_loop].
    rewrite (proj2 (encode_digit_code (nth c semi_alphabet 0) (Z.of_nat c)))
      by (exists c; auto).
    rewrite (proj2 (encode_digit_code (nth c' semi_alphabet 0) (Z.of_nat c')))
      by (exists c'; auto).
    rewrite Hp. cbn [bind].
    destruct (nibbles (Z.of_nat c) (Z.of_nat c')) as (-> & _); [lia..|].
    eexists; split; [reflexivity|now constructor].
Qed.

Lemma semi_encode_ok ds : Forall is_semi_digit ds ->
  exists p, semi_encode ds = Ok p /\ semi_packed ds p.
Proof.
  intros H. unfold semi_encode. destruct (len ds =? 0) eqn:E.
  - assert (ds = []) by (apply len_0_nil; lia). subst. exists []. split; [reflexivity|constructor].
  - now apply semi_encode_loop_ok.
Qed.

Lemma semi_packed_len ds p : semi_packed ds p ->
  len p = (len ds + 1) / 2 /\ Forall is_byte p /\ Forall is_semi_digit ds.
Proof.
  induction 1 as [|c Hc|c1 c2 ds p H1 H2 HP (IH1 & IH2 & IH3)].
  - split; [reflexivity|]. split; constructor.
  - split; [reflexivity|]. split; (constructor; [|constructor]).
    + unfold is_byte; lia.
    + unfold is_semi_digit. apply nth_In. exact Hc.
  - rewrite !len_cons. split; [lia|]. split.
    + constructor; [unfold is_byte; lia|assumption].
    + constructor; [apply nth_In; exact H1|]. constructor; [apply nth_In; exact H2|assumption].
Qed.

Lemma semi_encode_err_loop ds d rest acc : Forall is_semi_digit ds -> ~ is_semi_digit d ->
  semi_encode_loop (ds ++ d :: rest) acc = Err (SemiInvalidDigit d).
Proof.
  intros H Hd. revert acc. induction H as [|x ds Hx H IH]; intros acc.
  - cbn [app semi_encode_loop]. now rewrite encode_digit_none.
  - cbn [app semi_encode_loop]. destruct (encode_digit_some _ Hx) as (e & ->).
    destruct acc; rewrite IH; reflexivity.
Qed.
Lemma semi_encode_err ds d rest : Forall is_semi_digit ds -> ~ is_semi_digit d ->
  semi_encode (ds ++ d :: rest) = Err (SemiInvalidDigit d).
Proof.
  intros. unfold semi_encode.
  assert (len (ds ++ d :: rest) <> 0).
  { rewrite len_app, len_cons. pose proof (len_nonneg ds). pose proof (len_nonneg rest). lia. }
  bfalse (len (ds ++ d :: rest) =? 0). now apply semi_encode_err_loop.
Qed.

Lemma dd_code c : (c < 15)%nat -> idx decode_digits (Z.of_nat c) = Ok (nth c semi_alphabet 0)
  /\ (nth c semi_alphabet 0 =? fillF) = false.
Proof. intros H. do 15 (destruct c as [|c]; [split; reflexivity|]). lia. Qed.

Lemma semi_decode_loop_ok ds p : semi_packed ds p ->
  forall rest out ri,
  semi_decode_loop (len out + len ds) (p ++ rest) out ri = Ok (out ++ ds, ri + len p).
Proof.
  induction 1 as [|c Hc|c1 c2 ds p H1 H2 HP IH]; intros rest out ri.
  - rewrite !app_nil_r. change (len (@nil Z)) with 0.
    destruct rest; cbn [semi_decode_loop app];
      replace (len out <? len out + 0) with false by lia; cbn [negb];
      now replace (ri + 0) with ri by lia.
  - cbn [app semi_decode_loop]. change (len [nth c semi_alphabet 0]) with 1.
    btrue (len out <? len out + 1). cbn [negb].
    destruct (nibbles (Z.of_nat c) 15) as (_ & -> & ->); [lia..|].
    destruct (dd_code c Hc) as (-> & E). cbn [bind]. rewrite E. cbn [negb].
    change (idx decode_digits 15) with (Ok 70 : res Z). cbn [bind].
    change (70 =? fillF) with true. cbn [negb]. rewrite andb_false_r.
    rewrite len_cons. change (len (@nil Z)) with 0.
    replace (ri + (1 + 0)) with (ri + 1) by lia.
    assert (L : len (out ++ [nth c semi_alphabet 0]) = len out + 1)
      by (rewrite len_app; reflexivity).
    destruct rest; cbn [semi_decode_loop]; rewrite L;
      bfalse (len out + 1 <? len out + 1); reflexivity.
  - cbn [app semi_decode_loop]. rewrite !len_cons.
    pose proof (len_nonneg ds).
    btrue (len out <? len out + (1 + (1 + len ds))). cbn [negb].
    destruct (nibbles (Z.of_nat c1) (Z.of_nat c2)) as (_ & -> & ->); [lia..|].
    destruct (dd_code c1 H1) as (-> & E1). cbn [bind]. rewrite E1. cbn [negb].
    destruct (dd_code c2 H2) as (-> & E2). cbn [bind]. rewrite E2. cbn [negb].
    rewrite !len_app. change (len [nth c1 semi_alphabet 0]) with 1.
    bfalse (len out + 1 =? len out + (1 + (1 + len ds))). cbn [andb].
    btrue (len out + 1 <? len out + (1 + (1 + len ds))).
    specialize (IH rest ((out ++ [nth c1 semi_alphabet 0]) ++ [nth c2 semi_alphabet 0]) (ri + 1)).
    rewrite !len_app in IH. change (len [nth c1 semi_alphabet 0]) with 1 in IH.
    change (len [nth c2 semi_alphabet 0]) with 1 in IH.
    replace (len out + (1 + (1 + len ds))) with (len out + 1 + 1 + len ds) by lia.
    rewrite IH. rewrite <- !app_assoc. cbn [app]. do 2 f_equal. lia.
Qed.

Lemma semi_roundtrip ds : Forall is_semi_digit ds ->
  exists p, semi_encode ds = Ok p /\ len p = (len ds + 1) / 2 /\ Forall is_byte p /\
    semi_packed ds p /\
    forall rest, semi_decode (len ds) (p ++ rest) = Ok (ds, len p).
Proof.
  intros H. destruct (semi_encode_ok ds H) as (p & Hp & HP).
  destruct (semi_packed_len ds p HP) as (HL & HB & _).
  exists p. repeat split; try assumption.
  intros rest. unfold semi_decode. exact (semi_decode_loop_ok ds p HP rest [] 0).
Qed.

Lemma dd_any i : 0 <= i < 16 ->
  idx decode_digits i = Ok fillF \/
  exists d, idx decode_digits i = Ok d /\ is_semi_digit d /\ (d =? fillF) = false.
Proof.
  intros H. destruct (Z.eq_dec i 15) as [->|N]; [left; reflexivity|right].
  replace i with (Z.of_nat (Z.to_nat i)) by lia.
  destruct (dd_code (Z.to_nat i) ltac:(lia)) as (E1 & E2).
  eexists. split; [exact E1|]. split; [apply nth_In; cbn; lia|exact E2].
Qed.

Lemma nib_range o : is_byte o -> 0 <= Z.land o 15 < 16 /\ 0 <= Z.shiftr o 4 < 16.
Proof.
  intros H. unfold is_byte in H. change 15 with (Z.ones 4). rewrite Z.land_ones by lia.
  rewrite Z.shiftr_div_pow2 by lia. change (2 ^ 4) with 16. lia.
Qed.

Lemma semi_decode_loop_safe src : Forall is_byte src ->
  forall dlen out ri, len out <= dlen -> Forall is_semi_digit out ->
  (exists out' n, semi_decode_loop dlen src out ri = Ok (out', n) /\
     len out' <= dlen /\ ri <= n <= ri + len src /\ Forall is_semi_digit out')
  \/ semi_decode_loop dlen src out ri = Err SemiMissingFill.
Proof.
  induction 1 as [|o src Ho Hs IH]; intros dlen out ri Hle Hd.
  - left. exists out, ri. cbn [semi_decode_loop]. change (len (@nil Z)) with 0.
    split; [now destruct (negb _)|]. repeat split; try assumption; lia.
  - cbn [semi_decode_loop]. rewrite len_cons.
    destruct (len out <? dlen) eqn:EL; cbn [negb].
    2:{ left. exists out, ri. pose proof (len_nonneg src).
        split; [reflexivity|]. repeat split; try assumption; lia. }
    destruct (nib_range o Ho) as [Hlo Hhi].
    assert (HIH : forall out1, len out1 <= dlen -> Forall is_semi_digit out1 ->
      (exists out' n, semi_decode_loop dlen src out1 (ri + 1) = Ok (out', n) /\
       len out' <= dlen /\ ri <= n <= ri + (1 + len src) /\ Forall is_semi_digit out')
      \/ semi_decode_loop dlen src out1 (ri + 1) = Err SemiMissingFill).
    { intros out1 H1 H2. destruct (IH dlen out1 (ri + 1) H1 H2) as [(o' & n & E & L & N & F)|E];
        [left|right; exact E].
      exists o', n. repeat split; try assumption; lia. }
    assert (HA : forall d, is_semi_digit d -> Forall is_semi_digit (out ++ [d])).
    { intros d Hd'. apply Forall_app. split; [assumption|]. now constructor. }
    assert (HA2 : forall d d', is_semi_digit d -> is_semi_digit d' ->
              Forall is_semi_digit ((out ++ [d]) ++ [d'])).
    { intros d d' H1 H2. apply Forall_app. split; [now apply HA|]. now constructor. }
    destruct (dd_any _ Hlo) as [->|(d & -> & Sd & Fd)]; cbn [bind].
    + change (fillF =? fillF) with true. cbn [negb].
      destruct (dd_any _ Hhi) as [->|(d' & -> & Sd' & Fd')]; cbn [bind].
      * change (fillF =? fillF) with true. cbn [negb]. rewrite andb_false_r. now apply HIH.
      * rewrite Fd'. replace (len out =? dlen) with false by lia. cbn [negb andb].
        rewrite EL. apply HIH; [rewrite len_app; change (len [d']) with 1; lia|now apply HA].
    + rewrite Fd. cbn [negb].
      assert (L : len (out ++ [d]) = len out + 1) by (rewrite len_app; reflexivity).
      destruct (dd_any _ Hhi) as [->|(d' & -> & Sd' & Fd')]; cbn [bind].
      * change (fillF =? fillF) with true. cbn [negb]. rewrite andb_false_r.
        apply HIH; [lia|now apply HA].
      * rewrite Fd', L. cbn [negb].
        destruct (len out + 1 =? dlen) eqn:E1; cbn [andb]; [now right|].
        btrue (len out + 1 <? dlen).
        apply HIH; [rewrite len_app, L; change (len [d']) with 1; lia|now apply HA2].
Qed.

Lemma semi_decode_safe dlen src : 0 <= dlen -> Forall is_byte src ->
  (exists out n, semi_decode dlen src = Ok (out, n) /\
     len out <= dlen /\ 0 <= n <= len src /\ Forall is_semi_digit out)
  \/ semi_decode dlen src = Err SemiMissingFill.
Proof.
  intros Hd Hs. unfold semi_decode.
  destruct (semi_decode_loop_safe src Hs dlen [] 0 Hd (Forall_nil _)) as
    [(o & n & E & L & N & F)|E]; [left|right; exact E].
  exists o, n. repeat split; try assumption; lia.
Qed.

(** BCD *)
Lemma bcd_encode_sweep :
  forallb (fun u => match bcd_encode u with Ok b => (b =? bcd_octet u) &&
     match bcd_decode b with Ok u' => u' =? u | _ => false end | _ => false end)
    (zrange 100) = true.
Proof. vm_compute. reflexivity. Qed.
Lemma bcd_encode_spec u :
  bcd_encode u = if (0 <=? u) && (u <=? 99) then Ok (bcd_octet u) else Err (BcdInvalidInteger u).
Proof.
  destruct ((0 <=? u) && (u <=? 99)) eqn:E.
  - pose proof (zrange_sweep _ _ bcd_encode_sweep u ltac:(lia)) as H. cbn beta in H.
    destruct (bcd_encode u) as [b| | |]; try discriminate. f_equal. lia.
  - unfold bcd_encode. btrue ((u <? 0) || (99 <? u)). reflexivity.
Qed.
Lemma bcd_decode_encode u b : bcd_encode u = Ok b -> bcd_decode b = Ok u.
Proof.
  intros H. pose proof H as H'. rewrite bcd_encode_spec in H.
  destruct ((0 <=? u) && (u <=? 99)) eqn:E; [|discriminate].
  pose proof (zrange_sweep _ _ bcd_encode_sweep u ltac:(lia)) as S. cbn beta in S.
  rewrite H' in S. destruct (bcd_decode b); lia || (f_equal; lia).
Qed.
Lemma bcd_decode_sweep :
  forallb (fun b => match bcd_decode b with
    | Ok u => (b mod 16 <=? 9) && (b / 16 <=? 9) && (u =? 10 * (b mod 16) + b / 16) &&
              match bcd_encode u with Ok b' => b' =? b | _ => false end
    | Err (BcdInvalidOctet b') => (b' =? b) && negb ((b mod 16 <=? 9) && (b / 16 <=? 9))
    | _ => false end) (zrange 256) = true.
Proof. vm_compute. reflexivity. Qed.
Lemma bcd_decode_spec b : is_byte b ->
  bcd_decode b = if (b mod 16 <=? 9) && (b / 16 <=? 9) then Ok (10 * (b mod 16) + b / 16)
                 else Err (BcdInvalidOctet b).
Proof.
  intros H. pose proof (zrange_sweep _ _ bcd_decode_sweep b H) as S. cbn beta in S.
  destruct (bcd_decode b) as [u|e| |]; try discriminate.
  - btrue ((b mod 16 <=? 9) && (b / 16 <=? 9)). f_equal. lia.
  - destruct e; try discriminate. bfalse ((b mod 16 <=? 9) && (b / 16 <=? 9)).
    f_equal. f_equal. lia.
Qed.
Lemma bcd_encode_decode b u : is_byte b -> bcd_decode b = Ok u -> bcd_encode u = Ok b.
Proof.
  intros H D. pose proof (zrange_sweep _ _ bcd_decode_sweep b H) as S. cbn beta in S.
  rewrite D in S. destruct (bcd_encode u); lia || (f_equal; lia).
Qed.

Lemma bcd_signed_sweep :
  forallb (fun k => let s := k - 79 in
    match bcd_encode_signed s with
    | Ok b => (b =? bcd_octet (Z.abs s) + (if s <? 0 then 8 else 0)) &&
        match bcd_decode_signed b with Ok s' => s' =? s | _ => false end
    | _ => false end) (zrange 159) = true.
Proof. vm_compute. reflexivity. Qed.
Lemma bcd_encode_signed_spec s :
  bcd_encode_signed s =
    if (-79 <=? s) && (s <=? 79) then Ok (bcd_octet (Z.abs s) + (if s <? 0 then 8 else 0))
    else Err (BcdInvalidInteger s).
Proof.
  destruct ((-79 <=? s) && (s <=? 79)) eqn:E.
  - pose proof (zrange_sweep _ _ bcd_signed_sweep (s + 79) ltac:(lia)) as H. cbn beta zeta in H.
    replace (s + 79 - 79) with s in H by lia.
    destruct (bcd_encode_signed s) as [b| | |]; try discriminate. f_equal. lia.
  - unfold bcd_encode_signed. btrue ((s <? -79) || (79 <? s)). reflexivity.
Qed.
Lemma bcd_decode_signed_encode s b : bcd_encode_signed s = Ok b -> bcd_decode_signed b = Ok s.
Proof.
  intros H. pose proof H as H'. rewrite bcd_encode_signed_spec in H.
  destruct ((-79 <=? s) && (s <=? 79)) eqn:E; [|discriminate].
  pose proof (zrange_sweep _ _ bcd_signed_sweep (s + 79) ltac:(lia)) as S. cbn beta zeta in S.
  replace (s + 79 - 79) with s in S by lia.
  rewrite H' in S. destruct (bcd_decode_signed b); lia || (f_equal; lia).
Qed.
Lemma bcd_decode_signed_sweep :
  forallb (fun b => match bcd_decode_signed b with
    | Ok s => (b / 16 <=? 9) &&
              (s =? (if Z.testbit b 3 then -1 else 1) * (10 * (b mod 8) + b / 16)) &&
              match bcd_encode_signed s with Ok b' => (b' =? b) || (b =? 8) | _ => false end
    | Err (BcdInvalidOctet b') => (b' =? b) && negb (b / 16 <=? 9)
    | _ => false end) (zrange 256) = true.
Proof. vm_compute. reflexivity. Qed.
Lemma bcd_decode_signed_spec b : is_byte b ->
  bcd_decode_signed b =
    if b / 16 <=? 9 then Ok ((if Z.testbit b 3 then -1 else 1) * (10 * (b mod 8) + b / 16))
    else Err (BcdInvalidOctet b).
Proof.
  intros H. pose proof (zrange_sweep _ _ bcd_decode_signed_sweep b H) as S. cbn beta in S.
  destruct (bcd_decode_signed b) as [u|e| |]; try discriminate.
  - btrue (b / 16 <=? 9). f_equal. lia.
  - destruct e; try discriminate. bfalse (b / 16 <=? 9). f_equal. f_equal. lia.
Qed.
Lemma bcd_encode_signed_decode b s : is_byte b -> b <> 8 ->
  bcd_decode_signed b = Ok s -> bcd_encode_signed s = Ok b.
Proof.
  intros H N D. pose proof (zrange_sweep _ _ bcd_decode_signed_sweep b H) as S. cbn beta in S.
  rewrite D in S. destruct (bcd_encode_signed s); lia || (f_equal; lia).
Qed.
