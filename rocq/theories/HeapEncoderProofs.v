(** Lemmas about concurrent calls of Encode (C60). *)
From Verif Require Import GoBase GoLemmas SafeLemmas UserData Tpdu Segment Sms Heap SpecHeap HeapProofs HeapEncoder SpecConc.

Lemma charsets_cons o opts : charsets (o :: opts) = match o with EoCharset c => [c] | _ => [] end ++ charsets opts.
Proof. reflexivity. Qed.
Lemma charsets_app a b : charsets (a ++ b) = charsets a ++ charsets b.
Proof. unfold charsets. now rewrite map_app, concat_app. Qed.

Lemma fold_eopts opts : forall e, e_eopts (fold_left apply_encoder_opt opts e) = e_eopts e ++ charsets opts.
Proof.
  induction opts as [|o opts IH]; intros e; cbn [fold_left]; [now rewrite app_nil_r|].
  rewrite IH, charsets_cons. destruct o; cbn [apply_encoder_opt e_eopts app]; auto. now rewrite <- app_assoc.
Qed.

(** Equal but for the options. *)
Definition same (e e' : sms_encoder) : Prop := with_eopts e [] = with_eopts e' [].
Lemma same_apply e e' o : same e e' -> same (apply_encoder_opt e o) (apply_encoder_opt e' o).
Proof.
  unfold same, with_eopts. intros H. injection H as H1 H2 H3. destruct o; cbn [apply_encoder_opt e_pdu e_msg_count e_concat_ref].
  - now rewrite H2, H3.
  - now rewrite H1, H2, H3.
  - now rewrite H1, H2, H3.
Qed.
Lemma same_with e e' l : same e e' -> with_eopts e l = with_eopts e' l.
Proof. unfold same, with_eopts. intros H. injection H as H1 H2 H3. now rewrite H1, H2, H3. Qed.
Lemma with_own e : with_eopts e (e_eopts e) = e.
Proof. now destruct e. Qed.

(** The state of one call: [p] are the options applied so far. *)
Definition call_inv (h0 : heap charset_opt) (s : gslice) (e : sms_encoder) (h : heap charset_opt) (c : call) (m : bytes)
    (opts : list encoder_opt) (p : list encoder_opt) : Prop :=
  c_msg c = m /\ p ++ c_todo c = opts /\ same (c_enc c) (fold_left apply_encoder_opt p e) /\
  ok_slice h (c_eopts c) /\ view h (c_eopts c) = view h0 s ++ charsets p /\
  (charsets p = [] -> c_eopts c = s) /\
  (s_arr (c_eopts c) = s_arr s /\ s_off (c_eopts c) = s_off s /\ (s_len s <= s_len (c_eopts c))%nat \/
   (length h0 <= s_arr (c_eopts c))%nat) /\
  s_len (c_eopts c) = (s_len s + length (charsets p))%nat /\
  (forall r, c_done c = Some r -> c_todo c = [] /\
     r = encode_prepare (with_eopts (fold_left apply_encoder_opt p e) (view h0 s ++ charsets p)) m).

Lemma nth_error_update {A} (l : list A) n m x : (n < length l)%nat ->
  nth_error (update l n x) m = if (m =? n)%nat then Some x else nth_error l m.
Proof.
  revert n m. induction l as [|y l IH]; intros [|n] [|m] H; cbn [update nth_error length Nat.eqb] in *; try lia; auto.
  apply IH. lia.
Qed.

(** At most one call writes to spare room of the slice. *)
Definition exclusive (s : gslice) (specs : list (bytes * list encoder_opt)) : Prop :=
  s_len s = s_cap s \/
  forall i j m1 o1 m2 o2, i <> j -> nth_error specs i = Some (m1, o1) -> nth_error specs j = Some (m2, o2) ->
    charsets o1 <> [] -> charsets o2 = [].

Definition inv (h0 : heap charset_opt) (s : gslice) (e : sms_encoder) (specs : list (bytes * list encoder_opt))
    (h : heap charset_opt) (cs : list call) : Prop :=
  length cs = length specs /\ ok_slice h s /\ (length h0 <= length h)%nat /\ view h s = view h0 s /\
  exists ps, length ps = length cs /\
    (forall i c m o p, nth_error cs i = Some c -> nth_error specs i = Some (m, o) -> nth_error ps i = Some p ->
       call_inv h0 s e h c m o p) /\
    (forall i j c d p q, i <> j -> nth_error cs i = Some c -> nth_error cs j = Some d ->
       nth_error ps i = Some p -> nth_error ps j = Some q -> charsets p <> [] -> charsets q <> [] ->
       s_arr (c_eopts c) <> s_arr (c_eopts d)).

Lemma nth_some {A B} (l : list A) (m : list B) i x : length l = length m -> nth_error l i = Some x -> exists y, nth_error m i = Some y.
Proof.
  intros L H. destruct (nth_error m i) eqn:E; [eauto|]. apply nth_error_None in E.
  assert (i < length l)%nat by (apply nth_error_Some; congruence). lia.
Qed.

Lemma call_inv_only h0 s e h h' P c m o p : only P h h' -> (forall a i, covers (c_eopts c) a i -> ~ P a i) ->
  call_inv h0 s e h c m o p -> call_inv h0 s e h' c m o p.
Proof.
  intros HO HP (A1 & A2 & A3 & A4 & A5 & A6). unfold call_inv. split; [assumption|]. split; [assumption|]. split; [assumption|].
  split; [now apply (only_ok P h)|]. split; [|assumption]. rewrite <- A5. eapply only_view; eassumption.
Qed.

Lemma step_inv grow junk h0 s e specs h cs k c h' c' : ok_slice h0 s -> exclusive s specs -> inv h0 s e specs h cs ->
  nth_error cs k = Some c -> step grow junk h c = (h', c') -> inv h0 s e specs h' (update cs k c').
Proof.
  intros HS0 HX (L & HS & LH & VS & ps & LP & HC & HD) Hk H.
  assert (Kc : (k < length cs)%nat) by (apply nth_error_Some; congruence).
  destruct (nth_some cs specs k c L Hk) as ([m opts] & Em). destruct (nth_some cs ps k c (eq_sym LP) Hk) as (p & Ep).
  pose proof (HC _ _ _ _ _ Hk Em Ep) as (A1 & A2 & A3 & A4 & A5 & A6 & A7 & A8 & A9).
  (* steps that do not change memory, and leave the options as they are *)
  assert (QUIET : forall c2 p2, h' = h -> c_eopts c2 = c_eopts c -> charsets p2 = charsets p ->
     call_inv h0 s e h c2 m opts p2 -> c' = c2 -> inv h0 s e specs h' (update cs k c')).
  { intros c2 p2 -> EO EC CI ->. split; [now rewrite update_length|]. split; [assumption|]. split; [assumption|].
    split; [assumption|]. exists (update ps k p2). split; [now rewrite !update_length|]. split.
    - intros i d m1 o1 p1 Hd Hm Hp. rewrite nth_error_update in Hd by lia. rewrite nth_error_update in Hp by lia. destruct (i =? k)%nat eqn:E.
      + injection Hd as <-. injection Hp as <-. assert (i = k) as -> by lia. rewrite Em in Hm. now injection Hm as <- <-.
      + now apply (HC i).
    - intros i j d1 d2 p1 q1 Hij H1 H2 P1 P2. rewrite nth_error_update in H1 by lia. rewrite nth_error_update in H2 by lia. rewrite nth_error_update in P1 by lia. rewrite nth_error_update in P2 by lia.
      destruct (i =? k)%nat eqn:E1, (j =? k)%nat eqn:E2; try lia.
      + injection H1 as <-. injection P1 as <-. rewrite EC, EO. assert (i = k) as -> by lia. now apply (HD k j).
      + injection H2 as <-. injection P2 as <-. rewrite EC, EO. assert (j = k) as -> by lia. now apply (HD i k).
      + now apply (HD i j). }
  unfold step in H. destruct (c_todo c) as [|o r] eqn:ET.
  { injection H as <- <-. destruct (c_done c) as [d|] eqn:ED.
    - apply (QUIET c p); auto. unfold call_inv. rewrite ET, ED. repeat match goal with |- _ /\ _ => split end; auto.
    - eapply (QUIET _ p); [reflexivity| | | |reflexivity]; [reflexivity|reflexivity|]. unfold call_inv.
      cbn [c_msg c_todo c_enc c_eopts c_done]. repeat match goal with |- _ /\ _ => split end; auto.
      intros x X. injection X as <-. split; [reflexivity|]. now rewrite A1, A5, (same_with _ _ _ A3). }
  assert (NODONE : c_done c = None).
  { destruct (c_done c) as [d|]; [|reflexivity]. now destruct (A9 d eq_refl) as (X & _). }
  destruct o as [t|o|o].
  - injection H as <- <-. eapply (QUIET _ (p ++ [EoTemplate t])); [reflexivity| | | |reflexivity]; [reflexivity| |].
    + rewrite charsets_app. cbn. now rewrite app_nil_r.
    + unfold call_inv. cbn [c_msg c_todo c_enc c_eopts c_done]. rewrite charsets_app, fold_left_app, <- app_assoc. cbn [charsets map concat app fold_left].
      rewrite app_nil_r, NODONE. repeat match goal with |- _ /\ _ => split end; auto; [exact (same_apply _ _ (EoTemplate t) A3)|discriminate].
  - injection H as <- <-. eapply (QUIET _ (p ++ [EoTemplateOption o])); [reflexivity| | | |reflexivity]; [reflexivity| |].
    + rewrite charsets_app. cbn. now rewrite app_nil_r.
    + unfold call_inv. cbn [c_msg c_todo c_enc c_eopts c_done]. rewrite charsets_app, fold_left_app, <- app_assoc. cbn [charsets map concat app fold_left].
      rewrite app_nil_r, NODONE. repeat match goal with |- _ /\ _ => split end; auto; [exact (same_apply _ _ (EoTemplateOption o) A3)|discriminate].
  - (* the one that writes *)
    destruct (gappend grow junk h (c_eopts c) [o]) as [h1 s1] eqn:EG. injection H as <- <-.
    destruct (gappend_spec _ _ _ _ _ _ _ A4 EG) as (G1 & G2 & G3 & G4 & G5). cbn [length] in *.
    assert (HO : charsets opts <> []).
    { rewrite <- A2, charsets_app. destruct (charsets p); [|discriminate]. rewrite charsets_cons. discriminate. }
    assert (LS : (s_arr s < length h0)%nat \/ s_len s = 0%nat) by (destruct HS0 as (? & [?|(? & _)]); [right; lia|now left]).
    assert (NS : forall a i, covers s a i -> ~ behind (c_eopts c) 1 a i).
    { intros a i (<- & X) (Y & Z & W). destruct A7 as [(B1 & B2 & B3)|B]; lia. }
    assert (VS1 : view h1 s = view h0 s) by (rewrite <- VS; eapply only_view; eassumption).
    (* the other calls *)
    assert (OTHER : forall i d q m1 o1, i <> k -> nth_error cs i = Some d -> nth_error ps i = Some q ->
              nth_error specs i = Some (m1, o1) -> forall a x, covers (c_eopts d) a x -> ~ behind (c_eopts c) 1 a x).
    { intros i d q m1 o1 Hi Hd Hq Hs a x CX. pose proof (HC _ _ _ _ _ Hd Hs Hq) as (D1 & D2 & D3 & D4 & D5 & D6 & D7 & D8 & D9).
      destruct (charsets q) as [|q0 qs] eqn:EQ.
      - rewrite (D6 eq_refl) in CX. now apply NS.
      - destruct (charsets p) as [|p0 pss] eqn:EP.
        + (* the writer has the encoder's slice: only if that is full *)
          destruct HX as [HX|HX].
          * rewrite (A6 eq_refl). intros (_ & Y & W). cbn in W. lia.
          * exfalso. assert (charsets o1 = []) by (apply (HX k i m opts m1 o1); auto).
            rewrite <- D2, charsets_app, EQ in H. discriminate.
        + intros (Y & Z & W). destruct CX as (CX & _). apply (HD k i c d p q); auto; [rewrite EP; discriminate|rewrite EQ; discriminate|congruence]. }
    split; [now rewrite update_length|]. split; [now apply (only_ok _ h h1 s G1)|]. split; [destruct G1; lia|].
    split; [exact VS1|]. exists (update ps k (p ++ [EoCharset o])). split; [now rewrite !update_length|]. split.
    + intros i d m1 o1 q Hd Hm Hq. rewrite nth_error_update in Hd by lia. rewrite nth_error_update in Hq by lia. destruct (i =? k)%nat eqn:E.
      * injection Hd as <-. injection Hq as <-. assert (i = k) as -> by lia. rewrite Em in Hm. injection Hm as <- <-.
        unfold call_inv. cbn [c_msg c_todo c_enc c_eopts c_done].
        rewrite charsets_app, fold_left_app, <- app_assoc, app_length. cbn [charsets map concat app fold_left length].
        rewrite NODONE. repeat match goal with |- _ /\ _ => split end; auto.
        -- rewrite G3, A5. now rewrite <- app_assoc.
        -- intros X. apply app_eq_nil in X. destruct X as (_ & X). discriminate.
        -- destruct G5 as [(_ & G5 & G6 & _)|(_ & G5 & _)]; [|right; lia].
           rewrite G5, G6. destruct A7 as [A7|A7]; [left; lia|right; lia].
        -- lia.
        -- discriminate.
      * apply call_inv_only with (h := h) (P := behind (c_eopts c) 1); [assumption| |now apply (HC i)].
        intros a x. apply (OTHER i d q m1 o1); auto; lia.
    + assert (ARR : forall i d q, i <> k -> nth_error cs i = Some d -> nth_error ps i = Some q -> charsets q <> [] ->
                s_arr s1 <> s_arr (c_eopts d)).
      { intros i d q Hi Hd Hq NE. destruct (nth_some cs specs i d L Hd) as ([m1 o1] & Hs).
        pose proof (HC _ _ _ _ _ Hd Hs Hq) as (D1 & D2 & D3 & D4 & D5 & D6 & D7 & D8 & D9).
        destruct G5 as [(W & G5 & _)|(_ & G5 & _)].
        - rewrite G5. destruct (charsets p) as [|p0 pss] eqn:EP.
          + destruct HX as [HX|HX]; [rewrite (A6 eq_refl) in W; lia|].
            exfalso. assert (X : charsets o1 = []) by (apply (HX k i m opts m1 o1); auto).
            rewrite <- D2, charsets_app in X. apply app_eq_nil in X. now destruct X.
          + apply (HD k i c d p q); auto. rewrite EP. discriminate.
        - rewrite G5. destruct D4 as (D4 & [D|(D & _)]); [|lia]. destruct (charsets q); [easy|]. cbn [length] in D8. lia. }
      intros i j d1 d2 p1 q1 Hij H1 H2 P1 P2 N1 N2. rewrite nth_error_update in H1 by lia. rewrite nth_error_update in H2 by lia. rewrite nth_error_update in P1 by lia. rewrite nth_error_update in P2 by lia.
      destruct (i =? k)%nat eqn:E1, (j =? k)%nat eqn:E2; try lia.
      * injection H1 as <-. cbn [c_eopts]. apply (ARR j d2 q1); auto; lia.
      * injection H2 as <-. cbn [c_eopts]. intros X. symmetry in X. revert X. apply (ARR i d1 p1); auto; lia.
      * now apply (HD i j d1 d2 p1 q1).
Qed.

Lemma run_inv grow junk h0 s e specs : ok_slice h0 s -> exclusive s specs -> forall sched h cs h' cs',
  inv h0 s e specs h cs -> run_calls grow junk h cs sched = (h', cs') -> inv h0 s e specs h' cs'.
Proof.
  intros HS HX. induction sched as [|k sched IH]; intros h cs h' cs' HI H; cbn [run_calls] in H.
  { now injection H as <- <-. }
  destruct (nth_error cs k) as [c|] eqn:Ek; [|now apply (IH h cs)].
  destruct (step grow junk h c) as [h1 c1] eqn:ES. eapply IH; [|exact H]. eapply step_inv; eauto.
Qed.

Lemma concurrent grow junk h s e specs sched h' cs' : ok_slice h s -> view h s = e_eopts e -> exclusive s specs ->
  run_calls grow junk h (map (fun x => start_call e s (fst x) (snd x)) specs) sched = (h', cs') ->
  (view h' s = e_eopts e) /\
  forall k c m o r, nth_error cs' k = Some c -> nth_error specs k = Some (m, o) -> c_done c = Some r -> r = alone e m o.
Proof.
  intros HS HV HX H. apply (run_inv _ _ h s e specs) in H; [|assumption|assumption|].
  - destruct H as (L & _ & _ & VS & ps & LP & HC & _). split; [congruence|]. intros k c m o r Hk Hm HR.
    destruct (nth_some cs' ps k c (eq_sym LP) Hk) as (p & Ep).
    destruct (HC _ _ _ _ _ Hk Hm Ep) as (A1 & A2 & A3 & A4 & A5 & A6 & A7 & A8 & A9).
    destruct (A9 _ HR) as (B1 & ->). rewrite B1, app_nil_r in A2. subst p. unfold alone. f_equal.
    rewrite HV, <- fold_eopts. apply with_own.
  - split; [now rewrite map_length|]. split; [assumption|]. split; [lia|]. split; [reflexivity|].
    exists (map (fun _ => []) specs). split; [now rewrite !map_length|]. split.
    + intros i c m o p Hc Hm Hp. rewrite nth_error_map, Hm in Hc, Hp. injection Hc as <-. injection Hp as <-.
      unfold call_inv. cbn [start_call c_msg c_todo c_enc c_eopts c_done charsets map concat fold_left app length].
      rewrite app_nil_r. repeat match goal with |- _ /\ _ => split end; auto; try discriminate. reflexivity.
    + intros i j c d p q _ _ _ Hp _ N. rewrite nth_error_map in Hp. destruct (nth_error specs i); [|discriminate].
      injection Hp as <-. now destruct N.
Qed.

(** * Calls that get enough turns finish *)
Definition left_to_do (c : call) : nat := match c_done c with Some _ => 0 | None => S (length (c_todo c)) end.

Lemma step_left grow junk h c h' c' : (forall r, c_done c = Some r -> c_todo c = []) -> step grow junk h c = (h', c') ->
  left_to_do c' = pred (left_to_do c) /\ (forall r, c_done c' = Some r -> c_todo c' = []).
Proof.
  intros HD H. unfold step in H. unfold left_to_do.
  destruct (c_todo c) as [|o r] eqn:ET.
  - injection H as <- <-. destruct (c_done c) eqn:ED; cbn [c_done c_todo]; rewrite ?ED; auto.
  - assert (c_done c = None) as ND by (destruct (c_done c); [now discriminate (HD _ eq_refl)|reflexivity]).
    destruct o as [t|o|o].
    + injection H as <- <-. cbn [c_done c_todo length]. rewrite ND. split; [reflexivity|discriminate].
    + injection H as <- <-. cbn [c_done c_todo length]. rewrite ND. split; [reflexivity|discriminate].
    + destruct (gappend grow junk h (c_eopts c) [o]). injection H as <- <-. cbn [c_done c_todo length]. rewrite ND. split; [reflexivity|discriminate].
Qed.

Lemma run_left grow junk : forall sched h cs h' cs' k c,
  run_calls grow junk h cs sched = (h', cs') -> nth_error cs k = Some c -> (forall r, c_done c = Some r -> c_todo c = []) ->
  exists c', nth_error cs' k = Some c' /\ left_to_do c' = (left_to_do c - count_occ Nat.eq_dec sched k)%nat.
Proof.
  induction sched as [|j sched IH]; intros h cs h' cs' k c H Hk HD; cbn [run_calls count_occ] in *.
  { injection H as <- <-. exists c. split; [assumption|lia]. }
  destruct (nth_error cs j) as [d|] eqn:Ej.
  - destruct (step grow junk h d) as [h1 d1] eqn:ES. assert (j < length cs)%nat by (apply nth_error_Some; congruence).
    destruct (Nat.eq_dec j k) as [->|N].
    + rewrite Hk in Ej. injection Ej as <-. destruct (step_left _ _ _ _ _ _ HD ES) as (S1 & S2).
      destruct (IH _ _ _ _ k d1 H) as (c' & A & B); [rewrite nth_error_update by lia; now rewrite Nat.eqb_refl|assumption|].
      exists c'. split; [assumption|]. lia.
    + apply (IH _ _ _ _ k c H); [|assumption]. rewrite nth_error_update by lia. destruct (k =? j)%nat eqn:E; [lia|assumption].
  - destruct (Nat.eq_dec j k) as [->|N]; [congruence|]. now apply (IH _ _ _ _ k c H).
Qed.

Lemma finished grow junk h s e specs sched h' cs' k m o :
  run_calls grow junk h (map (fun x => start_call e s (fst x) (snd x)) specs) sched = (h', cs') ->
  nth_error specs k = Some (m, o) -> (length o < count_occ Nat.eq_dec sched k)%nat ->
  exists c r, nth_error cs' k = Some c /\ c_done c = Some r.
Proof.
  intros H Hk HC. destruct (run_left _ _ _ _ _ _ _ k (start_call e s m o) H) as (c & A & B).
  - now rewrite nth_error_map, Hk.
  - discriminate.
  - unfold left_to_do at 2 in B. cbn [start_call c_done c_todo] in B. unfold left_to_do in B.
    destruct (c_done c) as [r|] eqn:E; [eauto|lia].
Qed.

(** * One call after the other *)
Lemma update_update {A} (l : list A) : forall k x y, update (update l k x) k y = update l k y.
Proof. induction l as [|z l IH]; intros [|k] x y; cbn [update]; auto. now rewrite IH. Qed.
Lemma nth_update {A} (l : list A) k x : (k < length l)%nat -> nth_error (update l k x) k = Some x.
Proof. intros H. rewrite nth_error_update by assumption. now rewrite Nat.eqb_refl. Qed.
Lemma update_same {A} (l : list A) : forall k x, nth_error l k = Some x -> update l k x = l.
Proof. induction l as [|z l IH]; intros [|k] x H; cbn in *; try discriminate; [congruence|now rewrite IH]. Qed.

Lemma run_repeat grow junk n : forall h cs k c, nth_error cs k = Some c ->
  exists h' c', run_calls grow junk h [c] (repeat 0%nat n) = (h', [c']) /\
    run_calls grow junk h cs (repeat k n) = (h', update cs k c').
Proof.
  induction n as [|n IH]; intros h cs k c Hk; cbn [repeat run_calls].
  - exists h, c. split; [reflexivity|]. now rewrite update_same.
  - rewrite Hk. cbn [nth_error]. destruct (step grow junk h c) as [h1 c1]. cbn [update].
    assert (k < length cs)%nat by (apply nth_error_Some; congruence).
    destruct (IH h1 (update cs k c1) k c1) as (h2 & c2 & A & B); [now apply nth_update|].
    exists h2, c2. split; [assumption|]. now rewrite B, update_update.
Qed.

Lemma run_app grow junk : forall a b h cs, run_calls grow junk h cs (a ++ b) =
  (let (h1, cs1) := run_calls grow junk h cs a in run_calls grow junk h1 cs1 b).
Proof.
  induction a as [|k a IH]; intros b h cs; cbn [run_calls app]; [reflexivity|].
  destruct (nth_error cs k); [|apply IH]. destruct (step grow junk h c). apply IH.
Qed.

Lemma one_call grow junk h s e m o n h' c' : ok_slice h s -> view h s = e_eopts e ->
  run_calls grow junk h [start_call e s m o] (repeat 0%nat n) = (h', [c']) -> (length o < n)%nat ->
  ok_slice h' s /\ view h' s = e_eopts e /\ c_done c' = Some (alone e m o).
Proof.
  intros HS HV H HN.
  assert (X : exclusive s [(m, o)]).
  { right. intros i j m1 o1 m2 o2 Hij H1 H2. destruct i as [|[|]], j as [|[|]]; cbn in H1, H2; try discriminate. lia. }
  pose proof (concurrent grow junk h s e [(m, o)] (repeat 0%nat n) h' [c'] HS HV X H) as (V & R).
  destruct (finished grow junk h s e [(m, o)] (repeat 0%nat n) h' [c'] 0 m o H eq_refl) as (c & r & A & B).
  { clear - HN. enough (count_occ Nat.eq_dec (repeat 0%nat n) 0 = n)%nat by lia. clear. induction n; cbn; auto. }
  injection A as <-. rewrite (R 0%nat c' m o r eq_refl eq_refl B) in B. split; [|split; assumption].
  assert (I : inv h s e [(m, o)] h [start_call e s m o]).
  { split; [reflexivity|]. split; [assumption|]. split; [lia|]. split; [reflexivity|].
    exists [[]]. split; [reflexivity|]. split.
    - intros [|[|]] c m1 o1 p Hc Hm Hp; cbn in Hc, Hm, Hp; try discriminate. injection Hc as <-. injection Hm as <- <-. injection Hp as <-.
      unfold call_inv. cbn [start_call c_msg c_todo c_enc c_eopts c_done charsets map concat fold_left app length].
      rewrite app_nil_r. repeat match goal with |- _ /\ _ => split end; auto; try discriminate. reflexivity.
    - intros [|[|]] j c d p q _ _ _ Hp _ N; cbn in Hp; try discriminate. injection Hp as <-. now destruct N. }
  apply (run_inv _ _ h s e [(m, o)] HS X _ _ _ _ _ I H).
Qed.

Lemma sequential grow junk s e : forall specs k h cs h' cs', ok_slice h s -> view h s = e_eopts e ->
  (forall i m o, nth_error specs i = Some (m, o) -> nth_error cs (k + i) = Some (start_call e s m o)) ->
  run_calls grow junk h cs (in_turn k specs) = (h', cs') ->
  view h' s = e_eopts e /\ length cs' = length cs /\ (forall i, (i < k)%nat -> nth_error cs' i = nth_error cs i) /\
  forall i m o, nth_error specs i = Some (m, o) -> exists c, nth_error cs' (k + i) = Some c /\ c_done c = Some (alone e m o).
Proof.
  induction specs as [|[m o] specs IH]; intros k h cs h' cs' HS HV HC H; cbn [in_turn] in H.
  { cbn in H. injection H as <- <-. split; [assumption|]. split; [reflexivity|]. split; [auto|]. intros [|] ? ?; discriminate. }
  pose proof (HC 0%nat m o eq_refl) as H0. rewrite Nat.add_0_r in H0.
  assert (K : (k < length cs)%nat) by (apply nth_error_Some; congruence).
  destruct (run_repeat grow junk (S (length o)) h cs k _ H0) as (h1 & c1 & A & B).
  rewrite run_app, B in H. destruct (one_call _ _ _ _ _ _ _ _ _ _ HS HV A ltac:(lia)) as (HS1 & HV1 & D1).
  destruct (IH (S k) h1 (update cs k c1) h' cs' HS1 HV1) as (V & L & U & R).
  - intros i m1 o1 Hi. rewrite nth_error_update by assumption. destruct (S k + i =? k)%nat eqn:E; [lia|].
    rewrite <- (HC (S i) m1 o1 Hi). f_equal. lia.
  - assumption.
  - split; [assumption|]. split; [now rewrite L, update_length|]. split.
    + intros i Hi. rewrite U by lia. rewrite nth_error_update by assumption. destruct (i =? k)%nat eqn:E; [lia|reflexivity].
    + intros [|i] m1 o1 Hi.
      * injection Hi as <- <-. exists c1. rewrite Nat.add_0_r, U by lia. split; [now apply nth_update|assumption].
      * destruct (R i m1 o1 Hi) as (c & X & Y). exists c. split; [|assumption]. rewrite <- X. f_equal. lia.
Qed.

(** * NewEncoder *)
Lemma append_opts_spec grow junk opts : forall h s h' s', ok_slice h s -> h_append_opts grow junk h s opts = (h', s') ->
  ok_slice h' s' /\ view h' s' = view h s ++ charsets opts.
Proof.
  induction opts as [|o opts IH]; intros h s h' s' HS H; cbn [h_append_opts] in H.
  { injection H as <- <-. now rewrite app_nil_r. }
  destruct o as [t|o|o]; [now apply IH|now apply IH|].
  destruct (gappend grow junk h s [o]) as [h1 s1] eqn:E. destruct (gappend_spec _ _ _ _ _ _ _ HS E) as (_ & G2 & G3 & _).
  destruct (IH _ _ _ _ G2 H) as (A & B). split; [assumption|]. rewrite B, G3, charsets_cons, <- app_assoc. reflexivity.
Qed.
