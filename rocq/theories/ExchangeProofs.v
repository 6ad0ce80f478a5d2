(** Lemmas for many messages sent and collected together (C98). *)
From Coq Require Import Permutation.
From Verif Require Import GoBase GoLemmas Tpdu Collector SpecCollect CollectorProofs CollectorMsgProofs SpecExchange.

Lemma filter_perm {A} (f : A -> bool) l l' : Permutation l l' -> Permutation (filter f l) (filter f l').
Proof.
  induction 1; cbn; auto.
  - destruct (f x); auto.
  - destruct (f x), (f y); auto. constructor.
  - etransitivity; eauto.
Qed.
Lemma flat_map_perm {A B} (f : A -> list B) l l' : Permutation l l' -> Permutation (flat_map f l) (flat_map f l').
Proof.
  induction 1; cbn; auto.
  - now apply Permutation_app_head.
  - rewrite !app_assoc. apply Permutation_app_tail, Permutation_app_comm.
  - etransitivity; eauto.
Qed.

(** A list is made up of its classes. *)
Section Classes.
  Context {A C : Type} (dec : forall a b : C, {a = b} + {a <> b}) (cls : A -> C).
  Definition in_class (c : C) (x : A) : bool := if dec (cls x) c then true else false.
  Lemma classes_not a l cs : ~ In (cls a) cs ->
    concat (map (fun c => filter (in_class c) (a :: l)) cs) = concat (map (fun c => filter (in_class c) l) cs).
  Proof.
    induction cs as [|c cs IH]; intros N; [reflexivity|]. cbn [map concat]. rewrite IH by (intros H; apply N; now right).
    f_equal. cbn. unfold in_class at 1. destruct (dec (cls a) c) as [E|E]; [|reflexivity].
    exfalso. apply N. left. now symmetry.
  Qed.
  Lemma classes_cons a l cs : NoDup cs -> In (cls a) cs ->
    Permutation (concat (map (fun c => filter (in_class c) (a :: l)) cs)) (a :: concat (map (fun c => filter (in_class c) l) cs)).
  Proof.
    induction 1 as [|c cs N ND IH]; intros I; [contradiction|]. cbn [map concat].
    destruct (dec (cls a) c) as [E|E].
    - rewrite classes_not by congruence. cbn [filter]. unfold in_class at 1. destruct (dec (cls a) c); [|contradiction]. reflexivity.
    - destruct I as [I|I]; [congruence|]. cbn [filter]. unfold in_class at 1. destruct (dec (cls a) c); [contradiction|].
      rewrite (IH I). now rewrite <- Permutation_middle.
  Qed.
  Lemma classes cs l : NoDup cs -> (forall x, In x l -> In (cls x) cs) ->
    Permutation l (concat (map (fun c => filter (in_class c) l) cs)).
  Proof.
    intros ND. induction l as [|a l IH]; intros H.
    - replace (concat _) with (@nil A); [constructor|]. clear. induction cs; auto.
    - rewrite classes_cons; [|exact ND|apply H; now left]. constructor. apply IH. intros x X. apply H. now right.
  Qed.
End Classes.

(** The calls of Collect with their results. *)
Fixpoint pairs (es : list event) (os : list output) : list (tpdu * output) :=
  match es, os with
  | EvCollect g :: es', o :: os' => (sg_pdu g, o) :: pairs es' os'
  | _ :: es', _ :: os' => pairs es' os'
  | _, _ => []
  end.
Definition hands (o : output) : list (list (option tpdu)) :=
  match o with OCollect (CReturn (Some gs) _) => [map (option_map sg_pdu) gs] | _ => [] end.

Lemma pairs_collected es : forall os, length os = length es -> map fst (pairs es os) = collected es.
Proof.
  induction es as [|e es IH]; intros [|o os] L; cbn in L; try discriminate; [reflexivity|].
  destruct e; cbn; rewrite IH by lia; reflexivity.
Qed.
Lemma run_length cfg es : forall s, length (snd (run cfg s es)) = length es.
Proof.
  induction es as [|e es IH]; intros s; cbn [run]; [reflexivity|]. destruct (step cfg s e) as [s1 o]. specialize (IH s1).
  destruct (run cfg s1 es). cbn in *. congruence.
Qed.
Lemma step_hands cfg s e s' o : step cfg s e = (s', o) -> (forall g, e <> EvCollect g) -> hands o = [] /\ ~ failed o.
Proof.
  intros H N. assert (forall r, o <> OCollect r) as Q.
  { intros r ->. destruct e as [g| | |tid|tid|tid]; cbn [step] in H; try discriminate.
    - now apply (N g).
    - destruct (nth_error (c_timers s) tid) as [tm|]; [destruct (tm_state tm)|]; discriminate.
    - destruct (nth_error (c_timers s) tid) as [tm|]; [destruct (tm_state tm)|]; discriminate.
    - destruct (nth_error (c_timers s) tid) as [tm|]; [destruct (tm_state tm)|]; try discriminate.
      destruct (cf_handler cfg); discriminate. }
  split; [destruct o as [r| | |]; [now destruct (Q r)|reflexivity..]|].
  intros [->|(d & err & ->)]; eapply Q; reflexivity.
Qed.
Lemma run_handed cfg es : forall s, handed_out (snd (run cfg s es)) = flat_map (fun p => hands (snd p)) (pairs es (snd (run cfg s es))).
Proof.
  induction es as [|e es IH]; intros s; [reflexivity|]. cbn [run]. destruct (step cfg s e) as [s1 o] eqn:E. specialize (IH s1).
  destruct (run cfg s1 es) as [s2 os]. cbn [snd] in *. change (handed_out (o :: os)) with (hands o ++ handed_out os).
  destruct e as [g| | |tid|tid|tid]; cbn [pairs flat_map snd]; [now rewrite IH|..];
    rewrite (proj1 (step_hands _ _ _ _ _ E ltac:(discriminate))); exact IH.
Qed.
Lemma run_failed cfg es : forall s o, In o (snd (run cfg s es)) -> failed o -> exists t, In (t, o) (pairs es (snd (run cfg s es))).
Proof.
  induction es as [|e es IH]; intros s o I F; [destruct I|]. cbn [run] in *. destruct (step cfg s e) as [s1 o1] eqn:E. specialize (IH s1 o).
  destruct (run cfg s1 es) as [s2 os]. cbn [snd] in *. destruct I as [->|I].
  - destruct e as [g| | |tid|tid|tid]; [exists (sg_pdu g); now left|..];
      destruct (step_hands _ _ _ _ _ E ltac:(discriminate)) as [_ []]; exact F.
  - destruct (IH I F) as (t & H). exists t. destruct e; cbn [pairs]; auto. now right.
Qed.

(** Replies, in terms of the TPDUs. *)
Definition part_of (m : message) (t : tpdu) : bool := match seg_no m {| sg_id := 0; sg_pdu := t |} with Some _ => true | None => false end.
Lemma replies_pairs m es : forall os, replies m es os = map snd (filter (fun p => part_of m (fst p)) (pairs es os)).
Proof.
  induction es as [|e es IH]; intros [|o os]; try reflexivity; [destruct e; reflexivity|].
  destruct e; cbn [replies pairs]; try apply IH. cbn [filter fst]. unfold part_of at 1.
  change (seg_no m {| sg_id := 0; sg_pdu := sg_pdu g |}) with (seg_no m g). destruct (seg_no m g); cbn [map snd]; now rewrite IH.
Qed.
Lemma parts_collected m es : map (fun p => sg_pdu (snd p)) (parts m es) = filter (part_of m) (collected es).
Proof.
  induction es as [|e es IH]; [reflexivity|]. unfold parts, collected in *. cbn [flat_map]. rewrite map_app, filter_app, IH. f_equal.
  destruct e; try reflexivity. cbn [filter]. unfold part_of.
  change (seg_no m {| sg_id := 0; sg_pdu := sg_pdu g |}) with (seg_no m g). now destruct (seg_no m g).
Qed.

(** The Collector stays open unless it is closed. *)
Lemma step_open cfg s e s' o : step cfg s e = (s', o) -> e <> EvClose -> c_closed s = false -> c_closed s' = false.
Proof.
  intros H N O. destruct e as [g| | |tid|tid|tid]; cbn [step] in H.
  - destruct (collect cfg s g) as [s1 r] eqn:E. injection H as <- <-. clear - E O.
    unfold collect in E. rewrite O in E. unfold stop_timer, new_pipe, store in E.
    repeat match type of E with
    | context [match ?x with _ => _ end] =>
        match x with context [match _ with _ => _ end] => fail 1 | _ => destruct x eqn:? end
    end; injection E as <- <-; cbn; try assumption; cbn in *; congruence.
  - contradiction.
  - now injection H as <- <-.
  - destruct (nth_error (c_timers s) tid) as [tm|]; [destruct (tm_state tm)|]; now injection H as <- <-.
  - destruct (nth_error (c_timers s) tid) as [tm|]; [destruct (tm_state tm)|]; injection H as <- <-; auto.
    unfold expire_pipe. destruct (klookup _ _); [destruct (Nat.eqb _ _)|]; auto.
  - destruct (nth_error (c_timers s) tid) as [tm|]; [destruct (tm_state tm)|]; now injection H as <- <-.
Qed.
(** A TPDU that is no part of a longer message is returned. *)
Lemma single_returned cfg es : forall s, Forall (fun e => e <> EvClose) es -> c_closed s = false ->
  forall t o, In (t, o) (pairs es (snd (run cfg s es))) -> tpdu_concat_info t = None ->
  hands o = [[Some t]] /\ ~ failed o.
Proof.
  induction es as [|e es IH]; intros s F O t o I N; [destruct I|]. apply Forall_cons_iff in F as [F1 F2]. cbn [run] in I.
  destruct (step cfg s e) as [s1 o1] eqn:E. specialize (IH s1 F2 (step_open _ _ _ _ _ E F1 O) t o).
  destruct (run cfg s1 es) as [s2 os]. cbn [snd] in *.
  destruct e as [g| | |tid|tid|tid]; cbn [pairs] in I; auto. destruct I as [I|I]; auto.
  assert (sg_pdu g = t /\ o1 = o) as [<- <-] by (split; congruence).
  cbn [step] in E. destruct (collect cfg s g) as [s3 r] eqn:EC. assert (o1 = OCollect r) as -> by congruence.
  unfold collect in EC. rewrite O, N in EC. assert (r = CReturn (Some [Some g]) None) as -> by congruence.
  split; [reflexivity|]. intros [Q|(d & err & Q)]; discriminate.
Qed.
