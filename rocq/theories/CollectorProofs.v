(** Proofs about the Collector: the invariant of all histories. *)
From Coq Require Import Permutation.
From Verif Require Import GoBase GoLemmas SafeLemmas Address UserData Tpdu Collector SpecCollect.

(** ** Lists and maps *)

Lemma upd_split {A} (l1 : list A) x l2 y : upd (l1 ++ x :: l2) (length l1) y = l1 ++ y :: l2.
Proof. induction l1; cbn; congruence. Qed.
Lemma upd_length {A} (l : list A) i y : length (upd l i y) = length l.
Proof. revert i; induction l; destruct i; cbn; congruence. Qed.
Lemma nth_upd {A} (l : list A) i j y :
  nth_error (upd l i y) j = if Nat.eqb j i then (match nth_error l i with Some _ => Some y | None => None end)
                            else nth_error l j.
Proof.
  revert i j; induction l as [|a l IH]; intros [|i] [|j]; cbn; try reflexivity.
  - destruct (Nat.eqb j i); destruct i; reflexivity.
  - apply IH.
Qed.
Lemma nth_upd_same {A} (l : list A) i x y : nth_error l i = Some x -> nth_error (upd l i y) i = Some y.
Proof. intros H. rewrite nth_upd, Nat.eqb_refl, H. reflexivity. Qed.
Lemma nth_upd_other {A} (l : list A) i j y : j <> i -> nth_error (upd l i y) j = nth_error l j.
Proof. intros H. rewrite nth_upd. apply Nat.eqb_neq in H. now rewrite H. Qed.
Lemma upd_same {A} (l : list A) i x : nth_error l i = Some x -> upd l i x = l.
Proof. revert i; induction l; destruct i; cbn; intros H; try congruence. f_equal; auto. Qed.

Lemma somes_app {A} (a b : list (option A)) : somes (a ++ b) = somes a ++ somes b.
Proof. unfold somes. apply flat_map_app. Qed.
Lemma somes_repeat_none {A} n : somes (repeat (@None A) n) = [].
Proof. induction n; cbn; auto. Qed.
Lemma somes_upd {A} (l : list (option A)) i g : nth_error l i = Some None ->
  Permutation (somes (upd l i (Some g))) (g :: somes l).
Proof.
  intros H. apply nth_error_split in H as (l1 & l2 & -> & <-). rewrite upd_split, !somes_app. cbn [somes flat_map app].
  fold (somes l2). symmetry. apply (Permutation_middle (somes l1) (somes l2) g).
Qed.

Lemma key_eqb_eq a b : key_eqb a b = true <-> a = b.
Proof. unfold key_eqb. destruct (list_eq_dec _ a b); split; congruence. Qed.
Lemma key_eqb_neq a b : key_eqb a b = false <-> a <> b.
Proof. unfold key_eqb. destruct (list_eq_dec _ a b); split; congruence. Qed.
Lemma key_eqb_refl a : key_eqb a a = true.
Proof. now apply key_eqb_eq. Qed.

Lemma klookup_in m k v : klookup m k = Some v -> In (k, v) m.
Proof.
  induction m as [|[k' v'] m IH]; cbn; [discriminate|]. destruct (key_eqb k k') eqn:E.
  - apply key_eqb_eq in E. intros H. left. congruence.
  - intros H. right. auto.
Qed.
Lemma klookup_none m k : klookup m k = None <-> ~ In k (map fst m).
Proof.
  induction m as [|[k' v'] m IH]; cbn; [tauto|]. destruct (key_eqb k k') eqn:E.
  - apply key_eqb_eq in E. subst. split; [discriminate|tauto].
  - apply key_eqb_neq in E. rewrite IH. intuition congruence.
Qed.
Lemma klookup_nodup m k v : NoDup (map fst m) -> In (k, v) m -> klookup m k = Some v.
Proof.
  induction m as [|[k' v'] m IH]; cbn; [tauto|]. intros ND [H|H].
  - assert (k' = k /\ v' = v) as (-> & ->) by (split; congruence). now rewrite key_eqb_refl.
  - apply NoDup_cons_iff in ND as (NI & ND). destruct (key_eqb k k') eqn:E; [|auto].
    apply key_eqb_eq in E. subst. exfalso. apply NI. apply (in_map fst) in H. exact H.
Qed.
Lemma in_kdelete m k k' v : In (k', v) (kdelete m k) <-> In (k', v) m /\ k' <> k.
Proof.
  unfold kdelete. rewrite filter_In. cbn [fst]. split; intros (H1 & H2); split; auto.
  - apply negb_true_iff, key_eqb_neq in H2. congruence.
  - apply negb_true_iff, key_eqb_neq. congruence.
Qed.
Lemma in_kset m k v k' v' : In (k', v') (kset m k v) <-> (k' = k /\ v' = v) \/ (In (k', v') m /\ k' <> k).
Proof.
  unfold kset. cbn [In]. rewrite in_kdelete. split; intros [H|H]; auto.
  - left. split; congruence.
  - left. destruct H as (-> & ->). reflexivity.
Qed.
Lemma kdelete_none m k : ~ In k (map fst m) -> kdelete m k = m.
Proof.
  induction m as [|[k' v] m IH]; cbn; [reflexivity|]. intros H.
  replace (key_eqb k k') with false; [cbn; f_equal; apply IH; tauto|].
  symmetry. apply key_eqb_neq. intuition congruence.
Qed.
Lemma kdelete_keys m k : NoDup (map fst m) -> NoDup (map fst (kdelete m k)).
Proof.
  intros H. unfold kdelete. induction m as [|[k' v] m IH]; cbn; [constructor|].
  apply NoDup_cons_iff in H as (NI & ND). destruct (key_eqb k k'); cbn; [auto|].
  constructor; [|auto]. intros HI. apply NI. apply in_map_iff in HI as ((a & b) & <- & HI).
  apply filter_In in HI as (HI & _). apply (in_map fst) in HI. exact HI.
Qed.
Lemma kdelete_ids m k : NoDup (map snd m) -> NoDup (map snd (kdelete m k)).
Proof.
  intros H. unfold kdelete. induction m as [|[k' v] m IH]; cbn; [constructor|].
  apply NoDup_cons_iff in H as (NI & ND). destruct (key_eqb k k'); cbn; [auto|].
  constructor; [|auto]. intros HI. apply NI. apply in_map_iff in HI as ((a & b) & <- & HI).
  apply filter_In in HI as (HI & _). apply (in_map snd) in HI. exact HI.
Qed.
Lemma kdelete_cons m k k' v : kdelete ((k', v) :: m) k = if key_eqb k k' then kdelete m k else (k', v) :: kdelete m k.
Proof. unfold kdelete. cbn. now destruct (key_eqb k k'). Qed.
Lemma kdelete_perm m k v : NoDup (map fst m) -> klookup m k = Some v ->
  Permutation m ((k, v) :: kdelete m k).
Proof.
  induction m as [|[k' v'] m IH]; [discriminate|]. intros ND. rewrite kdelete_cons. cbn in ND |- *.
  apply NoDup_cons_iff in ND as (NI & ND). destruct (key_eqb k k') eqn:E.
  - apply key_eqb_eq in E. subst k'. intros H. injection H as ->. rewrite kdelete_none by assumption.
    reflexivity.
  - intros H. rewrite (IH ND H) at 1. apply perm_swap.
Qed.
Lemma in_snd (m : list (bytes * nat)) k (v : nat) : In (k, v) m -> In v (map snd m).
Proof. intros H. apply (in_map snd) in H. exact H. Qed.
Lemma snd_in (m : list (bytes * nat)) v : In v (map snd m) -> exists k : bytes, In (k, v) m.
Proof. intros H. apply in_map_iff in H as ((k & v') & E & H). cbn in E. subst. eauto. Qed.
Lemma ids_inj (m : list (bytes * nat)) k k' (v : nat) : NoDup (map snd m) -> In (k, v) m -> In (k', v) m -> k = k'.
Proof.
  induction m as [|[a b] m IH]; cbn; [tauto|]. intros ND. apply NoDup_cons_iff in ND as (NI & ND).
  intros [H|H] [H'|H'].
  - congruence.
  - exfalso. apply NI. injection H as _ ->. now apply in_snd in H'.
  - exfalso. apply NI. injection H' as _ ->. now apply in_snd in H.
  - auto.
Qed.
Lemma keys_inj (m : list (bytes * nat)) k (v v' : nat) : NoDup (map fst m) -> In (k, v) m -> In (k, v') m -> v = v'.
Proof.
  intros ND H H'. apply klookup_nodup in H, H'; try assumption. congruence.
Qed.
Lemma stored_iff s id : stored s id = true <-> In id (map snd (c_pipes s)).
Proof.
  unfold stored. rewrite existsb_exists, in_map_iff. split; intros ((k & v) & H1 & H2); exists (k, v); split; auto.
  - now apply Nat.eqb_eq.
  - now apply Nat.eqb_eq.
Qed.
Lemma stored_false s id : stored s id = false <-> ~ In id (map snd (c_pipes s)).
Proof. rewrite <- stored_iff. destruct (stored s id); split; congruence. Qed.

Lemma flat_map_perm {A B} (f : A -> list B) l l' : Permutation l l' -> Permutation (flat_map f l) (flat_map f l').
Proof. intros H. now apply Permutation_flat_map. Qed.
Lemma flat_map_ext_in {A B} (f g : A -> list B) l : (forall x, In x l -> f x = g x) -> flat_map f l = flat_map g l.
Proof. induction l; cbn; intros H; [reflexivity|]. rewrite H, IHl; auto. Qed.

(** One element of a list of timers changes, and the others keep their value. *)
Lemma flat_map_upd {A B} (f f' : A -> list B) l i x y : nth_error l i = Some x ->
  (forall j z, j <> i -> nth_error l j = Some z -> f' z = f z) ->
  Permutation (f x ++ flat_map f' (upd l i y)) (f' y ++ flat_map f l).
Proof.
  intros H HO. apply nth_error_split in H as (l1 & l2 & -> & <-). rewrite upd_split, !flat_map_app. cbn [flat_map].
  rewrite (flat_map_ext_in f' f l1), (flat_map_ext_in f' f l2).
  - set (a := flat_map f l1). set (b := flat_map f l2).
    rewrite (Permutation_app_comm a (f' y ++ b)), (Permutation_app_comm a (f x ++ b)).
    rewrite <- !app_assoc. rewrite !app_assoc. do 2 apply Permutation_app_tail. apply Permutation_app_comm.
  - intros z Hz. apply In_nth_error in Hz as (j & Hj). apply (HO (S (length l1 + j))); [lia|].
    rewrite nth_error_app2 by lia. replace (S (length l1 + j) - length l1)%nat with (S j) by lia. exact Hj.
  - intros z Hz. apply In_nth_error in Hz as (j & Hj). 
    assert (j < length l1)%nat by (apply nth_error_Some; congruence).
    apply (HO j); [lia|]. rewrite nth_error_app1 by lia. exact Hj.
Qed.

(** ** The invariant *)

Record Inv (cfg : ccfg) (ex : option nat) (s : cstate) : Prop := {
  i_keys : NoDup (map fst (c_pipes s));
  i_ids : NoDup (map snd (c_pipes s));
  i_heap : forall k id, In (k, id) (c_pipes s) ->
    exists p, nth_error (c_heap s) id = Some p /\ p_frags p = Z.of_nat (length (somes (p_segs p)));
  i_tpipe : forall j tm, nth_error (c_timers s) j = Some tm -> (tm_pipe tm < length (c_heap s))%nat;
  i_cleanup : forall k id p j, In (k, id) (c_pipes s) -> nth_error (c_heap s) id = Some p ->
    p_cleanup p = Some j ->
    exists tm, nth_error (c_timers s) j = Some tm /\ tm_pipe tm = id /\ tm_key tm = k /\
      (tm_state tm = TActive \/ tm_state tm = TFired \/
       ((c_closed s = true \/ ex = Some id) /\ tm_state tm = TStopped));
  i_owner : forall k id p j tm, In (k, id) (c_pipes s) -> nth_error (c_heap s) id = Some p ->
    nth_error (c_timers s) j = Some tm -> tm_pipe tm = id -> tm_state tm = TStopped \/ p_cleanup p = Some j;
  i_active : forall j tm, nth_error (c_timers s) j = Some tm -> tm_state tm = TActive ->
    c_closed s = false /\ In (tm_key tm, tm_pipe tm) (c_pipes s);
  i_expired : forall j tm, nth_error (c_timers s) j = Some tm -> tm_state tm = TExpired \/ tm_state tm = TDone ->
    ~ In (tm_pipe tm) (map snd (c_pipes s));
  i_one : forall j j' tm tm', j <> j' -> nth_error (c_timers s) j = Some tm -> nth_error (c_timers s) j' = Some tm' ->
    tm_pipe tm = tm_pipe tm' -> tm_state tm = TStopped \/ tm_state tm' = TStopped;
  i_cfg : cf_timeout cfg = false -> c_timers s = [] }.

Lemma inv_new cfg : Inv cfg None new_collector.
Proof.
  split; cbn; intros; try tauto; try constructor; destruct j; discriminate.
Qed.

(** Pipes with all their timers stopped. *)
Definition quiet (s : cstate) (id : nat) : Prop :=
  forall j tm, nth_error (c_timers s) j = Some tm -> tm_pipe tm = id -> tm_state tm = TStopped.

Lemma pipe_segs_nth s id p : nth_error (c_heap s) id = Some p -> pipe_segs s id = p_segs p.
Proof. intros H. unfold pipe_segs. now rewrite H. Qed.

Lemma inv_id cfg ex s k id : Inv cfg ex s -> In (k, id) (c_pipes s) -> (id < length (c_heap s))%nat.
Proof.
  intros I H. destruct (i_heap _ _ _ I _ _ H) as (p & E & _). apply nth_error_Some. congruence.
Qed.

(** Stopping the timer of a pipe. *)
Definition stopped (s : cstate) (j : nat) (tm : timer) : cstate :=
  {| c_closed := c_closed s; c_pipes := c_pipes s; c_heap := c_heap s;
     c_timers := upd (c_timers s) j {| tm_pipe := tm_pipe tm; tm_key := tm_key tm; tm_state := TStopped |} |}.

Lemma nth_upd_inv {A} (l : list A) i y j x : nth_error (upd l i y) j = Some x ->
  (j = i /\ x = y /\ exists x0, nth_error l i = Some x0) \/ (j <> i /\ nth_error l j = Some x).
Proof.
  rewrite nth_upd. destruct (Nat.eqb j i) eqn:E.
  - apply Nat.eqb_eq in E. destruct (nth_error l i); [|discriminate]. intros H. left. split; [assumption|].
    split; [congruence|]. eauto.
  - apply Nat.eqb_neq in E. auto.
Qed.

Lemma inv_stop cfg s j tm k id p : Inv cfg None s -> In (k, id) (c_pipes s) ->
  nth_error (c_heap s) id = Some p -> p_cleanup p = Some j ->
  nth_error (c_timers s) j = Some tm -> tm_state tm = TActive ->
  Inv cfg (Some id) (stopped s j tm) /\ quiet (stopped s j tm) id /\ pending (stopped s j tm) = pending s.
Proof.
  intros I HK HP HC HT HA.
  assert (TP : tm_pipe tm = id /\ tm_key tm = k).
  { destruct (i_cleanup _ _ _ I _ _ _ _ HK HP HC) as (tm' & E & E1 & E2 & _). assert (tm' = tm) by congruence. subst. auto. }
  destruct TP as (TP & TK).
  split; [|split].
  - split; cbn [stopped c_pipes c_heap c_timers c_closed].
    + apply I.
    + apply I.
    + apply I.
    + intros j' tm' H. apply nth_upd_inv in H as [(-> & -> & _)|(_ & H)].
      * cbn. now apply (i_tpipe _ _ _ I j).
      * now apply (i_tpipe _ _ _ I j').
    + intros k' id' p' j' HK' HP' HC'.
      destruct (i_cleanup _ _ _ I _ _ _ _ HK' HP' HC') as (tm' & E & E1 & E2 & ES).
      destruct (Nat.eq_dec j' j) as [->|NE].
      * exists {| tm_pipe := tm_pipe tm; tm_key := tm_key tm; tm_state := TStopped |}.
        rewrite (nth_upd_same _ _ _ _ HT). assert (tm' = tm) by congruence. subst tm'. cbn.
        repeat split; auto. right. right. split; auto. right. congruence.
      * exists tm'. rewrite nth_upd_other by assumption. repeat split; auto.
        destruct ES as [ES|[ES|(ES & ES')]]; auto. destruct ES as [ES|ES]; [|discriminate]. auto.
    + intros k' id' p' j' tm' HK' HP' HT' HQ. apply nth_upd_inv in HT' as [(-> & -> & _)|(_ & HT')].
      * left. reflexivity.
      * now apply (i_owner _ _ _ I k' id' p' j' tm').
    + intros j' tm' H HS. apply nth_upd_inv in H as [(-> & -> & _)|(_ & H)]; [discriminate|].
      now apply (i_active _ _ _ I j').
    + intros j' tm' H HS. apply nth_upd_inv in H as [(-> & -> & _)|(_ & H)]; [cbn in HS; intuition discriminate|].
      now apply (i_expired _ _ _ I j').
    + intros j1 j2 t1 t2 HN H1 H2 HE.
      apply nth_upd_inv in H1 as [(-> & -> & _)|(_ & H1)]; [left; reflexivity|].
      apply nth_upd_inv in H2 as [(-> & -> & _)|(_ & H2)]; [right; reflexivity|].
      now apply (i_one _ _ _ I j1 j2).
    + intros H. rewrite (i_cfg _ _ _ I H) in HT. destruct j; discriminate.
  - intros j' tm' H HQ. cbn in H. apply nth_upd_inv in H as [(-> & -> & _)|(NE & H)]; [reflexivity|].
    destruct (i_owner _ _ _ I k id p j' tm' HK HP H HQ) as [E|E]; [assumption|congruence].
  - unfold pending. cbn [stopped c_timers]. 
    apply nth_error_split in HT as (l1 & l2 & EL & <-). rewrite EL, upd_split, !flat_map_app. cbn [flat_map].
    unfold due at 2 5. cbn [tm_state]. rewrite HA. reflexivity.
Qed.

Lemma held_perm s k id : NoDup (map fst (c_pipes s)) -> In (k, id) (c_pipes s) ->
  Permutation (held s)
    (somes (pipe_segs s id) ++ flat_map (fun kv => somes (pipe_segs s (snd kv))) (kdelete (c_pipes s) k)).
Proof.
  intros ND H. unfold held. apply klookup_nodup in H; [|assumption].
  rewrite (flat_map_perm _ _ _ (kdelete_perm _ _ _ ND H)). reflexivity.
Qed.

(** ** A new pipe *)

Lemma inv_new_pipe cfg s key n s1 id : Inv cfg None s -> c_closed s = false ->
  (forall old, klookup (c_pipes s) key = Some old ->
     exists j tm, nth_error (c_timers s) j = Some tm /\ tm_pipe tm = old /\ tm_state tm = TFired) ->
  new_pipe s key n = (s1, id) ->
  Inv cfg (Some id) s1 /\ c_closed s1 = false /\ In (key, id) (c_pipes s1) /\
  nth_error (c_heap s1) id = Some {| p_cleanup := None; p_segs := repeat None (Z.to_nat n); p_frags := 0 |} /\
  quiet s1 id /\ Permutation (held s ++ pending s) (held s1 ++ pending s1).
Proof.
  intros I OPEN HQ H. unfold new_pipe in H. injection H as <- <-.
  set (id := length (c_heap s)). set (p := {| p_cleanup := None; p_segs := _; p_frags := 0 |}).
  set (s1 := {| c_closed := c_closed s; c_pipes := _; c_heap := _; c_timers := _ |}).
  assert (HN : nth_error (c_heap s ++ [p]) id = Some p).
  { rewrite nth_error_app2 by (unfold id; lia). unfold id. rewrite Nat.sub_diag. reflexivity. }
  assert (HO : forall i, (i < id)%nat -> nth_error (c_heap s ++ [p]) i = nth_error (c_heap s) i)
    by (intros i Hi; now apply nth_error_app1).
  assert (HL : forall k i, In (k, i) (c_pipes s) -> (i < id)%nat) by (intros k i; now apply (inv_id _ _ _ _ _ I)).
  assert (HPS : forall i, (i < id)%nat -> pipe_segs s1 i = pipe_segs s i)
    by (intros i Hi; unfold pipe_segs, s1; cbn [c_heap]; now rewrite HO).
  assert (NOLD : forall k i j tm, In (k, i) (c_pipes s) -> nth_error (c_timers s) j = Some tm ->
     tm_pipe tm = i -> tm_state tm = TActive -> k <> key).
  { intros k i j tm HK HT HP HA ->. apply klookup_nodup in HK; [|apply I].
    destruct (HQ _ HK) as (j' & tm' & HT' & HP' & HF).
    destruct (Nat.eq_dec j j') as [->|NE]; [congruence|].
    destruct (i_one _ _ _ I j j' tm tm' NE HT HT'); congruence. }
  split; [|split; [exact OPEN|split; [|split; [exact HN|split]]]].
  - split; unfold s1; cbn [c_pipes c_heap c_timers c_closed].
    + unfold kset. cbn [map fst]. constructor; [|apply kdelete_keys, I].
      intros HI. apply in_map_iff in HI as ((a & b) & E & HI). cbn in E. subst a. apply in_kdelete in HI. tauto.
    + unfold kset. cbn [map snd]. constructor; [|apply kdelete_ids, I].
      intros HI. apply snd_in in HI as (k & HI). apply in_kdelete in HI as (HI & _). apply HL in HI. lia.
    + intros k i Hi. apply in_kset in Hi as [(-> & ->)|(Hi & _)].
      * exists p. split; [exact HN|]. unfold p. cbn [p_segs p_frags]. rewrite somes_repeat_none. reflexivity.
      * rewrite HO by eauto. now apply (i_heap _ _ _ I k).
    + intros j tm HT. rewrite app_length. cbn. pose proof (i_tpipe _ _ _ I j tm HT). lia.
    + intros k i q j Hi Hq Hc. apply in_kset in Hi as [(-> & ->)|(Hi & _)].
      * assert (q = p) by congruence. subst q. discriminate.
      * rewrite HO in Hq by eauto. destruct (i_cleanup _ _ _ I k i q j Hi Hq Hc) as (tm & A & B & C & D).
        exists tm. repeat split; auto. destruct D as [D|[D|(D & D')]]; auto. destruct D; [auto|discriminate].
    + intros k i q j tm Hi Hq HT HP. apply in_kset in Hi as [(-> & ->)|(Hi & _)].
      * pose proof (i_tpipe _ _ _ I j tm HT). subst id. lia.
      * rewrite HO in Hq by eauto. now apply (i_owner _ _ _ I k i q j tm).
    + intros j tm HT HA. destruct (i_active _ _ _ I j tm HT HA) as (A & B). split; [assumption|].
      apply in_kset. right. split; [assumption|]. now apply (NOLD _ _ j tm B HT).
    + intros j tm HT HE HI. apply snd_in in HI as (k & HI). apply in_kset in HI as [(_ & E)|(HI & _)].
      * pose proof (i_tpipe _ _ _ I j tm HT). lia.
      * apply (i_expired _ _ _ I j tm HT HE). now apply in_snd in HI.
    + apply I.
    + apply I.
  - unfold s1. cbn [c_pipes]. apply in_kset. auto.
  - intros j tm HT HP. pose proof (i_tpipe _ _ _ I j tm HT). unfold id in HP. lia.
  - assert (ES : forall i, (i < id)%nat -> stored s1 i = stored s i \/ klookup (c_pipes s) key = Some i).
    { intros i Hi. destruct (stored s i) eqn:E.
      - apply stored_iff, snd_in in E as (k & E). destruct (list_eq_dec Z.eq_dec k key) as [->|NE].
        + right. apply klookup_nodup; [apply I|assumption].
        + left. apply stored_iff. unfold s1. cbn [c_pipes]. apply (in_snd _ k). apply in_kset. auto.
      - left. apply stored_false. apply stored_false in E. intros HI. apply E.
        apply snd_in in HI as (k & HI). unfold s1 in HI. cbn [c_pipes] in HI.
        apply in_kset in HI as [(_ & ->)|(HI & _)]; [lia|]. now apply in_snd in HI. }
    assert (HH : held s1 = flat_map (fun kv => somes (pipe_segs s (snd kv))) (kdelete (c_pipes s) key)).
    { unfold held. unfold s1 at 2. cbn [c_pipes kset flat_map snd].
      replace (pipe_segs s1 id) with (p_segs p) by (symmetry; apply pipe_segs_nth; exact HN).
      unfold p. cbn [p_segs]. rewrite somes_repeat_none. cbn [app]. apply flat_map_ext_in. intros (k, i) Hi.
      apply in_kdelete in Hi as (Hi & _). cbn [snd]. rewrite HPS by eauto. reflexivity. }
    destruct (klookup (c_pipes s) key) as [old|] eqn:EK.
    + destruct (HQ old eq_refl) as (j & tm & HT & HP & HF).
      pose proof (klookup_in _ _ _ EK) as HK.
      rewrite (held_perm s key old (i_keys _ _ _ I) HK), HH.
      assert (PP : Permutation (due s tm ++ pending s1) (due s1 tm ++ pending s)).
      { unfold pending. unfold s1 at 2. cbn [c_timers].
        rewrite <- (upd_same _ _ _ HT) at 1. apply flat_map_upd; [assumption|].
        intros j' z NE Hz. unfold due. destruct (Nat.eq_dec (tm_pipe z) old) as [E|E].
        - destruct (i_one _ _ _ I j j' tm z (not_eq_sym NE) HT Hz) as [S|S]; [congruence|congruence|].
          rewrite S. reflexivity.
        - pose proof (i_tpipe _ _ _ I j' z Hz) as LT. rewrite HPS by assumption.
          destruct (ES _ LT) as [-> |F]; [reflexivity|congruence]. }
      assert (D0 : due s tm = []).
      { unfold due. rewrite HF, HP. replace (stored s old) with true; [reflexivity|].
        symmetry. apply stored_iff. now apply in_snd in HK. }
      assert (D1 : due s1 tm = somes (pipe_segs s old)).
      { unfold due. rewrite HF, HP. replace (stored s1 old) with false; [rewrite HPS by eauto; reflexivity|].
        symmetry. apply stored_false. intros HI. apply snd_in in HI as (k & HI).
        unfold s1 in HI. cbn [c_pipes] in HI. apply in_kset in HI as [(_ & F)|(HI & F)].
        - apply HL in HK. lia.
        - apply F. now apply (ids_inj _ _ _ old (i_ids _ _ _ I)). }
      rewrite D0, D1 in PP. cbn [app] in PP. rewrite PP.
      set (h := flat_map _ _). rewrite (Permutation_app_comm h), <- !app_assoc.
      rewrite (Permutation_app_comm (pending s)). reflexivity.
    + apply Permutation_app.
      * rewrite HH. unfold held. apply klookup_none in EK. rewrite kdelete_none by assumption. reflexivity.
      * unfold pending. unfold s1 at 2. cbn [c_timers]. erewrite flat_map_ext_in; [reflexivity|].
        intros z Hz. apply In_nth_error in Hz as (j & Hz). pose proof (i_tpipe _ _ _ I j z Hz) as LT.
        unfold due. rewrite HPS by assumption. destruct (ES _ LT) as [-> |F]; [reflexivity|discriminate].
Qed.

(** ** Storing a segment *)

Definition with_pipe (s : cstate) (m : list (bytes * nat)) (id : nat) (p : pipe) (tms : list timer) : cstate :=
  {| c_closed := c_closed s; c_pipes := m; c_heap := upd (c_heap s) id p; c_timers := tms |}.

Lemma pipe_segs_with s m id p tms i q : nth_error (c_heap s) id = Some q ->
  pipe_segs (with_pipe s m id p tms) i = if Nat.eqb i id then p_segs p else pipe_segs s i.
Proof.
  intros H. unfold pipe_segs, with_pipe. cbn [c_heap]. rewrite nth_upd, H. now destruct (Nat.eqb i id).
Qed.

(** The timers of other pipes are not affected. *)

Lemma due_with s key id p tms q z : nth_error (c_heap s) id = Some q -> NoDup (map fst (c_pipes s)) ->
  In (key, id) (c_pipes s) -> tm_pipe z <> id \/ tm_state z = TStopped ->
  forall m, m = c_pipes s \/ m = kdelete (c_pipes s) key ->
  due (with_pipe s m id p tms) z = due s z.
Proof.
  intros HP ND HK HZ m HM. destruct HZ as [HZ|HZ]; [|unfold due; now rewrite HZ].
  unfold due. rewrite (pipe_segs_with _ _ _ _ _ _ _ HP).
  replace (Nat.eqb (tm_pipe z) id) with false by (symmetry; now apply Nat.eqb_neq).
  replace (stored (with_pipe s m id p tms) (tm_pipe z)) with (stored s (tm_pipe z)); [reflexivity|].
  destruct HM as [-> | ->]; [reflexivity|].
  destruct (stored s (tm_pipe z)) eqn:E; symmetry.
  - apply stored_iff, snd_in in E as (k & E). apply stored_iff. apply (in_snd _ k). cbn [c_pipes with_pipe].
    apply in_kdelete. split; [assumption|]. intros ->. apply HZ. now apply (keys_inj _ key _ _ ND).
  - apply stored_false. apply stored_false in E. intros HI. apply E. apply snd_in in HI as (k & HI).
    cbn [c_pipes with_pipe] in HI. apply in_kdelete in HI as (HI & _). now apply in_snd in HI.
Qed.

Lemma inv_store cfg s id key n i g err p : Inv cfg (Some id) s -> c_closed s = false ->
  In (key, id) (c_pipes s) -> nth_error (c_heap s) id = Some p -> quiet s id ->
  nth_error (p_segs p) (Z.to_nat (i - 1)) = Some None ->
  exists s' d er, store cfg s id key n i g err = (s', CReturn d er) /\
    (er = None \/ er = err) /\
    Inv cfg None s' /\
    Permutation (g :: held s ++ pending s) (returned (OCollect (CReturn d er)) ++ held s' ++ pending s').
Proof.
  intros I OPEN HK HP HQ HS. unfold store. rewrite HP.
  set (segs := upd (p_segs p) (Z.to_nat (i - 1)) (Some g)).
  pose proof (somes_upd (p_segs p) _ g HS) as SU. fold segs in SU.
  assert (FR : p_frags p + 1 = Z.of_nat (length (somes segs))).
  { rewrite (Permutation_length SU). cbn [length].
    destruct (i_heap _ _ _ I _ _ HK) as (q & Hq & E). assert (q = p) by congruence. subst q. lia. }
  pose proof (held_perm s key id (i_keys _ _ _ I) HK) as HHP. rewrite (pipe_segs_nth _ _ _ HP) in HHP.
  set (rest := flat_map (fun kv => somes (pipe_segs s (snd kv))) (kdelete (c_pipes s) key)) in HHP.
  assert (REST : forall m q tms, flat_map (fun kv => somes (pipe_segs (with_pipe s m id q tms) (snd kv)))
      (kdelete (c_pipes s) key) = rest).
  { intros m q tms. apply flat_map_ext_in. intros (k, j) Hj. apply in_kdelete in Hj as (Hj & NE). cbn [snd].
    rewrite (pipe_segs_with _ _ _ _ _ _ _ HP). replace (Nat.eqb j id) with false; [reflexivity|].
    symmetry. apply Nat.eqb_neq. intros ->. apply NE. now apply (ids_inj _ _ _ id (i_ids _ _ _ I)). }
  assert (DUE : forall m q tms, m = c_pipes s \/ m = kdelete (c_pipes s) key ->
     flat_map (due (with_pipe s m id q tms)) (c_timers s) = pending s).
  { intros m q tms HM. apply flat_map_ext_in. intros z Hz. apply In_nth_error in Hz as (j & Hz).
    apply (due_with s key id q tms p z HP (i_keys _ _ _ I) HK); [|assumption].
    destruct (Nat.eq_dec (tm_pipe z) id) as [E|E]; [right; now apply (HQ j)|left; assumption]. }
  assert (HPU : forall q i', nth_error (upd (c_heap s) id q) i' =
     if Nat.eqb i' id then Some q else nth_error (c_heap s) i').
  { intros q i'. rewrite nth_upd, HP. reflexivity. }
  assert (IDK : forall k, In (k, id) (c_pipes s) -> k = key).
  { intros k Hk. now apply (ids_inj _ _ _ id (i_ids _ _ _ I)). }
  destruct (p_frags p + 1 =? n) eqn:EC; [|destruct (cf_timeout cfg) eqn:ET].
  - (* complete *)
    set (q := {| p_cleanup := p_cleanup p; p_segs := segs; p_frags := p_frags p + 1 |}).
    change {| c_closed := c_closed s; c_pipes := kdelete (c_pipes s) key; c_heap := upd (c_heap s) id q;
      c_timers := c_timers s |} with (with_pipe s (kdelete (c_pipes s) key) id q (c_timers s)).
    eexists _, _, _. split; [reflexivity|]. split; [auto|]. split.
    + split; cbn [with_pipe c_pipes c_heap c_timers c_closed].
      * apply kdelete_keys, I.
      * apply kdelete_ids, I.
      * intros k j Hj. apply in_kdelete in Hj as (Hj & NE). rewrite HPU.
        destruct (Nat.eqb j id) eqn:E; [apply Nat.eqb_eq in E; subst; now apply IDK in Hj|].
        now apply (i_heap _ _ _ I k).
      * intros j tm HT. rewrite upd_length. now apply (i_tpipe _ _ _ I j).
      * intros k j p' t Hj Hp Hc. apply in_kdelete in Hj as (Hj & NE). rewrite HPU in Hp.
        destruct (Nat.eqb j id) eqn:E; [apply Nat.eqb_eq in E; subst; now apply IDK in Hj|].
        apply Nat.eqb_neq in E.
        destruct (i_cleanup _ _ _ I k j p' t Hj Hp Hc) as (tm & A & B & C & D).
        exists tm. repeat split; auto. destruct D as [D|[D|(D & D')]]; auto.
        destruct D as [D|D]; [congruence|]. congruence.
      * intros k j p' t tm Hj Hp HT HPp. apply in_kdelete in Hj as (Hj & NE). rewrite HPU in Hp.
        destruct (Nat.eqb j id) eqn:E; [apply Nat.eqb_eq in E; subst j; now apply IDK in Hj|].
        now apply (i_owner _ _ _ I k j p' t tm).
      * intros t tm HT HA. destruct (i_active _ _ _ I t tm HT HA) as (A & B). split; [assumption|].
        apply in_kdelete. split; [assumption|]. intros E.
        assert (tm_pipe tm = id) by (apply (keys_inj _ key _ _ (i_keys _ _ _ I)); [congruence|assumption]).
        pose proof (HQ t tm HT H). congruence.
      * intros t tm HT HE HI. apply snd_in in HI as (k & HI). apply in_kdelete in HI as (HI & _).
        apply (i_expired _ _ _ I t tm HT HE). now apply in_snd in HI.
      * apply I.
      * apply I.
    + cbn [returned]. unfold pending at 2. cbn [with_pipe c_timers]. fold (with_pipe s (kdelete (c_pipes s) key) id q (c_timers s)).
      rewrite DUE by auto. unfold held. cbn [with_pipe c_pipes].
      fold (with_pipe s (kdelete (c_pipes s) key) id q (c_timers s)). rewrite REST.
      fold (held s). rewrite HHP, SU. cbn [app]. rewrite <- app_assoc. reflexivity.
  - (* a new timer *)
    set (q := {| p_cleanup := Some (length (c_timers s)); p_segs := segs; p_frags := p_frags p + 1 |}).
    set (nt := {| tm_pipe := id; tm_key := key; tm_state := TActive |}).
    change {| c_closed := c_closed s; c_pipes := c_pipes s; c_heap := upd (c_heap s) id q;
      c_timers := c_timers s ++ [nt] |} with (with_pipe s (c_pipes s) id q (c_timers s ++ [nt])).
    eexists _, _, _. split; [reflexivity|]. split; [auto|].
    assert (HTN : forall j tm, nth_error (c_timers s ++ [nt]) j = Some tm ->
       (nth_error (c_timers s) j = Some tm /\ (j < length (c_timers s))%nat) \/ (j = length (c_timers s) /\ tm = nt)).
    { intros j tm H. destruct (Nat.lt_ge_cases j (length (c_timers s))) as [L|L].
      - left. rewrite nth_error_app1 in H by assumption. auto.
      - right. rewrite nth_error_app2 in H by assumption.
        destruct (j - length (c_timers s))%nat eqn:E; [|destruct n0; discriminate].
        split; [lia|cbn in H; congruence]. }
    assert (HTO : forall j tm, nth_error (c_timers s) j = Some tm -> nth_error (c_timers s ++ [nt]) j = Some tm).
    { intros j tm H. rewrite nth_error_app1; [assumption|]. apply nth_error_Some. congruence. }
    split.
    + split; cbn [with_pipe c_pipes c_heap c_timers c_closed].
      * apply I.
      * apply I.
      * intros k j Hj. rewrite HPU. destruct (Nat.eqb j id) eqn:E.
        -- exists q. split; [reflexivity|]. exact FR.
        -- now apply (i_heap _ _ _ I k).
      * intros j tm HT. rewrite upd_length. apply HTN in HT as [(HT & _)|(_ & ->)].
        -- now apply (i_tpipe _ _ _ I j).
        -- cbn. now apply (inv_id _ _ _ _ _ I HK).
      * intros k j p' t Hj Hp Hc. rewrite HPU in Hp. destruct (Nat.eqb j id) eqn:E.
        -- apply Nat.eqb_eq in E. subst j. apply IDK in Hj. subst k. injection Hp as <-. injection Hc as <-.
           exists nt. rewrite nth_error_app2, Nat.sub_diag by lia. repeat split; auto.
        -- apply Nat.eqb_neq in E. destruct (i_cleanup _ _ _ I k j p' t Hj Hp Hc) as (tm & A & B & C & D).
           exists tm. split; [auto|]. repeat split; auto. destruct D as [D|[D|(D & D')]]; auto.
           destruct D as [D|D]; [congruence|]. congruence.
      * intros k j p' t tm Hj Hp HT HPp. rewrite HPU in Hp. apply HTN in HT as [(HT & LT)|(-> & ->)].
        -- destruct (Nat.eqb j id) eqn:E.
           ++ apply Nat.eqb_eq in E. subst j. left. now apply (HQ t).
           ++ now apply (i_owner _ _ _ I k j p' t tm).
        -- cbn in HPp. subst j. rewrite Nat.eqb_refl in Hp. injection Hp as <-. right. reflexivity.
      * intros t tm HT HA. apply HTN in HT as [(HT & _)|(_ & ->)]; [now apply (i_active _ _ _ I t)|].
        cbn. auto.
      * intros t tm HT HE. apply HTN in HT as [(HT & _)|(_ & ->)]; [now apply (i_expired _ _ _ I t)|].
        cbn in HE. intuition discriminate.
      * intros t t' tm tm' NE HT HT' HE.
        apply HTN in HT as [(HT & L)|(-> & ->)]; apply HTN in HT' as [(HT' & L')|(-> & ->)].
        -- now apply (i_one _ _ _ I t t').
        -- left. now apply (HQ t).
        -- right. apply (HQ t'); [assumption|]. symmetry. exact HE.
        -- lia.
      * congruence.
    + cbn [returned app]. unfold pending at 2. cbn [with_pipe c_timers].
      fold (with_pipe s (c_pipes s) id q (c_timers s ++ [nt])).
      rewrite flat_map_app, DUE by auto. cbn [flat_map]. unfold due. cbn [nt tm_state]. rewrite !app_nil_r.
      pose proof (held_perm (with_pipe s (c_pipes s) id q (c_timers s ++ [nt])) key id (i_keys _ _ _ I) HK) as HHP'.
      rewrite HHP'. cbn [with_pipe c_pipes]. fold (with_pipe s (c_pipes s) id q (c_timers s ++ [nt])).
      rewrite REST, (pipe_segs_with _ _ _ _ _ _ _ HP), Nat.eqb_refl. cbn [q p_segs]. rewrite HHP, SU. reflexivity.
  - (* no timeouts *)
    set (q := {| p_cleanup := p_cleanup p; p_segs := segs; p_frags := p_frags p + 1 |}).
    change {| c_closed := c_closed s; c_pipes := c_pipes s; c_heap := upd (c_heap s) id q;
      c_timers := c_timers s |} with (with_pipe s (c_pipes s) id q (c_timers s)).
    eexists _, _, _. split; [reflexivity|]. split; [auto|].
    pose proof (i_cfg _ _ _ I ET) as NT.
    split.
    + split; cbn [with_pipe c_pipes c_heap c_timers c_closed]; try (rewrite NT; intros; destruct j; discriminate).
      * apply I.
      * apply I.
      * intros k j Hj. rewrite HPU. destruct (Nat.eqb j id) eqn:E.
        -- exists q. split; [reflexivity|]. exact FR.
        -- now apply (i_heap _ _ _ I k).
      * intros k j p' t Hj Hp Hc. rewrite HPU in Hp. exfalso. destruct (Nat.eqb j id) eqn:E.
        -- apply Nat.eqb_eq in E. subst j. injection Hp as <-. cbn in Hc.
           destruct (i_cleanup _ _ _ I k id p t Hj HP Hc) as (tm & A & _). rewrite NT in A. destruct t; discriminate.
        -- destruct (i_cleanup _ _ _ I k j p' t Hj Hp Hc) as (tm & A & _). rewrite NT in A. destruct t; discriminate.
      * intros; assumption.
    + cbn [returned app]. unfold pending at 2. cbn [with_pipe c_timers].
      fold (with_pipe s (c_pipes s) id q (c_timers s)). rewrite DUE by auto.
      pose proof (held_perm (with_pipe s (c_pipes s) id q (c_timers s)) key id (i_keys _ _ _ I) HK) as HHP'.
      rewrite HHP'. cbn [with_pipe c_pipes]. fold (with_pipe s (c_pipes s) id q (c_timers s)).
      rewrite REST, (pipe_segs_with _ _ _ _ _ _ _ HP), Nat.eqb_refl. cbn [q p_segs]. rewrite HHP, SU. reflexivity.
Qed.

(** ** Collect *)

Lemma idx_nth {A} (l : list A) i x : idx l i = Ok x -> 0 <= i /\ nth_error l (Z.to_nat i) = Some x.
Proof.
  unfold idx. destruct (i <? 0) eqn:E; [discriminate|]. destruct (nth_error l (Z.to_nat i)) eqn:F; [|discriminate].
  intros H. split; [lia|]. congruence.
Qed.
Lemma nth_error_repeat {A} (x : A) n i : (i < n)%nat -> nth_error (repeat x n) i = Some x.
Proof. revert i; induction n; intros [|i] H; cbn; try lia; auto. apply IHn. lia. Qed.

Lemma pdu_key_err t n r key err : pdu_key t n r = (key, err) ->
  err = None \/ exists st, err = Some (ErrUnsupportedSmsType st).
Proof.
  unfold pdu_key. destruct (_ =? SmsSubmit); [intros H; injection H as _ <-; auto|].
  destruct (_ =? SmsDeliver); intros H; injection H as _ <-; eauto.
Qed.

Lemma taken_stored g d err er : (err = None \/ exists st, err = Some (ErrUnsupportedSmsType st)) ->
  er = None \/ er = err -> taken (EvCollect g) (OCollect (CReturn d er)) = [g].
Proof. intros [-> |(st & ->)] [-> | ->]; reflexivity. Qed.

Definition balanced (g : seg) (s s' : cstate) (r : cres) : Prop :=
  Permutation (taken (EvCollect g) (OCollect r) ++ held s ++ pending s)
              (returned (OCollect r) ++ held s' ++ pending s').

Lemma inv_fresh cfg s g key err n q s' r : Inv cfg None s -> c_closed s = false -> 1 <= q <= n ->
  (err = None \/ exists st, err = Some (ErrUnsupportedSmsType st)) ->
  (forall old, klookup (c_pipes s) key = Some old ->
     exists j tm, nth_error (c_timers s) j = Some tm /\ tm_pipe tm = old /\ tm_state tm = TFired) ->
  (let '(s, id) := new_pipe s key n in store cfg s id key n q g err) = (s', r) ->
  Inv cfg None s' /\ balanced g s s' r.
Proof.
  intros I OPEN HQ HE HO H. destruct (new_pipe s key n) as [s1 id] eqn:EN.
  destruct (inv_new_pipe cfg s key n s1 id I OPEN HO EN) as (I1 & O1 & K1 & P1 & Q1 & B1).
  destruct (inv_store cfg s1 id key n q g err _ I1 O1 K1 P1 Q1) as (s2 & d & er & E & HER & I2 & B2).
  { cbn [p_segs]. apply nth_error_repeat. lia. }
  rewrite E in H. injection H as <- <-. split; [assumption|].
  unfold balanced. rewrite (taken_stored g d err er HE HER). cbn [app]. rewrite B1. exact B2.
Qed.

Lemma inv_collect cfg s g s' r : Inv cfg None s -> collect cfg s g = (s', r) ->
  Inv cfg None s' /\ balanced g s s' r.
Proof.
  intros I H. unfold collect in H.
  destruct (c_closed s) eqn:OPEN; [injection H as <- <-; split; [assumption|unfold balanced; reflexivity]|].
  destruct (tpdu_concat_info (sg_pdu g)) as [[[n q] ref]|];
    [|injection H as <- <-; split; [assumption|unfold balanced; reflexivity]].
  destruct (n <? 2) eqn:E2; [injection H as <- <-; split; [assumption|unfold balanced; reflexivity]|].
  destruct ((q <? 1) || (n <? q)) eqn:EQ; [injection H as <- <-; split; [assumption|unfold balanced; reflexivity]|].
  destruct (pdu_key (sg_pdu g) n ref) as [key err] eqn:EK. pose proof (pdu_key_err _ _ _ _ _ EK) as HE.
  cbv zeta in H.
  destruct (klookup (c_pipes s) key) as [id|] eqn:KL.
  2:{ apply (inv_fresh cfg s g key err n q); auto; [lia|]. intros old HH. congruence. }
  destruct (nth_error (c_heap s) id) as [p|] eqn:EP; [|injection H as <- <-; split; [assumption|unfold balanced; reflexivity]].
  pose proof (klookup_in _ _ _ KL) as HK.
  destruct (idx (p_segs p) (q - 1)) as [[old|]|e| |] eqn:EI;
    try (injection H as <- <-; split; [assumption|unfold balanced; reflexivity]).
  apply idx_nth in EI as (_ & EI).
  destruct (p_cleanup p) as [tid|] eqn:EC.
  - destruct (i_cleanup _ _ _ I _ _ _ _ HK EP EC) as (tm & HT & HP & HKy & HS).
    unfold stop_timer in H. rewrite HT in H.
    destruct HS as [HS|[HS|(HS & _)]].
    + rewrite HS in H. fold (stopped s tid tm) in H.
      destruct (inv_stop cfg s tid tm key id p I HK EP EC HT HS) as (I1 & Q1 & P1).
      destruct (inv_store cfg (stopped s tid tm) id key n q g err p I1 OPEN HK EP Q1 EI)
        as (s2 & d & er & E & HER & I2 & B2).
      rewrite E in H. injection H as <- <-. split; [assumption|].
      unfold balanced. rewrite (taken_stored g d err er HE HER). cbn [app]. rewrite <- P1. exact B2.
    + rewrite HS in H. apply (inv_fresh cfg s g key err n q); auto; [lia|].
      intros old HH. assert (old = id) by congruence. subst old. exists tid, tm. auto.
    + destruct HS; congruence.
  - assert (Q1 : quiet s id).
    { intros j tm HT HP. destruct (i_owner _ _ _ I _ _ _ _ _ HK EP HT HP); [assumption|congruence]. }
    assert (I1 : Inv cfg (Some id) s).
    { destruct I. split; auto. intros k i p' j A B C. destruct (i_cleanup0 k i p' j A B C) as (tm & X1 & X2 & X3 & X4).
      exists tm. repeat split; auto. destruct X4 as [X4|[X4|(X4 & X5)]]; auto. destruct X4; [auto|discriminate]. }
    destruct (inv_store cfg s id key n q g err p I1 OPEN HK EP Q1 EI) as (s2 & d & er & E & HER & I2 & B2).
    rewrite E in H. injection H as <- <-. split; [assumption|].
    unfold balanced. rewrite (taken_stored g d err er HE HER). exact B2.
Qed.

(** ** Timer steps *)

Lemma stored_set_timer s tid tm st i : stored (set_timer s tid tm st) i = stored s i.
Proof. reflexivity. Qed.
Lemma pipe_segs_set_timer s tid tm st i : pipe_segs (set_timer s tid tm st) i = pipe_segs s i.
Proof. reflexivity. Qed.

Lemma inv_set_timer cfg s tid tm st : Inv cfg None s -> nth_error (c_timers s) tid = Some tm ->
  tm_state tm <> TStopped -> st <> TActive -> st <> TStopped ->
  (In (tm_pipe tm) (map snd (c_pipes s)) -> st = TFired) ->
  Inv cfg None (set_timer s tid tm st).
Proof.
  intros I HT HS HA HST HE. split; cbn [set_timer c_pipes c_heap c_timers c_closed].
  - apply I.
  - apply I.
  - apply I.
  - intros j x Hx. apply nth_upd_inv in Hx as [(-> & -> & _)|(_ & Hx)]; [cbn; now apply (i_tpipe _ _ _ I tid)|].
    now apply (i_tpipe _ _ _ I j).
  - intros k id p j Hk Hp Hc. destruct (i_cleanup _ _ _ I k id p j Hk Hp Hc) as (x & A & B & C & D).
    destruct (Nat.eq_dec j tid) as [->|NE].
    + exists {| tm_pipe := tm_pipe tm; tm_key := tm_key tm; tm_state := st |}.
      rewrite (nth_upd_same _ _ _ _ HT). assert (x = tm) by congruence. subst x. cbn. repeat split; auto.
      right. left. apply HE. rewrite B. now apply in_snd in Hk.
    + exists x. rewrite nth_upd_other by assumption. auto.
  - intros k id p j x Hk Hp Hx HP. apply nth_upd_inv in Hx as [(-> & -> & _)|(_ & Hx)].
    + cbn in *. destruct (i_owner _ _ _ I k id p tid tm Hk Hp HT HP); [contradiction|auto].
    + now apply (i_owner _ _ _ I k id p j x).
  - intros j x Hx Ha. apply nth_upd_inv in Hx as [(-> & -> & _)|(_ & Hx)]; [contradiction|].
    now apply (i_active _ _ _ I j x).
  - intros j x Hx Ha. apply nth_upd_inv in Hx as [(-> & -> & _)|(_ & Hx)].
    + cbn in *. intros F. apply HE in F. intuition congruence.
    + now apply (i_expired _ _ _ I j x).
  - intros j j' x x' NE Hx Hx' HP.
    apply nth_upd_inv in Hx as [(-> & -> & _)|(N1 & Hx)]; apply nth_upd_inv in Hx' as [(-> & -> & _)|(N2 & Hx')].
    + congruence.
    + cbn in *. right. destruct (i_one _ _ _ I tid j' tm x' NE HT Hx' HP); [contradiction|assumption].
    + cbn in *. left. destruct (i_one _ _ _ I j tid x tm NE Hx HT HP); [assumption|contradiction].
    + now apply (i_one _ _ _ I j j' x x').
  - intros H. rewrite (i_cfg _ _ _ I H) in HT. destruct tid; discriminate.
Qed.

Lemma pending_set_timer s tid tm st : nth_error (c_timers s) tid = Some tm ->
  Permutation (due s tm ++ pending (set_timer s tid tm st))
    (due s {| tm_pipe := tm_pipe tm; tm_key := tm_key tm; tm_state := st |} ++ pending s).
Proof.
  intros H. unfold pending. cbn [set_timer c_timers].
  apply (flat_map_upd (due s) (due s) (c_timers s) tid tm _ H). reflexivity.
Qed.

(** A pipe in the map whose timer has fired is stored under the timer's key. *)
Lemma stored_key cfg s tid tm : Inv cfg None s -> nth_error (c_timers s) tid = Some tm ->
  tm_state tm <> TStopped -> In (tm_pipe tm) (map snd (c_pipes s)) -> In (tm_key tm, tm_pipe tm) (c_pipes s).
Proof.
  intros I HT HS HI. apply snd_in in HI as (k & HI).
  destruct (i_heap _ _ _ I _ _ HI) as (p & HP & _).
  destruct (i_owner _ _ _ I _ _ _ _ _ HI HP HT eq_refl) as [F|F]; [contradiction|].
  destruct (i_cleanup _ _ _ I _ _ _ _ HI HP F) as (x & A & B & C & _). assert (x = tm) by congruence. subst x.
  now rewrite C.
Qed.

(** Removing the pipe of a fired timer. *)
Lemma inv_expire cfg s tid tm : Inv cfg None s -> nth_error (c_timers s) tid = Some tm -> tm_state tm = TFired ->
  Inv cfg None (expire_pipe s tm) /\ ~ In (tm_pipe tm) (map snd (c_pipes (expire_pipe s tm))) /\
  Permutation (held s ++ pending s) (held (expire_pipe s tm) ++ pending (expire_pipe s tm)) /\
  c_timers (expire_pipe s tm) = c_timers s /\ c_heap (expire_pipe s tm) = c_heap s.
Proof.
  intros I HT HF. unfold expire_pipe.
  assert (NS : tm_state tm <> TStopped) by congruence.
  assert (OTHER : (forall id, klookup (c_pipes s) (tm_key tm) = Some id -> id <> tm_pipe tm) ->
     ~ In (tm_pipe tm) (map snd (c_pipes s))).
  { intros HN HI. pose proof (stored_key cfg s tid tm I HT NS HI) as HK.
    apply klookup_nodup in HK; [|apply I]. now apply HN in HK. }
  destruct (klookup (c_pipes s) (tm_key tm)) as [id|] eqn:KL.
  2:{ split; [assumption|]. split; [apply OTHER; discriminate|]. auto. }
  destruct (Nat.eqb id (tm_pipe tm)) eqn:E.
  2:{ split; [assumption|]. split; [|auto]. apply OTHER. intros i H. apply Nat.eqb_neq in E. congruence. }
  apply Nat.eqb_eq in E. subst id. pose proof (klookup_in _ _ _ KL) as HK.
  set (s1 := {| c_closed := c_closed s; c_pipes := _; c_heap := _; c_timers := _ |}).
  assert (NI : ~ In (tm_pipe tm) (map snd (c_pipes s1))).
  { intros HI. apply snd_in in HI as (k & HI). cbn [s1 c_pipes] in HI. apply in_kdelete in HI as (HI & NE).
    apply NE. now apply (ids_inj _ _ _ _ (i_ids _ _ _ I) HI). }
  split; [|split; [exact NI|split; [|auto]]].
  - split; cbn [s1 c_pipes c_heap c_timers c_closed].
    + apply kdelete_keys, I.
    + apply kdelete_ids, I.
    + intros k i Hi. apply in_kdelete in Hi as (Hi & _). now apply (i_heap _ _ _ I k).
    + apply I.
    + intros k i p j Hi. apply in_kdelete in Hi as (Hi & _). now apply (i_cleanup _ _ _ I k).
    + intros k i p j x Hi. apply in_kdelete in Hi as (Hi & _). now apply (i_owner _ _ _ I k).
    + intros j x Hx Ha. destruct (i_active _ _ _ I j x Hx Ha) as (A & B). split; [assumption|].
      apply in_kdelete. split; [assumption|]. intros EK.
      assert (EP : tm_pipe x = tm_pipe tm) by (apply (keys_inj _ (tm_key tm) _ _ (i_keys _ _ _ I)); congruence).
      destruct (Nat.eq_dec j tid) as [->|NE]; [congruence|].
      destruct (i_one _ _ _ I j tid x tm NE Hx HT EP); congruence.
    + intros j x Hx Ha HI. apply snd_in in HI as (k & HI). apply in_kdelete in HI as (HI & _).
      apply (i_expired _ _ _ I j x Hx Ha). now apply in_snd in HI.
    + apply I.
    + apply I.
  - assert (PP : Permutation (due s tm ++ pending s1) (due s1 tm ++ pending s)).
    { unfold pending. cbn [s1 c_timers]. fold s1.
      rewrite <- (upd_same _ _ _ HT) at 1. apply flat_map_upd; [assumption|].
      intros j z NE Hz. unfold due. destruct (Nat.eq_dec (tm_pipe z) (tm_pipe tm)) as [EP|EP].
      - destruct (i_one _ _ _ I j tid z tm NE Hz HT EP) as [S|S]; [now rewrite S|congruence].
      - replace (stored s1 (tm_pipe z)) with (stored s (tm_pipe z)); [reflexivity|].
        destruct (stored s (tm_pipe z)) eqn:ES; symmetry.
        + apply stored_iff, snd_in in ES as (k & ES). apply stored_iff. apply (in_snd _ k). cbn [s1 c_pipes].
          apply in_kdelete. split; [assumption|]. intros ->. apply EP.
          now apply (keys_inj _ (tm_key tm) _ _ (i_keys _ _ _ I)).
        + apply stored_false. apply stored_false in ES. intros HI. apply ES. apply snd_in in HI as (k & HI).
          cbn [s1 c_pipes] in HI. apply in_kdelete in HI as (HI & _). now apply in_snd in HI. }
    assert (D0 : due s tm = []).
    { unfold due. rewrite HF. replace (stored s (tm_pipe tm)) with true; [reflexivity|].
      symmetry. apply stored_iff. now apply in_snd in HK. }
    assert (D1 : due s1 tm = somes (pipe_segs s (tm_pipe tm))).
    { unfold due. rewrite HF. apply stored_false in NI. rewrite NI. reflexivity. }
    rewrite D0, D1 in PP. cbn [app] in PP. rewrite PP.
    rewrite (held_perm s _ _ (i_keys _ _ _ I) HK). unfold held. cbn [s1 c_pipes]. fold s1.
    change (fun kv : bytes * nat => somes (pipe_segs s1 (snd kv))) with
      (fun kv : bytes * nat => somes (pipe_segs s (snd kv))).
    set (h := flat_map _ _). rewrite (Permutation_app_comm h), <- !app_assoc.
    rewrite (Permutation_app_comm (pending s)). reflexivity.
Qed.

(** ** Close *)

Definition quench (tm : timer) : timer :=
  match tm_state tm with
  | TActive => {| tm_pipe := tm_pipe tm; tm_key := tm_key tm; tm_state := TStopped |}
  | _ => tm
  end.
Lemma quench_pipe tm : tm_pipe (quench tm) = tm_pipe tm. Proof. unfold quench. now destruct (tm_state tm). Qed.
Lemma quench_key tm : tm_key (quench tm) = tm_key tm. Proof. unfold quench. now destruct (tm_state tm). Qed.
Lemma quench_state tm : tm_state (quench tm) =
  match tm_state tm with TActive => TStopped | st => st end.
Proof. unfold quench. now destruct (tm_state tm) eqn:E. Qed.

(** [s1] is [s] with some of the active timers stopped. *)
Definition partly (s s1 : cstate) : Prop :=
  c_pipes s1 = c_pipes s /\ c_heap s1 = c_heap s /\
  length (c_timers s1) = length (c_timers s) /\
  forall j tm, nth_error (c_timers s) j = Some tm ->
    nth_error (c_timers s1) j = Some tm \/ nth_error (c_timers s1) j = Some (quench tm).

Lemma partly_stop s s1 kv : partly s s1 -> partly s (stop_pipe s1 kv) /\ c_closed (stop_pipe s1 kv) = c_closed s1.
Proof.
  intros H. unfold stop_pipe. destruct (nth_error (c_heap s1) (snd kv)) as [p|]; [|auto].
  destruct (p_cleanup p) as [tid|]; [|auto]. unfold stop_timer.
  destruct (nth_error (c_timers s1) tid) as [x|] eqn:E; [|auto].
  destruct (tm_state x) eqn:ES; auto. cbn [fst c_closed]. split; [|reflexivity].
  destruct H as (A & B & C & D). unfold partly. cbn [c_pipes c_heap c_timers]. repeat split; auto.
  - now rewrite upd_length.
  - intros j tm Hj. rewrite nth_upd. destruct (Nat.eqb j tid) eqn:EJ; [|auto].
    apply Nat.eqb_eq in EJ. subst j. rewrite E. right. destruct (D _ _ Hj) as [F|F].
    + assert (x = tm) by congruence. subst x. unfold quench. now rewrite ES.
    + assert (x = quench tm) by congruence. subst x. rewrite quench_state in ES. now destruct (tm_state tm).
Qed.

Lemma fold_stop l : forall s s1, partly s s1 ->
  partly s (fold_left stop_pipe l s1) /\ c_closed (fold_left stop_pipe l s1) = c_closed s1 /\
  forall j tm kv p, nth_error (c_timers s) j = Some tm -> In kv l ->
    nth_error (c_heap s) (snd kv) = Some p -> p_cleanup p = Some j ->
    nth_error (c_timers (fold_left stop_pipe l s1)) j = Some (quench tm).
Proof.
  induction l as [|kv l IH]; intros s s1 H; cbn [fold_left].
  { split; [assumption|]. split; [reflexivity|]. intros ? ? ? ? _ []. }
  destruct (partly_stop s s1 kv H) as (H1 & C1). destruct (IH s _ H1) as (A & B & C).
  split; [assumption|]. split; [congruence|]. intros j tm kv' p Hj [->|Hin] Hp Hc; [|now apply (C j tm kv' p)].
  assert (Q : nth_error (c_timers (stop_pipe s1 kv')) j = Some (quench tm)).
  { destruct H as (_ & HH & _ & D). unfold stop_pipe. rewrite HH, Hp, Hc. unfold stop_timer.
    destruct (D _ _ Hj) as [F|F]; rewrite F.
    - unfold quench. destruct (tm_state tm) eqn:ES; cbn [fst c_timers]; auto.
      now rewrite (nth_upd_same _ _ _ _ F).
    - rewrite quench_state. destruct (tm_state tm); cbn [fst]; assumption. }
  clear - Q H1 Hj. revert Q. generalize (stop_pipe s1 kv') H1. clear s1 H1 kv'. intros s1 H1 Q.
  assert (G : forall l s1, nth_error (c_timers s1) j = Some (quench tm) ->
    nth_error (c_timers (fold_left stop_pipe l s1)) j = Some (quench tm)).
  { clear. induction l as [|kv l IH]; intros s1 Q; cbn [fold_left]; [assumption|]. apply IH.
    unfold stop_pipe. destruct (nth_error (c_heap s1) (snd kv)) as [p|]; [|auto].
    destruct (p_cleanup p) as [tid|]; [|auto]. unfold stop_timer.
    destruct (nth_error (c_timers s1) tid) as [x|] eqn:E; [|auto].
    destruct (tm_state x) eqn:ES; auto. cbn [fst c_timers]. rewrite nth_upd.
    destruct (Nat.eqb j tid) eqn:EJ; [|auto]. apply Nat.eqb_eq in EJ. subst tid. rewrite Q.
    assert (x = quench tm) by congruence. subst x. rewrite quench_state in ES. now destruct (tm_state tm). }
  now apply G.
Qed.

Lemma nth_error_ext {A} (l l' : list A) : length l = length l' ->
  (forall j x, nth_error l j = Some x -> nth_error l' j = Some x) -> l = l'.
Proof.
  revert l'; induction l as [|a l IH]; intros [|b l'] HL H; cbn in HL; try lia; [reflexivity|].
  f_equal; [specialize (H O a eq_refl); cbn in H; congruence|]. apply IH; [lia|].
  intros j x Hj. exact (H (S j) x Hj).
Qed.

Lemma close_shape cfg s : Inv cfg None s -> c_closed s = false ->
  close s = {| c_closed := true; c_pipes := c_pipes s; c_heap := c_heap s; c_timers := map quench (c_timers s) |}.
Proof.
  intros I O. unfold close. rewrite O.
  set (s0 := {| c_closed := true; c_pipes := _; c_heap := _; c_timers := _ |}).
  assert (P0 : partly s s0) by (unfold partly, s0; cbn; auto).
  destruct (fold_stop (c_pipes s) s s0 P0) as ((A & B & C & D) & E & F).
  set (s1 := fold_left stop_pipe (c_pipes s) s0) in *.
  assert (T : map quench (c_timers s) = c_timers s1).
  { apply nth_error_ext; [now rewrite map_length|]. intros j x Hx. rewrite nth_error_map in Hx.
    destruct (nth_error (c_timers s) j) as [tm|] eqn:HT; [|discriminate]. injection Hx as <-.
    destruct (tm_state tm) eqn:ES; try (destruct (D _ _ HT) as [X|X]; [rewrite X; unfold quench; now rewrite ES|exact X]).
    destruct (i_active _ _ _ I _ _ HT ES) as (_ & HK). destruct (i_heap _ _ _ I _ _ HK) as (p & HP & _).
    destruct (i_owner _ _ _ I _ _ _ _ _ HK HP HT eq_refl) as [X|X]; [congruence|].
    now apply (F j tm _ p HT HK HP X). }
  rewrite T. destruct s1; cbn in *; congruence.
Qed.

Lemma due_quench s s1 tm : c_pipes s1 = c_pipes s -> c_heap s1 = c_heap s -> due s1 (quench tm) = due s tm.
Proof.
  intros A B. unfold due, stored, pipe_segs. rewrite quench_state, quench_pipe, A, B. now destruct (tm_state tm).
Qed.

Lemma flat_quench s s1 l : c_pipes s1 = c_pipes s -> c_heap s1 = c_heap s ->
  flat_map (due s1) (map quench l) = flat_map (due s) l.
Proof.
  intros A B. induction l as [|tm l IH]; [reflexivity|]. cbn [map flat_map].
  now rewrite (due_quench s s1), IH.
Qed.

Lemma inv_close cfg s : Inv cfg None s ->
  Inv cfg None (close s) /\ held (close s) = held s /\ pending (close s) = pending s /\
  c_closed (close s) = true /\ c_pipes (close s) = c_pipes s /\ c_heap (close s) = c_heap s.
Proof.
  intros I. destruct (c_closed s) eqn:O.
  { unfold close. rewrite O. auto 10. }
  rewrite (close_shape cfg s I O). set (s1 := {| c_closed := true; c_pipes := _; c_heap := _; c_timers := _ |}).
  assert (TI : forall j x, nth_error (c_timers s1) j = Some x ->
    exists tm, nth_error (c_timers s) j = Some tm /\ x = quench tm).
  { intros j x Hx. cbn [s1 c_timers] in Hx. rewrite nth_error_map in Hx.
    destruct (nth_error (c_timers s) j) as [tm|]; [|discriminate]. injection Hx as <-. eauto. }
  assert (TS : forall tm, tm_state tm = TStopped -> tm_state (quench tm) = TStopped)
    by (intros tm E; now rewrite quench_state, E).
  split; [|repeat split; try reflexivity].
  - split; cbn [s1 c_pipes c_heap c_closed]; fold s1.
    + apply I.
    + apply I.
    + apply I.
    + intros j x Hx. apply TI in Hx as (tm & Hx & ->). rewrite quench_pipe. now apply (i_tpipe _ _ _ I j).
    + intros k id p j Hk Hp Hc. destruct (i_cleanup _ _ _ I k id p j Hk Hp Hc) as (tm & A & B & C & D).
      exists (quench tm). cbn [s1 c_timers]. rewrite nth_error_map, A. rewrite quench_pipe, quench_key, quench_state.
      repeat split; auto. destruct D as [D|[D|(D & _)]]; rewrite ?D; auto. destruct D; congruence.
    + intros k id p j x Hk Hp Hx HP. apply TI in Hx as (tm & Hx & ->). rewrite quench_pipe in HP.
      destruct (i_owner _ _ _ I k id p j tm Hk Hp Hx HP); auto.
    + intros j x Hx Ha. apply TI in Hx as (tm & Hx & ->). rewrite quench_state in Ha. now destruct (tm_state tm).
    + intros j x Hx Ha. apply TI in Hx as (tm & Hx & ->). rewrite quench_pipe. rewrite quench_state in Ha.
      apply (i_expired _ _ _ I j tm Hx). destruct (tm_state tm); intuition congruence.
    + intros j j' x x' NE Hx Hx' HP. apply TI in Hx as (tm & Hx & ->). apply TI in Hx' as (tm' & Hx' & ->).
      rewrite !quench_pipe in HP. destruct (i_one _ _ _ I j j' tm tm' NE Hx Hx' HP); auto.
    + intros H. cbn [s1 c_timers]. now rewrite (i_cfg _ _ _ I H).
  - unfold pending. cbn [s1 c_timers]. apply (flat_quench s s1); reflexivity.
Qed.

(** ** Any step *)

Lemma inv_step cfg s e s' o : Inv cfg None s -> step cfg s e = (s', o) ->
  Inv cfg None s' /\
  (cf_handler cfg = true ->
   Permutation (taken e o ++ held s ++ pending s) (returned o ++ held s' ++ pending s' ++ handled o)).
Proof.
  intros I H. destruct e as [g| | |tid|tid|tid]; cbn [step] in H.
  - destruct (collect cfg s g) as [s1 r] eqn:E. injection H as <- <-.
    destruct (inv_collect cfg s g s1 r I E) as (A & B). split; [assumption|]. intros _.
    unfold balanced in B. cbn [handled]. now rewrite app_nil_r.
  - injection H as <- <-. destruct (inv_close cfg s I) as (A & B & C & _). split; [assumption|]. intros _.
    cbn. now rewrite B, C, app_nil_r.
  - injection H as <- <-. split; [assumption|]. intros _. cbn. now rewrite app_nil_r.
  - assert (Z0 : Inv cfg None s /\ (cf_handler cfg = true ->
       Permutation (taken (EvFire tid) ONone ++ held s ++ pending s)
         (returned ONone ++ held s ++ pending s ++ handled ONone))).
    { split; [assumption|]. intros _. cbn. now rewrite app_nil_r. }
    destruct (nth_error (c_timers s) tid) as [tm|] eqn:HT; [|injection H as <- <-; exact Z0].
    destruct (tm_state tm) eqn:ES; injection H as <- <-; try exact Z0.
    destruct (i_active _ _ _ I _ _ HT ES) as (_ & HK). split.
    + apply inv_set_timer; auto; congruence.
    + intros _. cbn [taken returned handled app]. rewrite app_nil_r. apply Permutation_app_head.
      pose proof (pending_set_timer s tid tm TFired HT) as P. unfold due at 1 2 in P. rewrite ES in P.
      cbn [tm_state tm_pipe] in P.
      assert (X : stored s (tm_pipe tm) = true) by (apply stored_iff; now apply in_snd in HK).
      rewrite X in P. now symmetry.
  - assert (Z0 : Inv cfg None s /\ (cf_handler cfg = true ->
       Permutation (taken (EvExpire tid) ONone ++ held s ++ pending s)
         (returned ONone ++ held s ++ pending s ++ handled ONone))).
    { split; [assumption|]. intros _. cbn. now rewrite app_nil_r. }
    destruct (nth_error (c_timers s) tid) as [tm|] eqn:HT; [|injection H as <- <-; exact Z0].
    destruct (tm_state tm) eqn:ES; injection H as <- <-; try exact Z0.
    destruct (inv_expire cfg s tid tm I HT ES) as (I1 & NI & P1 & T1 & H1).
    set (s1 := expire_pipe s tm) in *. rewrite <- T1 in HT. split.
    + apply inv_set_timer; auto; try congruence; contradiction.
    + intros _. cbn [taken returned handled app]. rewrite app_nil_r, P1. apply Permutation_app_head.
      pose proof (pending_set_timer s1 tid tm TExpired HT) as P. unfold due at 1 2 in P. rewrite ES in P.
      cbn [tm_state tm_pipe] in P. apply Permutation_app_inv_l in P. now symmetry.
  - assert (Z0 : Inv cfg None s /\ (cf_handler cfg = true ->
       Permutation (taken (EvHandler tid) ONone ++ held s ++ pending s)
         (returned ONone ++ held s ++ pending s ++ handled ONone))).
    { split; [assumption|]. intros _. cbn. now rewrite app_nil_r. }
    destruct (nth_error (c_timers s) tid) as [tm|] eqn:HT; [|injection H as <- <-; exact Z0].
    destruct (tm_state tm) eqn:ES; injection H as <- <-; try exact Z0.
    assert (NI : ~ In (tm_pipe tm) (map snd (c_pipes s))) by (apply (i_expired _ _ _ I _ _ HT); auto).
    split.
    + apply inv_set_timer; auto; try congruence; contradiction.
    + intros ->. cbn [taken returned handled app]. apply Permutation_app_head.
      pose proof (pending_set_timer s tid tm TDone HT) as P. unfold due at 1 2 in P. rewrite ES in P.
      cbn [tm_state] in P. apply stored_false in NI. rewrite NI in P. cbn [app] in P.
      rewrite <- P. apply Permutation_app_comm.
Qed.

Lemma run_cons cfg s e es : run cfg s (e :: es) =
  (fst (run cfg (fst (step cfg s e)) es), snd (step cfg s e) :: snd (run cfg (fst (step cfg s e)) es)).
Proof. cbn [run]. destruct (step cfg s e) as [s1 o]. cbn. now destruct (run cfg s1 es). Qed.

Lemma run_app cfg es : forall s es', run cfg s (es ++ es') =
  (fst (run cfg (fst (run cfg s es)) es'), snd (run cfg s es) ++ snd (run cfg (fst (run cfg s es)) es')).
Proof.
  induction es as [|e es IH]; intros s es'; cbn [app].
  - cbn. now destruct (run cfg s es').
  - rewrite !run_cons, IH. reflexivity.
Qed.

Lemma inv_run cfg es : forall s, Inv cfg None s -> Inv cfg None (fst (run cfg s es)).
Proof.
  induction es as [|e es IH]; intros s I; [assumption|]. rewrite run_cons. cbn [fst]. apply IH.
  destruct (step cfg s e) as [s1 o] eqn:E. now apply (inv_step cfg s e s1 o I E).
Qed.

Lemma balance_run cfg es : cf_handler cfg = true -> forall s, Inv cfg None s ->
  let '(s', os) := run cfg s es in
  Permutation (all_taken es os ++ held s ++ pending s)
    (flat_map returned os ++ held s' ++ pending s' ++ flat_map handled os).
Proof.
  intros HC. induction es as [|e es IH]; intros s I.
  - cbn. now rewrite app_nil_r.
  - rewrite run_cons. destruct (step cfg s e) as [s1 o] eqn:E. cbn [fst snd].
    destruct (inv_step cfg s e s1 o I E) as (I1 & P). specialize (P HC). specialize (IH s1 I1).
    destruct (run cfg s1 es) as [s2 os]. cbn [fst snd all_taken flat_map].
    transitivity (all_taken es os ++ (taken e o ++ held s ++ pending s)).
    { rewrite <- !app_assoc. apply Permutation_app_swap_app. }
    rewrite P. transitivity (returned o ++ handled o ++ (all_taken es os ++ held s1 ++ pending s1)).
    { rewrite Permutation_app_swap_app. apply Permutation_app_head.
      rewrite !app_assoc. rewrite Permutation_app_comm. now rewrite <- !app_assoc. }
    rewrite IH, <- !app_assoc. apply Permutation_app_head.
    rewrite Permutation_app_swap_app. apply Permutation_app_head.
    rewrite Permutation_app_swap_app. apply Permutation_app_head.
    apply Permutation_app_swap_app.
Qed.
