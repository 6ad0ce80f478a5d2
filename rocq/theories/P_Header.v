(** C55: the elements of a header.  Specification in SpecHeader.v. *)
From Verif Require Import GoBase GoLemmas UserData SpecHeader.

Lemma find_ie_snoc l i id : find_ie (l ++ [i]) id = if ie_id i =? id then Some i else find_ie l id.
Proof. unfold find_ie. rewrite rev_app_distr. reflexivity. Qed.

Theorem C55_ie : forall l id i, find_ie l id = Some i <-> last_with id l i.
Proof.
  intros l id i. induction l as [|j l IH] using rev_ind.
  - split; [discriminate|]. intros (b & a & H & _). destruct b; discriminate.
  - rewrite find_ie_snoc. destruct (ie_id j =? id) eqn:E.
    + split.
      * intros H. injection H as <-. exists l, []. split; [reflexivity|]. split; [lia|constructor].
      * intros (b & a & H & Hi & Ha). destruct a as [|x a] using rev_ind.
        -- apply app_inj_tail in H as [_ ->]. reflexivity.
        -- rewrite app_comm_cons, app_assoc in H. apply app_inj_tail in H as [_ ->].
           apply Forall_app in Ha as [_ Ha]. apply Forall_inv in Ha. lia.
    + rewrite IH. split; intros (b & a & H & Hi & Ha).
      * exists b, (a ++ [j]). rewrite H. split; [now rewrite <- app_assoc|]. split; [exact Hi|].
        apply Forall_app. split; [exact Ha|]. constructor; [lia|constructor].
      * destruct a as [|x a _] using rev_ind.
        -- apply app_inj_tail in H as [_ ->]. lia.
        -- rewrite app_comm_cons, app_assoc in H. apply app_inj_tail in H as [-> ->].
           exists b, a. split; [reflexivity|]. split; [exact Hi|]. now apply Forall_app in Ha as [Ha _].
Qed.
Print Assumptions C55_ie.

Theorem C55_ie_none : forall l id, find_ie l id = None <-> Forall (fun i => ie_id i <> id) l.
Proof.
  intros l id. induction l as [|j l IH] using rev_ind; [split; [constructor|reflexivity]|].
  rewrite find_ie_snoc, Forall_app. destruct (ie_id j =? id) eqn:E.
  - split; [discriminate|]. intros [_ H]. apply Forall_inv in H. lia.
  - rewrite IH. split; [intros H; split; [exact H|constructor; [lia|constructor]]|tauto].
Qed.
Print Assumptions C55_ie_none.

Theorem C55_ies : forall l id r, find_ies l id = r <-> all_with id l r.
Proof.
  intros l id. unfold find_ies. induction l as [|i l IH]; intros r; cbn [filter].
  - split; [intros <-; constructor|]. now inversion 1.
  - destruct (ie_id i =? id) eqn:E; split.
    + intros <-. constructor; [lia|]. now apply IH.
    + inversion 1 as [| ? ? r' Hi Hr| ]; subst; [|lia]. f_equal. now apply IH.
    + intros H. apply aw_skip; [lia|]. now apply IH.
    + inversion 1 as [| | ? ? ? Hi Hr]; subst; [lia|]. now apply IH.
Qed.
Print Assumptions C55_ies.

Theorem C55_concat_info : forall l p, concat_info l = Some p <-> says_part l p.
Proof.
  assert (H8 : forall l p, concat_info8 l = Some p <->
            exists i ref total seq, last_with 0 l i /\ ie_data i = [ref; total; seq] /\ p = (total, seq, ref)).
  { intros l p. unfold concat_info8. split.
    - destruct (find_ie l 0) as [i|] eqn:E; [|discriminate]. apply C55_ie in E.
      destruct (ie_data i) as [|r [|t [|s [|? ?]]]] eqn:ED; try discriminate. intros H. injection H as <-. eauto 10.
    - intros (i & r & t & s & E & ED & ->). apply C55_ie in E. now rewrite E, ED. }
  assert (H16 : forall l p, concat_info16 l = Some p <->
            exists i hi lo total seq, last_with 8 l i /\ ie_data i = [hi; lo; total; seq] /\ p = (total, seq, 256 * hi + lo)).
  { intros l p. unfold concat_info16. split.
    - destruct (find_ie l 8) as [i|] eqn:E; [|discriminate]. apply C55_ie in E.
      destruct (ie_data i) as [|h [|o [|t [|s [|? ?]]]]] eqn:ED; try discriminate. intros H. injection H as <-.
      exists i, h, o, t, s. split; [exact E|]. split; [exact ED|]. f_equal. lia.
    - intros (i & h & o & t & s & E & ED & ->). apply C55_ie in E. rewrite E, ED. do 2 f_equal. lia. }
  intros l p.
  assert (concat_info l = match concat_info8 l with Some x => Some x | None => concat_info16 l end) as ->
    by (destruct l; reflexivity).
  split.
  - destruct (concat_info8 l) as [q|] eqn:E.
    + intros H. injection H as <-. apply H8 in E as (i & r & t & s & E & ED & ->). now apply sp_8 with i.
    + intros H. apply H16 in H as (i & h & o & t & s & Ei & ED & ->). apply sp_16 with i; [|exact Ei|exact ED].
      intros j Hj HL. destruct (ie_data j) as [|a [|b [|c [|? ?]]]] eqn:EJ; try discriminate HL.
      2:{ rewrite !len_cons in HL. pose proof (len_nonneg l0). lia. }
      assert (concat_info8 l = Some (b, c, a)) by (apply H8; eauto 10). congruence.
  - intros [i r t s E ED|i h o t s HN E ED].
    + assert (concat_info8 l = Some (t, s, r)) as -> by (apply H8; eauto 10). reflexivity.
    + destruct (concat_info8 l) as [q|] eqn:E8.
      * apply H8 in E8 as (j & r' & t' & s' & Ej & EDj & _). exfalso. apply (HN j Ej). now rewrite EDj.
      * apply H16. eauto 10.
Qed.
Print Assumptions C55_concat_info.

(** Two elements of one kind, and concatenation elements of both kinds of which
    the 8-bit one is malformed. *)
Example C55_instance :
  let l := [{| ie_id := 5; ie_data := [1] |}; {| ie_id := 8; ie_data := [1; 2; 3; 1] |};
            {| ie_id := 0; ie_data := [7; 8] |}; {| ie_id := 5; ie_data := [2] |}] in
  find_ie l 5 = Some {| ie_id := 5; ie_data := [2] |} /\
  find_ies l 5 = [{| ie_id := 5; ie_data := [1] |}; {| ie_id := 5; ie_data := [2] |}] /\
  concat_info l = Some (3, 1, 258) /\ find_ie l 24 = None.
Proof. repeat split. Qed.
