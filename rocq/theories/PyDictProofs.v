From Verif Require Import PyBase PyDict.

Section DictProofs.
  Context {K V : Type} (eqb : K -> K -> bool).
  Hypothesis eqb_ok : forall a b, eqb a b = true <-> a = b.

  Lemma eqb_rfl : forall a, eqb a a = true.
  Proof. intros. now apply eqb_ok. Qed.

  Lemma eqb_no : forall a b, a <> b -> eqb a b = false.
  Proof.
    intros a b H. destruct (eqb a b) eqn:E; [|reflexivity]. apply eqb_ok in E. contradiction.
  Qed.

  Lemma dget_dset_same : forall (d : list (K * V)) k v, dget eqb k (dset eqb k v d) = Some v.
  Proof.
    induction d as [|[k' v'] d IH]; intros k v; cbn.
    - now rewrite eqb_rfl.
    - destruct (eqb k k') eqn:E; cbn; rewrite E; auto.
  Qed.

  Lemma dget_dset_other : forall (d : list (K * V)) k k2 v, k2 <> k ->
    dget eqb k2 (dset eqb k v d) = dget eqb k2 d.
  Proof.
    induction d as [|[k' v'] d IH]; intros k k2 v H; cbn.
    - now rewrite eqb_no.
    - destruct (eqb k k') eqn:E; cbn.
      + apply eqb_ok in E. subst. now rewrite eqb_no.
      + destruct (eqb k2 k'); auto.
  Qed.

  Lemma dget_In : forall (d : list (K * V)) k v, dget eqb k d = Some v -> In (k, v) d.
  Proof.
    induction d as [|[k' v'] d IH]; intros k v H; cbn in H; [discriminate|].
    destruct (eqb k k') eqn:E.
    - apply eqb_ok in E. injection H as ->. subst. now left.
    - right. auto.
  Qed.

  Lemma dget_None : forall (d : list (K * V)) k, dget eqb k d = None <-> ~ In k (map fst d).
  Proof.
    induction d as [|[k' v'] d IH]; intros k; cbn.
    - tauto.
    - destruct (eqb k k') eqn:E.
      + apply eqb_ok in E. subst. split; [discriminate|]. intros H. destruct H. now left.
      + rewrite IH. split.
        * intros H [->|H1]; [|auto]. rewrite eqb_rfl in E. discriminate.
        * tauto.
  Qed.

  Lemma dget_Some_In : forall (d : list (K * V)) k v,
    NoDup (map fst d) -> In (k, v) d -> dget eqb k d = Some v.
  Proof.
    induction d as [|[k' v'] d IH]; intros k v H Hin; cbn in *; [contradiction|].
    inversion H as [|? ? H1 H2]; subst. destruct Hin as [E|Hin].
    - injection E as -> ->. now rewrite eqb_rfl.
    - rewrite eqb_no; [auto|]. intros ->. apply H1.
      apply in_map_iff. now exists (k', v).
  Qed.

  Lemma dset_keys : forall (d : list (K * V)) k v,
    map fst (dset eqb k v d) = if dmem eqb k d then map fst d else map fst d ++ [k].
  Proof.
    unfold dmem. induction d as [|[k' v'] d IH]; intros k v; cbn; [reflexivity|].
    destruct (eqb k k') eqn:E; cbn; [reflexivity|].
    rewrite IH. destruct (dget eqb k d); reflexivity.
  Qed.

  Lemma dset_keys_in : forall (d : list (K * V)) k v x,
    In x (map fst (dset eqb k v d)) <-> x = k \/ In x (map fst d).
  Proof.
    intros d k v x. rewrite dset_keys. unfold dmem.
    destruct (dget eqb k d) eqn:E.
    - split; [tauto|]. intros [->|H]; [|exact H].
      apply dget_In in E. apply in_map_iff. now exists (k, v0).
    - rewrite in_app_iff. cbn. firstorder.
  Qed.

  Lemma dset_NoDup : forall (d : list (K * V)) k v,
    NoDup (map fst d) -> NoDup (map fst (dset eqb k v d)).
  Proof.
    intros d k v H. rewrite dset_keys. unfold dmem.
    destruct (dget eqb k d) eqn:E; [exact H|].
    apply dget_None in E. apply NoDup_rev in H.
    rewrite <- (rev_involutive (map fst d ++ [k])). apply NoDup_rev.
    rewrite rev_app_distr. cbn. constructor; [|exact H].
    now rewrite <- in_rev.
  Qed.

  Lemma dset_fresh : forall (d : list (K * V)) k v,
    ~ In k (map fst d) -> dset eqb k v d = d ++ [(k, v)].
  Proof.
    induction d as [|[k' v'] d IH]; intros k v H; cbn in *; [reflexivity|].
    rewrite eqb_no by (intros ->; apply H; now left). f_equal. apply IH. tauto.
  Qed.

  Lemma ddel_keys_in : forall (d : list (K * V)) k x,
    NoDup (map fst d) -> (In x (map fst (ddel eqb k d)) <-> x <> k /\ In x (map fst d)).
  Proof.
    induction d as [|[k' v'] d IH]; intros k x H; cbn in *; [tauto|].
    inversion H as [|? ? H1 H2]; subst. destruct (eqb k k') eqn:E.
    - apply eqb_ok in E. subst. split.
      + intros Hx. split; [|now right]. intros ->. contradiction.
      + intros [Hn [->|Hx]]; [contradiction|exact Hx].
    - cbn. rewrite (IH k x H2). split.
      + intros [<-|[Hn Hx]]; [|tauto]. split; [|now left].
        intros ->. rewrite eqb_rfl in E. discriminate.
      + tauto.
  Qed.

  Lemma ddel_NoDup : forall (d : list (K * V)) k,
    NoDup (map fst d) -> NoDup (map fst (ddel eqb k d)).
  Proof.
    induction d as [|[k' v'] d IH]; intros k H; cbn in *; [constructor|].
    inversion H as [|? ? H1 H2]; subst. destruct (eqb k k') eqn:E; [exact H2|].
    cbn. constructor; [|auto]. intros Hin. apply ddel_keys_in in Hin; tauto.
  Qed.

  Lemma dget_ddel_same : forall (d : list (K * V)) k,
    NoDup (map fst d) -> dget eqb k (ddel eqb k d) = None.
  Proof.
    intros d k H. apply dget_None. intros Hin. apply ddel_keys_in in Hin; tauto.
  Qed.

  Lemma dget_ddel_other : forall (d : list (K * V)) k k2, k2 <> k ->
    dget eqb k2 (ddel eqb k d) = dget eqb k2 d.
  Proof.
    induction d as [|[k' v'] d IH]; intros k k2 H; cbn; [reflexivity|].
    destruct (eqb k k') eqn:E; cbn.
    - apply eqb_ok in E. subst. now rewrite eqb_no.
    - destruct (eqb k2 k'); auto.
  Qed.
End DictProofs.
