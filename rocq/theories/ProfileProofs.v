(** Proofs about configuration profiles. *)
From Coq Require Import Lia Permutation.
From Verif Require Import PyBase PyBaseProofs PyDict PyDictProofs ValidationModel ValidationSpec ValidationProofs
  XmlModel XmlSpec XmlProofs NamesModel
  ItemModel ItemSpec PsetProofs ItemProofs ItemSetProofs ItemProfileProofs ItemReachProofs ItemEffectProofs
  EmitProofs CellProofs HardwareModel HardwareSpec HardwareProofs HardwareIdProofs UpdateProofs
  UpdateHistoryProofs ProfileModel ProfileSpec.

(** ** Editing devices one after the other *)

Lemma each_key : forall (f : item -> result item) ks h h', NoDup ks -> NoDup (map fst h) ->
  fold_result (fun h k => do i <- hitem k h; do i' <- f i; Ok (hset k i' h)) ks h = Ok h' ->
  map fst h' = map fst h /\
  (forall k, In k ks -> exists i i', hitem k h = Ok i /\ f i = Ok i' /\ hitem k h' = Ok i') /\
  (forall k, ~ In k ks -> hitem k h' = hitem k h).
Proof.
  intros f. induction ks as [|k ks IH]; intros h h' NDk ND H; cbn [fold_result] in H.
  - injection H as <-. split; [reflexivity|]. split; [contradiction|reflexivity].
  - destruct (hitem k h) as [i|] eqn:Ei; [|discriminate]. cbn [rbind] in H.
    destruct (f i) as [i'|] eqn:Ef; [|discriminate]. cbn [rbind] in H.
    inversion NDk as [|a b Hn NDk']; subst.
    apply IH in H as (H1 & H2 & H3); [|exact NDk'|now apply hset_NoDup].
    assert (Hk : map fst (hset k i' h) = map fst h).
    { unfold hset. rewrite (dset_keys str_eqb). replace (dmem str_eqb k h) with true; [reflexivity|].
      symmetry. apply dmem_taken. exists i. now apply hitem_In. }
    assert (Hs : hitem k (hset k i' h) = Ok i').
    { apply hitem_In; [now apply hset_NoDup|]. apply hset_In; [exact ND|]. now left. }
    assert (Ho : forall k', k' <> k -> hitem k' (hset k i' h) = hitem k' h).
    { intros k' Hk'. unfold hitem, hget, hset. now rewrite (dget_dset_other str_eqb str_eqb_eq). }
    split; [congruence|]. split.
    + intros k' [<- |Hk'].
      * exists i, i'. split; [exact Ei|]. split; [exact Ef|]. rewrite H3 by exact Hn. exact Hs.
      * destruct (H2 k' Hk') as (j & j' & Hj & Hf & Hj'). exists j, j'. split; [|auto].
        rewrite <- Ho; [exact Hj|]. congruence.
    + intros k' Hk'. cbn in Hk'. rewrite H3 by tauto. apply Ho. intros ->. tauto.
Qed.

Lemma rfilter_spec : forall (A : Type) (f : A -> result bool) l r, rfilter f l = Ok r ->
  forall x, In x r <-> In x l /\ f x = Ok true.
Proof.
  intros A f. induction l as [|a l IH]; intros r H x; cbn [rfilter] in H.
  - injection H as <-. cbn. tauto.
  - destruct (f a) as [b|] eqn:Ef; [|discriminate]. cbn [rbind] in H.
    destruct (rfilter f l) as [r0|] eqn:Er; [|discriminate]. cbn [rbind] in H. injection H as <-.
    specialize (IH r0 eq_refl x). destruct b; cbn [In].
    + rewrite IH. split; [intros [<- |[H1 H2]]; auto|]. intros [[<- |H1] H2]; auto.
    + rewrite IH. split; [intros [H1 H2]; auto|]. intros [[<- |H1] H2]; [congruence|auto].
Qed.

Lemma rfilter_NoDup : forall (A : Type) (f : A -> result bool) l r, rfilter f l = Ok r -> NoDup l -> NoDup r.
Proof.
  intros A f. induction l as [|a l IH]; intros r H ND; cbn [rfilter] in H.
  - injection H as <-. constructor.
  - destruct (f a) as [b|] eqn:Ef; [|discriminate]. cbn [rbind] in H.
    destruct (rfilter f l) as [r0|] eqn:Er; [|discriminate]. cbn [rbind] in H. injection H as <-.
    inversion ND as [|x y Hn ND']; subst. specialize (IH r0 eq_refl ND').
    destruct b; [|exact IH]. constructor; [|exact IH]. intros Hin.
    apply (rfilter_spec _ f l r0 Er) in Hin as [Hin _]. contradiction.
Qed.

Lemma rfilter_all_ok : forall (A : Type) (f : A -> result bool) l, (forall x, In x l -> exists b, f x = Ok b) ->
  exists r, rfilter f l = Ok r.
Proof.
  intros A f. induction l as [|a l IH]; intros H; cbn [rfilter]; [eauto|].
  destruct (H a (or_introl eq_refl)) as [b ->]. cbn [rbind].
  destruct IH as [r ->]; [intros x Hx; apply H; now right|]. cbn [rbind]. eauto.
Qed.

(** ** find_all_items *)

Lemma find_all_spec : forall E h rt l P ks, NoDup (map fst h) -> find_all_items E h rt l P = Ok ks ->
  NoDup ks /\ forall k, In k ks <-> exists i, In (k, i) h /\ item_match E i rt l P = Ok true.
Proof.
  intros E h rt l P ks ND H. unfold find_all_items in H.
  destruct (natural_sort (map fst h)) as [keys|] eqn:Ek; [|discriminate]. cbn [rbind] in H.
  apply natural_sort_sound in Ek as [Pm _].
  assert (NDk : NoDup keys) by now apply (Permutation_NoDup Pm).
  split; [exact (rfilter_NoDup _ _ keys ks H NDk)|]. intros k.
  rewrite (rfilter_spec _ _ _ _ H). split.
  - intros [_ Hk]. destruct (hitem k h) as [i|] eqn:Ei; [|discriminate]. cbn [rbind] in Hk.
    exists i. split; [now apply hitem_In|exact Hk].
  - intros (i & Hin & Hm). split.
    + apply (Permutation_in _ Pm). apply in_map_iff. now exists (k, i).
    + apply hitem_In in Hin; [|exact ND]. rewrite Hin. exact Hm.
Qed.

Lemma drop_profile_spec : forall E h p h', ids_ok (e_ver E) h -> drop_profile E h p = Ok h' ->
  map fst h' = map fst h /\
  forall k i i', In (k, i) h -> In (k, i') h' -> loses_profile E p i i'.
Proof.
  intros E h p h' [ND Hh] H. unfold drop_profile in H.
  destruct (find_all_items E h None [] [Some p]) as [ks|] eqn:Ef; [|discriminate]. cbn [rbind] in H.
  apply find_all_spec in Ef as [NDk Hks]; [|exact ND].
  apply (each_key (fun i => remove_profile E i (Some p) false)) in H as (H1 & H2 & H3); [|exact NDk|exact ND].
  split; [exact H1|]. intros k i i' Hi Hi'.
  assert (ND' : NoDup (map fst h')) by now rewrite H1.
  apply (hitem_In _ _ _ ND) in Hi as Ei. apply (hitem_In _ _ _ ND') in Hi'.
  assert (Hm : item_match E i None [] [Some p] = Ok (has_profile E i (Some p))).
  { unfold item_match, type_match. cbn. now destruct (has_profile E i (Some p)). }
  pose proof (proj1 (Hh k i Hi)) as R. apply reachable_good in R as G.
  unfold loses_profile. destruct (has_profile E i (Some p)) eqn:Ep.
  - assert (Hk : In k ks) by (apply Hks; now exists i).
    destruct (H2 k Hk) as (j & j' & Hj & Hr & Hj'). rewrite Ei in Hj. injection Hj as <-.
    rewrite Hi' in Hj'. injection Hj' as ->.
    destruct (remove_profile_only E i p R Ep) as (i2 & Hr2 & Hq & _).
    rewrite Hr in Hr2. injection Hr2 as ->.
    rewrite remove_profile_eq in Hr by exact G. rewrite Ep in Hr. injection Hr as Hr.
    split; [|split; [|split]].
    + intros n v Ho. rewrite <- Hr in Ho. cbn [i_props with_modified with_props] in Ho.
      apply (removed_own_nosplit _ _ _ _ _ _ _ G) in Ho as [Ho _]. contradiction.
    + intros n q v Hne. rewrite <- Hr. cbn [i_props with_modified with_props].
      rewrite (removed_own_nosplit _ _ _ _ _ _ _ G). tauto.
    + intros n q Hne. now apply Hq.
    + now rewrite <- Hr.
  - assert (Hk : ~ In k ks).
    { intros Hk. apply Hks in Hk as (j & Hj & Hjm). apply (hitem_In _ _ _ ND) in Hj.
      rewrite Ei in Hj. injection Hj as <-. rewrite Hm in Hjm. discriminate. }
    rewrite (H3 k Hk), Ei in Hi'. now injection Hi'.
Qed.

Lemma fold_total : forall (A S : Type) (I : S -> Prop) (f : S -> A -> result S) l s, I s ->
  (forall s a, I s -> In a l -> exists s', f s a = Ok s' /\ I s') ->
  exists s', fold_result f l s = Ok s'.
Proof.
  intros A S I f. induction l as [|a l IH]; intros s Hs H; cbn [fold_result]; [eauto|].
  destruct (H s a Hs (or_introl eq_refl)) as (s' & -> & Hs'). cbn [rbind].
  apply IH; [exact Hs'|]. intros t b Ht Hb. apply H; [exact Ht|now right].
Qed.

Lemma drop_profile_ok : forall E h p, ids_ok (e_ver E) h ->
  (forall k, taken h k -> plain_text k) -> exists h', drop_profile E h p = Ok h'.
Proof.
  intros E h p [ND Hh] Hpl. unfold drop_profile, find_all_items.
  assert (Hpk : forall k, In k (map fst h) -> plain_text k) by (intros k Hk; apply Hpl; now apply taken_iff).
  destruct (natural_sort_ok (map fst h) Hpk) as (keys & -> & [Pm _] & _). cbn [rbind].
  destruct (rfilter_all_ok _ (fun k => do i <- hitem k h; item_match E i None [] [Some p]) keys) as [ks Hks].
  { intros k Hk. apply (Permutation_in _ (Permutation_sym Pm)) in Hk. apply taken_iff in Hk as [i Hi].
    apply (hitem_In _ _ _ ND) in Hi. rewrite Hi. cbn [rbind]. unfold item_match, type_match. cbn.
    destruct (has_profile E i (Some p)); cbn; eexists; reflexivity. }
  rewrite Hks. cbn [rbind].
  apply (fold_total _ _ (fun g => ids_ok (e_ver E) g /\ map fst g = map fst h)); [split; [now split|reflexivity]|].
  intros g k [Hg Hkeys] Hk.
  assert (Ht : taken g k).
  { apply taken_iff. rewrite Hkeys. apply (rfilter_spec _ _ _ _ Hks) in Hk as [Hk _].
    now apply (Permutation_in _ (Permutation_sym Pm)). }
  destruct Ht as [i Hi]. pose proof (proj2 Hg k i Hi) as Hid.
  apply (hitem_In _ _ _ (proj1 Hg)) in Hi as Ei. rewrite Ei. cbn [rbind].
  rewrite remove_profile_eq by exact (reachable_good _ _ (proj1 Hid)). cbn [rbind].
  eexists. split; [reflexivity|]. split.
  - apply ids_hset; [exact Hg|]. apply (id_remove E k i (Some p) false); [exact Hid|].
    apply remove_profile_eq. exact (reachable_good _ _ (proj1 Hid)).
  - unfold hset. rewrite (dset_keys str_eqb). replace (dmem str_eqb k g) with true; [exact Hkeys|].
    symmetry. apply dmem_taken. now exists i.
Qed.

(** A device without records writes nothing. *)
Lemma generate_husk : forall E i, reachable (e_ver E) i -> (forall n q v, ~ own (i_props i) n q v) ->
  generate_items E i = Ok [].
Proof.
  intros E i R H. apply reachable_good in R as G. unfold generate_items, get_nonintersecting_set_list.
  assert (Hp : partition (i_props i) = []).
  { destruct (partition (i_props i)) as [|s l] eqn:Ep; [reflexivity|]. exfalso.
    pose proof (partition_parts _ _ G) as P. rewrite Ep in P.
    destruct (p_ne _ _ P s (or_introl eq_refl)) as [Hs _]. destruct s as [|q s]; [congruence|].
    destruct (proj1 (p_cover _ _ P q)) as (n & v & Ho); [exists (q :: s); split; now left|].
    now apply H in Ho. }
  rewrite Hp. cbn [rmap rbind].
  replace (natural_sort []) with (@Ok (list str) []) by reflexivity. cbn [rbind].
  destruct (item_tag_for_namespace (e_ver E) (i_ns i)) as [t|] eqn:Et; [reflexivity|].
  exfalso. unfold item_tag_for_namespace in Et.
  destruct (reachable_ns _ _ R) as [Hn|[Hn|Hn]]; rewrite Hn in Et; rewrite ?str_eqb_refl in Et;
    destruct (e_ver E); vm_compute in Et; discriminate.
Qed.
