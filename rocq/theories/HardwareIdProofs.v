(** Every operation keeps InstanceIDs unique. *)
From Coq Require Import Lia Permutation.
From Verif Require Import PyBase PyBaseProofs PyDict PyDictProofs ValidationModel XmlModel NamesModel
  ItemModel ItemSpec PsetProofs ItemProofs ItemSetProofs ItemProfileProofs ItemReachProofs
  ItemEffectProofs EmitProofs HardwareModel HardwareSpec HardwareProofs.

Lemma ids_fold : forall (A : Type) ver (f : hw -> A -> result hw) l h h',
  (forall g a g', ids_ok ver g -> f g a = Ok g' -> ids_ok ver g') ->
  ids_ok ver h -> fold_result f l h = Ok h' -> ids_ok ver h'.
Proof.
  intros A ver f l h h' Hf Hh. apply (fold_result_inv _ _ _ (ids_ok ver)); [|exact Hh].
  intros g a g' _. apply Hf.
Qed.

Lemma RT_not_IID : forall v, RESOURCE_TYPE <> INSTANCE_ID v.
Proof. intros [] H; discriminate H. Qed.
Lemma EN_not_IID : forall v, ELEMENT_NAME v <> INSTANCE_ID v.
Proof. intros [] H; discriminate H. Qed.
Lemma AOP_not_IID : forall v, ADDRESS_ON_PARENT <> INSTANCE_ID v.
Proof. intros [] H; discriminate H. Qed.

Lemma id_set_other : forall E k i n x P ow i', id_is (e_ver E) k i ->
  n <> INSTANCE_ID (e_ver E) -> set_property E i n x P ow = Ok i' -> id_is (e_ver E) k i'.
Proof. intros E k i n x P ow i' Hi Hn. apply id_set; [exact Hi|contradiction]. Qed.

Lemma same_other : forall E i n x P ow i', reachable (e_ver E) i -> n <> INSTANCE_ID (e_ver E) ->
  set_property E i n x P ow = Ok i' -> forall q v,
  own (i_props i) (INSTANCE_ID (e_ver E)) q v -> own (i_props i') (INSTANCE_ID (e_ver E)) q v.
Proof.
  intros E i n x P ow i' R Hn H q v. apply set_property_effect in H as (v0 & _ & _ & _ & _ & Hm); [|exact R].
  apply Hm. congruence.
Qed.

Lemma new_item_inv : forall E h rt P k h', new_item E h rt P = Ok (k, h') ->
  exists i, first_free h 1 k /\ h' = hset k i h /\ id_is (e_ver E) k i /\ has_id E i k.
Proof.
  intros E h rt P k h'. unfold new_item.
  destruct (find_unused_instance_id h 1) as [id|] eqn:Ei; [|discriminate]. cbn [rbind].
  apply unused_from_spec in Ei.
  destruct (set_property E _ (INSTANCE_ID _) _ _ _) as [i1|] eqn:E1; [|discriminate]. cbn [rbind].
  destruct (res_map rt) as [v|]; [|discriminate]. cbn [rbind].
  destruct (set_property E i1 _ _ _ _) as [i2|] eqn:E2; [|discriminate]. cbn [rbind].
  destruct (set_property E i2 _ _ _ _) as [i3|] eqn:E3; [|discriminate]. cbn [rbind].
  intros H. injection H as <- <-. exists (with_modified true i3).
  split; [exact Ei|]. split; [reflexivity|].
  pose proof (id_assign_own _ _ _ _ _ (R_new _ E eq_refl) (first_free_nonempty _ _ _ Ei) E1) as [q Hq].
  apply id_assign in E1; [|now apply R_new|exact (first_free_nonempty _ _ _ Ei)].
  apply (same_other E _ _ _ _ _ i2 (proj1 E1) (RT_not_IID _) E2) in Hq.
  apply (id_set_other E id) in E2; [|exact E1|apply RT_not_IID].
  apply (same_other E _ _ _ _ _ i3 (proj1 E2) (EN_not_IID _) E3) in Hq.
  apply (id_set_other E id) in E3; [|exact E2|apply EN_not_IID].
  split; [now apply id_modified|]. apply (own_has_id E _ q); [apply R_saved, E3|exact Hq].
Qed.

Lemma clone_item_inv : forall E h k P k' h', ids_ok (e_ver E) h ->
  clone_item E h k P = Ok (k', h') ->
  exists i start, py_int k = Some start /\ first_free h start k' /\ h' = hset k' i h /\
    id_is (e_ver E) k' i /\ has_id E i k'.
Proof.
  intros E h k P k' h' Hh. unfold clone_item.
  destruct (hitem k h) as [i|] eqn:Eh; [|discriminate]. cbn [rbind].
  apply (ids_item (e_ver E)) in Eh as [R Hk]; [|exact Hh]. apply reachable_good in R as G.
  rewrite get_value_plain by apply IID_plain. cbn [rbind].
  destruct (get_raw _ _ _) as [[s|]|] eqn:Eg; try discriminate.
  assert (s = k) as ->.
  { unfold get_raw in Eg. destruct (prget _ _) as [d|] eqn:Ed; [|discriminate].
    destruct d as [|[v t] [|]]; try discriminate. injection Eg as ->.
    pose proof (good_dict _ _ _ _ G Ed) as (_ & Gd & _).
    destruct (Gd (VStr s) t) as (_ & Ht & _); [now left|].
    destruct t as [|q t]; [congruence|].
    assert (VStr s = VStr k) as F; [|congruence]. apply (Hk q).
    apply (own_Some _ _ _ _ _ (proj1 G) Ed). exists (q :: t). split; now left. }
  destruct (py_int k) as [start|]; [|discriminate].
  destruct (find_unused_instance_id h start) as [id|] eqn:Ei; [|discriminate]. cbn [rbind].
  apply unused_from_spec in Ei.
  destruct (fold_result _ (e_profiles E) _) as [i1|] eqn:E1; [|discriminate]. cbn [rbind].
  destruct (set_property E i1 _ _ _ _) as [i2|] eqn:E2; [|discriminate]. cbn [rbind].
  intros H. injection H as <- <-. exists (with_modified true i2), start.
  split; [reflexivity|]. split; [exact Ei|]. split; [reflexivity|].
  assert (R1 : reachable (e_ver E) i1).
  { revert E1. apply (fold_result_inv _ _ _ (reachable (e_ver E))).
    - intros j p j' _ Rj. destruct (_ && _); [|intros F; now injection F as <-].
      intros F. exact (R_remove_profile _ E _ _ _ _ eq_refl Rj F).
    - now apply R_clone. }
  destruct (id_assign_own E i1 id P i2 R1 (first_free_nonempty _ _ _ Ei) E2) as [q Hq].
  apply (id_assign E i1 id P i2 R1 (first_free_nonempty _ _ _ Ei)) in E2.
  split; [now apply id_modified|]. apply (own_has_id E _ q); [apply R_saved, E2|exact Hq].
Qed.

Lemma id_update_cloned : forall E nic k i P n i', id_is (e_ver E) k i ->
  update_cloned E nic i P n = Ok i' -> id_is (e_ver E) k i'.
Proof.
  intros E nic k i P n i' Hi. unfold update_cloned.
  destruct (get_value _ _ _ _) as [rt|]; [|discriminate]. cbn [rbind].
  destruct (match prget ADDRESS (i_props i) with Some (_ :: _) => true | _ => false end); [discriminate|].
  match goal with |- context [rbind ?a _] => destruct a as [i1|] eqn:E1 end; [|discriminate].
  cbn [rbind].
  assert (I1 : id_is (e_ver E) k i1).
  { destruct (get_all_values _ _) as [|[a|] [|]]; try discriminate.
    - now injection E1 as <-.
    - destruct (py_int a); [|discriminate].
      apply (id_set_other E k) in E1; [exact E1|exact Hi|apply AOP_not_IID]. }
  destruct rt as [[t|]|]; try (intros H; now injection H as <-).
  destruct (str_eqb t (L "10")); [|intros H; now injection H as <-].
  intros H. apply (id_set_other E k) in H; [exact H|exact I1|apply EN_not_IID].
Qed.

Lemma ids_update_item : forall E count P h cd seen k h' cd' seen', ids_ok (e_ver E) h ->
  update_item E count P (h, cd, seen) k = Ok (h', cd', seen') -> ids_ok (e_ver E) h'.
Proof.
  intros E count P h cd seen k h' cd' seen' Hh. unfold update_item.
  destruct (hitem k h) as [i|] eqn:Ei; [|discriminate]. cbn [rbind].
  apply (ids_item (e_ver E)) in Ei; [|exact Hh].
  destruct (fold_result (update_step E count) P (i, cd, seen)) as [[[i' c1] c2]|] eqn:Ef;
    [|discriminate]. cbn [rbind].
  intros H. injection H as <- _ _. apply ids_hset; [exact Hh|].
  change i' with (fst (fst (i', c1, c2))).
  apply (fold_result_inv _ _ _ (fun s => id_is (e_ver E) k (fst (fst s)))) in Ef; [exact Ef| |exact Ei].
  intros [[j a] b] p [[j' a'] b'] _ Hj. unfold update_step. cbn [fst] in *.
  destruct (has_profile E j p).
  - destruct (count <=? cget b p)%Z.
    + destruct (remove_profile E j p true) as [j1|] eqn:Er; [|discriminate]. cbn [rbind].
      intros H. injection H as <- _ _. now apply (id_remove E k) in Er.
    + intros H. now injection H as <- _ _.
  - destruct (cget a p <? count)%Z.
    + destruct (add_profile E j p None) as [j1|] eqn:Er; [|discriminate]. cbn [rbind].
      intros H. injection H as <- _ _. now apply (id_add_profile E k) in Er.
    + intros H. now injection H as <- _ _.
Qed.

Lemma ids_update_existing : forall E h rt count P h' cd n o, ids_ok (e_ver E) h ->
  update_existing E h rt count P = Ok (h', cd, n, o) -> ids_ok (e_ver E) h'.
Proof.
  intros E h rt count P h' cd n o Hh. unfold update_existing.
  destruct (item_counts E h (Some rt) P) as [c0|]; [|discriminate]. cbn [rbind].
  destruct (find_all_items E h (Some rt) [] []) as [ks|]; [|discriminate]. cbn [rbind].
  destruct (fold_result _ ks _) as [[[h1 c1] c2]|] eqn:Ef; [|discriminate]. cbn [rbind].
  intros H. injection H as <- _ _ _.
  apply (fold_result_inv _ _ _ (fun s => ids_ok (e_ver E) (fst (fst s)))) in Ef; [exact Ef| |exact Hh].
  intros [[g a] b] k [[g' a'] b'] _ Hg. cbn [fst] in *. now apply ids_update_item.
Qed.

Lemma ids_add_items : forall E nic n h rt count P cd o h', ids_ok (e_ver E) h ->
  add_items E nic n h rt count P cd o = Ok h' -> ids_ok (e_ver E) h'.
Proof.
  intros E nic n. induction n as [|n IH]; intros h rt count P cd o h' Hh H; cbn [add_items] in H.
  - now injection H as <-.
  - destruct (wanting count P cd) as [Q cd'].
    match type of H with rbind ?a _ = _ => destruct a as [[k h1]|] eqn:E1 end; [|discriminate].
    cbn [rbind] in H.
    assert (H1 : ids_ok (e_ver E) h1).
    { destruct o as [k0|].
      - apply clone_item_inv in E1 as (i & st & _ & _ & -> & Hi & _); [|exact Hh]. now apply ids_hset.
      - apply new_item_inv in E1 as (i & _ & -> & Hi & _). now apply ids_hset. }
    destruct (hitem k h1) as [i|] eqn:Ei; [|discriminate]. cbn [rbind] in H.
    apply (ids_item (e_ver E)) in Ei; [|exact H1].
    destruct Q as [|q Q]; [discriminate|].
    destruct (update_cloned _ _ _ _ _) as [i'|] eqn:Eu; [|discriminate]. cbn [rbind] in H.
    apply IH in H; [exact H|]. apply ids_hset; [exact H1|]. now apply (id_update_cloned E nic k) in Eu.
Qed.

Lemma ids_set_item_count : forall E nic h rt count P h', ids_ok (e_ver E) h ->
  set_item_count E nic h rt count P = Ok h' -> ids_ok (e_ver E) h'.
Proof.
  intros E nic h rt count P h' Hh. unfold set_item_count.
  destruct (update_existing _ _ _ _ _) as [[[[h1 cd] n] o]|] eqn:E1; [|discriminate]. cbn [rbind].
  apply ids_update_existing in E1; [|exact Hh]. now apply ids_add_items.
Qed.

Lemma ids_set_on_keys : forall E n x P h k h', ids_ok (e_ver E) h -> n <> INSTANCE_ID (e_ver E) ->
  set_on_keys E n x P h k = Ok h' -> ids_ok (e_ver E) h'.
Proof.
  intros E n x P h k h' Hh Hn. unfold set_on_keys.
  destruct (hitem k h) as [i|] eqn:Ei; [|discriminate]. cbn [rbind].
  destruct (set_property _ _ _ _ _ _) as [i'|] eqn:Es; [|discriminate]. cbn [rbind].
  intros H. injection H as <-. apply ids_hset; [exact Hh|].
  apply (id_set_other E k) in Es; [exact Es| |exact Hn]. now apply (ids_item _ h).
Qed.

Lemma ids_set_values : forall E n P default ks xs h h', ids_ok (e_ver E) h ->
  n <> INSTANCE_ID (e_ver E) -> set_values E n xs default P h ks = Ok h' -> ids_ok (e_ver E) h'.
Proof.
  intros E n P default. induction ks as [|k ks IH]; intros xs h h' Hh Hn H; cbn [set_values] in H.
  - now injection H as <-.
  - destruct (hitem k h) as [i|] eqn:Ei; [|discriminate]. cbn [rbind] in H.
    destruct (set_profiles _ _ _ _ _) as [i'|] eqn:Es; [|discriminate]. cbn [rbind] in H.
    apply IH in H; [exact H| |exact Hn]. apply ids_hset; [exact Hh|].
    apply (ids_item (e_ver E)) in Ei; [|exact Hh]. revert Es. unfold set_profiles.
    apply (fold_result_inv _ _ _ (id_is (e_ver E) k)); [|exact Ei].
    intros j p j' _ Hj. destruct (has_profile E j p); [|intros F; now injection F as <-].
    now apply id_set_other.
Qed.

Lemma ids_step : forall ver h h', ids_ok ver h -> hw_step ver h h' -> ids_ok ver h'.
Proof.
  intros ver h h' Hh H. destruct H as [E rt P k h' <- H|E k h' <- H|E k P k' h' <- H
    |E nic rt count P h' <- H|E rt n x P create h' <- Hn H|E rt n xs P default h' <- Hn H
    |E p h' <- H|E k i n x P ow i' <- Hn Hin H|E k i p i' <- Hin H|E k i p split i' <- Hin H].
  - apply new_item_inv in H as (i & _ & -> & Hi & _). now apply ids_hset.
  - unfold delete_item in H. destruct (hitem k h) as [i|]; [|discriminate]. cbn [rbind] in H.
    destruct (get_value _ _ _ _) as [[[s|]|]|]; try discriminate. cbn [rbind] in H.
    destruct (str_eqb s k); [injection H as <-; now apply ids_hdel|].
    destruct (hitem s h); [|discriminate]. now injection H as <-.
  - apply clone_item_inv in H as (i & st & _ & _ & -> & Hi & _); [|exact Hh].
    now apply ids_hset.
  - now apply ids_set_item_count in H.
  - unfold set_value_for_all_items in H.
    destruct (find_all_items _ _ _ _ _) as [[|k ks]|]; [| |discriminate]; cbn [rbind] in H.
    + destruct create; [|now injection H as <-].
      destruct (new_item _ _ _ _) as [[k h1]|] eqn:En; [|discriminate]. cbn [rbind fst snd] in H.
      apply new_item_inv in En as (i & _ & -> & Hi & _).
      apply ids_set_on_keys in H; auto. now apply ids_hset.
    + revert H. apply (ids_fold _ (e_ver E)); [|exact Hh].
      intros g a g' Hg. now apply ids_set_on_keys.
  - unfold set_item_values_per_profile in H.
    destruct (find_all_items _ _ _ _ _) as [ks|]; [|discriminate]. cbn [rbind] in H.
    now apply ids_set_values in H.
  - unfold drop_profile in H.
    destruct (find_all_items _ _ _ _ _) as [ks|]; [|discriminate]. cbn [rbind] in H.
    revert H. apply (ids_fold _ (e_ver E)); [|exact Hh].
    intros g k g' Hg. destruct (hitem k g) as [i|] eqn:Ei; [|discriminate]. cbn [rbind].
    destruct (remove_profile _ _ _ _) as [i'|] eqn:Er; [|discriminate]. cbn [rbind].
    intros F. injection F as <-. apply ids_hset; [exact Hg|].
    apply (id_remove E k) in Er; [exact Er|]. now apply (ids_item _ g).
  - apply ids_hset; [exact Hh|].
    apply (id_set_other E k) in H; [exact H|now apply Hh|assumption].
  - apply ids_hset; [exact Hh|].
    apply (id_add_profile E k) in H; [exact H|now apply Hh].
  - apply ids_hset; [exact Hh|].
    apply (id_remove E k) in H; [exact H|now apply Hh].
Qed.

Theorem reachable_ids : forall ver h, hw_reachable ver h -> ids_ok ver h.
Proof.
  intros ver h H. induction H as [E sec h <- H|h h' H IH Hs]; [now apply ids_read in H|].
  now apply (ids_step ver h).
Qed.

Lemma has_id_key : forall E h k i id, hw_reachable (e_ver E) h -> In (k, i) h ->
  has_id E i id -> id = k.
Proof.
  intros E h k i id Hr Hin [Q HQ]. apply reachable_ids in Hr as [_ H].
  destruct (H k i Hin) as [R Hk]. apply reachable_good in R as G.
  rewrite get_value_plain in HQ by apply IID_plain.
  assert (Hg : get_raw (i_props i) (INSTANCE_ID (e_ver E)) Q = Some (VStr id)) by congruence.
  clear HQ. assert (Ho : exists q, own (i_props i) (INSTANCE_ID (e_ver E)) q (VStr id)).
  { unfold get_raw in Hg. destruct (prget _ _) as [d|] eqn:Ed.
    2: { destruct Q; discriminate. }
    assert (Hv : In (VStr id) (map fst d)).
    { destruct Q as [Q|].
      - assert (A : forall d Q def v, raw_loop d Q def = Some v -> In v (map fst d) \/ def = Some v).
        { induction d0 as [|[v s] d0 IH]; intros Q0 def w Hw; cbn in Hw; [now right|].
          destruct (psubset Q0 s); [injection Hw as ->; left; now left|].
          destruct (pmem None s).
          - apply IH in Hw as [Hw|Hw]; [left; now right|]. left. left. now injection Hw.
          - destruct (is_nil (pinter s Q0)); [|discriminate].
            apply IH in Hw as [Hw|Hw]; [left; now right|now right]. }
        apply A in Hg as [Hg|Hg]; [exact Hg|discriminate].
      - destruct d as [|[v t] [|]]; try discriminate. injection Hg as ->. now left. }
    apply in_map_iff in Hv as ([v s] & Ev & Hin'). cbn in Ev. subst v.
    pose proof (good_dict _ _ _ _ G Ed) as (_ & Gd & _).
    destruct (Gd (VStr id) s Hin') as (_ & Hs & _). destruct s as [|q s]; [congruence|].
    exists q. apply (own_Some _ _ _ _ _ (proj1 G) Ed). exists (q :: s). split; [exact Hin'|now left]. }
  destruct Ho as [q Ho]. apply Hk in Ho. congruence.
Qed.

Lemma hset_fresh : forall h k i, ~ taken h k -> hset k i h = h ++ [(k, i)].
Proof.
  intros h k i H. unfold hset. apply (dset_fresh str_eqb str_eqb_eq). now rewrite <- taken_iff.
Qed.

Theorem new_item_fresh : forall E h rt P k h', new_item E h rt P = Ok (k, h') ->
  first_free h 1 k /\ exists i, h' = h ++ [(k, i)] /\ has_id E i k.
Proof.
  intros E h rt P k h' H. apply new_item_inv in H as (i & Hf & -> & _ & Hi).
  split; [exact Hf|]. exists i. split; [|exact Hi]. apply hset_fresh.
  now destruct Hf as (n & _ & _ & Hf & _).
Qed.

Theorem clone_item_fresh : forall E h k P k' h', hw_reachable (e_ver E) h ->
  clone_item E h k P = Ok (k', h') ->
  exists start, py_int k = Some start /\ first_free h start k' /\
    exists i, h' = h ++ [(k', i)] /\ has_id E i k'.
Proof.
  intros E h k P k' h' Hh H.
  apply clone_item_inv in H as (i & st & Hst & Hf & -> & _ & Hi); [|now apply reachable_ids].
  exists st. split; [exact Hst|]. split; [exact Hf|]. exists i. split; [|exact Hi]. apply hset_fresh.
  now destruct Hf as (n & _ & _ & Hf & _).
Qed.

Theorem unique_ids : forall E h k1 i1 k2 i2 id, hw_reachable (e_ver E) h ->
  In (k1, i1) h -> In (k2, i2) h -> has_id E i1 id -> has_id E i2 id ->
  id = k1 /\ k1 = k2 /\ i1 = i2.
Proof.
  intros E h k1 i1 k2 i2 id Hh H1 H2 I1 I2.
  apply (has_id_key E h k1) in I1; auto. apply (has_id_key E h k2) in I2; auto. subst.
  split; [reflexivity|]. split; [reflexivity|].
  apply reachable_ids in Hh as [ND _]. apply hget_In in H1; [|exact ND].
  apply hget_In in H2; [|exact ND]. congruence.
Qed.
