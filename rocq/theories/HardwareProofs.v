(** InstanceIDs are unique. *)
From Coq Require Import Lia Permutation.
From Verif Require Import PyBase PyBaseProofs PyDict PyDictProofs ValidationModel XmlModel NamesModel
  ItemModel ItemSpec PsetProofs ItemProofs ItemSetProofs ItemProfileProofs ItemReachProofs
  ItemEffectProofs EmitProofs HardwareModel HardwareSpec.

Lemma taken_iff : forall h s, taken h s <-> In s (map fst h).
Proof.
  intros h s. rewrite in_map_iff. split.
  - intros [i Hi]. now exists (s, i).
  - intros [[k i] [<- Hi]]. now exists i.
Qed.

Lemma dmem_taken : forall h s, dmem str_eqb s h = true <-> taken h s.
Proof.
  intros h s. rewrite taken_iff. unfold dmem. destruct (dget str_eqb s h) as [i|] eqn:E.
  - apply (dget_In str_eqb str_eqb_eq) in E. split; [|reflexivity]. intros _.
    apply in_map_iff. now exists (s, i).
  - apply (dget_None str_eqb str_eqb_eq) in E. split; [discriminate|]. intros H. now apply E in H.
Qed.

(** ** find_unused_instance_id *)

Lemma unused_from_spec : forall f h n s, unused_from f h n = Ok s -> first_free h n s.
Proof.
  induction f as [|f IH]; intros h n s H; cbn in H; [discriminate|].
  destruct (dmem str_eqb (zdec n) h) eqn:E.
  - apply IH in H as (m & -> & Hm & Hf & Ha). exists m. split; [reflexivity|].
    split; [lia|]. split; [exact Hf|]. intros j Hj.
    destruct (Z.eq_dec j n) as [-> |Hn]; [now apply dmem_taken|]. apply Ha. lia.
  - injection H as <-. exists n. split; [reflexivity|]. split; [lia|]. split; [|lia].
    intros Ht. apply dmem_taken in Ht. congruence.
Qed.

Lemma unused_from_fuel : forall f h n e, unused_from f h n = Err e ->
  forall m, (n <= m < n + Z.of_nat f)%Z -> taken h (zdec m).
Proof.
  induction f as [|f IH]; intros h n e H m Hm; [lia|]. cbn in H.
  destruct (dmem str_eqb (zdec n) h) eqn:E; [|discriminate].
  destruct (Z.eq_dec m n) as [-> |Hn]; [now apply dmem_taken|].
  apply (IH h (n + 1)%Z e H). lia.
Qed.

Lemma find_unused_ok : forall h start, exists s, find_unused_instance_id h start = Ok s.
Proof.
  intros h start. unfold find_unused_instance_id.
  destruct (unused_from (S (length h)) h start) as [s|e] eqn:E; [now exists s|]. exfalso.
  pose proof (unused_from_fuel _ _ _ _ E) as H.
  set (ids := map (fun k => zdec (start + Z.of_nat k)) (seq 0 (S (length h)))).
  assert (ND : NoDup ids).
  { apply FinFun.Injective_map_NoDup; [|apply seq_NoDup].
    intros a b Hab. apply zdec_inj in Hab. lia. }
  assert (Hinc : incl ids (map fst h)).
  { intros x Hx. apply in_map_iff in Hx as (k & <- & Hk). apply in_seq in Hk.
    apply taken_iff. apply H. lia. }
  apply NoDup_incl_length in Hinc; [|exact ND]. unfold ids in Hinc.
  rewrite !map_length, seq_length in Hinc. lia.
Qed.

(** ** The invariant *)

Definition id_is (ver : version) (k : str) (i : item) : Prop :=
  reachable ver i /\ forall p v, own (i_props i) (INSTANCE_ID ver) p v -> v = VStr k.

Definition ids_ok (ver : version) (h : hw) : Prop :=
  NoDup (map fst h) /\ forall k i, In (k, i) h -> id_is ver k i.

Lemma stored_own_some : forall ver ps n v P p w, good_props ver ps -> NoDup P ->
  own (stored ps n v P) n p w -> w = v \/ exists q, own ps n q w.
Proof.
  intros ver ps n v P [x|] w G ND H.
  - apply (stored_own_named ver) in H; [|exact G|exact ND].
    destruct H as [(_ & H & _)|(-> & _)]; [right; eauto|now left].
  - apply (stored_own_default ver) in H; [|exact G].
    destruct H as [(_ & H & _)|(-> & _)]; [right; eauto|now left].
Qed.

Lemma IID_plain : forall E, is_text E (INSTANCE_ID (e_ver E)) = false.
Proof. intros E. unfold is_text. destruct (e_ver E); reflexivity. Qed.
Lemma IID_not_subtype : forall v, str_eqb (INSTANCE_ID v) RESOURCE_SUB_TYPE = false.
Proof. intros []; reflexivity. Qed.

Lemma id_set : forall E k i n x P ow i', id_is (e_ver E) k i ->
  (n = INSTANCE_ID (e_ver E) -> to_value E n x = VStr k) ->
  set_property E i n x P ow = Ok i' -> id_is (e_ver E) k i'.
Proof.
  intros E k i n x P ow i' [R Hk] Hn H. apply reachable_good in R as G.
  split; [exact (R_set _ E i n x P ow i' eq_refl R H)|]. intros p v Ho.
  apply set_property_inv in H as (v0 & Hv & _ & _ & Hp & _); [|exact G].
  rewrite Hp in Ho. destruct (str_eq_dec n (INSTANCE_ID (e_ver E))) as [-> |Hne].
  - rewrite add_wildcards_plain in Hv by apply IID_plain. rewrite (Hn eq_refl) in Hv.
    injection Hv as <-. apply (stored_own_some (e_ver E)) in Ho as [-> |[q Ho]];
      [reflexivity|now apply (Hk q)|exact G|apply profs_NoDup].
  - apply stored_other in Ho; [now apply (Hk p)|apply G|congruence].
Qed.

(** An assignment of the InstanceID itself. *)
Lemma id_assign : forall E i id P i', reachable (e_ver E) i -> id <> [] ->
  set_property E i (INSTANCE_ID (e_ver E)) (IStr id) P true = Ok i' -> id_is (e_ver E) id i'.
Proof.
  intros E i id P i' R Hid H. set (n := INSTANCE_ID (e_ver E)) in *.
  pose proof (R_set _ E i n (IStr id) P true i' eq_refl R H) as R'.
  split; [exact R'|]. intros p v Ho. apply reachable_good in R' as G'.
  apply reachable_good in R as G.
  apply set_property_effect in H as (v0 & Hv & H1 & _ & _ & _); [|exact R].
  rewrite add_wildcards_plain in Hv by apply IID_plain. injection Hv as <-.
  assert (Tv : to_value E n (IStr id) = VStr id).
  { unfold to_value, n. now rewrite IID_not_subtype. }
  rewrite Tv in H1.
  assert (Hr : exists q, requested (i_props i) n P q).
  { assert (profs_of (i_props i) n P <> []).
    { apply profs_nonempty; [apply G|]. intros d. now apply (good_dict (e_ver E)). }
    destruct (profs_of (i_props i) n P) as [|q l] eqn:El; [congruence|].
    exists q. apply (requested_profs E i n P q G). rewrite El. now left. }
  destruct Hr as [q Hq].
  assert (T : truthy (VStr id) = true) by (destruct id; [congruence|reflexivity]).
  destruct (proj2 (H1 q (VStr id) T (or_introl Hq)) eq_refl) as [Hq'|[_ Hq']];
    exact (good_single _ _ n _ _ _ _ G' (or_introl eq_refl) Ho Hq').
Qed.

Lemma id_assign_own : forall E i id P i', reachable (e_ver E) i -> id <> [] ->
  set_property E i (INSTANCE_ID (e_ver E)) (IStr id) P true = Ok i' ->
  exists q, own (i_props i') (INSTANCE_ID (e_ver E)) q (VStr id).
Proof.
  intros E i id P i' R Hid H. set (n := INSTANCE_ID (e_ver E)) in *. apply reachable_good in R as G.
  apply set_property_effect in H as (v0 & Hv & H1 & _ & _ & _); [|exact R].
  rewrite add_wildcards_plain in Hv by apply IID_plain. injection Hv as <-.
  assert (Tv : to_value E n (IStr id) = VStr id).
  { unfold to_value, n. now rewrite IID_not_subtype. }
  rewrite Tv in H1.
  assert (profs_of (i_props i) n P <> []).
  { apply profs_nonempty; [apply G|]. intros d. now apply (good_dict (e_ver E)). }
  destruct (profs_of (i_props i) n P) as [|q l] eqn:El; [congruence|].
  assert (Hq : requested (i_props i) n P q).
  { apply (requested_profs E i n P q G). rewrite El. now left. }
  assert (T : truthy (VStr id) = true) by (destruct id; [congruence|reflexivity]).
  destruct (proj2 (H1 q (VStr id) T (or_introl Hq)) eq_refl) as [Hq'|[_ Hq']]; eauto.
Qed.

Lemma own_has_id : forall E i q id, reachable (e_ver E) i ->
  own (i_props i) (INSTANCE_ID (e_ver E)) q (VStr id) -> has_id E i id.
Proof.
  intros E i q id R H. apply reachable_good in R as G. exists (Some [q]).
  rewrite get_value_plain by apply IID_plain. f_equal.
  apply (get_raw_holds _ _ _ _ _ G). now left.
Qed.

Lemma zdec_nonempty : forall z, zdec z <> [].
Proof.
  intros z H. pose proof (py_int_zdec z) as P. rewrite H in P. now vm_compute in P.
Qed.

Lemma first_free_nonempty : forall h n s, first_free h n s -> s <> [].
Proof. intros h n s (m & -> & _). apply zdec_nonempty. Qed.

(** ** Dictionary updates *)

Lemma hget_In : forall h k i, NoDup (map fst h) -> (hget k h = Some i <-> In (k, i) h).
Proof.
  intros h k i ND. split.
  - apply (dget_In str_eqb str_eqb_eq).
  - now apply (dget_Some_In str_eqb str_eqb_eq).
Qed.

Lemma hitem_In : forall h k i, NoDup (map fst h) -> (hitem k h = Ok i <-> In (k, i) h).
Proof.
  intros h k i ND. rewrite <- hget_In by exact ND. unfold hitem.
  destruct (hget k h); split; congruence.
Qed.

Lemma hset_In : forall h k i k' j, NoDup (map fst h) ->
  (In (k', j) (hset k i h) <-> (k' = k /\ j = i) \/ (k' <> k /\ In (k', j) h)).
Proof.
  intros h k i k' j ND.
  assert (ND' : NoDup (map fst (hset k i h))) by now apply (dset_NoDup str_eqb str_eqb_eq).
  rewrite <- (hget_In _ _ _ ND'), <- (hget_In _ _ _ ND). unfold hget, hset.
  destruct (str_eq_dec k' k) as [-> |Hk].
  - rewrite (dget_dset_same str_eqb str_eqb_eq). split.
    + intros H. injection H as <-. now left.
    + intros [[_ ->]|[F _]]; [reflexivity|congruence].
  - rewrite (dget_dset_other str_eqb str_eqb_eq) by exact Hk. intuition congruence.
Qed.

Lemma hset_NoDup : forall h k i, NoDup (map fst h) -> NoDup (map fst (hset k i h)).
Proof. intros. now apply (dset_NoDup str_eqb str_eqb_eq). Qed.

Lemma hdel_In : forall h k k' j, NoDup (map fst h) ->
  (In (k', j) (hdel k h) <-> k' <> k /\ In (k', j) h).
Proof.
  intros h k k' j ND.
  assert (ND' : NoDup (map fst (hdel k h))) by now apply (ddel_NoDup str_eqb str_eqb_eq).
  rewrite <- (hget_In _ _ _ ND'), <- (hget_In _ _ _ ND). unfold hget, hdel.
  destruct (str_eq_dec k' k) as [-> |Hk].
  - rewrite (dget_ddel_same str_eqb str_eqb_eq) by exact ND. intuition congruence.
  - rewrite (dget_ddel_other str_eqb str_eqb_eq) by exact Hk. tauto.
Qed.

Lemma ids_hset : forall ver h k i, ids_ok ver h -> id_is ver k i -> ids_ok ver (hset k i h).
Proof.
  intros ver h k i [ND H] Hi. split; [now apply hset_NoDup|]. intros k' j Hj.
  apply hset_In in Hj as [[-> ->]|[_ Hj]]; [exact Hi|now apply H|exact ND].
Qed.

Lemma ids_hdel : forall ver h k, ids_ok ver h -> ids_ok ver (hdel k h).
Proof.
  intros ver h k [ND H]. split; [now apply (ddel_NoDup str_eqb str_eqb_eq)|].
  intros k' j Hj. apply hdel_In in Hj as [_ Hj]; [now apply H|exact ND].
Qed.

Lemma ids_item : forall ver h k i, ids_ok ver h -> hitem k h = Ok i -> id_is ver k i.
Proof. intros ver h k i [ND H] Hi. apply H. now apply hitem_In. Qed.

Lemma id_modified : forall ver k i b, id_is ver k i -> id_is ver k (with_modified b i).
Proof. intros ver k i b [R H]. split; [now apply R_saved|exact H]. Qed.

(** ** Editing one item *)

Lemma id_remove : forall E k i p split i', id_is (e_ver E) k i ->
  remove_profile E i p split = Ok i' -> id_is (e_ver E) k i'.
Proof.
  intros E k i p split i' [R H] Hr. split; [exact (R_remove_profile _ E i p split i' eq_refl R Hr)|].
  apply reachable_good in R as G. rewrite remove_profile_eq in Hr by exact G.
  injection Hr as <-. destruct (has_profile E i p); [|exact H]. intros q v Ho.
  cbn [i_props with_modified with_props] in Ho.
  apply (removed_own (e_ver E)) in Ho as (_ & [(Ho & _)|(_ & _ & Ho & _)]); eauto.
Qed.

Lemma inherited_own : forall d all v, inherited d all = Some v -> In v (map fst d).
Proof.
  induction d as [|[w s] d IH]; intros all v H; cbn in H; [discriminate|].
  destruct (pmem None s || (length all =? 1)); [injection H as <-; now left|].
  right. now apply (IH all).
Qed.

Lemma id_add_profile : forall E k i p i', id_is (e_ver E) k i ->
  add_profile E i p None = Ok i' -> id_is (e_ver E) k i'.
Proof.
  intros E k i p i' Hi. unfold add_profile.
  destruct (has_profile E i p); [intros H; now injection H as <-|].
  destruct (prget _ _) as [d0|]; [|discriminate].
  destruct (fold_result _ _ i) as [i1|] eqn:E1; [|discriminate]. cbn [rbind].
  assert (I1 : id_is (e_ver E) k i1).
  { revert E1. apply (fold_result_inv _ _ _ (id_is (e_ver E) k)); [|exact Hi].
    intros j n j' _ Hj. unfold add_profile_step. cbn [option_map].
    destruct (prget n (i_props j)) as [[|e d]|] eqn:Ep; [| |discriminate].
    - intros H; now injection H as <-.
    - destruct (inherited (e :: d) (e :: d)) as [v|] eqn:Ei; [|discriminate].
      apply id_set; [exact Hj|]. intros ->.
      destruct Hj as [R Hj]. apply reachable_good in R as G.
      assert (v = VStr k) as ->.
      { apply inherited_own in Ei. apply in_map_iff in Ei as ([v' s] & Ev & Hin). cbn in Ev. subst v'.
        pose proof (good_dict _ _ _ _ G Ep) as (_ & Gd & _).
        destruct (Gd v s Hin) as (_ & Hs & _). destruct s as [|q s]; [congruence|].
        apply (Hj q). apply (own_Some _ _ _ _ _ (proj1 G) Ep). exists (q :: s).
        split; [exact Hin|now left]. }
      unfold to_value. now rewrite IID_not_subtype. }
  destruct I1 as [R1 H1]. rewrite validate_good; [|exact (reachable_good _ _ R1)].
  intros H. injection H as <-. now apply id_modified.
Qed.

(** ** Reading *)

(** Names built with a suffix are no instance IDs. *)
Lemma suffix_not_IID : forall v s, s ++ ATTRIB_KEY_SUFFIX <> INSTANCE_ID v /\
  s ++ ELEMENT_KEY_SUFFIX <> INSTANCE_ID v /\ forall t, s ++ L "_attrib_" ++ t <> INSTANCE_ID v.
Proof.
  assert (A : forall c v (a b : str), In c b -> ~ In c (INSTANCE_ID v) -> a ++ b <> INSTANCE_ID v).
  { intros c v a b Hb Hn H. apply Hn. rewrite <- H. apply in_or_app. now right. }
  intros v s. split; [|split].
  - apply (A " "%char); [now left|]. destruct v; cbn; intuition discriminate.
  - apply (A " "%char); [now left|]. destruct v; cbn; intuition discriminate.
  - intros t. apply (A "_"%char); [now left|]. destruct v; cbn; intuition discriminate.
Qed.

(** The values that the children of an Item give to its instance ID. *)
Definition iid_child (ver : version) (c : elem) : Prop := strip_ns (etag c) = INSTANCE_ID ver.
Definition child_arg (c : elem) : inval := match etext c with Some t => IStr t | None => INone end.

Lemma child_value : forall E c, iid_child (e_ver E) c ->
  to_value E (strip_ns (etag c)) (child_arg c) =
  VStr (match etext c with Some t => t | None => L "None" end).
Proof.
  intros E c Hc. unfold to_value, child_arg. rewrite Hc, IID_not_subtype. now destruct (etext c).
Qed.

Lemma id_attributes : forall E (f : str * str -> str) (P : list profile) k l i i',
  (forall kv, f kv <> INSTANCE_ID (e_ver E)) -> id_is (e_ver E) k i ->
  fold_result (fun i kv => set_property E i (f kv) (IStr (snd kv)) P false) l i = Ok i' ->
  id_is (e_ver E) k i'.
Proof.
  intros E f P k l i i' Hf Hi. apply (fold_result_inv _ _ _ (id_is (e_ver E) k)); [|exact Hi].
  intros j kv j' _ Hj. apply id_set; [exact Hj|]. intros Hn. now apply Hf in Hn.
Qed.

Lemma ITEM_CHILDREN_IID : forall v, mem_str (INSTANCE_ID v) (ITEM_CHILDREN v) = true.
Proof. intros []; vm_compute; reflexivity. Qed.

(** Attributes do not touch what is recorded as instance ID. *)
Lemma attributes_same_id : forall E (f : str * str -> str) (P : list profile) l i i',
  (forall kv, f kv <> INSTANCE_ID (e_ver E)) -> reachable (e_ver E) i ->
  fold_result (fun i kv => set_property E i (f kv) (IStr (snd kv)) P false) l i = Ok i' ->
  reachable (e_ver E) i' /\ forall p v,
    own (i_props i') (INSTANCE_ID (e_ver E)) p v <-> own (i_props i) (INSTANCE_ID (e_ver E)) p v.
Proof.
  intros E f P l. induction l as [|kv l IH]; intros i i' Hf R H; cbn [fold_result] in H.
  - injection H as <-. split; [exact R|tauto].
  - destruct (set_property E i (f kv) (IStr (snd kv)) P false) as [j|] eqn:Ej; [|discriminate].
    cbn [rbind] in H. pose proof (R_set _ E _ _ _ _ _ _ eq_refl R Ej) as Rj.
    destruct (IH j i' Hf Rj H) as [R' H']. split; [exact R'|]. intros p v. rewrite H'.
    apply set_property_effect in Ej as (v0 & _ & _ & _ & _ & Hm); [|exact R].
    apply Hm. intros Hn. symmetry in Hn. now apply Hf in Hn.
Qed.


Definition child_text (c : elem) : str := match etext c with Some t => t | None => L "None" end.

Lemma IID_arg : forall E t, to_value E (INSTANCE_ID (e_ver E)) t =
  VStr (match t with INone => L "None" | IStr s => s | ISeq l => e_seq_repr E l end).
Proof. intros E t. unfold to_value. rewrite IID_not_subtype. now destruct t. Qed.

Lemma holds_own' : forall ps n p v, holds ps n p v -> exists q, own ps n q v.
Proof. intros ps n p v [H|[_ H]]; eauto. Qed.

(** A first value stays. *)
Lemma second_id : forall E i x P i' q v, reachable (e_ver E) i ->
  set_property E i (INSTANCE_ID (e_ver E)) x P false = Ok i' ->
  own (i_props i) (INSTANCE_ID (e_ver E)) q v ->
  (truthy (to_value E (INSTANCE_ID (e_ver E)) x) = true ->
   to_value E (INSTANCE_ID (e_ver E)) x = v) /\
  exists q', own (i_props i') (INSTANCE_ID (e_ver E)) q' v.
Proof.
  intros E i x P i' q v R H Ho. set (n := INSTANCE_ID (e_ver E)) in *.
  pose proof (R_set _ E _ _ _ _ _ _ eq_refl R H) as R'. apply reachable_good in R' as G'.
  apply reachable_good in R as G.
  assert (Hq : ~ requested (i_props i) n P q).
  { intros Hq. assert (F : set_property E i n x P false = Err EOVFItemData).
    { apply (set_property_refuses E i n x P q v); auto. intros Ht.
      apply text_property_is_text in Ht. unfold n in Ht. rewrite IID_plain in Ht. discriminate. }
    rewrite F in H. discriminate. }
  apply set_property_effect in H as (w & Hw & H1 & H2 & H3 & _); [|exact R].
  rewrite add_wildcards_plain in Hw by apply IID_plain. injection Hw as <-.
  assert (Hr : ~ reaches (i_props i) n P q).
  { intros [Hr|[_ Hr]]; [contradiction|]. now apply (Hr v). }
  destruct (truthy (to_value E n x)) eqn:T.
  - assert (Hv : exists q', own (i_props i') n q' v).
    { apply (holds_own' _ _ q). apply H2; auto. now left. }
    split; [|exact Hv]. intros _. destruct Hv as [q' Hv].
    assert (Hp : exists p, requested (i_props i) n P p).
    { assert (profs_of (i_props i) n P <> []).
      { apply profs_nonempty; [apply G|]. intros d. now apply (good_dict (e_ver E)). }
      destruct (profs_of (i_props i) n P) as [|p l] eqn:El; [congruence|].
      exists p. apply (requested_profs E i n P p G). rewrite El. now left. }
    destruct Hp as [p Hp].
    destruct (holds_own' _ _ _ _ (proj2 (H1 p _ eq_refl (or_introl Hp)) eq_refl)) as [p' Hp'].
    exact (good_single _ _ n _ _ _ _ G' (or_introl eq_refl) Hp' Hv).
  - split; [discriminate|]. exists q. now apply H3.
Qed.

Lemma other_child : forall E P i c i', reachable (e_ver E) i -> ~ iid_child (e_ver E) c ->
  add_child_property E P i c = Ok i' ->
  reachable (e_ver E) i' /\ forall p v,
    own (i_props i') (INSTANCE_ID (e_ver E)) p v <-> own (i_props i) (INSTANCE_ID (e_ver E)) p v.
Proof.
  intros E P i c i' R Hc. unfold add_child_property.
  assert (A : forall n x j, n <> INSTANCE_ID (e_ver E) -> set_property E i n x P false = Ok j ->
    reachable (e_ver E) j /\ forall p v,
    own (i_props j) (INSTANCE_ID (e_ver E)) p v <-> own (i_props i) (INSTANCE_ID (e_ver E)) p v).
  { intros n x j Hn Hj. split; [exact (R_set _ E _ _ _ _ _ _ eq_refl R Hj)|].
    apply set_property_effect in Hj as (v0 & _ & _ & _ & _ & Hm); [|exact R].
    intros p v. apply Hm. congruence. }
  destruct (mem_str (strip_ns (etag c)) (ITEM_CHILDREN (e_ver E))).
  - destruct (set_property _ _ _ _ _ _) as [j|] eqn:Ej; [|discriminate]. cbn [rbind].
    apply A in Ej as [Rj Hj]; [|exact Hc]. intros H.
    apply (attributes_same_id E (fun kv => strip_ns (etag c) ++ L "_attrib_" ++ fst kv)) in H
      as [R' H']; [|intros kv; apply suffix_not_IID|exact Rj].
    split; [exact R'|]. intros p v. rewrite H'. apply Hj.
  - apply A. apply suffix_not_IID.
Qed.

Lemma id_child_step : forall E P i c i', reachable (e_ver E) i -> iid_child (e_ver E) c ->
  add_child_property E P i c = Ok i' ->
  exists j, set_property E i (INSTANCE_ID (e_ver E)) (IStr (child_text c)) P false = Ok j /\
    reachable (e_ver E) i' /\ forall p v,
    own (i_props i') (INSTANCE_ID (e_ver E)) p v <-> own (i_props j) (INSTANCE_ID (e_ver E)) p v.
Proof.
  intros E P i c i' R Hc. unfold add_child_property. unfold iid_child in Hc. rewrite Hc.
  rewrite ITEM_CHILDREN_IID.
  assert (S : forall x, to_value E (INSTANCE_ID (e_ver E)) x = to_value E (INSTANCE_ID (e_ver E)) (IStr (child_text c)) ->
    set_property E i (INSTANCE_ID (e_ver E)) x P false =
    set_property E i (INSTANCE_ID (e_ver E)) (IStr (child_text c)) P false).
  { intros x Hx. unfold set_property. rewrite Hx.
    now replace (str_eqb (INSTANCE_ID (e_ver E)) RESOURCE_TYPE) with false by (destruct (e_ver E); reflexivity). }
  rewrite S by (rewrite !IID_arg; unfold child_text; now destruct (etext c)).
  destruct (set_property _ _ _ _ _ _) as [j|] eqn:Ej; [|discriminate]. cbn [rbind]. intros H.
  exists j. split; [reflexivity|].
  apply (attributes_same_id E (fun kv => INSTANCE_ID (e_ver E) ++ L "_attrib_" ++ fst kv)) in H;
    [exact H|intros kv; apply suffix_not_IID|exact (R_set _ E _ _ _ _ _ _ eq_refl R Ej)].
Qed.

Lemma iid_child_dec : forall v c, iid_child v c \/ ~ iid_child v c.
Proof. intros v c. unfold iid_child. destruct (str_eq_dec (strip_ns (etag c)) (INSTANCE_ID v)); auto. Qed.

Lemma later_ids : forall E P l i i' q v, reachable (e_ver E) i ->
  own (i_props i) (INSTANCE_ID (e_ver E)) q v ->
  fold_result (add_child_property E P) l i = Ok i' ->
  forall c, In c l -> iid_child (e_ver E) c -> child_text c <> [] -> v = VStr (child_text c).
Proof.
  intros E P. induction l as [|d l IH]; intros i i' q v R Ho H c Hc Hi Ht; [contradiction|].
  cbn [fold_result] in H.
  destruct (add_child_property E P i d) as [j|] eqn:Ej; [|discriminate]. cbn [rbind] in H.
  destruct (iid_child_dec (e_ver E) d) as [Hd|Hd].
  - apply id_child_step in Ej as (k & Hk & Rj & Hj); [|exact R|exact Hd].
    apply (second_id E i _ P k q v R) in Hk as [Hk1 [q' Hk2]]; [|exact Ho].
    destruct Hc as [-> |Hc].
    + rewrite IID_arg in Hk1. symmetry. apply Hk1. destruct (child_text c); [congruence|reflexivity].
    + apply (IH j i' q' v Rj); auto. now apply Hj.
  - destruct Hc as [-> |Hc]; [contradiction|].
    apply other_child in Ej as [Rj Hj]; [|exact R|exact Hd].
    apply (IH j i' q v Rj); auto. now apply Hj.
Qed.

Lemma same_ids : forall E P l i i', reachable (e_ver E) i ->
  fold_result (add_child_property E P) l i = Ok i' ->
  forall c d, In c l -> In d l -> iid_child (e_ver E) c -> iid_child (e_ver E) d ->
  child_text c <> [] -> child_text d <> [] -> child_text c = child_text d.
Proof.
  intros E P. induction l as [|a l IH]; intros i i' R H c d Hc Hd Ic Id Tc Td; [contradiction|].
  cbn [fold_result] in H.
  destruct (add_child_property E P i a) as [j|] eqn:Ej; [|discriminate]. cbn [rbind] in H.
  destruct (iid_child_dec (e_ver E) a) as [Ha|Ha].
  - apply id_child_step in Ej as (k & Hk & Rj & Hj); [|exact R|exact Ha].
    destruct (str_eq_dec (child_text a) []) as [Ta|Ta].
    { destruct Hc as [-> |Hc]; [congruence|]. destruct Hd as [-> |Hd]; [congruence|]. eauto. }
    assert (Ho : exists q, own (i_props k) (INSTANCE_ID (e_ver E)) q (VStr (child_text a))).
    { pose proof (R_set _ E _ _ _ _ _ _ eq_refl R Hk) as Rk.
      apply reachable_good in R as G.
      apply set_property_effect in Hk as (w & Hw & H1 & _); [|exact R].
      rewrite add_wildcards_plain in Hw by apply IID_plain. injection Hw as <-.
      rewrite IID_arg in H1.
      assert (profs_of (i_props i) (INSTANCE_ID (e_ver E)) P <> []).
      { apply profs_nonempty; [apply G|]. intros x. now apply (good_dict (e_ver E)). }
      destruct (profs_of (i_props i) (INSTANCE_ID (e_ver E)) P) as [|q m] eqn:Em; [congruence|].
      apply (holds_own' _ _ q). apply H1; [destruct (child_text a); [congruence|reflexivity]| |reflexivity].
      left. apply (requested_profs E i _ P q G). rewrite Em. now left. }
    destruct Ho as [q Ho]. apply Hj in Ho.
    assert (L1 : forall c, In c (a :: l) -> iid_child (e_ver E) c -> child_text c <> [] ->
      child_text a = child_text c).
    { intros x [-> |Hx] Ix Tx; [reflexivity|].
      pose proof (later_ids E P l j i' q _ Rj Ho H x Hx Ix Tx) as F. congruence. }
    rewrite <- (L1 c), <- (L1 d); auto.
  - destruct Hc as [-> |Hc]; [contradiction|]. destruct Hd as [-> |Hd]; [contradiction|].
    apply other_child in Ej as [Rj Hj]; [|exact R|exact Ha]. eauto.
Qed.

Lemma reading_order_In : forall v l c, In c (reading_order v l) <-> In c l.
Proof.
  assert (M : forall t l c, In c (move_to_end t l) <-> In c l).
  { assert (T : forall t l x r, take_first t l = Some (x, r) -> forall c, In c l <-> c = x \/ In c r).
    { induction l as [|d l IH]; intros x r H c; cbn in H; [discriminate|].
      destruct (has_bare_tag t d).
      - injection H as <- <-. cbn. intuition.
      - destruct (take_first t l) as [[y r']|] eqn:Et; [|discriminate]. injection H as <- <-.
        cbn. rewrite (IH y r' eq_refl c). tauto. }
    intros t l c. unfold move_to_end. destruct (take_first t l) as [[x r]|] eqn:Et; [|reflexivity].
    rewrite in_app_iff. cbn. rewrite (T _ _ _ _ Et c). intuition. }
  intros v l c. unfold reading_order. now rewrite !M.
Qed.

Lemma id_add_item : forall E k i x i' c, id_is (e_ver E) k i ->
  In c (echildren x) -> iid_child (e_ver E) c -> etext c = Some k -> k <> [] ->
  add_item E i x = Ok i' -> id_is (e_ver E) k i'.
Proof.
  intros E k i x i' c0 Hi Hin Hc Ht Hk H.
  assert (R' : reachable (e_ver E) i') by exact (R_read _ E i x i' eq_refl (proj1 Hi) H).
  unfold add_item in H.
  destruct (namespace_for_item_tag (e_ver E) (etag x)) as [ns|] eqn:En; [|discriminate].
  set (P := map Some _) in H.
  destruct (fold_result _ (eattrib x) (with_ns ns i)) as [i1|] eqn:E1; [|discriminate].
  cbn [rbind] in H.
  destruct (fold_result _ (reading_order (e_ver E) (echildren x)) i1) as [i2|] eqn:E2;
    [|discriminate].
  cbn [rbind] in H. clearbody P.
  assert (I1 : id_is (e_ver E) k i1).
  { revert E1. apply (fold_result_inv _ _ _ (id_is (e_ver E) k)).
    - intros j kv j' _ Hj. destruct (str_eqb _ _); [intros F; now injection F as <-|].
      apply id_set; [exact Hj|]. intros Hn. now apply suffix_not_IID in Hn.
    - destruct Hi as [R Ho]. split; [exact (reachable_with_ns E i _ ns R En)|exact Ho]. }
  assert (T0 : child_text c0 = k) by (unfold child_text; now rewrite Ht).
  assert (I2 : id_is (e_ver E) k i2).
  { pose proof (same_ids E P _ i1 i2 (proj1 I1) E2) as S.
    revert E2. apply (fold_result_inv _ _ _ (id_is (e_ver E) k)); [|exact I1].
    intros j c j' Hcin Hj Hs. destruct (iid_child_dec (e_ver E) c) as [Ic|Ic].
    - apply id_child_step in Hs as (j1 & Hj1 & Rj & Hsame); [|apply Hj|exact Ic].
      split; [exact Rj|]. intros p v Ho. apply Hsame in Ho.
      destruct (str_eq_dec (child_text c) []) as [Tc|Tc].
      + apply set_property_effect in Hj1 as (w & Hw & _ & _ & H3 & _); [|apply Hj].
        rewrite add_wildcards_plain in Hw by apply IID_plain. injection Hw as <-.
        apply H3 in Ho as [Ho _]; [now apply Hj in Ho|]. now rewrite IID_arg, Tc.
      + assert (child_text c = k) as Ek.
        { rewrite <- T0. apply S; auto. 1: now apply reading_order_In. now rewrite T0. }
        apply (id_set E k) in Hj1; [now apply Hj1 in Ho|exact Hj|].
        intros _. now rewrite IID_arg, Ek.
    - apply other_child in Hs as [Rj Hsame]; [|apply Hj|exact Ic].
      split; [exact Rj|]. intros p v Ho. apply Hsame in Ho. now apply Hj in Ho. }
  rewrite validate_good in H by exact (reachable_good _ _ (proj1 I2)). injection H as <-.
  now apply id_modified.
Qed.

Lemma strip_ns_IID : forall v x ns, namespace_for_item_tag v (etag x) = Some ns ->
  strip_ns (ns ++ INSTANCE_ID v) = INSTANCE_ID v.
Proof.
  intros v x ns. unfold namespace_for_item_tag.
  repeat match goal with |- context [if ?b then _ else _] => destruct b end;
  intros H; try discriminate; injection H as <-; destruct v; vm_compute; reflexivity.
Qed.

Lemma ids_read_item : forall E h x h', ids_ok (e_ver E) h -> read_item E h x = Ok h' ->
  ids_ok (e_ver E) h'.
Proof.
  intros E h x h' Hh. unfold read_item.
  destruct (namespace_for_item_tag (e_ver E) (etag x)) as [ns|] eqn:En;
    [|intros H; now injection H as <-].
  destruct (filter _ (echildren x)) as [|c cs] eqn:Ef; [discriminate|].
  assert (Hc : In c (c :: cs)) by now left. rewrite <- Ef in Hc.
  apply filter_In in Hc as [Hc Htag]. apply str_eqb_eq in Htag.
  assert (Ic : iid_child (e_ver E) c).
  { unfold iid_child. rewrite Htag. now apply (strip_ns_IID _ x). }
  destruct (etext c) as [[|a t]|] eqn:Et; [discriminate| |discriminate].
  set (k := a :: t) in *. assert (Hk : k <> []) by discriminate. clearbody k.
  destruct (negb _); [discriminate|].
  destruct (hget k h) as [i|] eqn:Eg.
  - destruct (add_item E i x) as [i'|[]] eqn:Ea; try discriminate. intros H.
    injection H as <-. apply ids_hset; [exact Hh|].
    apply (id_add_item E k i x i' c); auto. apply (proj2 Hh).
    now apply hget_In; [apply Hh|].
  - destruct (add_item E (new_ovfitem E) x) as [i'|] eqn:Ea; [|discriminate]. cbn [rbind].
    intros H. injection H as <-. apply ids_hset; [exact Hh|].
    apply (id_add_item E k (new_ovfitem E) x i' c); auto. split; [now apply R_new|].
    intros p v (d & s & [] & _).
Qed.

Lemma ids_nil : forall ver, ids_ok ver [].
Proof. intros ver. split; [constructor|contradiction]. Qed.

Lemma ids_read : forall E sec h, read_hardware E sec = Ok h -> ids_ok (e_ver E) h.
Proof.
  intros E sec h. unfold read_hardware.
  destruct (fold_result (read_item E) (echildren sec) []) as [h0|] eqn:E0; [|discriminate].
  cbn [rbind]. intros H. injection H as <-.
  assert (H0 : ids_ok (e_ver E) h0).
  { revert E0. apply (fold_result_inv _ _ _ (ids_ok (e_ver E))); [|apply ids_nil].
    intros g x g' _. apply ids_read_item. }
  destruct H0 as [ND H0]. split; [now rewrite map_map|].
  intros k i Hin. apply in_map_iff in Hin as ([k' i'] & Heq & Hin). injection Heq as <- <-.
  apply id_modified. now apply H0.
Qed.
