(** Proofs about the number of devices of a type, for all profiles at once. *)
From Coq Require Import Lia Permutation.
From Verif Require Import PyBase PyBaseProofs PyDict PyDictProofs ValidationModel ValidationSpec ValidationProofs XmlModel NamesModel
  ItemModel ItemSpec PsetProofs ItemProofs ItemSetProofs ItemProfileProofs ItemReachProofs ItemAddProofs
  ItemEffectProofs HardwareModel HardwareSpec HardwareProofs HardwareIdProofs ProfileProofs CountSpec CountItemProofs CountProofs.

Lemma generic_typed : forall ver i, generic ver i -> typed ver i.
Proof. intros ver i G p. destruct (G p) as [G1 G2]. unfold rec. rewrite G1, G2. reflexivity. Qed.

Lemma generic_has : forall E i p, reachable (e_ver E) i -> generic (e_ver E) i ->
  (has_profile E i p = true <-> p = None \/ exists x, p = Some x /\ In x (config_of E i)).
Proof.
  intros E i p R G. rewrite has_own by exact (reachable_good _ _ R).
  unfold rec. rewrite (proj1 (G p)), (proj1 (G None)). tauto.
Qed.

(** Assigning a value for profiles with the default among them. *)
Lemma assign_generic : forall E i n v P i', reachable (e_ver E) i ->
  n = INSTANCE_ID (e_ver E) \/ n = RESOURCE_TYPE -> v <> [] -> In None P ->
  (forall q w, own (i_props i) n q w -> q = None /\ w <> VStr v) ->
  set_property E i n (IStr v) P true = Ok i' ->
  forall q w, own (i_props i') n q w <-> w = VStr v /\ q = None.
Proof.
  intros E i n v P i' R Hn Hv HP Hf H q w. apply reachable_good in R as G.
  assert (Ht : is_text E n = false) by (destruct Hn as [-> | ->]; [apply IID_plain|apply RT_plain]).
  assert (Hs : to_value E n (IStr v) = VStr v).
  { unfold to_value. destruct (str_eqb n RESOURCE_SUB_TYPE) eqn:Es; [|reflexivity].
    apply str_eqb_eq in Es. destruct Hn as [-> | ->]; [|discriminate]. destruct (e_ver E); discriminate. }
  apply (set_property_inv E _ _ _ _ _ _ G) in H as (u & Hu & _ & _ & Hp & _).
  rewrite add_wildcards_plain in Hu by exact Ht. injection Hu as <-. rewrite Hs in Hp.
  set (ps := i_props i) in *. set (Q := profs_of ps n P) in *. rewrite Hp in *.
  assert (HQ : In None Q).
  { unfold Q, ps. apply (requested_profs E); [exact G|]. unfold requested. destruct P; [contradiction|exact HP]. }
  assert (NDQ : NoDup Q) by apply profs_NoDup.
  assert (Htr : truthy (VStr v) = true) by (destruct v; [congruence|reflexivity]).
  destruct q as [y|].
  - rewrite (stored_own_named (e_ver E)) by assumption. split.
    + intros [(_ & F & _)|(_ & _ & _ & F & _)]; [apply Hf in F as [F _]; discriminate|contradiction].
    + intros [_ F]. discriminate.
  - rewrite (stored_own_default (e_ver E)) by exact G. split.
    + intros [(_ & _ & F)|(-> & _)]; [contradiction|auto].
    + intros [-> _]. right. auto.
Qed.

(** Changing another property leaves a device generic. *)
Lemma generic_set : forall E i m x Q b w, m <> INSTANCE_ID (e_ver E) -> m <> RESOURCE_TYPE ->
  reachable (e_ver E) i -> generic (e_ver E) i -> kindb E w i = true -> set_property E i m x Q true = Ok b ->
  reachable (e_ver E) b /\ generic (e_ver E) b /\ kindb E w b = true /\ config_of E b = config_of E i.
Proof.
  intros E a m x Q b w M1 M2 R G Ha Hs.
  assert (Rb : reachable (e_ver E) b) by (eapply R_set; [reflexivity|exact R|exact Hs]).
  assert (O : forall z q u, z <> m -> own (i_props b) z q u <-> own (i_props a) z q u)
    by (intros z q u Hz; exact (set_other_rec E a m x Q true b z q u R Hz Hs)).
  split; [exact Rb|]. split; [|split].
  - intros p. destruct (G p) as [G1 G2]. split; [rewrite <- G1|rewrite <- G2]; split; intros (u & Hu); exists u; apply O; auto.
  - apply kindb_iff, kind_own; [exact (reachable_good _ _ Rb)|]. apply kindb_iff, kind_own in Ha as [q Ha]; [|exact (reachable_good _ _ R)].
    exists q. apply O; auto.
  - unfold config_of. apply (set_property_inv E) in Hs as (_ & _ & _ & _ & _ & _ & ->);
      [reflexivity|exact (reachable_good _ _ R)].
Qed.

Lemma update_cloned_generic : forall E nic i Q n i' w, reachable (e_ver E) i -> generic (e_ver E) i ->
  kindb E w i = true -> update_cloned E nic i Q n = Ok i' ->
  reachable (e_ver E) i' /\ generic (e_ver E) i' /\ kindb E w i' = true /\ config_of E i' = config_of E i.
Proof.
  intros E nic i Q n i' w R G K H. unfold update_cloned in H.
  rewrite (proj1 (kindb_iff E w i) K) in H. cbn [rbind] in H.
  match type of H with (if ?b then _ else _) = _ => destruct b; [discriminate|] end.
  match type of H with rbind ?r _ = _ => destruct r as [i1|] eqn:E1; [|discriminate] end. cbn [rbind] in H.
  assert (S1 : reachable (e_ver E) i1 /\ generic (e_ver E) i1 /\ kindb E w i1 = true /\ config_of E i1 = config_of E i).
  { destruct (get_all_values (i_props i) ADDRESS_ON_PARENT) as [|[a|] [|]]; try discriminate.
    - injection E1 as <-. auto.
    - destruct (py_int a); [|discriminate]. apply (generic_set E i) with (w := w) in E1; auto.
      + apply AOP_not_IID. + discriminate. }
  destruct S1 as (R1 & G1 & K1 & C1).
  destruct (str_eqb w (L "10")); [|injection H as <-; auto].
  apply (generic_set E i1) with (w := w) in H as (R2 & G2 & K2 & C2); auto.
  - split; [exact R2|]. split; [exact G2|]. split; [exact K2|congruence].
  - apply EN_not_IID.
  - apply EN_not_RT.
Qed.

Lemma new_generic : forall E h rt P k h' v, In None P -> res_map rt = Ok v -> new_item E h rt P = Ok (k, h') ->
  exists i, h' = hset k i h /\ reachable (e_ver E) i /\ generic (e_ver E) i /\ kindb E v i = true /\
    config_of E i = e_profiles E.
Proof.
  intros E h rt P k h' v HN Hrt H. unfold new_item in H.
  destruct (find_unused_instance_id h 1) as [id|] eqn:Eid; [|discriminate]. cbn [rbind] in H.
  apply unused_from_spec in Eid.
  destruct (set_property E (new_ovfitem E) _ _ P true) as [i1|] eqn:E1; [|discriminate]. cbn [rbind] in H.
  rewrite Hrt in H. cbn [rbind] in H.
  destruct (set_property E i1 RESOURCE_TYPE _ P true) as [i2|] eqn:E2; [|discriminate]. cbn [rbind] in H.
  destruct (set_property E i2 _ _ P true) as [i3|] eqn:E3; [|discriminate]. cbn [rbind] in H.
  injection H as <- <-.
  assert (R0 : reachable (e_ver E) (new_ovfitem E)) by now constructor.
  assert (R1 : reachable (e_ver E) i1) by (eapply R_set; [reflexivity|exact R0|exact E1]).
  assert (R2 : reachable (e_ver E) i2) by (eapply R_set; [reflexivity|exact R1|exact E2]).
  assert (O0 : forall n q w, ~ own (i_props (new_ovfitem E)) n q w) by (intros n q w (d & s & [] & _)).
  pose proof (assign_generic E _ _ id P i1 R0 (or_introl eq_refl) (first_free_nonempty _ _ _ Eid) HN
    (fun q w F => False_ind _ (O0 _ q w F)) E1) as A1.
  assert (O1 : forall q w, ~ own (i_props i1) RESOURCE_TYPE q w).
  { intros q w F. apply (set_other_rec E _ _ _ _ _ _ RESOURCE_TYPE q w R0 (RT_not_IID _) E1) in F. now apply O0 in F. }
  pose proof (assign_generic E _ _ v P i2 R1 (or_intror eq_refl) (res_map_nonempty _ _ Hrt) HN
    (fun q w F => False_ind _ (O1 q w F)) E2) as A2.
  assert (G2 : generic (e_ver E) i2).
  { intros p. split.
    - split; [intros (w & Hw)|intros ->].
      + apply (set_other_rec E i1 _ _ _ _ i2 _ p w R1 (not_eq_sym (RT_not_IID (e_ver E))) E2) in Hw. now apply A1 in Hw.
      + exists (VStr id). apply (set_other_rec E i1 _ _ _ _ i2 _ None _ R1 (not_eq_sym (RT_not_IID (e_ver E))) E2). now apply A1.
    - split; [intros (w & Hw); now apply A2 in Hw|intros ->; exists (VStr v); now apply A2]. }
  assert (K2 : kindb E v i2 = true).
  { apply kindb_iff, kind_own; [exact (reachable_good _ _ R2)|]. exists None. now apply A2. }
  assert (C2 : config_of E i2 = e_profiles E).
  { unfold config_of. apply (set_property_inv E) in E2 as (_ & _ & _ & _ & _ & _ & ->); [|exact (reachable_good _ _ R1)].
    apply (set_property_inv E) in E1 as (_ & _ & _ & _ & _ & _ & ->); [|exact (reachable_good _ _ R0)]. reflexivity. }
  destruct (generic_set E i2 _ _ _ i3 v (EN_not_IID _) (EN_not_RT _) R2 G2 K2 E3) as (R3 & G3 & K3 & C3).
  exists (with_modified true i3). split; [reflexivity|]. split; [now constructor|]. split; [exact G3|].
  split; [exact K3|]. rewrite <- C2. exact C3.
Qed.

Lemma clone_generic : forall E h k parent P k' h' w, ids_ok (e_ver E) h -> In (k, parent) h ->
  generic (e_ver E) parent -> kindb E w parent = true ->
  In None P -> (forall x, In x (e_profiles E) -> In (Some x) P) ->
  clone_item E h k P = Ok (k', h') ->
  exists i, h' = hset k' i h /\ reachable (e_ver E) i /\ generic (e_ver E) i /\ kindb E w i = true /\
    config_of E i = config_of E parent.
Proof.
  intros E h k parent P k' h' w [ND Hh] Hin G Hw HN HA H. unfold clone_item in H.
  rewrite (proj2 (hitem_In h k parent ND) Hin) in H. cbn [rbind] in H.
  destruct (get_value E (i_props parent) (INSTANCE_ID (e_ver E)) None) as [o|] eqn:Eo; [|discriminate]. cbn [rbind] in H.
  destruct o as [[s|]|]; try discriminate. destruct (py_int s) as [start|] eqn:Es; [|discriminate].
  destruct (find_unused_instance_id h start) as [id|] eqn:Eid; [|discriminate]. cbn [rbind] in H.
  apply unused_from_spec in Eid.
  set (copy := mkItem (i_props parent) (i_ns parent) (i_modified parent) (Some (config_of E parent))) in *.
  destruct (fold_result _ (e_profiles E) copy) as [i1|] eqn:E1; [|discriminate]. cbn [rbind] in H.
  destruct (set_property E i1 _ _ P true) as [i2|] eqn:E2; [|discriminate]. cbn [rbind] in H.
  injection H as <- <-.
  destruct (Hh k parent Hin) as [R Hk].
  assert (Rc : reachable (e_ver E) copy) by now constructor.
  assert (i1 = copy) as ->.
  { revert E1. apply (fold_result_inv _ _ _ (fun j => j = copy)); [|reflexivity].
    intros j x j' Hx -> Hs. rewrite (proj2 (pmem_In (Some x) P) (HA x Hx)), andb_false_r in Hs. now injection Hs as <-. }
  clear E1.
  assert (R2 : reachable (e_ver E) i2) by (eapply R_set; [reflexivity|exact Rc|exact E2]).
  assert (Hid : forall q u, own (i_props copy) (INSTANCE_ID (e_ver E)) q u -> q = None /\ u <> VStr id).
  { intros q u F. split; [apply (proj1 (G q)); now exists u|]. intros ->. apply Hk in F. injection F as ->.
    destruct Eid as (? & _ & _ & Hf & _). apply Hf. now exists parent. }
  pose proof (assign_generic E copy _ id P i2 Rc (or_introl eq_refl) (first_free_nonempty _ _ _ Eid) HN Hid E2) as A.
  assert (Ot : forall q u, own (i_props i2) RESOURCE_TYPE q u <-> own (i_props copy) RESOURCE_TYPE q u)
    by (intros q u; exact (set_other_rec E copy _ _ _ _ i2 RESOURCE_TYPE q u Rc (RT_not_IID _) E2)).
  exists (with_modified true i2). split; [reflexivity|]. split; [now constructor|]. split; [|split].
  - intros p. cbn [i_props with_modified]. split.
    + split; [intros (u & Hu); now apply A in Hu|intros ->; exists (VStr id); now apply A].
    + destruct (G p) as [_ <-]. split; intros (u & Hu); exists u; now apply Ot.
  - apply kindb_iff, kind_own; [exact (reachable_good _ _ (R_saved _ _ true R2))|]. cbn [i_props with_modified].
    apply kindb_iff, kind_own in Hw as [q Hw]; [|exact (reachable_good _ _ R)]. exists q. now apply Ot.
  - unfold config_of at 1. cbn [i_frozen with_modified].
    apply (set_property_inv E) in E2 as (_ & _ & _ & _ & _ & _ & ->); [|exact (reachable_good _ _ Rc)]. reflexivity.
Qed.

(** ** One device *)

Lemma steps_seen : forall E count P i cd seen, NoDup P -> (forall p, In p P -> has_profile E i p = true) ->
  (forall p, In p P -> (cget seen p < count)%Z) ->
  exists seen', fold_result (update_step E count) P (i, cd, seen) = Ok (i, cd, seen') /\
    forall p, In p P -> cget seen' p = (cget seen p + 1)%Z.
Proof.
  intros E count P i cd seen ND Hp Hs.
  assert (G : exists seen', fold_result (update_step E count) P (i, cd, seen) = Ok (i, cd, seen') /\
    (forall p, In p P -> cget seen' p = (cget seen p + 1)%Z) /\ forall p, ~ In p P -> cget seen' p = cget seen p).
  { revert seen Hs. induction P as [|p P IH]; intros seen Hs; cbn [fold_result].
    - exists seen. split; [reflexivity|]. split; [intros p []|reflexivity].
    - inversion ND as [|? ? Hnp NDP]; subst. unfold update_step at 1. rewrite (Hp p (or_introl eq_refl)).
      rewrite (proj2 (Z.leb_gt _ _) (Hs p (or_introl eq_refl))). cbn [rbind].
      destruct (IH NDP (fun q Hq => Hp q (or_intror Hq)) (cincr seen p)) as (seen' & -> & H1 & H2).
      { intros q Hq. rewrite cget_cincr_other by congruence. apply Hs. now right. }
      exists seen'. split; [reflexivity|]. split.
      + intros q [<- |Hq]; [rewrite H2 by exact Hnp; apply cget_cincr_same|].
        rewrite H1 by exact Hq. now rewrite cget_cincr_other by congruence.
      + intros q Hq. rewrite H2 by (intros F; apply Hq; now right). apply cget_cincr_other. intros ->. apply Hq. now left. }
  destruct G as (seen' & H1 & H2 & _). eauto.
Qed.

(** Enough devices have been seen: this one goes out of all profiles. *)
Lemma steps_named : forall E count l i cd seen i' cd' seen',
  reachable (e_ver E) i -> typed (e_ver E) i -> NoDup l ->
  (forall x, In x l -> has_profile E i (Some x) = true) ->
  (forall x, In x l -> (count <= cget seen (Some x))%Z) ->
  fold_result (update_step E count) (map Some l) (i, cd, seen) = Ok (i', cd', seen') ->
  keeps E i i' /\ cd' = cd /\ seen' = seen /\ (forall x, In x l -> has_profile E i' (Some x) = false) /\
  (forall y, ~ In y l -> has_profile E i' (Some y) = has_profile E i (Some y)) /\
  (l <> [] -> has_profile E i' None = false) /\ (l = [] -> i' = i).
Proof.
  intros E count. induction l as [|x l IH]; intros i cd seen i' cd' seen' R T ND Hp Hs H; cbn [map fold_result] in H.
  - injection H as <- <- <-. split; [now apply keeps_refl|]. repeat split; try tauto; try easy.
  - inversion ND as [|? ? Hx NDl]; subst. unfold update_step at 1 in H. rewrite (Hp x (or_introl eq_refl)) in H.
    rewrite (proj2 (Z.leb_le _ _) (Hs x (or_introl eq_refl))) in H.
    destruct (remove_profile E i (Some x) true) as [j|] eqn:Er; [|discriminate]. cbn [rbind] in H.
    destruct (remove_keeps E i x j R T (Hp x (or_introl eq_refl)) Er) as (K1 & K2 & K3 & K4).
    destruct (IH j cd seen i' cd' seen' (k_reach _ _ _ K1) (k_typed _ _ _ K1) NDl) as (J1 & -> & -> & J2 & J3 & J4 & J5); auto.
    { intros y Hy. rewrite K3 by congruence. apply Hp. now right. }
    { intros y Hy. apply Hs. now right. }
    split; [exact (keeps_trans _ _ _ _ K1 J1)|]. split; [reflexivity|]. split; [reflexivity|]. split; [|split; [|split]].
    + intros y [<- |Hy]; [rewrite J3 by exact Hx; exact K2|now apply J2].
    + intros y Hy. rewrite J3 by (intros F; apply Hy; now right). apply K3. intros ->. apply Hy. now left.
    + intros _. destruct l as [|z l]; [now rewrite J5|apply J4; discriminate].
    + discriminate.
Qed.

Lemma fold_result_app : forall (A S : Type) (f : S -> A -> result S) a b s,
  fold_result f (a ++ b) s = do s1 <- fold_result f a s; fold_result f b s1.
Proof.
  intros A S f. induction a as [|x a IH]; intros b s; cbn [app fold_result]; [reflexivity|].
  destruct (f s x); cbn [rbind]; [apply IH|reflexivity].
Qed.

Lemma steps_removed : forall E count i cd seen i' cd' seen',
  reachable (e_ver E) i -> generic (e_ver E) i -> NoDup (e_profiles E) ->
  (forall x, In x (config_of E i) <-> In x (e_profiles E)) ->
  (forall p, In p (map Some (e_profiles E) ++ [None]) -> (count <= cget seen p)%Z /\ (count <= cget cd p)%Z) ->
  fold_result (update_step E count) (map Some (e_profiles E) ++ [None]) (i, cd, seen) = Ok (i', cd', seen') ->
  cd' = cd /\ seen' = seen /\ forall q, has_profile E i' q = false.
Proof.
  intros E count i cd seen i' cd' seen' R G ND Hcfg Hs H. rewrite fold_result_app in H.
  destruct (fold_result _ (map Some (e_profiles E)) (i, cd, seen)) as [[[j c] s]|] eqn:E1; [|discriminate]. cbn [rbind] in H.
  apply steps_named in E1 as (J1 & -> & -> & J2 & J3 & J4 & J5); auto; [|now apply generic_typed| |].
  2: { intros x Hx. apply generic_has; auto. right. exists x. split; [reflexivity|]. now apply Hcfg. }
  2: { intros x Hx. apply Hs. apply in_app_iff. left. now apply in_map. }
  destruct (Hs None) as [Hs1 Hs2]; [apply in_app_iff; right; now left|].
  cbn [fold_result] in H. unfold update_step in H.
  assert (Named : forall y, has_profile E j (Some y) = false).
  { intros y. destruct (in_dec (list_eq_dec Ascii.ascii_dec) y (e_profiles E)) as [Hy|Hy]; [now apply J2|].
    rewrite J3 by exact Hy. apply not_true_iff_false. intros F. apply generic_has in F; auto.
    destruct F as [F|(x & F & Hx)]; [discriminate|]. injection F as <-. now apply Hy, Hcfg. }
  destruct (has_profile E j None) eqn:Ej.
  - rewrite (proj2 (Z.leb_le _ _) Hs1) in H.
    destruct (remove_profile E j None true) as [j'|] eqn:Er; [|discriminate]. cbn [rbind] in H. injection H as <- <- <-.
    split; [reflexivity|]. split; [reflexivity|].
    assert (Ep : e_profiles E = []).
    { destruct (e_profiles E) as [|a l] eqn:Ee; [reflexivity|]. discriminate (J4 ltac:(discriminate)). }
    rewrite (J5 Ep) in *. clear J5 J4 J3 J2 J1.
    assert (Rj : reachable (e_ver E) j') by (eapply R_remove_profile; [reflexivity|exact R|exact Er]).
    rewrite (remove_profile_eq E i None true (reachable_good _ _ R)), Ej in Er. injection Er as <-.
    assert (N : forall n q w, n = INSTANCE_ID (e_ver E) -> ~ own (removed (config_of E i) true None (i_props i)) n q w).
    { intros n q w -> F. apply (removed_own (e_ver E)) in F as (F1 & F2); [|exact (reachable_good _ _ R)].
      destruct F2 as [[F2 _]|(_ & F2 & _)].
      - apply F1, (proj1 (G q)). now exists w.
      - congruence. }
    intros q. apply not_true_iff_false. intros F. apply has_own in F; [|exact (reachable_good _ _ Rj)].
    destruct F as [(w & F)|[(w & F) _]]; now apply N in F.
  - rewrite (proj2 (Z.ltb_ge _ _) Hs2) in H. injection H as <- <- <-. split; [reflexivity|]. split; [reflexivity|].
    intros [y|]; [apply Named|exact Ej].
Qed.

(** ** The existing devices *)

Definition everyone (E : env) : list profile := map Some (e_profiles E) ++ [None].

Lemma everyone_NoDup : forall E, NoDup (e_profiles E) -> NoDup (everyone E).
Proof.
  intros E ND. unfold everyone. apply NoDup_snoc.
  - apply FinFun.Injective_map_NoDup; [intros a b H; congruence|exact ND].
  - intros F. apply in_map_iff in F as (x & F & _). discriminate.
Qed.

Lemma update_generic : forall E count, NoDup (e_profiles E) -> forall ks h cd seen h' cd' seen' s,
  NoDup ks -> NoDup (map fst h) ->
  (forall k, In k ks -> exists i, hget k h = Some i /\ reachable (e_ver E) i /\ generic (e_ver E) i /\
     forall x, In x (config_of E i) <-> In x (e_profiles E)) ->
  (s <= count)%Z ->
  (forall p, In p (everyone E) -> cget seen p = s /\ cget cd p = (s + Z.of_nat (length ks))%Z \/
                                 cget seen p = s /\ (count <= cget cd p)%Z) ->
  fold_result (update_item E count (everyone E)) ks (h, cd, seen) = Ok (h', cd', seen') ->
  map fst h' = map fst h /\ cd' = cd /\ (forall k, ~ In k ks -> hget k h' = hget k h) /\
  (forall k, In k (firstn (Z.to_nat (count - s)) ks) -> hget k h' = hget k h) /\
  (forall k, In k (skipn (Z.to_nat (count - s)) ks) -> exists i', hget k h' = Some i' /\ forall q, has_profile E i' q = false) /\
  (forall p, In p (everyone E) -> cget seen' p = Z.min count (s + Z.of_nat (length ks))).
Proof.
  intros E count NDE. induction ks as [|k ks IH]; intros h cd seen h' cd' seen' s ND NDh Hk Hs Hc H; cbn [fold_result] in H.
  - injection H as <- <- <-. rewrite firstn_nil, skipn_nil. do 3 (split; [reflexivity|]). split; [intros k []|]. split; [intros k []|].
    intros p Hp. cbn [length]. destruct (Hc p Hp) as [[-> _]|[-> _]]; lia.
  - destruct (update_item E count (everyone E) (h, cd, seen) k) as [[[h1 cd1] seen1]|] eqn:E1; [|discriminate]. cbn [rbind] in H.
    inversion ND as [|? ? Hnk NDk]; subst.
    destruct (Hk k (or_introl eq_refl)) as (i & Hi & R & G & Hcfg).
    unfold update_item in E1. unfold hitem in E1. rewrite Hi in E1. cbn [rbind] in E1.
    assert (Keys : forall j, map fst (hset k j h) = map fst h).
    { intros j. unfold hset. rewrite (dset_keys str_eqb). unfold dmem. unfold hget in Hi. rewrite Hi. reflexivity. }
    assert (Hk1 : forall j k', In k' ks -> exists i, hget k' (hset k j h) = Some i /\ reachable (e_ver E) i /\
       generic (e_ver E) i /\ forall x, In x (config_of E i) <-> In x (e_profiles E)).
    { intros j k' Hin. destruct (Hk k' (or_intror Hin)) as (a & Ha & HA). exists a.
      rewrite hget_hset_other by congruence. auto. }
    destruct (Z.lt_ge_cases s count) as [Hlt|Hge].
    + destruct (steps_seen E count (everyone E) i cd seen (everyone_NoDup E NDE)) as (seen2 & E2 & Hs2).
      { intros p Hp. apply generic_has; auto. unfold everyone in Hp. apply in_app_iff in Hp as [Hp|[<- |[]]]; [|now left].
        right. apply in_map_iff in Hp as (x & <- & Hx). exists x. split; [reflexivity|now apply Hcfg]. }
      { intros p Hp. destruct (Hc p Hp) as [[-> _]|[-> _]]; exact Hlt. }
      rewrite E2 in E1. cbn [rbind] in E1. injection E1 as <- <- <-.
      apply (IH _ _ _ _ _ _ (s + 1)%Z) in H as (H1 & -> & H2 & H3 & H4 & H5); auto.
      * replace (Z.to_nat (count - s)) with (S (Z.to_nat (count - (s + 1)))) by lia. cbn [firstn skipn length].
        assert (Same : hget k h' = hget k h) by (rewrite H2 by exact Hnk; rewrite hget_hset_same; now rewrite Hi).
        split; [now rewrite H1|]. split; [reflexivity|]. split; [|split; [|split]].
        -- intros k' Hn. rewrite H2 by (intros F; apply Hn; now right). apply hget_hset_other. intros ->. apply Hn. now left.
        -- intros k' [<- |Hin]; [exact Same|]. rewrite H3 by exact Hin. apply hget_hset_other.
           intros ->. apply Hnk. rewrite <- (firstn_skipn (Z.to_nat (count - (s + 1))) ks). apply in_app_iff. now left.
        -- exact H4.
        -- intros p Hp. rewrite H5 by exact Hp. f_equal. lia.
      * now apply hset_NoDup.
      * lia.
      * intros p Hp. rewrite Hs2 by exact Hp. cbn [length] in Hc. destruct (Hc p Hp) as [[H1 H2]|[H1 H2]]; lia.
    + assert (Hsc : s = count) by lia. subst s.
      destruct (fold_result (update_step E count) (everyone E) (i, cd, seen)) as [[[i1 cd2] seen2]|] eqn:E2; [|discriminate].
      cbn [rbind] in E1. injection E1 as <- <- <-.
      apply steps_removed in E2 as (-> & -> & Gone); auto.
      2: { intros p Hp. destruct (Hc p Hp) as [[H1 H2]|[H1 H2]]; lia. }
      apply (IH _ _ _ _ _ _ count) in H as (H1 & -> & H2 & H3 & H4 & H5); auto.
      * rewrite Z.sub_diag in *. cbn [Z.to_nat firstn skipn] in *.
        assert (Same : hget k h' = Some i1) by (rewrite H2 by exact Hnk; apply hget_hset_same).
        split; [now rewrite H1|]. split; [reflexivity|]. split; [|split; [|split]].
        -- intros k' Hn. rewrite H2 by (intros F; apply Hn; now right). apply hget_hset_other. intros ->. apply Hn. now left.
        -- intros k' [].
        -- intros k' [<- |Hin]; [exists i1; auto|now apply H4].
        -- intros p Hp. rewrite H5 by exact Hp. cbn [length]. lia.
      * now apply hset_NoDup.
      * intros p Hp. cbn [length] in Hc. destruct (Hc p Hp) as [[H1 H2]|[H1 H2]]; right; lia.
Qed.

(** ** New devices *)

Lemma add_items_generic : forall E nic count rt v, NoDup (e_profiles E) -> res_map rt = Ok v ->
  forall n h cd last_item h' keys, ids_ok (e_ver E) h -> natural_sort (map fst h) = Ok keys ->
  (forall p, In p (everyone E) -> cget cd p = (count - Z.of_nat n)%Z) ->
  (forall k, last_item = Some k -> exists i, In (k, i) h /\ generic (e_ver E) i /\ kindb E v i = true /\
     forall x, In x (config_of E i) <-> In x (e_profiles E)) ->
  add_items E nic n h rt count (everyone E) cd last_item = Ok h' ->
  exists new keys', h' = h ++ new /\ length new = n /\ ids_ok (e_ver E) h' /\
    natural_sort (map fst h') = Ok keys' /\
    forall k i, In (k, i) new -> generic (e_ver E) i /\ kindb E v i = true /\
      forall x, In x (config_of E i) <-> In x (e_profiles E).
Proof.
  intros E nic count rt v NDE Hv. induction n as [|n IH]; intros h cd lst h' keys Hh Hks Hcd Hl H; cbn [add_items] in H.
  - injection H as <-. exists [], keys. rewrite app_nil_r. split; [reflexivity|]. split; [reflexivity|]. split; [exact Hh|]. split; [exact Hks|]. intros k i [].
  - destruct (wanting_all count (everyone E) cd (everyone_NoDup E NDE)) as (cd' & Ew & Hcd').
    { intros p Hp. rewrite Hcd by exact Hp. lia. }
    assert (HN : In None (everyone E)) by (apply in_app_iff; right; now left).
    rewrite Ew in H.
    match type of H with rbind ?r _ = _ => destruct r as [[k h1]|] eqn:E1; [|discriminate] end. cbn [rbind] in H.
    assert (S : exists i z, h1 = hset k i h /\ ~ taken h k /\ generic (e_ver E) i /\ kindb E v i = true /\
      (forall x, In x (config_of E i) <-> In x (e_profiles E)) /\ id_is (e_ver E) k i /\ k = zdec z).
    { destruct lst as [k0|].
      - destruct (Hl k0 eq_refl) as (i0 & Hi0 & Gi0 & Ki0 & Ci0).
        destruct (clone_item_inv E h k0 (everyone E) k h1 Hh E1) as (j & st & _ & (z & Hz & _ & Hf & _) & Hj & Hid & _).
        destruct (clone_generic E h k0 i0 (everyone E) k h1 v Hh Hi0 Gi0 Ki0 HN) as (i & Hi & Ri & Gi & Ki & Ci); auto.
        { intros x Hx. apply in_app_iff. left. now apply in_map. }
        exists i, z. assert (j = i) as -> .
        { assert (F : hget k h1 = hget k h1) by reflexivity. rewrite Hj in F at 1. rewrite Hi in F.
          rewrite !hget_hset_same in F. congruence. }
        split; [exact Hi|]. split; [exact Hf|]. split; [exact Gi|]. split; [exact Ki|]. split; [rewrite Ci; exact Ci0|].
        split; [exact Hid|exact Hz].
      - destruct (new_item_inv E h rt (everyone E) k h1 E1) as (j & (z & Hz & _ & Hf & _) & Hj & Hid & _).
        destruct (new_generic E h rt (everyone E) k h1 v HN Hv E1) as (i & Hi & Ri & Gi & Ki & Ci).
        exists i, z. assert (j = i) as -> .
        { assert (F : hget k h1 = hget k h1) by reflexivity. rewrite Hj in F at 1. rewrite Hi in F.
          rewrite !hget_hset_same in F. congruence. }
        split; [exact Hi|]. split; [exact Hf|]. split; [exact Gi|]. split; [exact Ki|]. split; [rewrite Ci; reflexivity|].
        split; [exact Hid|exact Hz]. }
    destruct S as (i & z & -> & Hf & Gi & Ki & Ci & Hid & Hz).
    unfold hitem in H. rewrite hget_hset_same in H. cbn [rbind] in H.
    destruct (everyone E) as [|q P'] eqn:EP; [contradiction|]. rewrite <- EP in *.
    destruct (update_cloned E nic i (everyone E) (cget cd' q)) as [i'|] eqn:Eu; [|discriminate]. cbn [rbind] in H.
    destruct (update_cloned_generic E nic i _ _ i' v (proj1 Hid) Gi Ki Eu) as (_ & Gi' & Ki' & Ci').
    apply (id_update_cloned E nic k) in Eu as Hid'; [|exact Hid].
    rewrite hset_twice in H.
    assert (Hh1 : ids_ok (e_ver E) (hset k i' h)) by now apply ids_hset.
    rewrite (hset_fresh h k i' Hf) in *.
    destruct (sort_more (map fst h) k keys Hks) as [keys1 Hk1]; [rewrite Hz; apply zdec_plain|].
    destruct (IH (h ++ [(k, i')]) cd' (Some k) h' keys1) as (new & keys' & -> & Hn & Hids & Hs & Hall); auto.
    + rewrite map_app. exact Hk1.
    + intros p Hp. rewrite Hcd' by exact Hp. rewrite Hcd by exact Hp. lia.
    + intros k0 Hk0. injection Hk0 as <-. exists i'. split; [apply in_app_iff; right; now left|].
      split; [exact Gi'|]. split; [exact Ki'|]. now rewrite Ci'.
    + exists ((k, i') :: new), keys'. rewrite <- app_assoc in *. cbn [app] in *. split; [reflexivity|].
      split; [cbn [length]; lia|]. split; [exact Hids|]. split; [exact Hs|].
      intros k0 i0 [Heq|Hin]; [injection Heq as <- <-; split; [exact Gi'|split; [exact Ki'|now rewrite Ci']]|].
      exact (Hall k0 i0 Hin).
Qed.

Lemma filter_false_all : forall (A : Type) (f : A -> bool) l, (forall x, In x l -> f x = false) -> filter f l = [].
Proof.
  intros A f. induction l as [|a l IH]; intros H; [reflexivity|]. cbn [filter]. rewrite (H a (or_introl eq_refl)).
  apply IH. intros x Hx. apply H. now right.
Qed.

Theorem set_count_default : forall E nic h rt v count h',
  ids_ok (e_ver E) h -> res_map rt = Ok v -> (0 <= count)%Z -> NoDup (e_profiles E) ->
  (forall k i, In (k, i) h -> kindb E v i = true ->
     generic (e_ver E) i /\ forall x, In x (config_of E i) <-> In x (e_profiles E)) ->
  set_item_count E nic h rt count [] = Ok h' ->
  (forall p, In p (everyone E) -> exists ks ks', devices E h rt p = Ok ks /\ devices E h' rt p = Ok ks' /\
     Z.of_nat (length ks') = count /\
     ((count <= Z.of_nat (length ks))%Z -> ks' = firstn (Z.to_nat count) ks) /\
     ((Z.of_nat (length ks) <= count)%Z -> incl ks ks')) /\
  (forall k i, In (k, i) h -> kindb E v i = false -> In (k, i) h') /\
  incl (map fst h) (map fst h').
Proof.
  intros E nic h rt v count h' Hh Hv Hc NDE Hd H. unfold set_item_count in H. cbn [all_or] in H.
  change (map Some (e_profiles E) ++ [None]) with (everyone E) in H.
  pose proof (everyone_NoDup E NDE) as ND.
  assert (HP : everyone E <> []) by (unfold everyone; destruct (e_profiles E); discriminate).
  destruct (update_existing E h rt count (everyone E)) as [[[[h1 cd] n] lst]|] eqn:E1; [|discriminate]. cbn [rbind] in H.
  assert (Hh1 : ids_ok (e_ver E) h1) by exact (ids_update_existing _ _ _ _ _ _ _ _ _ Hh E1).
  unfold update_existing in E1.
  destruct (item_counts E h (Some rt) (everyone E)) as [cd0|] eqn:Ec; [|discriminate]. cbn [rbind] in E1.
  destruct (find_all_items E h (Some rt) [] []) as [all|] eqn:Ef; [|discriminate]. cbn [rbind] in E1.
  destruct (find_all_inv _ _ _ _ _ Ef) as (keys & Hk & _).
  rewrite (find_all_filter _ _ _ _ _ _ Hv Hk) in Ef. injection Ef as Hall.
  unfold item_counts in Ec. rewrite all_or_some in Ec by exact HP.
  rewrite (find_all_filter _ _ _ _ _ _ Hv Hk), Hall in Ec. cbn [rbind] in Ec.
  destruct (fold_result (update_item E count (everyone E)) all (h, cd0, zeros (everyone E))) as [[[h2 cd1] seen]|] eqn:Eu; [|discriminate].
  cbn [rbind] in E1. injection E1 as -> -> <- <-.
  destruct Hh as [NDh Hids]. pose proof (natural_sort_sound _ _ Hk) as [Pm _].
  assert (NDk : NoDup keys) by exact (Permutation_NoDup Pm NDh).
  assert (NDa : NoDup all) by (rewrite <- Hall; now apply NoDup_filter).
  assert (Hin : forall k, In k all -> exists i, hget k h = Some i /\ kindb E v i = true /\ reachable (e_ver E) i /\
     generic (e_ver E) i /\ forall x, In x (config_of E i) <-> In x (e_profiles E)).
  { intros k Hka. rewrite <- Hall in Hka. apply filter_In in Hka as [_ Hm]. unfold matches in Hm.
    destruct (hget k h) as [i|] eqn:Ei; [|discriminate]. exists i. apply andb_true_iff in Hm as [Hm _].
    apply hget_In in Ei; [|exact NDh]. destruct (Hd k i Ei Hm) as [G C]. destruct (Hids k i Ei) as [R _]. auto. }
  assert (Has : forall p k, In p (everyone E) -> In k all -> hasp E h p k = true).
  { intros p k Hp Hka. destruct (Hin k Hka) as (i & Hi & _ & R & G & C). unfold hasp. rewrite Hi.
    apply generic_has; auto. unfold everyone in Hp. apply in_app_iff in Hp as [Hp|[<- |[]]]; [|now left].
    right. apply in_map_iff in Hp as (x & <- & Hx). exists x. split; [reflexivity|now apply C]. }
  assert (Full : forall p, In p (everyone E) -> filter (hasp E h p) all = all).
  { intros p Hp. apply filter_all. intros k Hka. now apply Has. }
  assert (Hcd0 : forall p, In p (everyone E) -> cget cd0 p = Z.of_nat (length all)).
  { intros p Hp. rewrite (count_items_spec _ _ _ _ _ _ ND Ec p Hp), cget_zeros, trues_filter, Full by exact Hp. lia. }
  apply (update_generic E count NDE all h cd0 (zeros (everyone E)) h1 cd seen 0%Z NDa NDh) in Eu
    as (U1 & -> & U2 & U3 & U4 & U5); [|intros k Hka; destruct (Hin k Hka) as (i & Hi & _ & HA); exists i; auto|exact Hc|].
  2: { intros p Hp. rewrite cget_zeros, (Hcd0 p Hp). left. split; lia. }
  rewrite Z.sub_0_r in *.
  assert (Hk1 : natural_sort (map fst h1) = Ok keys) by now rewrite U1.
  assert (D0 : forall p, In p (everyone E) -> devices E h rt p = Ok all).
  { intros p Hp. unfold devices. rewrite (find_all_filter _ _ _ _ _ _ Hv Hk), matches_hasp, Hall. now rewrite Full. }
  assert (D1 : forall p, In p (everyone E) -> devices E h1 rt p = Ok (firstn (Z.to_nat count) all)).
  { intros p Hp. unfold devices. rewrite (find_all_filter _ _ _ _ _ _ Hv Hk1). f_equal.
    transitivity (filter (hasp E h1 p) all).
    - rewrite <- Hall, filter_filter. apply filter_ext_in. intros k Hkk. unfold matches at 1.
      destruct (matches E v [] h k) eqn:Em.
      + assert (Hka : In k all) by (rewrite <- Hall; now apply filter_In). cbn [andb].
        assert (Hs := Hka). rewrite <- (firstn_skipn (Z.to_nat count) all) in Hs. apply in_app_iff in Hs as [Hs|Hs].
        * destruct (Hin k Hka) as (i & Hi & Ki & _). unfold hasp. rewrite (U3 k Hs), Hi, Ki. cbn [forallb andb].
          now rewrite andb_true_r.
        * destruct (U4 k Hs) as (i & Hi & Gone). unfold hasp. rewrite Hi. cbn [forallb]. rewrite Gone. apply andb_false_r.
      + assert (Hka : ~ In k all) by (rewrite <- Hall; intros F; apply filter_In in F as [_ F]; congruence).
        rewrite (U2 k Hka). cbn [andb]. unfold matches in Em. destruct (hget k h); [|reflexivity].
        cbn [forallb] in Em. rewrite andb_true_r in Em. now rewrite Em.
    - rewrite <- (firstn_skipn (Z.to_nat count) all) at 1. rewrite filter_app.
      rewrite filter_all, filter_false_all, app_nil_r; [reflexivity| |].
      + intros k Hs. destruct (U4 k Hs) as (i & Hi & Gone). unfold hasp. now rewrite Hi.
      + intros k Hs. unfold hasp. rewrite (U3 k Hs). apply (Has p k Hp).
        rewrite <- (firstn_skipn (Z.to_nat count) all). apply in_app_iff. now left. }
  assert (Other : forall k i, In (k, i) h -> kindb E v i = false -> In (k, i) h1).
  { intros k i Hi Ki. apply hget_In; [apply Hh1|]. rewrite U2; [now apply hget_In|].
    intros F. destruct (Hin k F) as (j & Hj & Kj & _). apply hget_In in Hi; [|exact NDh]. congruence. }
  destruct (Z.le_gt_cases count (Z.of_nat (length all))) as [Hge|Hlt].
  - rewrite (to_add count (everyone E) seen count HP (Z.le_refl _)), Z.sub_diag in H; [|intros p Hp; rewrite U5 by exact Hp; lia].
    cbn [Z.to_nat add_items] in H. injection H as <-. split; [|split].
    + intros p Hp. exists all, (firstn (Z.to_nat count) all). split; [now apply D0|]. split; [now apply D1|].
      split; [rewrite firstn_length; lia|]. split; [reflexivity|]. intros Hle. rewrite firstn_all2 by lia. apply incl_refl.
    + exact Other.
    + rewrite U1. apply incl_refl.
  - rewrite (to_add count (everyone E) seen (Z.of_nat (length all)) HP) in H; [|lia|intros p Hp; rewrite U5 by exact Hp; lia].
    assert (A1 : forall p, In p (everyone E) -> cget cd0 p = (count - Z.of_nat (Z.to_nat (count - Z.of_nat (length all))))%Z).
    { intros p Hp. rewrite (Hcd0 p Hp). lia. }
    assert (All : firstn (Z.to_nat count) all = all) by (apply firstn_all2; lia).
    rewrite All in U3.
    assert (A2 : forall k, last (map Some all) None = Some k -> exists i, In (k, i) h1 /\ generic (e_ver E) i /\
      kindb E v i = true /\ forall x, In x (config_of E i) <-> In x (e_profiles E)).
    { intros k Hl. apply last_In in Hl. destruct (Hin k Hl) as (i & Hi & Ki & _ & G & C). exists i.
      split; [apply hget_In; [apply Hh1|]; now rewrite U3|]. auto. }
    destruct (add_items_generic E nic count rt v NDE Hv _ _ _ _ _ keys Hh1 Hk1 A1 A2 H)
      as (new & keys' & -> & Hn & Hids' & Hk' & Hnew).
    split; [|split].
    + intros p Hp. assert (Dn : exists ks', devices E (h1 ++ new) rt p = Ok ks')
        by (unfold devices; rewrite (find_all_filter _ _ _ _ _ _ Hv Hk'); eauto).
      destruct Dn as [ks' Hks']. exists all, ks'. split; [now apply D0|]. split; [exact Hks'|]. split; [|split].
      * rewrite (devices_number E _ rt v p ks' (proj1 Hids') Hv Hks').
        unfold number. rewrite filter_app, app_length.
        change (Z.of_nat (number E v p h1 + number E v p new) = count).
        rewrite <- (devices_number E h1 rt v p _ (proj1 Hh1) Hv (D1 p Hp)), All.
        assert (Nn : number E v p new = length new).
        { assert (Rn : forall k i, In (k, i) new -> reachable (e_ver E) i).
          { intros k i Hi. destruct Hids' as [_ Hids']. apply (Hids' k i). apply in_app_iff. now right. }
          unfold number. clear -Hnew Hp Rn. induction new as [|[k i] l IH]; [reflexivity|]. cbn [filter snd].
          destruct (Hnew k i (or_introl eq_refl)) as (Gi & Ki & Ci).
          assert (Hh : has_profile E i p = true).
          { apply generic_has; auto; [exact (Rn k i (or_introl eq_refl))|]. unfold everyone in Hp.
            apply in_app_iff in Hp as [Hp|[<- |[]]]; [|now left].
            right. apply in_map_iff in Hp as (x & <- & Hx). exists x. split; [reflexivity|now apply Ci]. }
          rewrite Ki, Hh. cbn [andb length]. f_equal. apply IH.
          - intros k0 i0 H0. apply (Hnew k0 i0). now right.
          - intros k0 i0 H0. apply (Rn k0 i0). now right. }
        rewrite Nn, Hn. lia.
      * intros F. exfalso. lia.
      * intros _ k Hka. apply (devices_In E _ rt v p ks' (proj1 Hids') Hv Hks').
        destruct (Hin k Hka) as (i & Hi & Ki & _). exists i.
        split; [apply in_app_iff; left; apply hget_In; [apply Hh1|now rewrite U3]|]. split; [exact Ki|].
        pose proof (Has p k Hp Hka) as A. unfold hasp in A. now rewrite Hi in A.
    + intros k i Hi Ki. apply in_app_iff. left. now apply Other.
    + intros k Hkk. rewrite map_app, U1. apply in_app_iff. now left.
Qed.
