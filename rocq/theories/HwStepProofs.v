(** What the operations on the hardware do to devices of other types, and under other
    profiles than those they are given. *)
From Coq Require Import Lia.
From Verif Require Import PyBase PyBaseProofs PyDict PyDictProofs ValidationSpec XmlModel NamesModel ItemModel ItemSpec
  ItemProofs ItemSetProofs ItemReachProofs ItemProfileProofs ItemAddProofs ItemEffectProofs HardwareModel HardwareSpec
  HardwareProofs HardwareIdProofs CountSpec CountItemProofs CountProofs FindSpec FindProofs ProfileProofs PsetProofs EditHwSpec.

(** ** One device *)

(** Steps on one device that concern only profiles with [A], and neither assign its
    InstanceID nor its type. *)
Inductive istep (E : env) (A : profile -> Prop) : item -> item -> Prop :=
| IS_refl : forall i, istep E A i i
| IS_set : forall i n x Q ow j i', n <> INSTANCE_ID (e_ver E) -> n <> RESOURCE_TYPE ->
    (forall p, requested (i_props i) n Q p -> A p) ->
    set_property E i n x Q ow = Ok j -> istep E A j i' -> istep E A i i'
| IS_add : forall i p j i', A p -> add_profile E i p None = Ok j -> istep E A j i' -> istep E A i i'
| IS_remove : forall i p j i', A p -> remove_profile E i p true = Ok j -> istep E A j i' -> istep E A i i'.

Lemma istep_trans : forall E A i j k, istep E A i j -> istep E A j k -> istep E A i k.
Proof.
  intros E A i j k H. induction H; intros K2; [exact K2| | |].
  - eapply IS_set; eauto.
  - eapply IS_add; eauto.
  - eapply IS_remove; eauto.
Qed.

(** All recorded types are [w]. *)
Definition rt_is (ver : version) (w : value) (i : item) : Prop :=
  reachable ver i /\ forall p v, own (i_props i) RESOURCE_TYPE p v -> v = w.

Lemma rt_set : forall E w i n x P ow i', rt_is (e_ver E) w i -> (n = RESOURCE_TYPE -> to_value E n x = w) ->
  set_property E i n x P ow = Ok i' -> rt_is (e_ver E) w i'.
Proof.
  intros E w i n x P ow i' [R H] Hn Hs. pose proof (reachable_good _ _ R) as G.
  split; [exact (R_set _ E i n x P ow i' eq_refl R Hs)|]. intros p v Ho.
  apply set_property_inv in Hs as (u & Hu & _ & _ & Hp & _); [|exact G]. rewrite Hp in Ho.
  destruct (str_eqb n RESOURCE_TYPE) eqn:En.
  - apply str_eqb_eq in En. subst n.
    assert (u = w) as ->.
    { rewrite add_wildcards_plain in Hu; [|apply CountItemProofs.RT_plain]. injection Hu as <-. now apply Hn. }
    apply (stored_own_some (e_ver E)) in Ho as [-> |[q Ho]]; [reflexivity|now apply (H q)|exact G|apply profs_NoDup].
  - apply str_eqb_neq in En. apply stored_other in Ho; [now apply (H p)|exact (proj1 G)|congruence].
Qed.
Lemma rt_add : forall E w i p i', rt_is (e_ver E) w i -> add_profile E i p None = Ok i' -> rt_is (e_ver E) w i'.
Proof.
  intros E w i p i' Hi. unfold add_profile.
  destruct (has_profile E i p); [intros H; now injection H as <-|].
  destruct (prget _ _) as [d0|]; [|discriminate].
  destruct (fold_result _ _ i) as [i1|] eqn:E1; [|discriminate]. cbn [rbind].
  assert (I1 : rt_is (e_ver E) w i1).
  { revert E1. apply (fold_result_inv _ _ _ (rt_is (e_ver E) w)); [|exact Hi].
    intros j n j' _ Hj. unfold add_profile_step. cbn [option_map].
    destruct (prget n (i_props j)) as [[|e d]|] eqn:Ep; [| |discriminate].
    - intros H; now injection H as <-.
    - destruct (inherited (e :: d) (e :: d)) as [v|] eqn:Ei; [|discriminate].
      apply rt_set; [exact Hj|]. intros ->.
      destruct Hj as [R Hj]. pose proof (reachable_good _ _ R) as G.
      apply inherited_own in Ei. apply in_map_iff in Ei as ([v' s] & Ev & Hin). cbn in Ev. subst v'.
      pose proof (good_dict _ _ _ _ G Ep) as (_ & Gd & _).
      destruct (Gd v s Hin) as (_ & Hs & _). destruct s as [|q s]; [congruence|].
      assert (O : own (i_props j) RESOURCE_TYPE q v).
      { apply (own_Some _ _ _ _ _ (proj1 G) Ep). exists (q :: s). split; [exact Hin|now left]. }
      pose proof (reachable_typed _ _ R RESOURCE_TYPE q v O) as T. change (str_eqb RESOURCE_TYPE RESOURCE_SUB_TYPE) with false in T.
      destruct T as [t ->]. unfold to_value. change (str_eqb RESOURCE_TYPE RESOURCE_SUB_TYPE) with false. cbn [as_arg].
      exact (Hj q _ O). }
  destruct I1 as [R1 H1]. rewrite validate_good; [|exact (reachable_good _ _ R1)].
  intros H. injection H as <-. split; [now apply R_saved|exact H1].
Qed.
Lemma rt_remove : forall E w i p split i', rt_is (e_ver E) w i -> remove_profile E i p split = Ok i' -> rt_is (e_ver E) w i'.
Proof.
  intros E w i p split i' [R H] Hr. split; [exact (R_remove_profile _ E i p split i' eq_refl R Hr)|].
  pose proof (reachable_good _ _ R) as G. rewrite remove_profile_eq in Hr by exact G. injection Hr as <-.
  destruct (has_profile E i p); [|exact H]. cbn [i_props with_modified with_props].
  intros q v Ho. apply (removed_own (e_ver E)) in Ho; [|exact G].
  destruct Ho as [_ [[Ho _]|(_ & _ & Ho & _)]]; [now apply (H q)|now apply (H None)].
Qed.

Lemma add_frozen : forall E i p i', reachable (e_ver E) i -> add_profile E i p None = Ok i' -> i_frozen i' = i_frozen i.
Proof.
  intros E i p i' R. unfold add_profile. destruct (has_profile E i p); [intros H; now injection H as <-|].
  destruct (prget _ _) as [d0|]; [|discriminate].
  destruct (fold_result _ _ i) as [i1|] eqn:E1; [|discriminate]. cbn [rbind].
  assert (I1 : reachable (e_ver E) i1 /\ i_frozen i1 = i_frozen i).
  { revert E1. apply (fold_result_inv _ _ _ (fun j => reachable (e_ver E) j /\ i_frozen j = i_frozen i)); [|auto].
    intros j n j' _ [Rj Hj]. unfold add_profile_step. cbn [option_map].
    destruct (prget n (i_props j)) as [[|e d]|] eqn:Ep; [| |discriminate].
    - intros H; now injection H as <-.
    - destruct (inherited (e :: d) (e :: d)) as [v|] eqn:Ei; [|discriminate].
      intros Hs. split; [exact (R_set _ E j _ _ _ _ j' eq_refl Rj Hs)|].
      rewrite (set_frozen _ _ _ _ _ _ _ (reachable_good _ _ Rj) Hs). exact Hj. }
  destruct I1 as [R1 H1]. rewrite validate_good; [|exact (reachable_good _ _ R1)].
  intros H. injection H as <-. exact H1.
Qed.
Lemma remove_frozen : forall E i p split i', reachable (e_ver E) i -> remove_profile E i p split = Ok i' -> i_frozen i' = i_frozen i.
Proof.
  intros E i p split i' R Hr. rewrite remove_profile_eq in Hr by exact (reachable_good _ _ R). injection Hr as <-.
  now destruct (has_profile E i p).
Qed.

Lemma istep_reach : forall E A i i', istep E A i i' -> reachable (e_ver E) i ->
  reachable (e_ver E) i' /\ i_frozen i' = i_frozen i.
Proof.
  intros E A i i' H. induction H as [i|i n x Q ow j i' N1 N2 HA Hs H IH|i p j i' HA Hs H IH|i p j i' HA Hs H IH]; intros R; [auto| | |].
  - assert (Rj : reachable (e_ver E) j) by exact (R_set _ E i n x Q ow j eq_refl R Hs).
    destruct (IH Rj) as [H1 H2]. split; [exact H1|]. rewrite H2. exact (set_frozen _ _ _ _ _ _ _ (reachable_good _ _ R) Hs).
  - assert (Rj : reachable (e_ver E) j) by exact (R_add_profile _ E i p None j eq_refl R Hs).
    destruct (IH Rj) as [H1 H2]. split; [exact H1|]. rewrite H2. exact (add_frozen E i p j R Hs).
  - assert (Rj : reachable (e_ver E) j) by exact (R_remove_profile _ E i p true j eq_refl R Hs).
    destruct (IH Rj) as [H1 H2]. split; [exact H1|]. rewrite H2. exact (remove_frozen E i p true j R Hs).
Qed.
Lemma istep_rt : forall E A w i i', istep E A i i' -> rt_is (e_ver E) w i -> rt_is (e_ver E) w i'.
Proof.
  intros E A w i i' H. induction H as [i|i n x Q ow j i' N1 N2 HA Hs H IH|i p j i' HA Hs H IH|i p j i' HA Hs H IH]; intros R; [auto| | |]; apply IH.
  - apply (rt_set E w i n x Q ow j R); [intros F; contradiction|exact Hs].
  - exact (rt_add E w i p j R Hs).
  - exact (rt_remove E w i p true j R Hs).
Qed.

(** Under a named profile outside [A] that the device knows, nothing changes. *)
Lemma set_outside : forall E i n x Q ow j q, reachable (e_ver E) i ->
  ~ requested (i_props i) n Q q -> ~ requested (i_props i) n Q None ->
  set_property E i n x Q ow = Ok j ->
  forall m w, holds (i_props j) m q w <-> holds (i_props i) m q w.
Proof.
  intros E i n x Q ow j q R N1 N2 Hs m w.
  destruct (set_property_effect E i n x Q ow j R Hs) as (v & _ & _ & H2 & H3 & H4).
  destruct (str_eqb m n) eqn:Em.
  - apply str_eqb_eq in Em. subst m. destruct (truthy v) eqn:Ev.
    + apply H2; [reflexivity|]. intros [F|[F _]]; contradiction.
    + apply holds_agree. intros q' u [-> | ->]; rewrite H3 by reflexivity; tauto.
  - apply str_eqb_neq in Em. apply holds_agree. intros q' u _. now apply H4.
Qed.

Lemma istep_outside : forall E A i i' q, istep E A i i' -> reachable (e_ver E) i -> In q (config_of E i) ->
  ~ A (Some q) -> ~ A None -> forall m w, holds (i_props i') m (Some q) w <-> holds (i_props i) m (Some q) w.
Proof.
  intros E A i i' q H. induction H as [i|i n x Q ow j i' N1 N2 HA Hs H IH|i p j i' HA Hs H IH|i p j i' HA Hs H IH];
    intros R Hq A1 A2 m w; [reflexivity| | |].
  - assert (Rj : reachable (e_ver E) j) by exact (R_set _ E i n x Q ow j eq_refl R Hs).
    rewrite (IH Rj) by (auto; unfold config_of in *; now rewrite (set_frozen _ _ _ _ _ _ _ (reachable_good _ _ R) Hs)).
    apply (set_outside E i n x Q ow j (Some q) R); [intros F; apply A1, HA, F|intros F; apply A2, HA, F|exact Hs].
  - assert (Rj : reachable (e_ver E) j) by exact (R_add_profile _ E i p None j eq_refl R Hs).
    rewrite (IH Rj) by (auto; unfold config_of in *; now rewrite (add_frozen E i p j R Hs)).
    destruct p as [x|]; [|contradiction].
    destruct (has_profile E i (Some x)) eqn:Eh.
    { unfold add_profile in Hs. rewrite Eh in Hs. injection Hs as <-. reflexivity. }
    destruct (add_profile_spec E i x None j R) as (_ & H1 & _); [discriminate|exact Eh|exact Hs|].
    apply holds_agree. intros q' u [-> | ->]; apply H1; [|discriminate]. intros F. injection F as ->. contradiction.
  - assert (Rj : reachable (e_ver E) j) by exact (R_remove_profile _ E i p true j eq_refl R Hs).
    rewrite (IH Rj) by (auto; unfold config_of in *; now rewrite (remove_frozen E i p true j R Hs)).
    destruct p as [x|]; [|contradiction].
    pose proof (reachable_good _ _ R) as G. rewrite remove_profile_eq in Hs by exact G. injection Hs as <-.
    destruct (has_profile E i (Some x)); [|reflexivity]. cbn [i_props with_modified with_props].
    apply (removed_split_holds (e_ver E)); [exact G|exact Hq|]. intros ->. contradiction.
Qed.

(** A device is in a named profile that it knows if it holds an InstanceID there. *)
Lemma present_holds' : forall E i q, reachable (e_ver E) i -> In q (config_of E i) ->
  (present E i (Some q) <-> exists v, holds (i_props i) (INSTANCE_ID (e_ver E)) (Some q) v).
Proof.
  intros E i q R Hq. rewrite <- (has_profile_present E i (Some q)) by exact (reachable_good _ _ R).
  now apply present_holds.
Qed.
Lemma istep_present : forall E A i i' q, istep E A i i' -> reachable (e_ver E) i -> In q (config_of E i) ->
  ~ A (Some q) -> ~ A None -> (present E i' (Some q) <-> present E i (Some q)).
Proof.
  intros E A i i' q H R Hq A1 A2. destruct (istep_reach E A i i' H R) as [R' F].
  rewrite (present_holds' E i' q R') by (unfold config_of in *; now rewrite F).
  rewrite (present_holds' E i q R Hq). split; intros [v Hv]; exists v; now apply (istep_outside E A i i' q H R Hq A1 A2).
Qed.
Lemma istep_reports : forall E A i i' q n, istep E A i i' -> reachable (e_ver E) i -> In q (config_of E i) ->
  ~ A (Some q) -> ~ A None -> reports E i' n (Some q) = reports E i n (Some q).
Proof.
  intros E A i i' q n H R Hq A1 A2. destruct (istep_reach E A i i' H R) as [R' F].
  apply reports_same; [exact (reachable_good _ _ R)|exact (reachable_good _ _ R')|].
  intros m v. symmetry. apply (istep_outside E A i i' q H R Hq A1 A2).
Qed.

(** ** The hardware *)

Definition all_know (E : env) (q : str) (h : hw) : Prop := forall k i, In (k, i) h -> In q (config_of E i).

(** A new device of the type with this number. *)
Record fresh_item (E : env) (A : profile -> Prop) (v : str) (h : hw) (i : item) : Prop := {
  f_rt : rt_is (e_ver E) (VStr v) i;
  f_out : forall q, ~ A (Some q) -> ~ A None -> In q (e_profiles E) -> all_know E q h ->
            ~ present E i (Some q) /\ In q (config_of E i) }.

Record touches (E : env) (A : profile -> Prop) (v : str) (h h' : hw) : Prop := {
  t_old : forall k i, In (k, i) h -> exists i', In (k, i') h' /\
            (i' = i \/ (only_value (i_props i) RESOURCE_TYPE (VStr v) /\ istep E A i i'));
  t_new : forall k i', In (k, i') h' -> taken h k \/ fresh_item E A v h i' }.

Lemma touches_refl : forall E A v h, touches E A v h h.
Proof. intros. split; [eauto|]. intros k i H. left. now exists i. Qed.

Lemma NoDup_same : forall (h : hw) k a b, NoDup (map fst h) -> In (k, a) h -> In (k, b) h -> a = b.
Proof.
  intros h k a b N H1 H2. apply hget_In in H1; [|exact N]. apply hget_In in H2; [|exact N]. congruence.
Qed.

Lemma only_rt : forall E i v, reachable (e_ver E) i -> only_value (i_props i) RESOURCE_TYPE (VStr v) -> rt_is (e_ver E) (VStr v) i.
Proof. intros E i v R [_ H]. split; [exact R|]. exact H. Qed.

(** A step on the device with key [k]. *)
Lemma touch_one : forall E A v h k i i', NoDup (map fst h) -> In (k, i) h ->
  only_value (i_props i) RESOURCE_TYPE (VStr v) -> istep E A i i' -> touches E A v h (hset k i' h).
Proof.
  intros E A v h k i i' N Hin Ho Hi. split.
  - intros k0 j Hj. destruct (str_eqb k0 k) eqn:Ek.
    + apply str_eqb_eq in Ek. subst k0. pose proof (NoDup_same h k j i N Hj Hin) as ->.
      exists i'. split; [apply hset_In; auto|auto].
    + apply str_eqb_neq in Ek. exists j. split; [apply hset_In; auto|auto].
  - intros k0 j Hj. left. apply hset_In in Hj; [|exact N]. destruct Hj as [[-> ->]|[_ Hj]]; [now exists i|now exists j].
Qed.

(** Devices of other types stay. *)
Lemma touches_type : forall E A v h h' w, NoDup (map fst h) -> NoDup (map fst h') ->
  (forall k i, In (k, i) h -> reachable (e_ver E) i) -> w <> v ->
  touches E A v h h' -> same_of_type w h h'.
Proof.
  intros E A v h h' w N N' R W T k i Ho.
  assert (Ne : forall j, only_value (i_props j) RESOURCE_TYPE (VStr w) -> ~ rt_is (e_ver E) (VStr v) j).
  { intros j [[p Hp] _] [_ F]. specialize (F p _ Hp). injection F as ->. now apply W. }
  split; intros Hi.
  - destruct (t_old _ _ _ _ _ T k i Hi) as (i' & Hi' & [-> |[F _]]); [exact Hi'|].
    destruct (Ne i Ho). apply only_rt; [exact (R k i Hi)|exact F].
  - destruct (t_new _ _ _ _ _ T k i Hi) as [[j Hj]|F]; [|destruct (Ne i Ho); exact (f_rt _ _ _ _ _ F)].
    destruct (t_old _ _ _ _ _ T k j Hj) as (i' & Hi' & C).
    pose proof (NoDup_same h' k i' i N' Hi' Hi) as ->.
    destruct C as [-> |[F S]]; [exact Hj|]. destruct (Ne i Ho).
    apply (istep_rt E A (VStr v) j i S). apply only_rt; [exact (R k j Hj)|exact F].
Qed.

(** Under a named profile that is known to all devices and not concerned, nothing changes. *)
Record framed (E : env) (q : str) (h h' : hw) : Prop := {
  fr_old : forall k i, In (k, i) h -> exists i', In (k, i') h' /\
             (present E i' (Some q) <-> present E i (Some q)) /\
             (forall n, reports E i' n (Some q) = reports E i n (Some q));
  fr_new : forall k i', In (k, i') h' -> taken h k \/ ~ present E i' (Some q);
  fr_know : all_know E q h' }.

Lemma touches_frame : forall E A v h h' q, NoDup (map fst h) -> NoDup (map fst h') ->
  (forall k i, In (k, i) h -> reachable (e_ver E) i) ->
  ~ A (Some q) -> ~ A None -> In q (e_profiles E) -> all_know E q h ->
  touches E A v h h' -> framed E q h h'.
Proof.
  intros E A v h h' q N N' R A1 A2 Hq Hk T. split.
  - intros k i Hi. destruct (t_old _ _ _ _ _ T k i Hi) as (i' & Hi' & C). exists i'. split; [exact Hi'|].
    destruct C as [-> |[_ S]]; [split; [reflexivity|reflexivity]|].
    split; [exact (istep_present E A i i' q S (R k i Hi) (Hk k i Hi) A1 A2)|].
    intros n. exact (istep_reports E A i i' q n S (R k i Hi) (Hk k i Hi) A1 A2).
  - intros k i' Hi'. destruct (t_new _ _ _ _ _ T k i' Hi') as [C|F]; [now left|right].
    exact (proj1 (f_out _ _ _ _ _ F q A1 A2 Hq Hk)).
  - intros k i' Hi'. destruct (t_new _ _ _ _ _ T k i' Hi') as [[j Hj]|F].
    + destruct (t_old _ _ _ _ _ T k j Hj) as (i0 & Hi0 & C). pose proof (NoDup_same h' k i0 i' N' Hi0 Hi') as ->.
      destruct C as [-> |[_ S]]; [exact (Hk k j Hj)|].
      destruct (istep_reach E A j i' S (R k j Hj)) as [_ F]. unfold config_of. rewrite F. exact (Hk k j Hj).
    + exact (proj2 (f_out _ _ _ _ _ F q A1 A2 Hq Hk)).
Qed.

Lemma framed_refl : forall E q h, all_know E q h -> framed E q h h.
Proof.
  intros E q h K. split; [|intros k i H; left; now exists i|exact K].
  intros k i H. exists i. split; [exact H|]. split; [reflexivity|reflexivity].
Qed.
Lemma framed_trans : forall E q a b c, NoDup (map fst b) -> NoDup (map fst c) -> framed E q a b -> framed E q b c -> framed E q a c.
Proof.
  intros E q a b c N N' H1 H2. split; [| |exact (fr_know _ _ _ _ H2)].
  - intros k i Hi. destruct (fr_old _ _ _ _ H1 k i Hi) as (j & Hj & P1 & R1).
    destruct (fr_old _ _ _ _ H2 k j Hj) as (l & Hl & P2 & R2). exists l. split; [exact Hl|].
    split; [now rewrite P2|]. intros n. now rewrite R2.
  - intros k i Hi. destruct (fr_new _ _ _ _ H2 k i Hi) as [[j Hj]|F]; [|now right].
    destruct (fr_new _ _ _ _ H1 k j Hj) as [C|F]; [now left|right].
    destruct (fr_old _ _ _ _ H2 k j Hj) as (l & Hl & P2 & _).
    pose proof (NoDup_same c k l i N' Hl Hi) as ->. now rewrite P2.
Qed.

(** Composition for the same type and profiles. *)
Lemma touches_trans : forall E A v a b c, NoDup (map fst b) -> NoDup (map fst c) ->
  (forall k i, In (k, i) a -> reachable (e_ver E) i) -> (forall k i, In (k, i) b -> reachable (e_ver E) i) ->
  touches E A v a b -> touches E A v b c -> touches E A v a c.
Proof.
  intros E A v a b c N N' Ra Rb H1 H2.
  assert (K : forall q, ~ A (Some q) -> ~ A None -> In q (e_profiles E) -> all_know E q a -> all_know E q b).
  { intros q A1 A2 Hq Hk k i' Hi'. destruct (t_new _ _ _ _ _ H1 k i' Hi') as [[j Hj]|F].
    + destruct (t_old _ _ _ _ _ H1 k j Hj) as (i0 & Hi0 & C). pose proof (NoDup_same b k i0 i' N Hi0 Hi') as ->.
      destruct C as [-> |[_ S]]; [exact (Hk k j Hj)|].
      destruct (istep_reach E A j i' S (Ra k j Hj)) as [_ F]. unfold config_of. rewrite F. exact (Hk k j Hj).
    + exact (proj2 (f_out _ _ _ _ _ F q A1 A2 Hq Hk)). }
  split.
  - intros k i Hi. destruct (t_old _ _ _ _ _ H1 k i Hi) as (j & Hj & C1).
    destruct (t_old _ _ _ _ _ H2 k j Hj) as (l & Hl & C2). exists l. split; [exact Hl|].
    destruct C1 as [-> |[O1 S1]]; [exact C2|]. right. split; [exact O1|].
    destruct C2 as [-> |[_ S2]]; [exact S1|]. exact (istep_trans E A i j l S1 S2).
  - intros k i Hi. destruct (t_new _ _ _ _ _ H2 k i Hi) as [[j Hj]|F].
    + destruct (t_new _ _ _ _ _ H1 k j Hj) as [C|F]; [now left|right].
      destruct (t_old _ _ _ _ _ H2 k j Hj) as (l & Hl & C2). pose proof (NoDup_same c k l i N' Hl Hi) as ->.
      destruct C2 as [-> |[_ S2]]; [exact F|]. split.
      * exact (istep_rt E A (VStr v) j i S2 (f_rt _ _ _ _ _ F)).
      * intros q A1 A2 Hq Hk. destruct (f_out _ _ _ _ _ F q A1 A2 Hq Hk) as [F1 F2].
        destruct (istep_reach E A j i S2 (Rb k j Hj)) as [_ Fz]. split.
        -- now rewrite (istep_present E A j i q S2 (Rb k j Hj) F2 A1 A2).
        -- unfold config_of. rewrite Fz. exact F2.
    + right. split; [exact (f_rt _ _ _ _ _ F)|]. intros q A1 A2 Hq Hk.
      exact (f_out _ _ _ _ _ F q A1 A2 Hq (K q A1 A2 Hq Hk)).
Qed.

(** ** Setting values *)
Lemma set_istep : forall E (A : profile -> Prop) i n x Q ow j, n <> INSTANCE_ID (e_ver E) -> n <> RESOURCE_TYPE ->
  (Q = [] -> forall p, A p) -> (forall p, In p Q -> A p) -> set_property E i n x Q ow = Ok j -> istep E A i j.
Proof.
  intros E A i n x Q ow j N1 N2 H1 H2 Hs. apply (IS_set E A i n x Q ow j j N1 N2); [|exact Hs|apply IS_refl].
  intros p Hp. destruct Q as [|q Q]; [now apply H1|]. now apply H2.
Qed.
Lemma set_profiles_istep : forall E (A : profile -> Prop) n x Q i j, n <> INSTANCE_ID (e_ver E) -> n <> RESOURCE_TYPE ->
  (forall p, In p Q -> A p) -> set_profiles E n x Q i = Ok j -> istep E A i j.
Proof.
  intros E A n x Q i j N1 N2 H Hs. revert Hs. unfold set_profiles.
  apply (fold_result_inv _ _ _ (fun k => istep E A i k)); [|apply IS_refl].
  intros k p k' Hp Hk. destruct (has_profile E k p); [|intros F; now injection F as <-].
  intros Hs. apply (istep_trans E A i k k' Hk). apply (set_istep E A k n x [p] true k' N1 N2); [discriminate| |exact Hs].
  intros q [<- |[]]. now apply H.
Qed.

(** A change of some devices of one type, key by key. *)
Lemma touch_keys : forall E A v h h' ks, NoDup (map fst h) -> map fst h' = map fst h ->
  (forall k i, ~ In k ks -> (In (k, i) h' <-> In (k, i) h)) ->
  (forall k, In k ks -> exists i i', In (k, i) h /\ In (k, i') h' /\
     only_value (i_props i) RESOURCE_TYPE (VStr v) /\ istep E A i i') ->
  touches E A v h h'.
Proof.
  intros E A v h h' ks N Hf H1 H2. split.
  - intros k i Hi. destruct (in_dec (list_eq_dec Ascii.ascii_dec) k ks) as [Hk|Hk].
    + destruct (H2 k Hk) as (j & i' & Hj & Hi' & O & S). pose proof (NoDup_same h k j i N Hj Hi) as ->. eauto.
    + exists i. split; [now apply H1|auto].
  - intros k i' Hi'. left. apply taken_iff. rewrite <- Hf. apply in_map_iff. now exists (k, i').
Qed.

Lemma wanted_type : forall E h rt v ks, are_wanted E h (Some rt) [] [] ks -> res_map rt = Ok v ->
  forall k i, In k ks -> NoDup (map fst h) -> In (k, i) h -> only_value (i_props i) RESOURCE_TYPE (VStr v).
Proof.
  intros E h rt v ks (_ & _ & H) Hv k i Hk N Hi. apply H in Hk as (j & Hj & (W & _ & _)).
  pose proof (NoDup_same h k j i N Hj Hi) as ->.
  destruct (W rt eq_refl) as (v' & Hv' & O). unfold res_map in Hv. rewrite Hv' in Hv. injection Hv as ->. exact O.
Qed.

Lemma new_rt : forall E h rt P k h' v, res_map rt = Ok v -> new_item E h rt P = Ok (k, h') ->
  exists i, h' = hset k i h /\ ~ taken h k /\ rt_is (e_ver E) (VStr v) i.
Proof.
  intros E h rt P k h' v Hv. unfold new_item. destruct (find_unused_instance_id h 1) as [id|] eqn:Ei; [|discriminate].
  cbn [rbind]. destruct (set_property E (new_ovfitem E) _ _ P true) as [i1|] eqn:E1; [|discriminate]. cbn [rbind].
  rewrite Hv. cbn [rbind]. destruct (set_property E i1 _ _ P true) as [i2|] eqn:E2; [|discriminate]. cbn [rbind].
  destruct (set_property E i2 _ _ P true) as [i3|] eqn:E3; [|discriminate]. cbn [rbind].
  intros H. injection H as <- <-. exists (with_modified true i3). split; [reflexivity|].
  split. { apply unused_from_spec in Ei. now destruct Ei as (n & _ & _ & F & _). }
  assert (R0 : rt_is (e_ver E) (VStr v) (new_ovfitem E)).
  { split; [now apply R_new|]. intros p w (d & s & F & _). destruct F. }
  assert (R1 : rt_is (e_ver E) (VStr v) i1) by (apply (rt_set E _ _ _ _ _ _ _ R0) in E1; [exact E1|intros F; destruct (RT_not_IID (e_ver E)); now rewrite F]).
  assert (R2 : rt_is (e_ver E) (VStr v) i2) by (apply (rt_set E _ _ _ _ _ _ _ R1) in E2; [exact E2|reflexivity]).
  assert (R3 : rt_is (e_ver E) (VStr v) i3) by (apply (rt_set E _ _ _ _ _ _ _ R2) in E3; [exact E3|intros F; destruct (EN_not_RT (e_ver E)); now rewrite F]).
  destruct R3 as [R3 H3]. split; [now apply R_saved|exact H3].
Qed.

Lemma touch_new : forall E A v h k i, NoDup (map fst h) -> ~ taken h k -> fresh_item E A v h i -> touches E A v h (hset k i h).
Proof.
  intros E A v h k i N T F. split.
  - intros k0 j Hj. exists j. split; [|auto]. apply hset_In; [exact N|]. right. split; [|exact Hj].
    intros ->. apply T. now exists j.
  - intros k0 j Hj. apply hset_In in Hj; [|exact N]. destruct Hj as [[-> ->]|[_ Hj]]; [now right|left; now exists j].
Qed.

Theorem set_all_touches : forall E (A : profile -> Prop) h rt v n x P create h', ids_ok (e_ver E) h -> res_map rt = Ok v ->
  n <> INSTANCE_ID (e_ver E) -> n <> RESOURCE_TYPE -> (P = [] -> forall p, A p) -> (forall p, In p P -> A p) ->
  set_value_for_all_items E h rt n x P create = Ok h' -> touches E A v h h'.
Proof.
  intros E A h rt v n x P create h' I Hv N1 N2 HA1 HA2. unfold set_value_for_all_items.
  destruct (find_all_items E h (Some rt) [] []) as [ks|] eqn:Ek; [|discriminate]. cbn [rbind].
  assert (W : are_wanted E h (Some rt) [] [] ks) by (apply find_all_wanted; [exact I|intros c []|exact Ek]).
  destruct ks as [|k0 ks].
  - destruct create; [|intros H; injection H as <-; apply touches_refl].
    destruct (new_item E h rt P) as [[k h1]|] eqn:En; [|discriminate]. cbn [rbind fst snd].
    destruct (new_rt E h rt P k h1 v Hv En) as (i & -> & T & Ri). unfold set_on_keys.
    assert (Hh : hitem k (hset k i h) = Ok i).
    { apply hitem_In; [apply hset_NoDup, (proj1 I)|]. apply hset_In; [exact (proj1 I)|auto]. }
    rewrite Hh. cbn [rbind]. destruct (set_property E i n x P true) as [i'|] eqn:Es; [|discriminate]. cbn [rbind].
    intros H. injection H as <-. rewrite hset_twice. apply touch_new; [exact (proj1 I)|exact T|].
    pose proof (set_istep E A i n x P true i' N1 N2 HA1 HA2 Es) as S. split; [exact (istep_rt E A _ i i' S Ri)|].
    intros q A1 A2 Hq Hk.
    assert (P <> []) by (intros ->; apply A2, HA1; reflexivity).
    assert (NP : ~ In None P) by (intros F; now apply A2, HA2).
    destruct (new_placed E h rt P k _ v H NP Hv En) as (j & Ej & _ & Pl & _ & Cf).
    assert (j = i) as ->.
    { pose proof (hget_hset_same h k i) as G1. rewrite Ej in G1. rewrite hget_hset_same in G1. congruence. }
    assert (Qi : In q (config_of E i)) by (rewrite Cf; exact Hq).
    rewrite (istep_present E A i i' q S (proj1 Ri) Qi A1 A2).
    split; [|unfold config_of; rewrite (proj2 (istep_reach E A i i' S (proj1 Ri))); exact Qi].
    rewrite <- has_profile_present by exact (reachable_good _ _ (proj1 Ri)).
    rewrite (placed_has E P i q Pl NP). intros F. now apply A1, HA2.
  - intros H. apply set_on_all in H; [|exact (proj1 W)|exact (proj1 I)].
    destruct H as (Hf & H1 & H2). apply (touch_keys E A v h h' (k0 :: ks)); [exact (proj1 I)|exact Hf|exact H1|].
    intros k Hk. destruct (H2 k Hk) as (i & i' & Hi & Hi' & Hs). exists i, i'. split; [exact Hi|]. split; [exact Hi'|].
    split; [exact (wanted_type E h rt v (k0 :: ks) W Hv k i Hk (proj1 I) Hi)|].
    exact (set_istep E A i n x P true i' N1 N2 HA1 HA2 Hs).
Qed.

Theorem set_each_touches : forall E (A : profile -> Prop) h rt v n xs P default h', ids_ok (e_ver E) h -> res_map rt = Ok v ->
  n <> INSTANCE_ID (e_ver E) -> n <> RESOURCE_TYPE ->
  (forall p, In p (match P with None => map Some (e_profiles E) ++ [None] | Some l => l end) -> A p) ->
  set_item_values_per_profile E h rt n xs P default = Ok h' -> touches E A v h h'.
Proof.
  intros E A h rt v n xs P default h' I Hv N1 N2 HA. unfold set_item_values_per_profile.
  destruct (find_all_items E h (Some rt) [] []) as [ks|] eqn:Ek; [|discriminate]. cbn [rbind].
  assert (W : are_wanted E h (Some rt) [] [] ks) by (apply find_all_wanted; [exact I|intros c []|exact Ek]).
  intros H. apply set_values_spec in H; [|exact (proj1 W)|exact (proj1 I)].
  destruct H as (Hf & H1 & H2). apply (touch_keys E A v h h' ks); [exact (proj1 I)|exact Hf|exact H1|].
  intros k Hk. destruct (In_nth_error ks k Hk) as [m Hm]. destruct (H2 m k Hm) as (i & i' & Hi & Hi' & Hs).
  exists i, i'. split; [exact Hi|]. split; [exact Hi'|].
  split; [exact (wanted_type E h rt v ks W Hv k i Hk (proj1 I) Hi)|].
  exact (set_profiles_istep E A n _ _ i i' N1 N2 HA Hs).
Qed.

(** ** The number of devices *)
Lemma update_step_istep : forall E (A : profile -> Prop) count P i cd seen r, (forall p, In p P -> A p) ->
  fold_result (update_step E count) P (i, cd, seen) = Ok r -> istep E A i (fst (fst r)).
Proof.
  intros E A count P i cd seen r HA. apply (fold_result_inv _ _ _ (fun s => istep E A i (fst (fst s)))); [|apply IS_refl].
  intros [[j c] s] p [[j' c'] s'] Hp Hj. cbn [fst] in *. unfold update_step.
  destruct (has_profile E j p).
  - destruct (count <=? cget s p)%Z.
    + destruct (remove_profile E j p true) as [i'|] eqn:Er; [|discriminate]. cbn [rbind].
      intros H. injection H as <- <- <-. apply (istep_trans E A i j i' Hj). exact (IS_remove E A j p i' i' (HA p Hp) Er (IS_refl E A i')).
    + intros H. injection H as <- <- <-. exact Hj.
  - destruct (cget c p <? count)%Z.
    + destruct (add_profile E j p None) as [i'|] eqn:Er; [|discriminate]. cbn [rbind].
      intros H. injection H as <- <- <-. apply (istep_trans E A i j i' Hj). exact (IS_add E A j p i' i' (HA p Hp) Er (IS_refl E A i')).
    + intros H. injection H as <- <- <-. exact Hj.
Qed.

Lemma update_items_touch : forall E (A : profile -> Prop) count P v, (forall p, In p P -> A p) -> forall ks h cd seen r,
  NoDup ks -> ids_ok (e_ver E) h ->
  (forall k, In k ks -> exists i, In (k, i) h /\ only_value (i_props i) RESOURCE_TYPE (VStr v)) ->
  fold_result (update_item E count P) ks (h, cd, seen) = Ok r ->
  touches E A v h (fst (fst r)) /\ ids_ok (e_ver E) (fst (fst r)) /\ map fst (fst (fst r)) = map fst h.
Proof.
  intros E A count P v HA ks. induction ks as [|k ks IH]; intros h cd seen r ND I HK.
  - intros H. injection H as <-. split; [apply touches_refl|]. split; [exact I|reflexivity].
  - cbn [fold_result]. destruct (update_item E count P (h, cd, seen) k) as [[[h1 cd1] seen1]|] eqn:Eu; [|discriminate].
    cbn [rbind]. intros H. pose proof (ids_update_item E count P h cd seen k h1 cd1 seen1 I Eu) as I1.
    revert Eu. unfold update_item. destruct (hitem k h) as [i|] eqn:Ei; [|discriminate]. cbn [rbind].
    destruct (fold_result (update_step E count) P (i, cd, seen)) as [[[i' c'] s']|] eqn:Ef; [|discriminate]. cbn [rbind].
    intros F. injection F as <- <- <-. apply update_step_istep with (A := A) in Ef; [|exact HA]. cbn [fst] in Ef.
    apply hitem_In in Ei; [|exact (proj1 I)].
    destruct (HK k (or_introl eq_refl)) as (j & Hj & Oj). pose proof (NoDup_same h k j i (proj1 I) Hj Ei) as ->.
    pose proof (touch_one E A v h k i i' (proj1 I) Ei Oj Ef) as T1.
    assert (Kf : map fst (hset k i' h) = map fst h) by (apply hset_keys; apply in_map_iff; now exists (k, i)).
    inversion ND as [|? ? Nk ND']; subst.
    destruct (IH (hset k i' h) c' s' r ND' I1) as (T2 & I2 & F2); [|exact H|].
    + intros k0 Hk0. destruct (HK k0 (or_intror Hk0)) as (j & Hj' & Oj'). exists j. split; [|exact Oj'].
      apply hset_In; [exact (proj1 I)|]. right. split; [intros ->; contradiction|exact Hj'].
    + split; [|split; [exact I2|congruence]].
      apply (touches_trans E A v h (hset k i' h) _ (proj1 I1) (proj1 I2)); [| |exact T1|exact T2].
      * intros k0 j Hj'. exact (proj1 (proj2 I k0 j Hj')).
      * intros k0 j Hj'. exact (proj1 (proj2 I1 k0 j Hj')).
Qed.

Lemma wanting_sub : forall count P cd, incl (fst (wanting count P cd)) P.
Proof.
  intros count P cd. unfold wanting.
  assert (G : forall l acc c, incl acc P -> incl l P -> incl (fst (fold_left (fun (s : list profile * counts) p =>
      if (cget (snd s) p <? count)%Z then (fst s ++ [p], cincr (snd s) p) else s) l (acc, c))) P).
  { intros l. induction l as [|p l IH]; intros acc c Ha Hl; [exact Ha|]. cbn [fold_left fst snd].
    destruct (cget c p <? count)%Z; apply IH; auto.
    - apply incl_app; [exact Ha|]. intros q [<- |[]]. apply Hl. now left.
    - intros q Hq. apply Hl. now right.
    - intros q Hq. apply Hl. now right. }
  apply G; [intros q []|apply incl_refl].
Qed.

Lemma update_cloned_istep : forall E (A : profile -> Prop) nic i Q n i', (Q = [] -> forall p, A p) -> (forall p, In p Q -> A p) ->
  update_cloned E nic i Q n = Ok i' -> istep E A i i'.
Proof.
  intros E A nic i Q n i' H1 H2. unfold update_cloned.
  destruct (get_value E (i_props i) RESOURCE_TYPE None) as [rt|]; [|discriminate]. cbn [rbind].
  destruct (match prget ADDRESS (i_props i) with Some (_ :: _) => true | _ => false end); [discriminate|].
  match goal with |- (do i1 <- ?X; _) = _ -> _ => destruct X as [i1|] eqn:E1; [|discriminate] end. cbn [rbind].
  assert (S1 : istep E A i i1).
  { destruct (get_all_values (i_props i) ADDRESS_ON_PARENT) as [|[a|t] [|? ?]]; try discriminate.
    - injection E1 as <-. apply IS_refl.
    - destruct (py_int a); [|discriminate].
      apply (set_istep E A i _ _ _ _ i1) in E1; [exact E1|apply AOP_not_IID|discriminate|exact H1|exact H2]. }
  intros H. apply (istep_trans E A i i1 i' S1).
  assert (En : forall j, set_property E i1 (ELEMENT_NAME (e_ver E)) (IStr (nic n)) Q true = Ok j -> istep E A i1 j).
  { intros j Hj. apply (set_istep E A i1 _ _ _ _ j) in Hj; [exact Hj|apply EN_not_IID|apply EN_not_RT|exact H1|exact H2]. }
  destruct rt as [[t|t]|].
  - destruct (str_eqb t (L "10")); [now apply En|]. injection H as <-. apply IS_refl.
  - injection H as <-. apply IS_refl.
  - injection H as <-. apply IS_refl.
Qed.

Lemma clone_rt : forall E h k parent Q k' h' w, ids_ok (e_ver E) h -> In (k, parent) h -> rt_is (e_ver E) w parent ->
  clone_item E h k Q = Ok (k', h') ->
  exists i, h' = hset k' i h /\ ~ taken h k' /\ rt_is (e_ver E) w i /\
    (forall q, In q (config_of E parent) -> In q (e_profiles E) -> ~ In (Some q) Q -> ~ In None Q -> Q <> [] ->
       ~ present E i (Some q) /\ In q (config_of E i)).
Proof.
  intros E h k parent Q k' h' w I Hp Rw H. pose proof (clone_item_inv E h k Q k' h' I H) as (i0 & st & _ & Ff & Eh & _ & _).
  revert H. unfold clone_item. rewrite (proj2 (hitem_In h k parent (proj1 I)) Hp). cbn [rbind].
  destruct (get_value E (i_props parent) _ None) as [[[s|]|]|]; try discriminate. cbn [rbind].
  destruct (py_int s) as [start|]; [|discriminate].
  destruct (find_unused_instance_id h start) as [id|] eqn:Ef; [|discriminate]. cbn [rbind].
  match goal with |- (do i1 <- fold_result ?F ?ps ?c; _) = _ -> _ => set (copy := c); set (f := F) end.
  destruct (fold_result f (e_profiles E) copy) as [i1|] eqn:E1; [|discriminate]. cbn [rbind].
  destruct (set_property E i1 _ _ Q true) as [i2|] eqn:E2; [|discriminate]. cbn [rbind].
  intros H. injection H as <- <-. exists (with_modified true i2). split; [reflexivity|].
  split. { now destruct Ff as (n & _ & _ & F & _). }
  assert (Rc : rt_is (e_ver E) w copy) by (split; [apply R_clone, (proj1 Rw)|exact (proj2 Rw)]).
  assert (L : forall ps c d, rt_is (e_ver E) w c -> i_frozen c = Some (config_of E parent) -> fold_result f ps c = Ok d ->
            rt_is (e_ver E) w d /\ i_frozen d = Some (config_of E parent) /\
            forall q, In q (config_of E parent) -> ~ In (Some q) Q -> In q ps \/ ~ present E c (Some q) -> ~ present E d (Some q)).
  { induction ps as [|p ps IH]; intros c d Hc Fc Hd.
    - injection Hd as <-. split; [exact Hc|]. split; [exact Fc|]. intros q _ _ [[]|F]; exact F.
    - cbn [fold_result] in Hd. destruct (f c p) as [c1|] eqn:Ec; [|discriminate]. cbn [rbind] in Hd.
      unfold f in Ec.
      destruct (has_profile E c (Some p)) eqn:Ehp; [destruct (pmem (Some p) Q) eqn:Epm|]; cbn [andb negb] in Ec.
      + injection Ec as <-. destruct (IH c d Hc Fc Hd) as (G1 & G2 & G3). split; [exact G1|]. split; [exact G2|].
        intros q Hq Nq [[-> |Hq']|F]; apply G3; auto. apply pmem_In in Epm. contradiction.
      + assert (R1 : rt_is (e_ver E) w c1) by exact (rt_remove E w c (Some p) true c1 Hc Ec).
        assert (F1 : i_frozen c1 = Some (config_of E parent)) by (rewrite (remove_frozen E c (Some p) true c1 (proj1 Hc) Ec); exact Fc).
        destruct (IH c1 d R1 F1 Hd) as (G1 & G2 & G3). split; [exact G1|]. split; [exact G2|].
        intros q Hq Nq Cq. apply G3; [exact Hq|exact Nq|].
        assert (Cc : config_of E c = config_of E parent) by (unfold config_of at 1; rewrite Fc; reflexivity).
        assert (Cc1 : config_of E c1 = config_of E parent) by (unfold config_of at 1; rewrite F1; reflexivity).
        destruct (str_eqb q p) eqn:Eqp.
        * apply str_eqb_eq in Eqp. subst p. right.
          rewrite (present_holds' E c1 q (proj1 R1)) by (rewrite Cc1; exact Hq).
          destruct (remove_profile_split E c q (proj1 Hc) Ehp) as (c' & Hc' & Hn & _).
          rewrite Hc' in Ec. injection Ec as ->. intros [u Hu].
          specialize (Hn (INSTANCE_ID (e_ver E))).
          apply (reports_plain E c1 (INSTANCE_ID (e_ver E)) (Some q) u) in Hu; [congruence|exact (reachable_good _ _ (proj1 R1))|].
          intros [F|F]; [now apply (EN_not_IID (e_ver E))|]. destruct (e_ver E); discriminate F.
        * apply str_eqb_neq in Eqp. destruct Cq as [[F|Hq']|F]; [symmetry in F; contradiction|now left|right].
          rewrite (istep_present E (fun r => r = Some p) c c1 q); [exact F| |exact (proj1 Hc)|rewrite Cc; exact Hq| |discriminate].
          -- apply (IS_remove E (fun r => r = Some p) c (Some p) c1 c1 eq_refl Ec). apply IS_refl.
          -- intros G. injection G as ->. contradiction.
      + injection Ec as <-. destruct (IH c d Hc Fc Hd) as (G1 & G2 & G3). split; [exact G1|]. split; [exact G2|].
        intros q Hq Nq [[-> |Hq']|F]; apply G3; auto. right.
        rewrite <- has_profile_present by exact (reachable_good _ _ (proj1 Hc)). congruence. }
  destruct (L (e_profiles E) copy i1 Rc eq_refl E1) as (R1 & F1 & P1).
  assert (R2 : rt_is (e_ver E) w i2).
  { apply (rt_set E w i1 _ _ Q true i2 R1) in E2; [exact E2|]. intros F. destruct (RT_not_IID (e_ver E)). now rewrite F. }
  split; [split; [apply R_saved, (proj1 R2)|exact (proj2 R2)]|].
  intros q Hq Hqe Nq NN NQ.
  assert (C1 : In q (config_of E i1)) by (unfold config_of; rewrite F1; exact Hq).
  assert (C2 : In q (config_of E i2)) by (unfold config_of; rewrite (set_frozen _ _ _ _ _ _ _ (reachable_good _ _ (proj1 R1)) E2), F1; exact Hq).
  split; [|exact C2]. change (~ present E i2 (Some q)).
  rewrite (present_holds' E i2 q (proj1 R2) C2). intros [u Hu].
  apply (set_outside E i1 (INSTANCE_ID (e_ver E)) (IStr id) Q true i2 (Some q) (proj1 R1)) in Hu; [|destruct Q; [congruence|exact Nq]|destruct Q; [congruence|exact NN]|exact E2].
  apply (P1 q Hq Nq (or_introl Hqe)). apply (present_holds' E i1 q (proj1 R1) C1). now exists u.
Qed.

Lemma add_items_touch : forall E (A : profile -> Prop) nic count P rt v, res_map rt = Ok v -> (forall p, In p P -> A p) ->
  forall n h cd last_item h', ids_ok (e_ver E) h ->
  (forall k, last_item = Some k -> exists i, In (k, i) h /\ rt_is (e_ver E) (VStr v) i) ->
  add_items E nic n h rt count P cd last_item = Ok h' -> touches E A v h h'.
Proof.
  intros E A nic count P rt v Hv HA n. induction n as [|n IH]; intros h cd last_item h' I HL.
  - intros H. injection H as <-. apply touches_refl.
  - cbn [add_items]. pose proof (wanting_sub count P cd) as WS. destruct (wanting count P cd) as [Q cd'] eqn:Ew. cbn [fst] in WS.
    match goal with |- (do kh <- ?X; _) = _ -> _ => destruct X as [[k h1]|] eqn:Ex; [|discriminate] end. cbn [rbind].
    destruct (hitem k h1) as [i|] eqn:Ei; [|discriminate]. cbn [rbind].
    destruct Q as [|q0 Q]; [discriminate|]. set (QQ := q0 :: Q) in *.
    assert (NQ : QQ <> []) by discriminate.
    destruct (update_cloned E nic i QQ (cget cd' q0)) as [i'|] eqn:Eu; [|discriminate]. cbn [rbind]. intros H.
    assert (X : exists j, h1 = hset k j h /\ ~ taken h k /\ fresh_item E A v h j /\ id_is (e_ver E) k j).
    { destruct last_item as [kl|].
      - destruct (HL kl eq_refl) as (par & Hpar & Rpar).
        destruct (clone_rt E h kl par QQ k h1 (VStr v) I Hpar Rpar Ex) as (j & -> & T & Rj & Oj).
        exists j. split; [reflexivity|]. split; [exact T|]. split.
        + split; [exact Rj|]. intros q A1 A2 Hq Hk. apply Oj; [exact (Hk kl par Hpar)|exact Hq| | |exact NQ].
          * intros F. apply A1, HA, WS, F.
          * intros F. apply A2, HA, WS, F.
        + destruct (clone_item_inv E h kl QQ k (hset k j h) I Ex) as (j' & _ & _ & _ & Ej & Ij & _).
          assert (j' = j) as -> by (pose proof (hget_hset_same h k j) as G; rewrite Ej, hget_hset_same in G; congruence). exact Ij.
      - destruct (new_rt E h rt QQ k h1 v Hv Ex) as (j & -> & T & Rj).
        exists j. split; [reflexivity|]. split; [exact T|]. split.
        + split; [exact Rj|]. intros q A1 A2 Hq Hk.
          assert (NN : ~ In None QQ) by (intros F; apply A2, HA, WS, F).
          destruct (new_placed E h rt QQ k _ v NQ NN Hv Ex) as (j' & Ej & _ & Pl & _ & Cf).
          assert (j' = j) as -> by (pose proof (hget_hset_same h k j) as G; rewrite Ej, hget_hset_same in G; congruence).
          split; [|rewrite Cf; exact Hq].
          rewrite <- has_profile_present by exact (reachable_good _ _ (proj1 Rj)).
          rewrite (placed_has E QQ j q Pl NN). intros F. apply A1, HA, WS, F.
        + destruct (new_item_inv E h rt QQ k (hset k j h) Ex) as (j' & _ & Ej & Ij & _).
          assert (j' = j) as -> by (pose proof (hget_hset_same h k j) as G; rewrite Ej, hget_hset_same in G; congruence). exact Ij. }
    destruct X as (j & -> & T & Fj & Ij).
    assert (j = i) as ->.
    { assert (G : hitem k (hset k j h) = Ok j) by (apply hitem_In; [apply hset_NoDup, (proj1 I)|apply hset_In; [exact (proj1 I)|auto]]). congruence. }
    rewrite hset_twice in H.
    assert (S : istep E A i i').
    { apply (update_cloned_istep E A nic i QQ (cget cd' q0) i'); [discriminate| |exact Eu]. intros p Hp. apply HA, WS, Hp. }
    assert (Fi' : fresh_item E A v h i').
    { split; [exact (istep_rt E A _ i i' S (f_rt _ _ _ _ _ Fj))|]. intros q A1 A2 Hq Hk.
      destruct (f_out _ _ _ _ _ Fj q A1 A2 Hq Hk) as [G1 G2]. split.
      - now rewrite (istep_present E A i i' q S (proj1 (f_rt _ _ _ _ _ Fj)) G2 A1 A2).
      - unfold config_of. rewrite (proj2 (istep_reach E A i i' S (proj1 (f_rt _ _ _ _ _ Fj)))). exact G2. }
    pose proof (touch_new E A v h k i' (proj1 I) T Fi') as T1.
    assert (I1 : ids_ok (e_ver E) (hset k i' h)) by (apply ids_hset; [exact I|]; exact (id_update_cloned E nic k i QQ _ i' Ij Eu)).
    assert (T2 : touches E A v (hset k i' h) h').
    { apply (IH (hset k i' h) cd' (Some k) h' I1); [|exact H].
      intros k0 Hk0. injection Hk0 as <-. exists i'. split; [apply hset_In; [exact (proj1 I)|auto]|exact (f_rt _ _ _ _ _ Fi')]. }
    assert (I2 : ids_ok (e_ver E) h') by exact (ids_add_items E nic n (hset k i' h) rt count P cd' (Some k) h' I1 H).
    apply (touches_trans E A v h (hset k i' h) h' (proj1 I1) (proj1 I2)); [| |exact T1|exact T2].
    + intros k0 j Hj'. exact (proj1 (proj2 I k0 j Hj')).
    + intros k0 j Hj'. exact (proj1 (proj2 I1 k0 j Hj')).
Qed.

Theorem set_count_touches : forall E (A : profile -> Prop) nic h rt v count P h', ids_ok (e_ver E) h -> res_map rt = Ok v ->
  (forall p, In p (all_or E P) -> A p) ->
  set_item_count E nic h rt count P = Ok h' -> touches E A v h h'.
Proof.
  intros E A nic h rt v count P h' I Hv HA H. pose proof (ids_set_item_count E nic h rt count P h' I H) as I'.
  revert H. unfold set_item_count, update_existing.
  destruct (item_counts E h (Some rt) (all_or E P)) as [cd|]; [|discriminate]. cbn [rbind].
  destruct (find_all_items E h (Some rt) [] []) as [ks|] eqn:Ek; [|discriminate]. cbn [rbind].
  assert (W : are_wanted E h (Some rt) [] [] ks) by (apply find_all_wanted; [exact I|intros c []|exact Ek]).
  destruct (fold_result (update_item E count (all_or E P)) ks (h, cd, zeros (all_or E P))) as [[[h1 cd1] seen]|] eqn:Ef; [|discriminate].
  cbn [rbind]. intros H.
  assert (HK : forall k, In k ks -> exists i, In (k, i) h /\ only_value (i_props i) RESOURCE_TYPE (VStr v)).
  { intros k Hk. pose proof Hk as Hk'. apply (proj2 (proj2 W)) in Hk as (i & Hi & _). exists i. split; [exact Hi|].
    exact (wanted_type E h rt v ks W Hv k i Hk' (proj1 I) Hi). }
  destruct (update_items_touch E A count (all_or E P) v HA ks h cd _ _ (proj1 W) I HK Ef) as (T1 & I1 & F1). cbn [fst] in *.
  apply (touches_trans E A v h h1 h' (proj1 I1) (proj1 I')); [| |exact T1|].
  - intros k0 j Hj'. exact (proj1 (proj2 I k0 j Hj')).
  - intros k0 j Hj'. exact (proj1 (proj2 I1 k0 j Hj')).
  - apply (add_items_touch E A nic count (all_or E P) rt v Hv HA _ h1 cd1 _ h' I1) in H; [exact H|].
    intros k Hk. apply last_In in Hk. destruct (HK k Hk) as (i & Hi & Oi).
    destruct (t_old _ _ _ _ _ T1 k i Hi) as (i' & Hi' & C). exists i'. split; [exact Hi'|].
    pose proof (only_rt E i v (proj1 (proj2 I k i Hi)) Oi) as Ri.
    destruct C as [-> |[_ S]]; [exact Ri|exact (istep_rt E A _ i i' S Ri)].
Qed.
