(** The values that edit-hardware leaves behind. *)
From Coq Require Import Lia.
From Verif Require Import PyBase PyBaseProofs PyDict PyDictProofs ValidationModel ValidationSpec PlatformModel XmlModel XmlSpec
  XmlProofs NamesModel ItemModel ItemSpec PsetProofs ItemProofs ItemSetProofs ItemProfileProofs ItemReachProofs ItemAddProofs ItemEffectProofs HardwareModel HardwareSpec
  HardwareProofs HardwareIdProofs EmitProofs CountSpec CountItemProofs CountProofs FindSpec FindProofs ProfileModel ProfileSpec
  ProfileProofs ProfileDocProofs NetworkModel NetworkSpec NetworkProofs WildListModel EditHwModel EditHwSpec HwStepProofs
  EditHwProofs EditHwRunProofs EditHwProfProofs EditHwAllProofs.

(** ** One property of all devices of a type *)

Lemma own_any : forall ver ps n, good_props ver ps -> (exists q u, own ps n q u) \/ (forall q u, ~ own ps n q u).
Proof.
  intros ver ps n (G1 & G2 & _). destruct (prget n ps) as [d|] eqn:Ed.
  - pose proof (dget_In str_eqb str_eqb_eq ps n d Ed) as I. destruct d as [|[u su] d].
    + right. intros q w (d' & s' & I1 & I2 & _).
      assert (K : d' = []). { clear -G1 I I1. induction ps as [|[a b] ps IH]; [destruct I|]. cbn in G1. inversion G1 as [|? ? N1 N2]; subst.
        destruct I as [I|I], I1 as [I1|I1].
        - congruence.
        - injection I as -> ->. destruct N1. apply in_map_iff. exists (n, d'). auto.
        - injection I1 as -> ->. destruct N1. apply in_map_iff. exists (n, []). auto.
        - now apply IH. }
      subst d'. destruct I2.
    + left. destruct (G2 n _ I) as (_ & G3 & _). destruct (G3 u su) as (_ & Hs & _); [now left|].
      destruct su as [|q su]; [now destruct Hs|]. exists q, u, ((u, q :: su) :: d), (q :: su). split; [exact I|]. split; now left.
  - right. intros q w (d' & s' & I1 & _). apply (proj1 (dget_None str_eqb str_eqb_eq ps n) Ed).
    apply in_map_iff. exists (n, d'). auto.
Qed.
Lemma set_value : forall E i n x P i', reachable (e_ver E) i -> ~ text_property (e_ver E) n -> truthy (to_value E n x) = true ->
  set_property E i n x P true = Ok i' -> has_set E i' n (to_value E n x) P.
Proof.
  intros E i n x P i' R Hn Hx H. split.
  - intros p Hp. apply (proj1 (set_property_reports E i n x P true i' R Hn Hx H)). left. unfold requested. destruct P; [destruct Hp|exact Hp].
  - intros ->. apply set_property_effect in H as (u & Hu & H1 & H2 & _); [|exact R].
    rewrite add_wildcards_plain in Hu by now apply not_text. injection Hu as <-.
    pose proof (reachable_good _ _ R) as G.
    destruct (own_any (e_ver E) (i_props i) n G) as [(q0 & u0 & Hq0)|Hno].
    + split.
      * assert (K : holds (i_props i') n q0 (to_value E n x)) by (apply H1; [exact Hx|left; left; eauto|reflexivity]).
        destruct K as [K|[_ K]]; eauto.
      * intros q w Hw. assert (Hh : holds (i_props i') n q w) by now left.
        destruct (own_dec (i_props i) n q (proj1 G)) as [(u & Hu)|Hu]; [apply (H1 q w Hx); [left; left; eauto|exact Hh]|].
        destruct (own_dec (i_props i) n None (proj1 G)) as [(u1 & Hu1)|Hu1]; [apply (H1 q w Hx); [right; split; [left; eauto|exact Hu]|exact Hh]|].
        exfalso. apply (H2 q w Hx) in Hh; [destruct Hh as [Hh|[_ Hh]]; [exact (Hu w Hh)|exact (Hu1 w Hh)]|].
        intros [[(u & F)|[F _]]|[[(u & F)|[F _]] _]]; [exact (Hu u F)|exact (F q0 u0 Hq0)|exact (Hu1 u F)|exact (F q0 u0 Hq0)].
    + assert (Re : forall q, reaches (i_props i) n [] q).
      { intros q. right. split; [right; auto|]. intros u. apply Hno. }
      split.
      * assert (K : holds (i_props i') n None (to_value E n x)) by (apply H1; [exact Hx|apply Re|reflexivity]).
        destruct K as [K|[_ K]]; eauto.
      * intros q w Hw. apply (H1 q w Hx (Re q)). now left.
Qed.

Lemma new_is_of : forall E h rt w P k h', res_map rt = Ok w -> w <> [] -> new_item E h rt P = Ok (k, h') ->
  exists i, h' = hset k i h /\ ~ taken h k /\ is_of w i /\ reachable (e_ver E) i.
Proof.
  intros E h rt w P k h' Hw Hne H. destruct (new_rt E h rt P k h' w Hw H) as (i & H1 & H2 & [R H3]).
  exists i. split; [exact H1|]. split; [exact H2|]. split; [|exact R]. split; [|exact H3].
  unfold new_item in H. step H kk Ei. step H i1 E1. rewrite Hw in H. cbn [rbind] in H. step H i2 E2. step H i3 E3.
  injection H as Hk H. rewrite Hk in H. rewrite <- H in H1.
  assert (I : i = with_modified true i3).
  { clear -H1. revert H1. generalize (with_modified true i3). intros j H1.
    assert (K : hget k (hset k j h) = hget k (hset k i h)) by now rewrite H1. rewrite !hget_hset_same in K. now injection K. }
  rewrite I. cbn [with_modified i_props].
  assert (R0 : reachable (e_ver E) (new_ovfitem E)) by now apply R_new.
  assert (R1 : reachable (e_ver E) i1) by exact (R_set _ E _ _ _ _ _ _ eq_refl R0 E1).
  assert (R2 : reachable (e_ver E) i2) by exact (R_set _ E _ _ _ _ _ _ eq_refl R1 E2).
  assert (S : has_set E i2 RESOURCE_TYPE (VStr w) P).
  { apply (set_value E i1 RESOURCE_TYPE (IStr w) P i2 R1 (RT_plain _)); [|exact E2]. now destruct w. }
  assert (Ex : exists p, own (i_props i2) RESOURCE_TYPE p (VStr w)).
  { destruct S as [S1 S2]. destruct P as [|p P]; [exact (proj1 (S2 eq_refl))|].
    specialize (S1 p (or_introl eq_refl)). apply (reports_plain E i2 _ _ _ (reachable_good _ _ R2) (RT_plain _)) in S1.
    destruct S1 as [S1|[_ S1]]; eauto. }
  destruct Ex as [p Ex]. exists p.
  apply set_property_effect in E3 as (u & _ & _ & _ & _ & H4); [|exact R2]. apply H4; [|exact Ex].
  intros F. exact (EN_not_RT (e_ver E) (eq_sym F)).
Qed.

(** The devices of the type, as a condition *)
Lemma wanted_is : forall E rt w i, dget str_eqb rt RES_MAP = Some w -> (wanted E (Some rt) [] [] i <-> is_of w i).
Proof.
  intros E rt w i Hw. unfold wanted, is_of. split.
  - intros (H & _ & _). destruct (H rt eq_refl) as (v & Hv & Ho). congruence.
  - intros H. split; [|split; [intros p []|intros c []]]. intros t Ht. injection Ht as <-. eauto.
Qed.
Lemma res_map_get : forall rt w, res_map rt = Ok w -> dget str_eqb rt RES_MAP = Some w.
Proof. intros rt w. unfold res_map. destruct (dget str_eqb rt RES_MAP); [|discriminate]. congruence. Qed.

Theorem all_values : forall E h rt w n x P create h', ids_ok (e_ver E) h -> res_map rt = Ok w -> w <> [] ->
  ~ text_property (e_ver E) n -> n <> INSTANCE_ID (e_ver E) -> n <> RESOURCE_TYPE -> truthy (to_value E n x) = true ->
  set_value_for_all_items E h rt n x P create = Ok h' ->
  (forall k i', In (k, i') h' -> is_of w i' -> has_set E i' n (to_value E n x) P) /\
  (create = true -> exists k i', In (k, i') h' /\ is_of w i').
Proof.
  intros E h rt w n x P create h' I Hw Hne Hn N1 N2 Hx H. pose proof (res_map_get rt w Hw) as Hg.
  unfold set_value_for_all_items in H.
  destruct (find_all_items E h (Some rt) [] []) as [ks|] eqn:Ef; [|discriminate]. cbn [rbind] in H.
  apply find_all_wanted in Ef as (W1 & _ & W3); [|exact I|intros c []].
  destruct ks as [|k0 ks].
  - assert (None' : forall k i, In (k, i) h -> ~ is_of w i).
    { intros k i Hi F. apply (W3 k). exists i. split; [exact Hi|]. now apply (wanted_is E rt w). }
    destruct create.
    + destruct (new_item E h rt P) as [[k h1]|] eqn:En; [|discriminate]. cbn [rbind fst snd] in H.
      destruct (new_is_of E h rt w P k h1 Hw Hne En) as (i & -> & Ht & Hi & R).
      unfold set_on_keys in H. rewrite (hset_fresh h k i Ht) in H.
      assert (Eit : hitem k (h ++ [(k, i)]) = Ok i).
      { apply hitem_In; [|apply in_or_app; right; now left]. rewrite <- (hset_fresh h k i Ht). apply hset_NoDup. apply I. }
      rewrite Eit in H. cbn [rbind] in H.
      destruct (set_property E i n x P true) as [i'|] eqn:Es; [|discriminate]. cbn [rbind] in H. injection H as <-.
      rewrite (hset_last h k i i' Ht). split.
      * intros k1 j Hj Hof. apply in_app_iff in Hj as [Hj|[Hj|[]]]; [now destruct (None' k1 j Hj)|]. injection Hj as _ <-.
        exact (set_value E i n x P i' R Hn Hx Es).
      * intros _. exists k, i'. split; [apply in_app_iff; right; now left|]. destruct Hi as [(p & Hp) Hi].
        apply set_property_effect in Es as (u & _ & _ & _ & _ & H4); [|exact R]. split.
        -- exists p. apply H4; [congruence|exact Hp].
        -- intros q z Hz. apply (Hi q z). apply H4; [congruence|exact Hz].
    + injection H as <-. split; [|discriminate]. intros k i Hi F. now destruct (None' k i Hi).
  - destruct (set_on_all E n x P (k0 :: ks) h h' W1 (proj1 I) H) as (K & O & V). split.
    + intros k i' Hi' Hof. destruct (in_dec (list_eq_dec ascii_dec) k (k0 :: ks)) as [Hk|Hk].
      * destruct (V k Hk) as (i & j & A1 & A2 & A3).
        assert (j = i') by (apply (NoDup_same h' k j i'); [rewrite K; exact (proj1 I)|exact A2|exact Hi']). subst j.
        destruct (ids_good E h k i I A1) as [R _]. exact (set_value E i n x P i' R Hn Hx A3).
      * exfalso. apply Hk. apply W3. exists i'. split; [now apply O|]. now apply (wanted_is E rt w).
    + intros _. destruct (V k0 (or_introl eq_refl)) as (i & i' & A1 & A2 & A3). exists k0, i'. split; [exact A2|].
      destruct (proj1 (W3 k0) (or_introl eq_refl)) as (j & Hj & Wj).
      assert (j = i) by (apply (NoDup_same h k0 j i (proj1 I) Hj A1)). subst j. apply (wanted_is E rt w i Hg) in Wj.
      destruct (ids_good E h k0 i I A1) as [R _]. destruct Wj as [(p & Hp) Hi].
      apply set_property_effect in A3 as (u & _ & _ & _ & _ & H4); [|exact R]. split.
      * exists p. apply H4; [congruence|exact Hp].
      * intros q z Hz. apply (Hi q z). apply H4; [congruence|exact Hz].
Qed.

(** ** Steps that set a property and leave all others alone *)
Record kept (ver : version) (n : str) (h h' : hw) : Prop := {
  k_keys : map fst h' = map fst h;
  k_same : forall k i i', In (k, i) h -> In (k, i') h' -> i_frozen i' = i_frozen i /\
             forall m p w, m <> n -> (own (i_props i') m p w <-> own (i_props i) m p w) }.
Lemma kept_refl : forall ver n h, NoDup (map fst h) -> kept ver n h h.
Proof.
  intros ver n h ND. constructor; [reflexivity|]. intros k i i' Hi Hi'. rewrite (NoDup_same h k i' i ND Hi' Hi). split; [reflexivity|tauto].
Qed.
Lemma profiles_kept : forall E n x P i i', reachable (e_ver E) i -> set_profiles E n x P i = Ok i' ->
  reachable (e_ver E) i' /\ i_frozen i' = i_frozen i /\ forall m p w, m <> n -> (own (i_props i') m p w <-> own (i_props i) m p w).
Proof.
  intros E n x P. unfold set_profiles. induction P as [|p P IH]; intros i i' R H; cbn [fold_result] in H.
  - injection H as <-. split; [exact R|]. split; [reflexivity|tauto].
  - destruct (has_profile E i p).
    + destruct (set_property E i n x [p] true) as [j|] eqn:Ej; [|discriminate]. cbn [rbind] in H.
      assert (Rj : reachable (e_ver E) j) by exact (R_set _ E _ _ _ _ _ _ eq_refl R Ej).
      destruct (IH j i' Rj H) as (R' & F & S). split; [exact R'|].
      rewrite F, (set_frozen E i n x [p] true j (reachable_good _ _ R) Ej). split; [reflexivity|].
      intros m q w Hm. rewrite (S m q w Hm). apply set_property_effect in Ej as (u & _ & _ & _ & _ & H4); [|exact R]. now apply H4.
    + cbn [rbind] in H. exact (IH i i' R H).
Qed.
Lemma each_kept : forall E h rt n xs P default h', ids_ok (e_ver E) h -> set_item_values_per_profile E h rt n xs P default = Ok h' ->
  kept (e_ver E) n h h'.
Proof.
  intros E h rt n xs P default h' I H. unfold set_item_values_per_profile in H.
  destruct (find_all_items E h (Some rt) [] []) as [ks|] eqn:Ef; [|discriminate]. cbn [rbind] in H.
  apply find_all_wanted in Ef as (W1 & _ & _); [|exact I|intros c []].
  destruct (set_values_spec E n _ default ks xs h h' W1 (proj1 I) H) as (K & O & V). constructor; [exact K|].
  intros k i i' Hi Hi'. destruct (in_dec (list_eq_dec ascii_dec) k ks) as [Hk|Hk].
  - apply In_nth_error in Hk as [m Hm]. destruct (V m k Hm) as (a & b & A1 & A2 & A3).
    assert (i = a) by exact (NoDup_same h k i a (proj1 I) Hi A1). subst a.
    assert (i' = b) by (apply (NoDup_same h' k i' b); [rewrite K; exact (proj1 I)|exact Hi'|exact A2]). subst b.
    destruct (ids_good E h k i I A1) as [R _]. exact (proj2 (profiles_kept E n _ _ i i' R A3)).
  - apply O in Hi'; [|exact Hk]. rewrite (NoDup_same h k i' i (proj1 I) Hi' Hi). split; [reflexivity|tauto].
Qed.
Lemma all_kept : forall E h rt n x P h', ids_ok (e_ver E) h -> set_value_for_all_items E h rt n x P false = Ok h' ->
  kept (e_ver E) n h h'.
Proof.
  intros E h rt n x P h' I H. unfold set_value_for_all_items in H.
  destruct (find_all_items E h (Some rt) [] []) as [ks|] eqn:Ef; [|discriminate]. cbn [rbind] in H.
  apply find_all_wanted in Ef as (W1 & _ & _); [|exact I|intros c []].
  destruct ks as [|k0 ks]; [injection H as <-; apply kept_refl, (proj1 I)|].
  destruct (set_on_all E n x P (k0 :: ks) h h' W1 (proj1 I) H) as (K & O & V). constructor; [exact K|].
  intros k i i' Hi Hi'. destruct (in_dec (list_eq_dec ascii_dec) k (k0 :: ks)) as [Hk|Hk].
  - destruct (V k Hk) as (a & b & A1 & A2 & A3).
    assert (i = a) by exact (NoDup_same h k i a (proj1 I) Hi A1). subst a.
    assert (i' = b) by (apply (NoDup_same h' k i' b); [rewrite K; exact (proj1 I)|exact Hi'|exact A2]). subst b.
    destruct (ids_good E h k i I A1) as [R G]. split; [exact (set_frozen E i n x P true i' G A3)|].
    intros m p w Hm. apply set_property_effect in A3 as (u & _ & _ & _ & _ & H4); [|exact R]. now apply H4.
  - apply O in Hi'; [|exact Hk]. rewrite (NoDup_same h k i' i (proj1 I) Hi' Hi). split; [reflexivity|tauto].
Qed.

Lemma only_same : forall ps ps' n v, (forall p w, own ps' n p w <-> own ps n p w) -> only_value ps n v -> only_value ps' n v.
Proof.
  intros ps ps' n v S [(p & Hp) H]. split; [exists p; now apply S|]. intros q w Hw. apply (H q w). now apply S.
Qed.
Lemma kept_of : forall ver n h h' w k i i', kept ver n h h' -> n <> RESOURCE_TYPE -> In (k, i) h -> In (k, i') h' ->
  (is_of w i' <-> is_of w i).
Proof.
  intros ver n h h' w k i i' K Hn Hi Hi'. destruct (k_same _ _ _ _ K k i i' Hi Hi') as [_ S].
  split; apply only_same; intros p u; [symmetry|]; apply S; congruence.
Qed.
Lemma kept_set : forall E n m h h' w v P, ids_ok (e_ver E) h -> ids_ok (e_ver E) h' -> kept (e_ver E) n h h' -> n <> RESOURCE_TYPE -> m <> n ->
  ~ text_property (e_ver E) m ->
  (forall k i, In (k, i) h -> is_of w i -> has_set E i m v P) ->
  forall k i', In (k, i') h' -> is_of w i' -> has_set E i' m v P.
Proof.
  intros E n m h h' w v P I I' K Hn Hm Ht H k i' Hi' Hof.
  destruct (keys_get h' h k i' (eq_sym (k_keys _ _ _ _ K)) Hi') as [i Hi].
  destruct (k_same _ _ _ _ K k i i' Hi Hi') as [_ S].
  destruct (H k i Hi (proj1 (kept_of _ _ _ _ w k i i' K Hn Hi Hi') Hof)) as [H1 H2].
  destruct (ids_good E h k i I Hi) as [R _]. destruct (ids_good E h' k i' I' Hi') as [R' _]. split.
  - intros p Hp. rewrite <- (H1 p Hp). apply reports_same_holds; [exact R|exact R'|exact Ht|].
    apply own_holds. intros q u. now apply S.
  - intros Hp. apply (only_same (i_props i)); [intros q u; now apply S|now apply H2].
Qed.
