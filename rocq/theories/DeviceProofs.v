(** Proofs about new controllers and drives. *)
From Coq Require Import Lia ZArith.
From Verif Require Import PyBase PyBaseProofs PyDict PyDictProofs ValidationModel ValidationSpec ValidationProofs XmlModel NamesModel
  ItemModel ItemSpec PsetProofs ItemProofs ItemSetProofs ItemProfileProofs ItemReachProofs ItemAddProofs
  ItemEffectProofs HardwareModel HardwareSpec HardwareProofs HardwareIdProofs CountSpec CountItemProofs CountProofs FindSpec FindProofs
  DiskOptModel DriveModel DriveSpec SlotProofs.
Local Open Scope nat_scope.

(** ** One device *)

Lemma set_all_only : forall E i n x ow i', reachable (e_ver E) i -> ~ text_property (e_ver E) n ->
  truthy (to_value E n x) = true -> set_property E i n x [] ow = Ok i' -> only_value (i_props i') n (to_value E n x).
Proof.
  intros E i n x ow i' R Ht Hx H. pose proof (reachable_good _ _ R) as G.
  pose proof (reachable_good _ _ (R_set _ E i n x [] ow i' eq_refl R H)) as G'.
  apply set_property_effect in H as (v & Hv & H1 & H2 & _ & _); [|exact R].
  rewrite add_wildcards_plain in Hv by now apply not_text. injection Hv as <-.
  assert (D : forall q, (exists w, own (i_props i) n q w) \/ forall w, ~ own (i_props i) n q w).
  { intros q. apply own_dec. apply G. }
  assert (X : exists q, requested (i_props i) n [] q).
  { destruct (prget n (i_props i)) as [d|] eqn:Ed.
    - destruct (requested_profs E i n [] None G) as [A _].
      destruct (profs_of (i_props i) n []) as [|q Q] eqn:EQ.
      + exfalso. apply (profs_nonempty (i_props i) n []) in EQ; [exact EQ|apply G|]. intros d0. now apply (good_dict (e_ver E)).
      + exists q. apply (requested_profs E i n [] q G). rewrite EQ. now left.
    - exists None. right. split; [|reflexivity]. intros q v (d & s & Hd & _). apply prget_In in Hd; [|apply G]. congruence. }
  split.
  - destruct X as [q Hq]. assert (F : holds (i_props i') n q (to_value E n x)) by (apply H1; [exact Hx|now left|reflexivity]).
    destruct F as [F|[_ F]]; eauto.
  - intros q w Hw. assert (HW : holds (i_props i') n q w) by now left.
    destruct (D q) as [[u Hu]|Hn].
    + apply (H1 q w Hx); [|exact HW]. left. left. now exists u.
    + destruct (D None) as [[u Hu]|HN].
      * apply (H1 q w Hx); [|exact HW]. right. split; [left; now exists u|exact Hn].
      * destruct X as [p [[u Hu]|[Hp _]]].
        -- exfalso. apply (H2 q w Hx) in HW.
           ++ destruct HW as [HW|[_ HW]]; [now apply (Hn w)|now apply (HN w)].
           ++ intros [[[u' Hu']|[F _]]|[[[u' Hu']|[F _]] _]]; [now apply (Hn u')|now apply (F p u)|now apply (HN u')|now apply (F p u)].
        -- apply (H1 q w Hx); [|exact HW]. right. split; [|exact Hn]. right. now split.
Qed.

(** Several properties, one after the other. *)
Lemma fold_set : forall E l i i', reachable (e_ver E) i ->
  fold_result (fun i nx => set_property E i (fst nx) (snd nx) [] true) l i = Ok i' ->
  reachable (e_ver E) i' /\ i_frozen i' = i_frozen i /\
  (forall n q w, ~ In n (map fst l) -> (own (i_props i') n q w <-> own (i_props i) n q w)) /\
  (forall n x, In (n, x) l -> NoDup (map fst l) -> ~ text_property (e_ver E) n -> truthy (to_value E n x) = true ->
     only_value (i_props i') n (to_value E n x)).
Proof.
  intros E l. induction l as [|[n x] l IH]; intros i i' R H.
  - cbn in H. injection H as <-. split; [exact R|]. split; [reflexivity|]. split; [reflexivity|intros n x []].
  - cbn [fold_result fst snd] in H. destruct (set_property E i n x [] true) as [i1|] eqn:E1; [|discriminate]. cbn [rbind] in H.
    assert (R1 : reachable (e_ver E) i1) by exact (R_set _ E i n x [] true i1 eq_refl R E1).
    apply IH in H as (R' & F & S & V); [|exact R1]. split; [exact R'|].
    split; [rewrite F; apply (set_frozen E i n x [] true); [now apply reachable_good|exact E1]|]. split.
    + intros n' q w Hn. cbn in Hn. rewrite S by tauto. apply (set_other_rec E i n x [] true i1); [exact R|intros ->; tauto|exact E1].
    + intros n' x' [Ex|Hin] ND Ht Hx.
      * injection Ex as <- <-. inversion ND as [|a b Hn ND']; subst. cbn [fst] in Hn.
        pose proof (set_all_only E i n x true i1 R Ht Hx E1) as [[p Hp] Ho].
        split; [exists p; now apply S|]. intros q w Hw. apply S in Hw; [now apply (Ho q)|exact Hn].
      * apply V; auto. now inversion ND.
Qed.

Lemma set_props_spec : forall E m k l m', ids_ok (e_ver E) (m_hw m) -> ~ In (INSTANCE_ID (e_ver E)) (map fst l) ->
  set_props E m k l = Ok m' ->
  exists i i', In (k, i) (m_hw m) /\ m' = with_hw (hset k i' (m_hw m)) m /\ id_is (e_ver E) k i' /\
    i_frozen i' = i_frozen i /\
    (forall n q w, ~ In n (map fst l) -> (own (i_props i') n q w <-> own (i_props i) n q w)) /\
    (forall n x, In (n, x) l -> NoDup (map fst l) -> ~ text_property (e_ver E) n -> truthy (to_value E n x) = true ->
       only_value (i_props i') n (to_value E n x)).
Proof.
  intros E m k l m' Hi Hn H. unfold set_props in H. destruct (hitem k (m_hw m)) as [i|] eqn:Ei; [|discriminate]. cbn [rbind] in H.
  destruct (fold_result _ l i) as [i'|] eqn:Ef; [|discriminate]. cbn [rbind] in H. injection H as <-.
  apply (hitem_In _ _ _ (proj1 Hi)) in Ei. destruct (proj2 Hi k i Ei) as [R Hid].
  apply fold_set in Ef as (R' & F & S & V); [|exact R]. exists i, i'. split; [exact Ei|]. split; [reflexivity|].
  split; [|split; [exact F|]; split; [exact S|exact V]].
  split; [exact R'|]. intros p v Hv. apply S in Hv; [now apply (Hid p)|exact Hn].
Qed.

(** ** New devices *)

Lemma new_all : forall E h rt k h', new_item E h rt [] = Ok (k, h') ->
  exists i v, first_free h 1 k /\ ~ taken h k /\ h' = h ++ [(k, i)] /\ id_is (e_ver E) k i /\ res_map rt = Ok v /\
    i_frozen i = None /\
    own (i_props i) (INSTANCE_ID (e_ver E)) None (VStr k) /\ only_value (i_props i) RESOURCE_TYPE (VStr v) /\
    (forall n q w, n <> INSTANCE_ID (e_ver E) -> n <> RESOURCE_TYPE -> ~ text_property (e_ver E) n -> ~ own (i_props i) n q w).
Proof.
  intros E h rt k h' H0. pose proof (new_item_bare E h rt [] k h' H0) as (i & v & Hf & Eh & Hk & Ev & _ & Hb).
  assert (Ht : ~ taken h k) by (destruct Hf as (? & _ & _ & Hf & _); exact Hf).
  exists i, v. split; [exact Hf|]. split; [exact Ht|]. split; [exact Eh|]. split; [exact Hk|]. split; [exact Ev|].
  unfold new_item in H0.
  destruct (find_unused_instance_id h 1) as [id|] eqn:Ei; [|discriminate]. cbn [rbind] in H0.
  destruct (set_property E _ (INSTANCE_ID _) _ _ _) as [i1|] eqn:E1; [|discriminate]. cbn [rbind] in H0.
  rewrite Ev in H0. cbn [rbind] in H0.
  destruct (set_property E i1 _ _ _ _) as [i2|] eqn:E2; [|discriminate]. cbn [rbind] in H0.
  destruct (set_property E i2 _ _ _ _) as [i3|] eqn:E3; [|discriminate]. cbn [rbind] in H0.
  injection H0 as Ek Eh'. subst id. rewrite (hset_fresh _ _ _ Ht), Eh in Eh'. apply app_inj_tail in Eh' as [_ Ei3].
  injection Ei3 as Ei3. subst i.
  assert (R0 : reachable (e_ver E) (new_ovfitem E)) by now constructor.
  assert (R1 : reachable (e_ver E) i1) by (eapply R_set; [reflexivity|exact R0|exact E1]).
  assert (R2 : reachable (e_ver E) i2) by (eapply R_set; [reflexivity|exact R1|exact E2]).
  cbn [i_props with_modified i_frozen]. split; [|split; [|split; [|exact Hb]]].
  - rewrite (set_frozen E i2 _ _ _ _ i3 (reachable_good _ _ R2) E3), (set_frozen E i1 _ _ _ _ i2 (reachable_good _ _ R1) E2),
      (set_frozen E _ _ _ _ _ i1 (reachable_good _ _ R0) E1). reflexivity.
  - apply (same_other E _ _ _ _ _ i3 R2 (EN_not_IID _) E3). apply (same_other E _ _ _ _ _ i2 R1 (RT_not_IID _) E2).
    apply set_property_effect in E1 as (v0 & Hv & H1 & _ & _ & _); [|exact R0].
    rewrite add_wildcards_plain in Hv by apply IID_plain. injection Hv as <-.
    assert (EV : to_value E (INSTANCE_ID (e_ver E)) (IStr k) = VStr k) by (destruct (e_ver E); reflexivity).
    rewrite EV in H1.
    assert (F : holds (i_props i1) (INSTANCE_ID (e_ver E)) None (VStr k)).
    { apply H1; [|left; right; split; [|reflexivity]; intros q w (d & s & [] & _)|reflexivity].
      pose proof (first_free_nonempty _ _ _ Hf). destruct k; [contradiction|reflexivity]. }
    destruct F as [F|[_ F]]; exact F.
  - assert (T : truthy (to_value E RESOURCE_TYPE (IStr v)) = true).
    { pose proof (res_map_nonempty _ _ Ev). destruct v; [contradiction|reflexivity]. }
    assert (NT : ~ text_property (e_ver E) RESOURCE_TYPE) by (unfold text_property; destruct (e_ver E); intros [F|F]; discriminate F).
    pose proof (set_all_only E i1 RESOURCE_TYPE (IStr v) true i2 R1 NT T E2) as [[p Hp] Ho].
    assert (EN : RESOURCE_TYPE <> ELEMENT_NAME (e_ver E)) by (intros F; apply NT; now left).
    split.
    + exists p. apply (set_other_rec E i2 _ _ _ _ i3 _ _ _ R2 EN E3). exact Hp.
    + intros q w Hw. apply (set_other_rec E i2 _ _ _ _ i3 _ _ _ R2 EN E3) in Hw. now apply (Ho q).
Qed.

Lemma too_high_spec : forall ct l1 l2 a, too_high ct (L "scsi") (L "ide") l1 l2 a = Ok false ->
  (ct = L "scsi" -> exists z, py_int a = Some z /\ (z <= l1)%Z) /\ (ct = L "ide" -> exists z, py_int a = Some z /\ (z <= l2)%Z).
Proof.
  intros ct l1 l2 a H. unfold too_high, int_above in H. split; intros ->; cbn in H;
    destruct (py_int a) as [z|]; try discriminate; injection H as H; apply Z.ltb_ge in H; now exists z.
Qed.

(** The device with key [k] is new, and known to all profiles. *)
Definition brand_new (E : env) (h : hw) (k : str) (i : item) : Prop :=
  first_free h 1 k /\ ~ taken h k /\ id_is (e_ver E) k i /\ i_frozen i = None /\
  own (i_props i) (INSTANCE_ID (e_ver E)) None (VStr k).

Lemma RT_not_text : forall E, ~ text_property (e_ver E) RESOURCE_TYPE.
Proof. intros E. unfold text_property. destruct (e_ver E); intros [F|F]; discriminate F. Qed.
Lemma HR_not_text : forall E, ~ text_property (e_ver E) HOST_RESOURCE.
Proof. intros E. unfold text_property. destruct (e_ver E); intros [F|F]; discriminate F. Qed.

Lemma nonempty_truthy : forall E n s, n <> RESOURCE_SUB_TYPE -> s <> [] -> to_value E n (IStr s) = VStr s /\ truthy (to_value E n (IStr s)) = true.
Proof.
  intros E n s Hn Hs. unfold to_value. apply str_eqb_neq in Hn. rewrite Hn. split; [reflexivity|]. now destruct s.
Qed.

Lemma identified_nonempty : forall E h k i, ids_ok (e_ver E) h -> identified E h -> In (k, i) h -> k <> [].
Proof.
  intros E h k i Hi Hd Hin ->. destruct (Hd _ _ Hin) as [p (d & s & H1 & H2 & _)].
  destruct (proj2 Hi _ _ Hin) as [R _]. apply reachable_good in R as (_ & G & _). apply G in H1 as (_ & G1 & _).
  apply G1 in H2 as [H2 _]. discriminate.
Qed.

Lemma res_map_dget : forall rt v, res_map rt = Ok v <-> dget str_eqb rt RES_MAP = Some v.
Proof. intros rt v. unfold res_map. destruct (dget str_eqb rt RES_MAP); split; congruence. Qed.

Lemma ids_app : forall E h k i, ids_ok (e_ver E) h -> ~ taken h k -> id_is (e_ver E) k i -> ids_ok (e_ver E) (h ++ [(k, i)]).
Proof. intros E h k i Hi Ht Hk. rewrite <- (hset_fresh h k i Ht). now apply ids_hset. Qed.

Lemma set_props_new : forall E h m0 k i l m', ids_ok (e_ver E) h -> brand_new E h k i -> m_hw m0 = h ++ [(k, i)] ->
  ~ In (INSTANCE_ID (e_ver E)) (map fst l) -> NoDup (map fst l) -> set_props E m0 k l = Ok m' ->
  exists i', m' = with_hw (h ++ [(k, i')]) m0 /\ brand_new E h k i' /\
    (forall n q w, ~ In n (map fst l) -> (own (i_props i') n q w <-> own (i_props i) n q w)) /\
    (forall n x, In (n, x) l -> ~ text_property (e_ver E) n -> truthy (to_value E n x) = true ->
       only_value (i_props i') n (to_value E n x)).
Proof.
  intros E h m0 k i l m' Hi (B1 & B2 & B3 & B4 & B5) Em Hn ND H.
  apply set_props_spec in H as (j & i' & Hin & -> & I' & F & S & V); [|rewrite Em; now apply ids_app|exact Hn].
  assert (j = i) as ->.
  { rewrite Em in Hin. apply in_app_or in Hin as [Hin|[Hin|[]]]; [exfalso; apply B2; now exists j|congruence]. }
  exists i'. rewrite Em, (hset_last h k i i' B2). split; [reflexivity|]. split; [|split; [exact S|intros n x; intros; now apply V]].
  split; [exact B1|]. split; [exact B2|]. split; [exact I'|]. split; [congruence|]. now apply S.
Qed.

Lemma new_lowest : forall E m ct k i l ks t, ids_ok (e_ver E) (m_hw m) -> brand_new E (m_hw m) k i ->
  dget str_eqb ct RES_MAP = Some t -> (forall q w, ~ own (i_props i) ADDRESS q w) ->
  find_all_items E (m_hw m ++ [(k, i)]) (Some ct) [] [] = Ok ks ->
  values_of E (with_hw (m_hw m ++ [(k, i)]) m) ADDRESS ks = Ok l ->
  forall b, In (Some (VStr (zdec b))) l <-> controller_at (m_hw m) ct b.
Proof.
  intros E m ct k i l ks t Hi (B1 & B2 & B3 & B4 & B5) Ht Hn Hf Hv b.
  assert (Hi' : ids_ok (e_ver E) (m_hw m ++ [(k, i)])) by now apply ids_app.
  apply find_all_wanted in Hf as (_ & _ & W); [|exact Hi'|intros c []].
  destruct (values_of_spec E (with_hw (m_hw m ++ [(k, i)]) m) ADDRESS ks Hi' (ADDRESS_not_text E)) as (l' & El & Hl).
  { intros k' Hk'. apply W in Hk' as (j & Hj & _). now exists j. }
  rewrite El in Hv. injection Hv as <-. rewrite Hl. cbn [m_hw with_hw]. split.
  - intros (k' & j & H1 & H2 & H3). apply W in H1 as (j' & H4 & H5 & _).
    assert (j' = j) as -> by (apply (hitem_In _ _ _ (proj1 Hi')) in H4; apply (hitem_In _ _ _ (proj1 Hi')) in H2; congruence).
    destruct (H5 ct eq_refl) as (v & Ev & Hv). exists v, k', j. split; [exact Ev|]. split; [|now split].
    apply in_app_or in H2 as [H2|[H2|[]]]; [exact H2|]. injection H2 as <- <-. destruct H3 as [[p Hp] _]. now apply Hn in Hp.
  - intros (v & k' & j & Ev & H2 & H3 & H4). exists k', j. split; [|split; [apply in_or_app; now left|exact H4]].
    apply W. exists j. split; [apply in_or_app; now left|]. split; [|split; [intros p []|intros c []]].
    intros t' Et. injection Et as <-. now exists v.
Qed.

(** A new controller. *)
Theorem add_controller_new : forall E m ct sub address m' k, ids_ok (e_ver E) (m_hw m) ->
  add_controller_device E m ct sub address None = Ok (m', k) ->
  exists i t a, dget str_eqb ct RES_MAP = Some t /\ m' = with_hw (m_hw m ++ [(k, i)]) m /\ brand_new E (m_hw m) k i /\
    only_value (i_props i) RESOURCE_TYPE (VStr t) /\ (a <> [] -> only_value (i_props i) ADDRESS (VStr a)) /\
    (match address with Some a' => a = a' | None => exists z, a = zdec z /\ lowest_unused (controller_at (m_hw m) ct) z end) /\
    (forall z, last_controller ct z -> exists x, py_int a = Some x /\ (x <= z)%Z) /\
    (forall n q w, ~ In n [INSTANCE_ID (e_ver E); RESOURCE_TYPE; ADDRESS; RESOURCE_SUB_TYPE] -> ~ text_property (e_ver E) n ->
       ~ own (i_props i) n q w).
Proof.
  intros E m ct sub address m' k Hi H. unfold add_controller_device in H.
  destruct (new_item E (m_hw m) ct []) as [[k0 h']|] eqn:En; [|discriminate]. cbn [rbind fst snd] in H.
  apply new_all in En as (i & t & Hf & Htk & -> & Hid & Et & Hfr & Hown & Hrt & Hb).
  assert (B0 : brand_new E (m_hw m) k0 i) by (repeat split; try apply Hid; assumption).
  apply res_map_dget in Et.
  assert (N1 : ADDRESS <> INSTANCE_ID (e_ver E)) by (destruct (e_ver E); discriminate).
  destruct (match address with Some a => Ok a | None => _ end) as [a|] eqn:Ea; [|discriminate]. cbn [rbind] in H.
  destruct (too_high ct (L "scsi") (L "ide") 3 1 a) as [[|]|] eqn:Eh; try discriminate. cbn [rbind] in H.
  apply too_high_spec in Eh as [L1 L2].
  destruct (set_props _ _ k0 _) as [m2|] eqn:E2; [|discriminate]. cbn [rbind fst snd] in H.
  apply (set_props_new E (m_hw m) _ k0 i) in E2 as (i2 & -> & B2 & S2 & V2); [|exact Hi|exact B0|reflexivity| |].
  2:{ unfold ELEMENT_NAME, ITEM_DESCRIPTION. cbn. destruct (e_ver E); intros [F|[F|[F|[]]]]; discriminate F. }
  2:{ cbn. repeat constructor; cbn; destruct (e_ver E); intuition discriminate. }
  assert (HA : match address with Some a' => a = a' | None => exists z, a = zdec z /\ lowest_unused (controller_at (m_hw m) ct) z end).
  { destruct address as [a'|]; [now injection Ea|]. cbn [m_hw with_hw] in Ea.
    destruct (find_all_items _ _ _ _ _) as [ks|] eqn:Ek; [|discriminate]. cbn [rbind] in Ea.
    destruct (values_of _ _ _ _) as [l|] eqn:El; [|discriminate]. cbn [rbind] in Ea.
    destruct (lowest_free_ok l) as (z & Ez & Hz). rewrite Ez in Ea. injection Ea as <-. exists z. split; [reflexivity|].
    revert Hz. apply lowest_unused_iff. apply (new_lowest E m ct k0 i l ks t Hi B0 Et); auto. intros q w. apply Hb; [exact N1|discriminate|apply ADDRESS_not_text]. }
  assert (A2 : forall a', a' = a -> a' <> [] -> only_value (i_props i2) ADDRESS (VStr a')).
  { intros a' -> Hne. destruct (nonempty_truthy E ADDRESS a) as [T1 T2]; [discriminate|exact Hne|]. rewrite <- T1.
    apply (V2 ADDRESS (IStr a)); [now left|apply ADDRESS_not_text|exact T2]. }
  assert (O2 : forall n q w, n <> ADDRESS -> ~ text_property (e_ver E) n -> (own (i_props i2) n q w <-> own (i_props i) n q w)).
  { intros n q w H1 H2. apply S2. cbn [map fst In]. intros [F|[F|[F|[]]]]; [now apply H1| |]; apply H2; [left|right]; now symmetry. }
  assert (R2 : only_value (i_props i2) RESOURCE_TYPE (VStr t)).
  { destruct Hrt as [[p Hp] Ho]. split; [exists p; apply O2; [discriminate|apply RT_not_text|exact Hp]|].
    intros q w Hw. apply (Ho q). apply O2 in Hw; [exact Hw|discriminate|apply RT_not_text]. }
  assert (HL : forall z, last_controller ct z -> exists x, py_int a = Some x /\ (x <= z)%Z) by (intros z [[-> ->]|[-> ->]]; auto).
  destruct sub as [s|].
  - destruct (set_props _ _ k0 _) as [m3|] eqn:E3; [|discriminate]. cbn [rbind] in H. injection H as <- <-.
    apply (set_props_new E (m_hw m) _ k0 i2) in E3 as (i3 & -> & B3 & S3 & _); [|exact Hi|exact B2|reflexivity| |].
    2:{ cbn. destruct (e_ver E); intros [F|[]]; discriminate F. }
    2:{ cbn. repeat constructor; intros []. }
    assert (OV : forall n v, n <> RESOURCE_SUB_TYPE -> only_value (i_props i2) n v -> only_value (i_props i3) n v).
    { intros n v Hn [[p Hp] Ho]. assert (Q : ~ In n (map fst [(RESOURCE_SUB_TYPE, s)])) by (intros [F|[]]; now apply Hn).
      split; [exists p; now apply S3|]. intros q w Hw. apply S3 in Hw; [now apply (Ho q)|exact Q]. }
    exists i3, t, a. split; [exact Et|]. split; [reflexivity|]. split; [exact B3|].
    split; [apply OV; [discriminate|exact R2]|]. split; [intros Hne; apply OV; [discriminate|now apply A2]|].
    split; [exact HA|]. split; [exact HL|]. intros n q w Hn Htx F. cbn [In] in Hn.
    apply S3 in F; [|intros [F'|[]]; tauto]. apply O2 in F; [|intros ->; tauto|exact Htx]. now apply Hb in F; [|intros ->; tauto|intros ->; tauto|].
  - injection H as <- <-. exists i2, t, a. split; [exact Et|]. split; [reflexivity|]. split; [exact B2|]. split; [exact R2|].
    split; [intros Hne; now apply A2|]. split; [exact HA|]. split; [exact HL|]. intros n q w Hn Htx F. cbn [In] in Hn.
    apply O2 in F; [|intros ->; tauto|exact Htx]. now apply Hb in F; [|intros ->; tauto|intros ->; tauto|].
Qed.

(** A controller there is already. *)
Theorem add_controller_old : forall E m ct sub address k m' k', ids_ok (e_ver E) (m_hw m) ->
  add_controller_device E m ct sub address (Some k) = Ok (m', k') ->
  k' = k /\ (m' = m \/ exists i i', In (k, i) (m_hw m) /\ m' = with_hw (hset k i' (m_hw m)) m /\ id_is (e_ver E) k i' /\
    i_frozen i' = i_frozen i /\
    (forall n q w, n <> RESOURCE_SUB_TYPE -> (own (i_props i') n q w <-> own (i_props i) n q w))).
Proof.
  intros E m ct sub address k m' k' Hi H. unfold add_controller_device in H. cbn [rbind fst snd] in H.
  destruct sub as [s|]; [|injection H as <- <-; split; [reflexivity|now left]].
  destruct (set_props E m k _) as [m3|] eqn:E3; [|discriminate]. cbn [rbind] in H. injection H as <- <-. split; [reflexivity|].
  apply set_props_spec in E3 as (i & i' & Hin & -> & I' & F & S & _); [|exact Hi|].
  2:{ cbn. destruct (e_ver E); intros [X|[]]; discriminate X. }
  right. exists i, i'. split; [exact Hin|]. split; [reflexivity|]. split; [exact I'|]. split; [exact F|].
  intros n q w Hn. apply S. intros [X|[]]. now apply Hn.
Qed.

(** A new drive. *)
Theorem create_spec : forall E m dt address name ck ci m' k nm, ids_ok (e_ver E) (m_hw m) -> identified E (m_hw m) ->
  In (ck, ci) (m_hw m) -> create_disk_device E m dt address name ck = Ok (m', k, nm) ->
  exists i t a, dget str_eqb dt RES_MAP = Some t /\ m' = with_hw (m_hw m ++ [(k, i)]) m /\ brand_new E (m_hw m) k i /\
    only_value (i_props i) RESOURCE_TYPE (VStr t) /\ only_value (i_props i) PARENT (VStr ck) /\
    (a <> [] -> only_value (i_props i) ADDRESS_ON_PARENT (VStr a)) /\
    (match address with Some a' => a = a' | None => exists z, a = zdec z /\ lowest_unused (occupied (m_hw m) ck) z end) /\
    (only_value (i_props ci) RESOURCE_TYPE (VStr (L "6")) -> exists x, py_int a = Some x /\ (x <= 15)%Z) /\
    (only_value (i_props ci) RESOURCE_TYPE (VStr (L "5")) -> exists x, py_int a = Some x /\ (x <= 1)%Z) /\
    (forall n q w, ~ In n [INSTANCE_ID (e_ver E); RESOURCE_TYPE; PARENT; ADDRESS_ON_PARENT] -> ~ text_property (e_ver E) n ->
       ~ own (i_props i) n q w).
Proof.
  intros E m dt address name ck ci m' k nm Hi Hd Hin H. unfold create_disk_device in H.
  rewrite (value_of_id E m ck ci Hi Hd Hin) in H. cbn [rbind] in H.
  destruct (match address with Some a => Ok a | None => _ end) as [a|] eqn:Ea; [|discriminate]. cbn [rbind] in H.
  destruct (hardware_type E m ck) as [ct|] eqn:Ec; [|discriminate]. cbn [rbind] in H.
  destruct (too_high ct (L "scsi") (L "ide") 15 1 a) as [[|]|] eqn:Eh; try discriminate. cbn [rbind] in H.
  apply too_high_spec in Eh as [L1 L2].
  match type of H with rbind ?r _ = _ => destruct r as [nm0|]; [|discriminate] end. cbn [rbind] in H.
  destruct (new_item E (m_hw m) dt []) as [[k0 h']|] eqn:En; [|discriminate]. cbn [rbind fst snd] in H.
  apply new_all in En as (i & t & Hf & Htk & -> & Hid & Et & Hfr & Hown & Hrt & Hb).
  assert (B0 : brand_new E (m_hw m) k0 i) by (repeat split; try apply Hid; assumption).
  apply res_map_dget in Et.
  destruct (set_props _ _ k0 _) as [m2|] eqn:E2; [|discriminate]. cbn [rbind fst snd] in H. injection H as <- <- _.
  apply (set_props_new E (m_hw m) _ k0 i) in E2 as (i2 & -> & B2 & S2 & V2); [|exact Hi|exact B0|reflexivity| |].
  2:{ cbn. destruct (e_ver E); intros [F|[F|[]]]; discriminate F. }
  2:{ cbn. repeat constructor; cbn; intuition discriminate. }
  assert (HA : match address with Some a' => a = a' | None => exists z, a = zdec z /\ lowest_unused (occupied (m_hw m) ck) z end).
  { destruct address as [a'|]; [now injection Ea|]. destruct (open_slot E m ck) as [z|] eqn:Ez; [|discriminate]. cbn [rbind] in Ea.
    injection Ea as <-. exists z. split; [reflexivity|]. now apply (open_slot_spec E m ck ci z Hi Hd Hin). }
  assert (HT : forall s n, only_value (i_props ci) RESOURCE_TYPE (VStr s) -> res_name s RES_MAP = Some n -> ct = n).
  { intros s n Ho Hr. unfold hardware_type in Ec.
    destruct (value_of_only E m ck ci RESOURCE_TYPE Hi Hin (RT_not_text E)) as (o & Eo & Io). rewrite Eo in Ec. cbn [rbind] in Ec.
    apply Io in Ho as ->. rewrite Hr in Ec. now injection Ec. }
  exists i2, t, a. split; [exact Et|]. split; [reflexivity|]. split; [exact B2|].
  split. { destruct Hrt as [[p Hp] Ho]. assert (Q : ~ In RESOURCE_TYPE (map fst [(ADDRESS_ON_PARENT, IStr a); (PARENT, as_input (Some (VStr ck)))]))
      by (intros [F|[F|[]]]; discriminate F). split; [exists p; now apply S2|]. intros q w Hw. apply S2 in Hw; [now apply (Ho q)|exact Q]. }
  split. { destruct (nonempty_truthy E PARENT ck) as [T1 T2]; [discriminate|now apply (identified_nonempty E (m_hw m) ck ci)|].
    rewrite <- T1. apply (V2 PARENT (IStr ck)); [right; now left|apply PARENT_not_text|exact T2]. }
  split. { intros Hne. destruct (nonempty_truthy E ADDRESS_ON_PARENT a) as [T1 T2]; [discriminate|exact Hne|].
    rewrite <- T1. apply (V2 ADDRESS_ON_PARENT (IStr a)); [now left|apply AOP_not_text|exact T2]. }
  split; [exact HA|].
  split; [intros Ho; apply L1; now apply (HT (L "6"))|]. split; [intros Ho; apply L2; now apply (HT (L "5"))|].
  intros n q w Hn Htx F. cbn [In] in Hn. apply S2 in F; [|intros [X|[X|[]]]; subst n; tauto].
  apply Hb in F; [exact F|intros X; subst n; tauto|intros X; subst n; tauto|exact Htx].
Qed.
