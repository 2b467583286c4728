(** The names that edit-hardware gives to network cards. *)
From Coq Require Import Lia Sorted.
From Verif Require Import PyBase PyBaseProofs PyDict PyDictProofs ValidationModel ValidationSpec PlatformModel XmlModel XmlSpec
  XmlProofs NamesModel ItemModel ItemSpec ItemProofs PsetProofs ItemSetProofs ItemReachProofs ItemProfileProofs ItemEffectProofs
  LookupProofs WildcardProofs WildcardItemProofs HardwareModel HardwareSpec
  HardwareProofs HardwareIdProofs EmitProofs CountSpec CountItemProofs CountProofs FindSpec FindProofs ProfileModel ProfileSpec
  ProfileProofs ProfileDocProofs NetworkModel NetworkSpec NetworkProofs WildListModel WildListProofs EditHwModel EditHwSpec HwStepProofs
  EditHwProofs EditHwRunProofs EditHwProfProofs EditHwAllProofs EditHwValueProofs EditHwViewProofs CountDefaultProofs EditHwResultProofs.

(** ** A name without placeholders is stored and reported as it is *)
Lemma sub_none : forall E ps tag f w P t, is_text E tag = false -> (forall v, get_raw ps tag (Some P) = Some v -> plain_pattern (f v) = true /\ contains (f v) t = false) ->
  plain_repl w = true -> sub_value E ps tag f w P (VStr t) = Ok (VStr t).
Proof.
  intros E ps tag f w P t Ht H Hw. unfold sub_value. rewrite get_value_plain by exact Ht. cbn [rbind].
  destruct (get_raw ps tag (Some P)) as [v|]; [|reflexivity]. destruct (H v eq_refl) as [H1 H2]. cbn [vtext].
  rewrite re_sub_plain by assumption. cbn [rbind]. now rewrite replace_none.
Qed.
Lemma plain_stored : forall E i t P, P <> [] -> plain_name E i t -> add_wildcards E (i_props i) (ELEMENT_NAME (e_ver E)) (VStr t) P = Ok (VStr t).
Proof.
  intros E i t P HP [_ HN]. unfold add_wildcards. rewrite name_not_desc, name_is_text. cbn [rbind]. destruct (plain_tags E) as (T1 & T2 & T3).
  rewrite (sub_none E _ VIRTUAL_QUANTITY); [|exact T2| |reflexivity]; cbn [rbind].
  rewrite (sub_none E _ RESOURCE_SUB_TYPE); [|exact T1| |reflexivity]; cbn [rbind].
  apply (sub_none E _ CONNECTION); [exact T3| |reflexivity].
  - intros v Hv. apply (HN P (L "CONN")); [exact HP|]. apply embeds_conn. rewrite get_value_plain by exact T3. now apply f_equal.
  - intros v Hv. apply (HN P (L "RST")); [exact HP|]. apply embeds_rst. rewrite get_value_plain by exact T1. now apply f_equal.
  - intros v Hv. apply (HN P (L "VQ")); [exact HP|]. apply embeds_vq. rewrite get_value_plain by exact T2. now apply f_equal.
Qed.
Lemma plain_reported : forall E i t q, reachable (e_ver E) i -> t <> [] -> plain_name E i t ->
  holds (i_props i) (ELEMENT_NAME (e_ver E)) q (VStr t) -> reports E i (ELEMENT_NAME (e_ver E)) q = Ok (Some (VStr t)).
Proof.
  intros E i t q R Ht [HU HN] H. pose proof (reachable_good _ _ R) as G. apply (get_raw_holds _ _ _ _ _ G) in H.
  unfold reports, get_value, replace_wildcards. rewrite H. rewrite name_not_desc, name_is_text.
  assert (T : truthy (VStr t) = true) by (destruct t; [contradiction|reflexivity]). rewrite T. cbn [negb]. cbv zeta.
  destruct (plain_tags E) as (T1 & T2 & T3).
  change (L "_RST_") with (mk (L "RST")). change (L "_VQ_") with (mk (L "VQ")). change (L "_CONN_") with (mk (L "CONN")).
  assert (W : forall w, In w placeholder_words -> contains (mk w) t = false) by (intros w _; now apply contains_noU).
  rewrite opt_id; [|right; now left| |now apply W; right; left].
  rewrite opt_id; [|do 2 right; now left| |now apply W; do 2 right; left].
  rewrite opt_id; [|do 3 right; now left| |now apply W; do 3 right; left].
  - cbn [rbind andb vtext]. now rewrite (has_wildcard_noU t HU).
  - intros x Hx. destruct (get_raw (i_props i) CONNECTION (Some [q])) as [v|] eqn:Ev; [|discriminate]. injection Hx as <-.
    apply plain_pattern_inv. apply (HN [q] (L "CONN")); [discriminate|]. apply embeds_conn. rewrite get_value_plain by exact T3. now apply f_equal.
  - intros x Hx. destruct (get_raw (i_props i) VIRTUAL_QUANTITY (Some [q])) as [v|] eqn:Ev; [|discriminate]. injection Hx as <-.
    apply plain_pattern_inv. apply (HN [q] (L "VQ")); [discriminate|]. apply embeds_vq. rewrite get_value_plain by exact T2. now apply f_equal.
  - intros x Hx. destruct (get_raw (i_props i) RESOURCE_SUB_TYPE (Some [q])) as [v|] eqn:Ev; [|discriminate]. injection Hx as <-.
    apply plain_pattern_inv. apply (HN [q] (L "RST")); [discriminate|]. apply embeds_rst. rewrite get_value_plain by exact T1. now apply f_equal.
Qed.
Lemma plain_kept : forall E i j t, reachable (e_ver E) i -> reachable (e_ver E) j -> same_but (ELEMENT_NAME (e_ver E)) i j ->
  plain_name E i t -> plain_name E j t.
Proof.
  intros E i j t R R' [_ S] [HU HN]. split; [exact HU|]. intros Q w x HQ H. apply (HN Q w x HQ). apply reachable_good in R, R'.
  assert (Eq : forall m, ~ text_property (e_ver E) m -> get_value E (i_props j) m (Some Q) = get_value E (i_props i) m (Some Q)).
  { intros m Hm. rewrite !get_value_plain by now apply not_text. f_equal. apply (raw_set_same (e_ver E)); auto.
    apply own_holds. intros q u. apply S. intros ->. apply Hm. now left. }
  remember (ELEMENT_NAME (e_ver E)) as en eqn:Een. inversion H; subst.
  - constructor. rewrite <- Eq; [assumption|]. unfold text_property. destruct (e_ver E); intros [F|F]; discriminate F.
  - constructor. rewrite <- Eq; [assumption|]. unfold text_property. destruct (e_ver E); intros [F|F]; discriminate F.
  - constructor. rewrite <- Eq; [assumption|]. unfold text_property. destruct (e_ver E); intros [F|F]; discriminate F.
  - exfalso. destruct (e_ver E); discriminate.
Qed.
Lemma plain_env : forall E a i t, plain_name E i t -> plain_name (henv E a) i t.
Proof.
  intros E a i t [HU HN]. split; [exact HU|]. intros Q w x HQ H. apply (HN Q w x HQ).
  change (ELEMENT_NAME (e_ver (henv E a))) with (ELEMENT_NAME (e_ver E)) in H. remember (ELEMENT_NAME (e_ver E)) as en eqn:Een.
  destruct H as [n v H|n v H|n v H|v H]; [exact (embeds_vq E _ Q n v H)|exact (embeds_rst E _ Q n v H)|exact (embeds_conn E _ Q n v H)|exact (embeds_en E _ Q v H)].
Qed.
Lemma same_but_sym : forall n i j, same_but n i j -> same_but n j i.
Proof. intros n i j [F S]. split; [congruence|]. intros m p w Hm. symmetry. now apply S. Qed.

Section Names.
Variables (E : env) (U : user) (P : hw_platform) (s : settings) (m m1 m2 m3 m4 m5 m6 m7 m8 m9 m' : vm)
  (nd : option (list str) * option (list str)).
Hypothesis O : vm_ok E m.
Hypothesis R : run_of E U P s m m1 m2 m3 m4 m5 m6 m7 m8 m9 m' nd.
Notation W f := (f E U P s m m1 m2 m3 m4 m5 m6 m7 m8 m9 m' nd O R).
Notation F f := (f E U P s m m1 m2 m3 m4 m5 m6 m7 m8 m9 m' nd R).

Theorem whole_names : forall l, s_nic_names s = Some l -> s_profiles s <> Some [] -> NoDup (targets E m' s) ->
  exists most, most_devices E m' (L "ethernet") (targets E m' s) most /\
    named_in_turn E m' (L "ethernet") (expand_list_wildcard l (Z.to_nat most)) (targets E m' s).
Proof.
  intros l Hl Hs ND. pose proof (F r_7) as H. pose proof (gp_ok _ _ _ _ _ (W g_6)) as O6. pose proof (gp_ok _ _ _ _ _ (W g_7)) as O7.
  unfold update_nic_names in H. rewrite Hl in H. step H c Ec. cbn [wildcards] in H.
  destruct (W env_6) as [He6 Hp6]. destruct (W env_7) as [He7 Hp7].
  assert (T6 : targets E m' s = targets E m6 s) by (unfold targets; now rewrite Hp6).
  exists (max_count c). split.
  { rewrite T6. rewrite T6 in ND. apply (most_view E (L "ethernet") NIC _ m6 m' _ _ O6 (W ok_end) He6 eq_refl) with (2 := W view_6e).
    - intros [K|[]]. destruct (e_ver E); discriminate.
    - exact (counts_most E s m6 (L "ethernet") NIC c O6 eq_refl ND Ec). }
  set (new := expand_list_wildcard l (Z.to_nat (max_count c))) in *. clearbody new.
  unfold set_nic_names, set_each in H. apply on_hw_inv in H as (h & Hh & E7). assert (D7 : devices_of m7 = h) by (rewrite E7; reflexivity).
  pose proof (vm_ids E m6 O6) as I6. unfold set_item_values_per_profile in Hh.
  destruct (find_all_items (henv E m6) (devices_of m6) (Some (L "ethernet")) [] []) as [ks|] eqn:Ef; [|discriminate]. cbn [rbind] in Hh.
  apply find_all_wanted in Ef as Wk; [|exact I6|intros q []]. pose proof Wk as (W1 & _ & W3).
  destruct (set_values_spec _ _ _ _ ks _ _ h W1 (proj1 I6) Hh) as (_ & _ & Vk).
  exists ks. rewrite He6. split.
  { exact (view_wanted _ (L "ethernet") NIC _ _ _ ks eq_refl (W view_6e) Wk). }
  intros j k t Hj Ht Hne. destruct (Vk j k Hj) as (i & i' & Hi & Hi' & Hset). exists i'.
  assert (Nj : nth j (map IStr new) INone = IStr t) by (apply nth_error_nth, map_nth_error, Ht). rewrite Nj in Hset.
  destruct (ids_good (henv E m6) (devices_of m6) k i I6 Hi) as [Ri _].
  (* the card is not touched any more *)
  assert (Wi : is_of NIC i).
  { destruct (proj1 (W3 k) (nth_error_In _ _ Hj)) as (i0 & Hi0 & Wi0).
    rewrite <- (NoDup_same _ k i i0 (gp_nodup E m6 O6) Hi Hi0) in Wi0. exact (proj1 (wanted_is _ (L "ethernet") NIC i eq_refl) Wi0). }
  assert (SB : reachable (e_ver E) i' /\ same_but (ELEMENT_NAME (e_ver E)) i i').
  { assert (G : forall PP a b, reachable (e_ver E) a -> set_profiles (henv E m6) (ELEMENT_NAME (e_ver E)) (IStr t) PP a = Ok b ->
        reachable (e_ver E) b /\ same_but (ELEMENT_NAME (e_ver E)) a b).
    { unfold set_profiles. induction PP as [|p PP IH]; intros a b Ra Ha; cbn [fold_result] in Ha.
      - injection Ha as <-. split; [exact Ra|]. split; [reflexivity|]. reflexivity.
      - destruct (has_profile (henv E m6) a p); [|cbn [rbind] in Ha; now apply IH].
        destruct (set_property _ a _ _ _ _) as [a1|] eqn:E1; [|discriminate]. cbn [rbind] in Ha.
        assert (R1 : reachable (e_ver E) a1) by exact (R_set _ (henv E m6) _ _ _ _ _ _ eq_refl Ra E1).
        destruct (IH a1 b R1 Ha) as [Rb Sb]. split; [exact Rb|]. apply same_but_trans with (2 := Sb). split.
        + exact (set_frozen (henv E m6) a _ _ _ _ a1 (reachable_good _ _ Ra) E1).
        + apply set_property_effect in E1 as (v & _ & _ & _ & _ & S1); [exact S1|exact Ra]. }
    exact (G _ i i' Ri Hset). }
  destruct SB as [Ri' SB].
  assert (Oi' : is_of NIC i').
  { unfold is_of, only_value in *. destruct Wi as [Wi1 Wi2]. split.
    - destruct Wi1 as (q & Hq). exists q. apply (proj2 SB); [destruct (e_ver E); discriminate|exact Hq].
    - intros q u Hu. apply (proj2 SB) in Hu; [now apply (Wi2 q)|destruct (e_ver E); discriminate]. }
  split.
  { apply (gp_type _ _ _ _ _ (W e_7) NIC (nic_later s) k i' Oi'). rewrite D7. exact Hi'. }
  intros PN q Hq Pq.
  assert (PI : plain_name (henv E m6) i t).
  { apply (plain_kept (henv E m6) i' i t Ri' Ri (same_but_sym _ _ _ SB)). now apply plain_env. }
  assert (T : to_value (henv E m6) (ELEMENT_NAME (e_ver E)) (IStr t) = VStr t) by (unfold to_value; destruct (e_ver E); reflexivity).
  assert (G1 : forall a p v, reachable (e_ver (henv E m6)) a -> plain_name (henv E m6) a t ->
    add_wildcards (henv E m6) (i_props a) (ELEMENT_NAME (e_ver E)) (to_value (henv E m6) (ELEMENT_NAME (e_ver E)) (IStr t))
      (profs_of (i_props a) (ELEMENT_NAME (e_ver E)) [p]) = Ok v -> v = to_value (henv E m6) (ELEMENT_NAME (e_ver E)) (IStr t)).
  { intros a p v Ra Pa Ha. rewrite T in *. pose proof (plain_stored (henv E m6) a t (profs_of (i_props a) (ELEMENT_NAME (e_ver E)) [p]) ltac:(discriminate) Pa) as X.
    pose proof (eq_trans (eq_sym X) Ha) as Y. now injection Y as <-. }
  assert (G2 : ELEMENT_NAME (e_ver E) <> INSTANCE_ID (e_ver (henv E m6))) by (change (e_ver (henv E m6)) with (e_ver E); destruct (e_ver E); discriminate).
  assert (G3 : truthy (to_value (henv E m6) (ELEMENT_NAME (e_ver E)) (IStr t)) = true) by (rewrite T; destruct t; [contradiction|reflexivity]).
  destruct (set_profiles_gen (henv E m6) (ELEMENT_NAME (e_ver E)) (IStr t) (fun a => plain_name (henv E m6) a t) G1
    (fun a b Ra Rb Pa S => plain_kept (henv E m6) a b t Ra Rb S Pa) G2 G3 _ i i' Ri PI Hset) as (_ & _ & Se & _).
  apply (plain_reported E i' t q Ri' Hne PN). apply Se; [|symmetry; exact T].
  left. split.
  - rewrite T6 in Hq. unfold targets in Hq. unfold plist_opt. destruct (s_profiles s) as [[|p ps]|]; [now contradict Hs|exact Hq|exact Hq].
  - apply (same_present (henv E m6) (ELEMENT_NAME (e_ver E)) i i' q G2 SB). exact Pq.
Qed.
End Names.

(** A card with a network, and no quantity or subtype *)
Lemma raw_loop_one : forall (v : value) s P w, raw_loop [(v, s)] P None = Some w -> w = v.
Proof.
  intros v s P w. cbn [raw_loop]. destruct (psubset P s); [congruence|]. destruct (pmem None s); [congruence|].
  destruct (is_nil (pinter s P)); discriminate.
Qed.
Lemma plain_card : forall E i t c s, prget VIRTUAL_QUANTITY (i_props i) = None -> prget RESOURCE_SUB_TYPE (i_props i) = None ->
  prget CONNECTION (i_props i) = Some [(VStr c, s)] -> plain_pattern c = true -> contains c t = false -> no_underscore t ->
  is_text E VIRTUAL_QUANTITY = false -> is_text E RESOURCE_SUB_TYPE = false -> is_text E CONNECTION = false ->
  str_eqb ITEM_DESCRIPTION (ELEMENT_NAME (e_ver E)) = false ->
  plain_name E i t.
Proof.
  intros E i t c s Hv Hr Hc Hp Ht Hu T1 T2 T3 N. split; [exact Hu|]. intros Q w x _ H. remember (ELEMENT_NAME (e_ver E)) as en eqn:Een.
  destruct H as [n v H|n v H|n v H|v H].
  - rewrite ItemProfileProofs.get_value_plain in H by exact T1. unfold get_raw in H. rewrite Hv in H. discriminate H.
  - rewrite ItemProfileProofs.get_value_plain in H by exact T2. unfold get_raw in H. rewrite Hr in H. discriminate H.
  - rewrite ItemProfileProofs.get_value_plain in H by exact T3. unfold get_raw in H. rewrite Hc in H.
    assert (Hw : raw_loop [(VStr c, s)] Q None = Some v) by congruence. apply raw_loop_one in Hw. subst v. split; assumption.
  - rewrite str_eqb_refl in N. discriminate.
Qed.
