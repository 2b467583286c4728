(** What the steps of edit-hardware do. *)
From Coq Require Import Lia.
From Verif Require Import PyBase PyBaseProofs PyDict PyDictProofs ValidationModel ValidationSpec PlatformModel XmlModel XmlSpec
  XmlProofs NamesModel ItemModel ItemSpec ItemProofs ItemSetProofs ItemReachProofs ItemEffectProofs HardwareModel HardwareSpec
  HardwareProofs HardwareIdProofs EmitProofs CountSpec CountItemProofs CountProofs FindSpec FindProofs ProfileModel ProfileSpec
  ProfileProofs ProfileDocProofs NetworkModel NetworkSpec NetworkProofs WildListModel EditHwModel EditHwSpec HwStepProofs
  EditHwProofs.

Ltac step H x E := match type of H with (do _ <- ?e; _) = Ok _ => destruct e as [x|] eqn:E; [cbn [rbind] in H|discriminate] end.

Lemma VQ_names : forall v, VIRTUAL_QUANTITY <> INSTANCE_ID v /\ VIRTUAL_QUANTITY <> RESOURCE_TYPE /\ ~ text_property v VIRTUAL_QUANTITY.
Proof. intros []; repeat split; try (vm_compute; discriminate); intros [F|F]; vm_compute in F; discriminate. Qed.
Lemma AU_names : forall v, ALLOCATION_UNITS <> INSTANCE_ID v /\ ALLOCATION_UNITS <> RESOURCE_TYPE /\ ~ text_property v ALLOCATION_UNITS.
Proof. intros []; repeat split; try (vm_compute; discriminate); intros [F|F]; vm_compute in F; discriminate. Qed.
Lemma RST_names : forall v, RESOURCE_SUB_TYPE <> INSTANCE_ID v /\ RESOURCE_SUB_TYPE <> RESOURCE_TYPE /\ ~ text_property v RESOURCE_SUB_TYPE.
Proof. intros []; repeat split; try (vm_compute; discriminate); intros [F|F]; vm_compute in F; discriminate. Qed.
Lemma CN_names : forall v, CONNECTION <> INSTANCE_ID v /\ CONNECTION <> RESOURCE_TYPE /\ ~ text_property v CONNECTION.
Proof. intros []; repeat split; try (vm_compute; discriminate); intros [F|F]; vm_compute in F; discriminate. Qed.
Lemma AD_names : forall v, ADDRESS <> INSTANCE_ID v /\ ADDRESS <> RESOURCE_TYPE /\ ~ text_property v ADDRESS.
Proof. intros []; repeat split; try (vm_compute; discriminate); intros [F|F]; vm_compute in F; discriminate. Qed.
Lemma EN_names : forall v, ELEMENT_NAME v <> INSTANCE_ID v /\ ELEMENT_NAME v <> RESOURCE_TYPE.
Proof. intros []; repeat split; vm_compute; discriminate. Qed.

Section Steps.
Variables (E : env) (U : user) (P : hw_platform) (s : settings).
Notation v := (e_ver E).
Notation phase := (hphase E (touched s)).

Lemma ids_of : forall m, vm_ok E m -> ids_ok (e_ver (henv E m)) (devices_of m).
Proof. intros m O. exact (reachable_ids _ _ (o_hw _ _ (proj1 O))). Qed.

Lemma all_phase : forall m rt w n x create m', vm_ok E m -> res_map rt = Ok w -> n <> INSTANCE_ID v -> n <> RESOURCE_TYPE ->
  on_hw E m (fun E' h => set_value_for_all_items E' h rt n x (plist s) create) = Ok m' -> phase [w] m m'.
Proof.
  intros m rt w n x create m' O Hr N1 N2. apply hphase_on; [exact O|]. intros h' H. split.
  - exact (H_set_all _ _ (henv E m) rt n x (plist s) create h' eq_refl N1 H).
  - apply (set_all_touches (henv E m) (touched s) (devices_of m) rt w n x (plist s) create h' (ids_of m O) Hr N1 N2); [|exact (touched_in s)|exact H].
    intros Hp p. now apply touched_nil.
Qed.
Lemma each_phase : forall m rt w n l default m', vm_ok E m -> res_map rt = Ok w -> n <> INSTANCE_ID v -> n <> RESOURCE_TYPE ->
  set_each E rt n l default s m = Ok m' -> phase [w] m m'.
Proof.
  intros m rt w n l default m' O Hr N1 N2. unfold set_each. apply hphase_on; [exact O|]. intros h' H. split.
  - exact (H_set_values _ _ (henv E m) rt n (map IStr l) (plist_opt s) default h' eq_refl N1 H).
  - apply (set_each_touches (henv E m) (touched s) (devices_of m) rt w n (map IStr l) (plist_opt s) default h' (ids_of m O) Hr N1 N2); [|exact H].
    apply touched_opt.
Qed.
Lemma count_phase : forall m rt w nic n m', vm_ok E m -> res_map rt = Ok w ->
  on_hw E m (fun E' h => set_item_count E' nic h rt n (plist s)) = Ok m' -> phase [w] m m'.
Proof.
  intros m rt w nic n m' O Hr. apply hphase_on; [exact O|]. intros h' H. split.
  - exact (H_count _ _ (henv E m) nic rt n (plist s) h' eq_refl H).
  - apply (set_count_touches (henv E m) (touched s) nic (devices_of m) rt w n (plist s) h' (ids_of m O) Hr); [|exact H].
    apply touched_all.
Qed.

Lemma cpu_phase : forall m n m', vm_ok E m -> set_cpu_count E P m n s = Ok m' -> phase [CPU] m m'.
Proof.
  intros m n m' O H. unfold set_cpu_count in H. step H u Eu.
  exact (all_phase m (L "cpu") CPU _ _ _ m' O eq_refl (proj1 (VQ_names v)) (proj1 (proj2 (VQ_names v))) H).
Qed.
Lemma memory_phase : forall m n m', vm_ok E m -> set_memory E P m n s = Ok m' -> phase [MEMORY] m m'.
Proof.
  intros m n m' O H. unfold set_memory in H. step H u Eu. step H m1 E1.
  pose proof (all_phase m (L "memory") MEMORY _ _ _ m1 O eq_refl (proj1 (VQ_names v)) (proj1 (proj2 (VQ_names v))) E1) as P1.
  apply (hphase_trans E (touched s) [MEMORY] m m1 m' O P1). apply hp_vm in P1; [|exact O].
  exact (all_phase m1 (L "memory") MEMORY _ _ _ m' (proj1 P1) eq_refl (proj1 (AU_names v)) (proj1 (proj2 (AU_names v))) H).
Qed.
Lemma drop_phase : forall mk n ts m c m', vm_ok E m -> fold_result (ask_drop U mk n) c m = Ok m' -> phase ts m m'.
Proof.
  intros mk n ts m c m' O H. apply (hphase_weaken E (touched s) [] ts); [intros x []|]. revert H.
  apply fold_hphase; [exact O|]. intros a x b _ Oa H. unfold ask_drop in H.
  destruct (n <? snd x)%Z; [exact (hphase_confirm E _ U a _ b Oa H)|]. injection H as <-. now apply hphase_refl.
Qed.
Lemma nic_types_phase : forall m l m', vm_ok E m -> set_nic_types E P m l s = Ok m' -> phase [NIC] m m'.
Proof.
  intros m l m' O H. unfold set_nic_types in H. step H cs E1. step H types E2. step H u E3.
  exact (all_phase m (L "ethernet") NIC _ _ _ m' O eq_refl (proj1 (RST_names v)) (proj1 (proj2 (RST_names v))) H).
Qed.
Lemma macs_phase : forall m l m', vm_ok E m -> set_nic_mac_addresses E m l s = Ok m' -> phase [NIC] m m'.
Proof.
  intros m l m' O H. unfold set_nic_mac_addresses in H. step H d Ed.
  exact (each_phase m (L "ethernet") NIC _ _ _ m' O eq_refl (proj1 (AD_names v)) (proj1 (proj2 (AD_names v))) H).
Qed.
Lemma connect_phase : forall m l m', vm_ok E m -> set_nic_networks E m l s = Ok m' -> phase [NIC] m m'.
Proof.
  intros m l m' O H. unfold set_nic_networks in H. step H d Ed.
  exact (each_phase m (L "ethernet") NIC _ _ _ m' O eq_refl (proj1 (CN_names v)) (proj1 (proj2 (CN_names v))) H).
Qed.
Lemma names_phase : forall m m', vm_ok E m -> update_nic_names E m s = Ok m' -> phase [NIC] m m'.
Proof.
  intros m m' O H. unfold update_nic_names in H. destruct (s_nic_names s) as [l|]; [|injection H as <-; now apply hphase_refl].
  step H c Ec.
  exact (each_phase m (L "ethernet") NIC _ _ _ m' O eq_refl (proj1 (EN_names v)) (proj2 (EN_names v)) H).
Qed.
Lemma nics_phase : forall m m', vm_ok E m -> update_nics E U P m s = Ok m' -> phase [NIC] m m'.
Proof.
  intros m m' O H. unfold update_nics in H. step H c Ec. step H m1 E1. step H m2 E2.
  assert (P1 : phase [NIC] m m1).
  { destruct (s_nics s) as [n|]; [|injection E1 as <-; now apply hphase_refl]. step E1 a Ea.
    pose proof (drop_phase _ _ [NIC] m c a O Ea) as Pa. apply (hphase_trans E (touched s) [NIC] m a m1 O Pa).
    apply hp_vm in Pa; [|exact O]. unfold set_nic_count in E1. step E1 u Eu.
    exact (count_phase a (L "ethernet") NIC _ n m1 (proj1 Pa) eq_refl E1). }
  pose proof (proj1 (hp_vm _ _ _ _ _ O P1)) as O1. apply (hphase_trans E (touched s) [NIC] m m1 m' O P1).
  assert (P2 : phase [NIC] m1 m2).
  { destruct (s_nic_types s) as [l|]; [exact (nic_types_phase m1 l m2 O1 E2)|injection E2 as <-; now apply hphase_refl]. }
  pose proof (proj1 (hp_vm _ _ _ _ _ O1 P2)) as O2. apply (hphase_trans E (touched s) [NIC] m1 m2 m' O1 P2).
  destruct (s_macs s) as [l|]; [exact (macs_phase m2 l m' O2 H)|injection H as <-; now apply hphase_refl].
Qed.
Lemma serial_phase : forall m m', vm_ok E m -> update_serial E U P m s = Ok m' -> phase [SERIAL] m m'.
Proof.
  intros m m' O H. unfold update_serial in H. step H m1 E1.
  assert (P1 : phase [SERIAL] m m1).
  { destruct (s_serials s) as [n|]; [|injection E1 as <-; now apply hphase_refl]. step E1 c Ec. step E1 a Ea.
    pose proof (drop_phase _ _ [SERIAL] m c a O Ea) as Pa. apply (hphase_trans E (touched s) [SERIAL] m a m1 O Pa).
    apply hp_vm in Pa; [|exact O]. exact (count_phase a (L "serial") SERIAL _ n m1 (proj1 Pa) eq_refl E1). }
  pose proof (proj1 (hp_vm _ _ _ _ _ O P1)) as O1. apply (hphase_trans E (touched s) [SERIAL] m m1 m' O P1).
  destruct (s_connectivity s) as [l|]; [|injection H as <-; now apply hphase_refl]. step H c Ec. step H a Ea.
  pose proof (drop_phase _ _ [SERIAL] m1 c a O1 Ea) as Pa. apply (hphase_trans E (touched s) [SERIAL] m1 a m' O1 Pa).
  apply hp_vm in Pa; [|exact O1]. unfold set_serial_connectivity in H.
  exact (each_phase a (L "serial") SERIAL _ _ _ m' (proj1 Pa) eq_refl (proj1 (AD_names v)) (proj1 (proj2 (AD_names v))) H).
Qed.
Lemma subtypes_phase : forall rt w m l m', vm_ok E m -> res_map rt = Ok w -> set_subtypes E rt m l s = Ok m' -> phase [w] m m'.
Proof.
  intros rt w m l m' O Hr H. unfold set_subtypes in H.
  exact (all_phase m rt w _ _ _ m' O Hr (proj1 (RST_names v)) (proj1 (proj2 (RST_names v))) H).
Qed.
End Steps.

(** ** Networks *)
Record nphase (E : env) (m m' : vm) : Prop := {
  np_ok : vm_ok E m';
  np_deploy : deploy_sections (e_ver E) (p_env (v_doc m')) = deploy_sections (e_ver E) (p_env (v_doc m));
  np_hw : devices_of m' = devices_of m;
  np_sec : v_sec m' = v_sec m;
  np_log : exists l, v_log m' = v_log m ++ l /\ agreed l;
  np_old : forall n, In n (networks (e_ver E) (net_of m)) -> In n (networks (e_ver E) (net_of m'));
  np_new : forall n, In n (networks (e_ver E) (net_of m')) -> In n (networks (e_ver E) (net_of m)) \/
             exists t, n = Some t /\ In (Confirmed (AskNetwork t) true) (v_log m') }.
Lemma np_refl : forall E m, vm_ok E m -> nphase E m m.
Proof.
  intros E m O. constructor; auto. exists []. split; [now rewrite app_nil_r|exact agreed_nil].
Qed.
Lemma np_trans : forall E a b c, nphase E a b -> nphase E b c -> nphase E a c.
Proof.
  intros E a b c H1 H2. destruct (np_log _ _ _ H1) as (l1 & L1 & A1). destruct (np_log _ _ _ H2) as (l2 & L2 & A2). constructor.
  - exact (np_ok _ _ _ H2).
  - now rewrite (np_deploy _ _ _ H2), (np_deploy _ _ _ H1).
  - now rewrite (np_hw _ _ _ H2), (np_hw _ _ _ H1).
  - now rewrite (np_sec _ _ _ H2), (np_sec _ _ _ H1).
  - exists (l1 ++ l2). split; [now rewrite L2, L1, app_assoc|now apply agreed_app].
  - intros n Hn. apply (np_old _ _ _ H2), (np_old _ _ _ H1), Hn.
  - intros n Hn. destruct (np_new _ _ _ H2 n Hn) as [Hn'|Hn']; [|now right].
    destruct (np_new _ _ _ H1 n Hn') as [Hb|(t & -> & Hb)]; [now left|]. right. exists t. split; [reflexivity|].
    rewrite L2. apply in_app_iff. now left.
Qed.
Lemma define_phase : forall E m name desc m', vm_ok E m -> define_network E m name desc = Ok m' ->
  In (Some name) (networks (e_ver E) (net_of m)) \/ In (Confirmed (AskNetwork name) true) (v_log m) ->
  nphase E m m' /\ In (Some name) (networks (e_ver E) (net_of m')) /\ v_log m' = v_log m.
Proof.
  intros E m name desc m' O H Hc. unfold define_network in H.
  destruct (create_network (e_ver E) (net_of m) name desc) as [d|] eqn:Ed; [|discriminate]. cbn [rbind] in H. injection H as <-.
  pose proof (create_ok _ _ _ _ _ (proj2 O) Ed) as O'. pose proof (defined_deploy _ _ _ _ _ (proj2 O) Ed) as D.
  destruct (create_spec_ok _ _ _ _ _ (proj2 O) Ed) as (pre & n' & post & D1 & D2 & D3 & D4 & D5 & D6 & D7 & D8).
  assert (N : net_of (with_net m d) = d) by (unfold net_of, with_net; now destruct d).
  assert (Nm : networks (e_ver E) d = map (fun n => get_attr n (NETWORK_NAME (e_ver E))) pre ++ Some name ::
                 map (fun n => get_attr n (NETWORK_NAME (e_ver E))) post).
  { rewrite D2, D1, map_app. cbn [map]. now rewrite D3. }
  rewrite <- (networks_declared _ _ O') in D2.
  pose proof (networks_declared _ _ (proj2 O)) as D0.
  assert (Sub : forall n, In n (networks (e_ver E) (net_of m)) -> In n (networks (e_ver E) d)).
  { intros n Hn. rewrite D0 in Hn. rewrite Nm. apply in_map_iff in Hn as (x & <- & Hx).
    destruct D6 as [(n0 & E0 & M0)|(-> & E0 & M0)]; rewrite E0 in Hx.
    - apply in_app_iff in Hx as [Hx|[<-|Hx]]; apply in_app_iff.
      + left. apply in_map_iff. eauto.
      + right. left. rewrite <- D3. unfold get_attr. destruct M0 as [(_ & Ha & _) _ _]. now rewrite Ha.
      + right. right. apply in_map_iff. eauto.
    - apply in_app_iff. left. apply in_map_iff. eauto. }
  split; [|split; [|reflexivity]].
  - constructor.
    + split; [|now rewrite N]. destruct O as [[O1 O2 O3] _]. unfold net_of in D. cbn [n_env] in D. cbn [with_net v_doc].
      constructor; cbn [p_deploy p_env p_cache p_hw]; [|unfold declared; rewrite D; exact O2|exact O3].
      rewrite D. exact O1.
    + exact D.
    + reflexivity.
    + reflexivity.
    + exists []. cbn. split; [now rewrite app_nil_r|exact agreed_nil].
    + rewrite N. exact Sub.
    + rewrite N. intros n Hn. rewrite Nm in Hn.
      assert (K : n = Some name \/ In n (networks (e_ver E) (net_of m))).
      { apply in_app_iff in Hn as [Hn|[<-|Hn]]; [right|now left|right]; rewrite D0;
          destruct D6 as [(n0 & E0 & _)|(-> & E0 & _)]; rewrite E0, ?map_app; apply in_map_iff in Hn as (x & <- & Hx).
        - apply in_app_iff. left. apply in_map_iff. eauto.
        - apply in_map_iff. eauto.
        - apply in_app_iff. right. right. apply in_map_iff. eauto.
        - destruct Hx. }
      destruct K as [->|K]; [|now left]. destruct Hc as [Hc|Hc]; [now left|]. right. exists name. auto.
  - rewrite N, Nm. apply in_app_iff. right. now left.
Qed.

Lemma np_log_only : forall E m e, vm_ok E m -> (forall q b, e = Confirmed q b -> b = true) -> nphase E m (with_log e m).
Proof.
  intros E m e O He. constructor; auto. exists [e]. split; [reflexivity|]. intros q b [H|[]]. eauto.
Qed.

Lemma all_names_inv : forall l r, all_names l = Ok r -> l = map Some r.
Proof.
  unfold all_names. intros l r H.
  assert (G : forall l a r, fold_result (fun acc (o : option str) => match o with Some n => Ok (acc ++ [n]) | None => Err ETypeError end) l a = Ok r ->
             map Some r = map Some a ++ l).
  { clear. induction l as [|o l IH]; intros a r H; cbn [fold_result] in H; [injection H as <-; now rewrite app_nil_r|].
    destruct o as [n|]; [|discriminate]. cbn [rbind] in H. apply IH in H. rewrite H, map_app, <- app_assoc. reflexivity. }
  apply G in H. cbn in H. now symmetry.
Qed.

Lemma rename_phase : forall E names descs m m', vm_ok E m ->
  (forall n, In n names -> In (Some n) (networks (e_ver E) (net_of m))) ->
  rename_networks E m names descs = Ok m' -> nphase E m m' /\ v_log m' = v_log m.
Proof.
  intros E names. induction names as [|n names IH]; intros descs m m' O Hn H; cbn [rename_networks] in H.
  - destruct descs; injection H as <-; split; [now apply np_refl|reflexivity|now apply np_refl|reflexivity].
  - destruct descs as [|d descs]; [injection H as <-; split; [now apply np_refl|reflexivity]|].
    destruct (define_network E m n (Some d)) as [m1|] eqn:E1; [|discriminate]. cbn [rbind] in H.
    destruct (define_phase E m n (Some d) m1 O E1) as (P1 & _ & L1); [left; apply Hn; now left|].
    destruct (IH descs m1 m' (np_ok _ _ _ P1)) as [P2 L2]; [|exact H|].
    + intros x Hx. apply (np_old _ _ _ P1), Hn. now right.
    + split; [exact (np_trans _ _ _ _ P1 P2)|congruence].
Qed.
Lemma request_phase : forall E U existing names descs m m', vm_ok E m ->
  (forall n, In n existing -> In n (networks (e_ver E) (net_of m))) ->
  request_networks E U existing m names descs = Ok m' ->
  nphase E m m' /\
  (forall n, In n names -> In (Some n) (networks (e_ver E) (net_of m'))) /\
  (forall n, In n names -> ~ In (Some n) existing -> In (Confirmed (AskNetwork n) true) (v_log m')).
Proof.
  intros E U existing names. induction names as [|n names IH]; intros descs m m' O Hx H; cbn [request_networks] in H.
  - injection H as <-. split; [now apply np_refl|]. split; intros n [].
  - match type of H with (do _ <- ?e; _) = _ => destruct e as [[desc m1]|] eqn:E1; [cbn [rbind] in H|discriminate] end.
    assert (P1 : nphase E m m1 /\ (In (Some n) existing \/ In (Confirmed (AskNetwork n) true) (v_log m1))).
    { destruct (mem_opt (Some n) existing) eqn:Em.
      - injection E1 as _ <-. split; [now apply np_refl|]. left.
        unfold mem_opt in Em. apply existsb_exists in Em as (x & Hi & He). apply opt_eqb_eq in He. now subst.
      - destruct (confirm_or_die U m (AskNetwork n)) as [m2|] eqn:E2; [|discriminate]. cbn [rbind] in E1.
        apply confirm_inv in E2 as [_ ->].
        assert (P0 : nphase E m (with_log (Confirmed (AskNetwork n) true) m)) by (apply np_log_only; [exact O|intros q b Hb; now injection Hb]).
        assert (Hin : In (Confirmed (AskNetwork n) true) (v_log (with_log (Confirmed (AskNetwork n) true) m))).
        { cbn. apply in_app_iff. right. now left. }
        destruct descs as [|[|c t] descs]; cbn [get_input] in E1; unfold get_input in E1; injection E1 as _ <-;
          (split; [|right]).
        + apply (np_trans _ _ _ _ P0). apply np_log_only; [exact (np_ok _ _ _ P0)|discriminate].
        + cbn. apply in_app_iff. left. exact Hin.
        + apply (np_trans _ _ _ _ P0). apply np_log_only; [exact (np_ok _ _ _ P0)|discriminate].
        + cbn. apply in_app_iff. left. exact Hin.
        + exact P0.
        + exact Hin. }
    destruct P1 as [P1 C1].
    destruct (define_network E m1 n desc) as [m2|] eqn:E2; [|discriminate]. cbn [rbind] in H.
    destruct (define_phase E m1 n desc m2 (np_ok _ _ _ P1) E2) as (P2 & I2 & L2).
    { destruct C1 as [C1|C1]; [left|now right]. apply (np_old _ _ _ P1), Hx, C1. }
    pose proof (np_trans _ _ _ _ P1 P2) as P12.
    destruct (IH (tl descs) m2 m' (np_ok _ _ _ P2)) as (P3 & I3 & C3); [|exact H|].
    + intros x Hi. apply (np_old _ _ _ P12), Hx, Hi.
    + destruct (np_log _ _ _ P3) as (l3 & L3 & _).
      split; [exact (np_trans _ _ _ _ P12 P3)|]. split.
      * intros x [<-|Hi]; [exact (np_old _ _ _ P3 _ I2)|exact (I3 x Hi)].
      * intros x [<-|Hi] Hne; [|exact (C3 x Hi Hne)]. destruct C1 as [C1|C1]; [now destruct Hne|].
        rewrite L3, L2. apply in_app_iff. now left.
Qed.
