(** The whole of edit-hardware. *)
From Coq Require Import Lia.
From Verif Require Import PyBase PyBaseProofs PyDict PyDictProofs ValidationModel ValidationSpec PlatformModel XmlModel XmlSpec
  XmlProofs NamesModel ItemModel ItemSpec ItemProofs ItemSetProofs ItemReachProofs ItemEffectProofs HardwareModel HardwareSpec
  HardwareProofs HardwareIdProofs EmitProofs CountSpec CountItemProofs CountProofs FindSpec FindProofs ProfileModel ProfileSpec
  ProfileProofs ProfileDocProofs NetworkModel NetworkSpec NetworkProofs WildListModel EditHwModel EditHwSpec HwStepProofs
  EditHwProofs EditHwRunProofs EditHwProfProofs.

Record gphase (E : env) (A : profile -> Prop) (ts : list str) (m m' : vm) : Prop := {
  gp_ok : vm_ok E m';
  gp_deploy : deploy_sections (e_ver E) (p_env (v_doc m')) = deploy_sections (e_ver E) (p_env (v_doc m));
  gp_sec : v_sec m' = v_sec m;
  gp_type : forall w, ~ In w ts -> same_of_type w (devices_of m) (devices_of m');
  gp_frame : forall q, ~ A (Some q) -> ~ A None -> In q (profiles_of E m) -> all_know (henv E m) q (devices_of m) ->
               framed (henv E m) q (devices_of m) (devices_of m');
  gp_log : exists l, v_log m' = v_log m ++ l /\ agreed l }.

Lemma gp_h : forall E A ts m m', vm_ok E m -> hphase E A ts m m' -> gphase E A ts m m'.
Proof.
  intros E A ts m m' O H. destruct (hp_vm _ _ _ _ _ O H) as (O' & _). destruct H as [H1 H2 H3 H4 H5 H6 H7].
  constructor; auto. now rewrite H1.
Qed.
Lemma gp_n : forall E A ts m m', nphase E m m' -> gphase E A ts m m'.
Proof.
  intros E A ts m m' H. constructor.
  - exact (np_ok _ _ _ H).
  - exact (np_deploy _ _ _ H).
  - exact (np_sec _ _ _ H).
  - intros w _. rewrite (np_hw _ _ _ H). apply same_type_refl.
  - intros q _ _ _ K. rewrite (np_hw _ _ _ H). now apply framed_refl.
  - exact (np_log _ _ _ H).
Qed.
Lemma gp_env : forall E A ts m m', vm_ok E m -> gphase E A ts m m' -> profiles_of E m' = profiles_of E m /\ henv E m' = henv E m.
Proof. intros E A ts m m' O H. exact (profiles_eq E m m' O (gp_ok _ _ _ _ _ H) (gp_deploy _ _ _ _ _ H)). Qed.
Lemma gp_nodup : forall E m, vm_ok E m -> NoDup (map fst (devices_of m)).
Proof. intros E m O. exact (proj1 (reachable_ids _ _ (o_hw _ _ (proj1 O)))). Qed.
Lemma gp_trans : forall E A t1 t2 a b c, vm_ok E a -> gphase E A t1 a b -> gphase E A t2 b c -> gphase E A (t1 ++ t2) a c.
Proof.
  intros E A t1 t2 a b c O H1 H2. destruct (gp_env _ _ _ _ _ O H1) as [Pb Eb]. constructor.
  - exact (gp_ok _ _ _ _ _ H2).
  - now rewrite (gp_deploy _ _ _ _ _ H2), (gp_deploy _ _ _ _ _ H1).
  - now rewrite (gp_sec _ _ _ _ _ H2), (gp_sec _ _ _ _ _ H1).
  - intros w Hw. apply (same_type_trans w _ (devices_of b)).
    + apply (gp_type _ _ _ _ _ H1). intros F. apply Hw, in_app_iff. auto.
    + apply (gp_type _ _ _ _ _ H2). intros F. apply Hw, in_app_iff. auto.
  - intros q Q1 Q2 Q3 Q4. pose proof (gp_frame _ _ _ _ _ H1 q Q1 Q2 Q3 Q4) as F1.
    assert (F2 : framed (henv E a) q (devices_of b) (devices_of c)).
    { rewrite <- Eb. apply (gp_frame _ _ _ _ _ H2 q Q1 Q2); [now rewrite Pb|]. rewrite Eb. exact (fr_know _ _ _ _ F1). }
    exact (framed_trans _ q _ _ _ (gp_nodup E b (gp_ok _ _ _ _ _ H1)) (gp_nodup E c (gp_ok _ _ _ _ _ H2)) F1 F2).
  - destruct (gp_log _ _ _ _ _ H1) as (l1 & L1 & A1). destruct (gp_log _ _ _ _ _ H2) as (l2 & L2 & A2).
    exists (l1 ++ l2). split; [now rewrite L2, L1, app_assoc|now apply agreed_app].
Qed.
Lemma gp_refl : forall E A ts m, vm_ok E m -> gphase E A ts m m.
Proof. intros E A ts m O. apply gp_n, np_refl, O. Qed.

(** ** The networks *)
Lemma networks_phase : forall E U s m nets descs m', vm_ok E m -> update_networks E U m s nets descs = Ok m' ->
  gphase E (touched s) (if given nets || is_nil (networks (e_ver E) (net_of m)) then [NIC] else []) m m' /\
  (forall n, In n (networks (e_ver E) (net_of m)) -> In n (networks (e_ver E) (net_of m'))) /\
  (forall n, In n (networks (e_ver E) (net_of m')) -> In n (networks (e_ver E) (net_of m)) \/
     exists t, n = Some t /\ In (Confirmed (AskNetwork t) true) (v_log m')).
Proof.
  intros E U s m nets descs m' O H. unfold update_networks in H. step H c Ec.
  set (existing := networks (e_ver E) (net_of m)) in *.
  assert (G : forall names d m1 m', request_networks E U existing m names d = Ok m1 -> set_nic_networks E m1 names s = Ok m' ->
    gphase E (touched s) [NIC] m m' /\ (forall n, In n existing -> In n (networks (e_ver E) (net_of m'))) /\
    (forall n, In n (networks (e_ver E) (net_of m')) -> In n existing \/
       exists t, n = Some t /\ In (Confirmed (AskNetwork t) true) (v_log m'))).
  { intros names d m1 m2 R S. destruct (request_phase E U existing names d m m1 O (fun n H => H) R) as (P1 & _ & _).
    pose proof (connect_phase E s m1 names m2 (np_ok _ _ _ P1) S) as P2.
    destruct (hp_vm _ _ _ _ _ (np_ok _ _ _ P1) P2) as (O2 & _ & _ & N2). rewrite N2.
    split; [exact (gp_trans E (touched s) [] [NIC] m m1 m2 O (gp_n _ _ _ _ _ P1) (gp_h _ _ _ _ _ (np_ok _ _ _ P1) P2))|].
    split; [exact (np_old _ _ _ P1)|]. intros n Hn. destruct (np_new _ _ _ P1 n Hn) as [K|(t & -> & K)]; [now left|].
    right. exists t. split; [reflexivity|]. destruct (hp_log _ _ _ _ _ P2) as (l & -> & _). apply in_app_iff. now left. }
  destruct nets as [l|]; cbn [given negb andb orb] in *.
  - rewrite andb_false_r in H. step H m1 E1. exact (G _ _ m1 m' E1 H).
  - rewrite andb_true_r in H. destruct ((0 <? max_count c)%Z && is_nil existing) eqn:Eb.
    + apply andb_prop in Eb as [_ Eb]. rewrite Eb. step H m1 E1. exact (G _ _ m1 m' E1 H).
    + destruct descs as [d|].
      * step H names En. apply all_names_inv in En.
        assert (Hn : forall n, In n names -> In (Some n) (networks (e_ver E) (net_of m))).
        { intros n Hn. fold existing. rewrite En. apply in_map_iff. eauto. }
        destruct (rename_phase E names _ m m' O Hn H) as [P1 L1].
        split; [apply gp_n, P1|]. split; [exact (np_old _ _ _ P1)|exact (np_new _ _ _ P1)].
      * injection H as <-. split; [apply gp_refl, O|]. split; auto.
Qed.

Lemma given_none : forall (A : Type) (o : option A), given o = false <-> o = None.
Proof. intros A [x|]; cbn; split; congruence. Qed.

Lemma infer_given : forall E m s nd, infer_networks E m s = Ok nd -> given (fst nd) = true ->
  given (s_networks s) = true \/ given (s_nics s) = true.
Proof.
  intros E m s nd H G. unfold infer_networks in H.
  destruct (s_nics s) as [n|]; [now right|]. injection H as <-. now left.
Qed.

(** ** The types of devices that may change *)
Definition on (b : bool) (w : str) : list str := if b then [w] else [].
Definition nic_given (s : settings) : bool := given (s_nics s) || given (s_nic_types s) || given (s_macs s).
Lemma on_phase : forall E s A (o : option A) f w m m', vm_ok E m ->
  (forall x, o = Some x -> f x m = Ok m' -> hphase E (touched s) [w] m m') ->
  if_given o f m = Ok m' -> gphase E (touched s) (on (given o) w) m m'.
Proof.
  intros E s A o f w m m' O Hf H. destruct o as [x|]; cbn [given on if_given] in *.
  - apply gp_h; [exact O|]. now apply (Hf x).
  - injection H as <-. now apply gp_refl.
Qed.

Record run_of (E : env) (U : user) (P : hw_platform) (s : settings) (m m1 m2 m3 m4 m5 m6 m7 m8 m9 m' : vm)
    (nd : option (list str) * option (list str)) : Prop := {
  r_work : some_work s = true;
  r_1 : update_profiles E U m s = Ok m1;
  r_2 : if_given (s_system_types s) (fun l m => do sec <- set_system_types E (v_sec m) l; Ok (with_sec sec m)) m1 = Ok m2;
  r_3 : if_given (s_cpus s) (fun n m => set_cpu_count E P m n s) m2 = Ok m3;
  r_4 : if_given (s_memory s) (fun n m => set_memory E P m n s) m3 = Ok m4;
  r_i : infer_networks E m4 s = Ok nd;
  r_5 : update_nics E U P m4 s = Ok m5;
  r_6 : update_networks E U m5 s (fst nd) (snd nd) = Ok m6;
  r_7 : update_nic_names E m6 s = Ok m7;
  r_8 : update_serial E U P m7 s = Ok m8;
  r_9 : if_given (s_scsi s) (fun l m => set_subtypes E (L "scsi") m l s) m8 = Ok m9;
  r_10 : if_given (s_ide s) (fun l m => set_subtypes E (L "ide") m l s) m9 = Ok m' }.
Lemma edit_run : forall E U P s m m', edit_hardware E U P m s = Ok m' ->
  exists m1 m2 m3 m4 m5 m6 m7 m8 m9 nd, run_of E U P s m m1 m2 m3 m4 m5 m6 m7 m8 m9 m' nd.
Proof.
  intros E U P s m m' H. unfold edit_hardware in H. destruct (some_work s) eqn:Ew; [|discriminate]. cbn [negb] in H.
  step H m1 E1. step H m2 E2. step H m3 E3. step H m4 E4. step H nd Ei. step H m5 E5. step H m6 E6. step H m7 E7. step H m8 E8. step H m9 E9.
  exists m1, m2, m3, m4, m5, m6, m7, m8, m9, nd. now constructor.
Qed.

Section Whole.
Variables (E : env) (U : user) (P : hw_platform) (s : settings) (m m1 m2 m3 m4 m5 m6 m7 m8 m9 m' : vm)
  (nd : option (list str) * option (list str)).
Hypothesis O : vm_ok E m.
Hypothesis R : run_of E U P s m m1 m2 m3 m4 m5 m6 m7 m8 m9 m' nd.
Notation A := (touched s).

Lemma w_1 : vm_ok E m1.
Proof. destruct (update_profiles_spec E U s m m1 O (r_1 _ _ _ _ _ _ _ _ _ _ _ _ _ _ _ _ R)) as (D & lg & P1 & _). exact (pp_ok _ _ _ _ P1). Qed.
Lemma w_2 : v_doc m2 = v_doc m1 /\ v_net m2 = v_net m1 /\ v_log m2 = v_log m1 /\ (s_system_types s = None -> v_sec m2 = v_sec m1).
Proof.
  pose proof (r_2 _ _ _ _ _ _ _ _ _ _ _ _ _ _ _ _ R) as H. destruct (s_system_types s) as [l|]; cbn [if_given] in H.
  - step H sec Es. injection H as <-. split; [reflexivity|]. split; [reflexivity|]. split; [reflexivity|discriminate].
  - injection H as <-. auto.
Qed.
Lemma w_2o : vm_ok E m2 /\ devices_of m2 = devices_of m1 /\ profiles_of E m2 = profiles_of E m1 /\ henv E m2 = henv E m1 /\ net_of m2 = net_of m1.
Proof.
  destruct w_2 as (H1 & H2 & _). pose proof w_1 as [O1 O2]. unfold vm_ok, net_of, devices_of, profiles_of, henv in *.
  rewrite H1, H2. auto 6.
Qed.
Lemma g_3 : gphase E A (on (given (s_cpus s)) CPU) m2 m3.
Proof.
  apply (on_phase E s _ (s_cpus s) _ CPU m2 m3 (proj1 w_2o)) with (2 := r_3 _ _ _ _ _ _ _ _ _ _ _ _ _ _ _ _ R).
  intros n _. exact (cpu_phase E P s m2 n m3 (proj1 w_2o)).
Qed.
Lemma g_4 : gphase E A (on (given (s_memory s)) MEMORY) m3 m4.
Proof.
  apply (on_phase E s _ (s_memory s) _ MEMORY m3 m4 (gp_ok _ _ _ _ _ g_3)) with (2 := r_4 _ _ _ _ _ _ _ _ _ _ _ _ _ _ _ _ R).
  intros n _. exact (memory_phase E P s m3 n m4 (gp_ok _ _ _ _ _ g_3)).
Qed.
Lemma h_5 : hphase E A [NIC] m4 m5.
Proof. exact (nics_phase E U P s m4 m5 (gp_ok _ _ _ _ _ g_4) (r_5 _ _ _ _ _ _ _ _ _ _ _ _ _ _ _ _ R)). Qed.
Lemma g_5 : gphase E A (on (nic_given s) NIC) m4 m5.
Proof.
  destruct (nic_given s) eqn:G; [exact (gp_h _ _ _ _ _ (gp_ok _ _ _ _ _ g_4) h_5)|].
  unfold nic_given in G. apply orb_false_iff in G as [G G3]. apply orb_false_iff in G as [G1 G2]. apply given_none in G1, G2, G3.
  pose proof (r_5 _ _ _ _ _ _ _ _ _ _ _ _ _ _ _ _ R) as H. unfold update_nics in H. rewrite G1, G2, G3 in H. step H c Ec.
  cbn [rbind] in H. injection H as H. rewrite <- H. apply gp_refl, (gp_ok _ _ _ _ _ g_4).
Qed.
(** The networks before are those of the package as it was *)
Lemma hp_net_same : forall ts a b, vm_ok E a -> hphase E A ts a b -> net_of b = net_of a.
Proof. intros ts a b Oa H. exact (proj2 (proj2 (proj2 (hp_vm _ _ _ _ _ Oa H)))). Qed.
Lemma net_4 : net_of m4 = net_of m1.
Proof.
  rewrite <- (proj2 (proj2 (proj2 (proj2 w_2o)))).
  assert (N3 : net_of m3 = net_of m2).
  { pose proof (r_3 _ _ _ _ _ _ _ _ _ _ _ _ _ _ _ _ R) as H. destruct (s_cpus s) as [n|]; cbn [if_given] in H; [|injection H as H; now rewrite H].
    exact (hp_net_same _ _ _ (proj1 w_2o) (cpu_phase E P s m2 n m3 (proj1 w_2o) H)). }
  rewrite <- N3. pose proof (r_4 _ _ _ _ _ _ _ _ _ _ _ _ _ _ _ _ R) as H. destruct (s_memory s) as [n|]; cbn [if_given] in H; [|injection H as H; now rewrite H].
  exact (hp_net_same _ _ _ (gp_ok _ _ _ _ _ g_3) (memory_phase E P s m3 n m4 (gp_ok _ _ _ _ _ g_3) H)).
Qed.
Lemma net_5 : networks (e_ver E) (net_of m5) = networks (e_ver E) (net_of m) /\
  network_descriptions (e_ver E) (net_of m5) = network_descriptions (e_ver E) (net_of m).
Proof.
  rewrite (hp_net_same _ _ _ (gp_ok _ _ _ _ _ g_4) h_5), net_4.
  destruct (update_profiles_spec E U s m m1 O (r_1 _ _ _ _ _ _ _ _ _ _ _ _ _ _ _ _ R)) as (D & lg & P1 & _).
  apply networks_same; [exact (pp_net _ _ _ _ P1)|exact (pp_nets _ _ _ _ P1)].
Qed.
Lemma g_6 : gphase E A (on (given (fst nd) || is_nil (networks (e_ver E) (net_of m))) NIC) m5 m6.
Proof.
  pose proof (networks_phase E U s m5 _ _ m6 (gp_ok _ _ _ _ _ g_5) (r_6 _ _ _ _ _ _ _ _ _ _ _ _ _ _ _ _ R)) as [H _].
  rewrite (proj1 net_5) in H. exact H.
Qed.
Lemma h_7 : hphase E A [NIC] m6 m7.
Proof. exact (names_phase E s m6 m7 (gp_ok _ _ _ _ _ g_6) (r_7 _ _ _ _ _ _ _ _ _ _ _ _ _ _ _ _ R)). Qed.
Lemma g_7 : gphase E A (on (given (s_nic_names s)) NIC) m6 m7.
Proof.
  destruct (given (s_nic_names s)) eqn:G; [exact (gp_h _ _ _ _ _ (gp_ok _ _ _ _ _ g_6) h_7)|]. apply given_none in G.
  pose proof (r_7 _ _ _ _ _ _ _ _ _ _ _ _ _ _ _ _ R) as H. unfold update_nic_names in H. rewrite G in H. injection H as H. rewrite <- H.
  apply gp_refl, (gp_ok _ _ _ _ _ g_6).
Qed.
Lemma h_8 : hphase E A [SERIAL] m7 m8.
Proof. exact (serial_phase E U P s m7 m8 (gp_ok _ _ _ _ _ g_7) (r_8 _ _ _ _ _ _ _ _ _ _ _ _ _ _ _ _ R)). Qed.
Lemma g_8 : gphase E A (on (given (s_serials s) || given (s_connectivity s)) SERIAL) m7 m8.
Proof.
  destruct (given (s_serials s) || given (s_connectivity s)) eqn:G; [exact (gp_h _ _ _ _ _ (gp_ok _ _ _ _ _ g_7) h_8)|].
  apply orb_false_iff in G as [G1 G2]. apply given_none in G1, G2.
  pose proof (r_8 _ _ _ _ _ _ _ _ _ _ _ _ _ _ _ _ R) as H. unfold update_serial in H. rewrite G1, G2 in H. cbn [rbind] in H. injection H as H. rewrite <- H.
  apply gp_refl, (gp_ok _ _ _ _ _ g_7).
Qed.
Lemma g_9 : gphase E A (on (given (s_scsi s)) SCSI) m8 m9.
Proof.
  apply (on_phase E s _ (s_scsi s) _ SCSI m8 m9 (gp_ok _ _ _ _ _ g_8)) with (2 := r_9 _ _ _ _ _ _ _ _ _ _ _ _ _ _ _ _ R).
  intros l _. exact (subtypes_phase E s (L "scsi") SCSI m8 l m9 (gp_ok _ _ _ _ _ g_8) eq_refl).
Qed.
Lemma g_10 : gphase E A (on (given (s_ide s)) IDE) m9 m'.
Proof.
  apply (on_phase E s _ (s_ide s) _ IDE m9 m' (gp_ok _ _ _ _ _ g_9)) with (2 := r_10 _ _ _ _ _ _ _ _ _ _ _ _ _ _ _ _ R).
  intros l _. exact (subtypes_phase E s (L "ide") IDE m9 l m' (gp_ok _ _ _ _ _ g_9) eq_refl).
Qed.
(** From each step to the end *)
Definition ts_9 := on (given (s_scsi s)) SCSI ++ on (given (s_ide s)) IDE.
Definition ts_8 := on (given (s_serials s) || given (s_connectivity s)) SERIAL ++ ts_9.
Definition ts_7 := on (given (s_nic_names s)) NIC ++ ts_8.
Definition ts_6 := on (given (fst nd) || is_nil (networks (e_ver E) (net_of m))) NIC ++ ts_7.
Definition ts_5 := on (nic_given s) NIC ++ ts_6.
Definition ts_4 := on (given (s_memory s)) MEMORY ++ ts_5.
Definition ts_3 := on (given (s_cpus s)) CPU ++ ts_4.
Lemma e_8 : gphase E A ts_9 m8 m'.
Proof. exact (gp_trans E A _ _ m8 m9 m' (gp_ok _ _ _ _ _ g_8) g_9 g_10). Qed.
Lemma e_7 : gphase E A ts_8 m7 m'.
Proof. exact (gp_trans E A _ _ m7 m8 m' (gp_ok _ _ _ _ _ g_7) g_8 e_8). Qed.
Lemma e_6 : gphase E A ts_7 m6 m'.
Proof. exact (gp_trans E A _ _ m6 m7 m' (gp_ok _ _ _ _ _ g_6) g_7 e_7). Qed.
Lemma e_5 : gphase E A ts_6 m5 m'.
Proof. exact (gp_trans E A _ _ m5 m6 m' (gp_ok _ _ _ _ _ g_5) g_6 e_6). Qed.
Lemma e_4 : gphase E A ts_5 m4 m'.
Proof. exact (gp_trans E A _ _ m4 m5 m' (gp_ok _ _ _ _ _ g_4) g_5 e_5). Qed.
Lemma e_3 : gphase E A ts_4 m3 m'.
Proof. exact (gp_trans E A _ _ m3 m4 m' (gp_ok _ _ _ _ _ g_3) g_4 e_4). Qed.
Lemma e_2 : gphase E A ts_3 m2 m'.
Proof. exact (gp_trans E A _ _ m2 m3 m' (proj1 w_2o) g_3 e_3). Qed.

Lemma end_env : profiles_of E m' = profiles_of E m1 /\ henv E m' = henv E m1.
Proof.
  destruct (gp_env _ _ _ _ _ (proj1 w_2o) e_2) as [H1 H2]. destruct w_2o as (_ & _ & H3 & H4 & _). now rewrite H1, H2, H3, H4.
Qed.

Lemma on_In : forall b w x, In x (on b w) -> b = true /\ x = w.
Proof. intros [] w x; cbn; [intros [<-|[]]; auto|intros []]. Qed.
Lemma given_some : forall (B : Type) (o : option B), given o = true -> o <> None.
Proof. intros B [x|]; cbn; congruence. Qed.
Lemma unconcerned : forall w, ~ concerned E m s w -> ~ In w ts_3.
Proof.
  intros w Hc H. apply Hc. unfold concerned.
  apply in_app_iff in H as [H|H]; [apply on_In in H as [H ->]; left; split; [reflexivity|now apply given_some]|].
  apply in_app_iff in H as [H|H]; [apply on_In in H as [H ->]; right; left; split; [reflexivity|now apply given_some]|].
  apply in_app_iff in H as [H|H].
  { apply on_In in H as [H ->]. right; right; left. split; [reflexivity|].
    unfold nic_given in H. apply orb_true_iff in H as [H|H]; [apply orb_true_iff in H as [H|H]|]; apply given_some in H; auto 6. }
  apply in_app_iff in H as [H|H].
  { apply on_In in H as [H ->]. right; right; left. split; [reflexivity|]. apply orb_true_iff in H as [H|H].
    - destruct (infer_given E m4 s nd (r_i _ _ _ _ _ _ _ _ _ _ _ _ _ _ _ _ R) H) as [K|K]; apply given_some in K; auto 6.
    - destruct (networks (e_ver E) (net_of m)); [auto 8|discriminate]. }
  apply in_app_iff in H as [H|H]; [apply on_In in H as [H ->]; apply given_some in H; auto 12|].
  apply in_app_iff in H as [H|H].
  { apply on_In in H as [H ->]. do 3 right. left. split; [reflexivity|]. apply orb_true_iff in H as [H|H]; apply given_some in H; auto. }
  apply in_app_iff in H as [H|H]; apply on_In in H as [H ->]; apply given_some in H; auto 12.
Qed.

Theorem whole_types : s_delete_others s = false -> forall w, ~ concerned E m s w -> same_of_type w (devices_of m) (devices_of m').
Proof.
  intros Hd w Hc.
  destruct (update_profiles_spec E U s m m1 O (r_1 _ _ _ _ _ _ _ _ _ _ _ _ _ _ _ _ R)) as (D & lg & P1 & _ & _ & HD & _).
  rewrite <- (pp_none _ _ _ _ P1 (HD Hd)), <- (proj1 (proj2 w_2o)). apply (gp_type _ _ _ _ _ e_2), unconcerned, Hc.
Qed.

Theorem whole_frame : unfrozen (devices_of m) -> forall q p ps, s_profiles s = Some (p :: ps) ->
  In q (profiles_of E m) -> In q (profiles_of E m') -> ~ In q (p :: ps) -> same_under E q m m'.
Proof.
  intros Uf q p ps Hs Hq Hq' Hn.
  destruct (update_profiles_spec E U s m m1 O (r_1 _ _ _ _ _ _ _ _ _ _ _ _ _ _ _ _ R)) as (D & lg & P1 & _ & _ & _ & HQ & _).
  destruct end_env as [EP EE]. rewrite EP in Hq'.
  assert (HD : ~ In q D) by (now apply HQ).
  assert (HD' : forall x, In x D -> Some q <> Some x) by (intros x Hx F; injection F as ->; now apply HD).
  assert (HN : forall x, In x D -> @None str <> Some x) by discriminate.
  assert (Uf1 : unfrozen (devices_of m1)).
  { intros k i1 Hi1. destruct (keys_get (devices_of m1) (devices_of m) k i1) as [i Hi]; [symmetry; exact (pp_keys _ _ _ _ P1)|exact Hi1|].
    destruct (pp_same _ _ _ _ P1 k i i1 Hi Hi1) as [F _]. rewrite F. exact (Uf k i Hi). }
  assert (Kn : all_know (henv E m2) q (devices_of m2)).
  { intros k i Hi. rewrite (proj1 (proj2 w_2o)) in Hi. unfold config_of. rewrite (Uf1 k i Hi).
    destruct w_2o as (_ & _ & _ & HE & _). rewrite HE. exact Hq'. }
  assert (Q2 : In q (profiles_of E m2)) by (destruct w_2o as (_ & _ & -> & _); exact Hq').
  assert (T1 : ~ A (Some q)).
  { unfold touched, plist. rewrite Hs. cbn [map]. intros F. apply Hn. change (Some p :: map Some ps) with (map Some (p :: ps)) in F.
    apply in_map_iff in F as (x & Hx & F). injection Hx as <-. exact F. }
  assert (T2 : ~ A None).
  { unfold touched, plist. rewrite Hs. cbn [map]. intros [F|F]; [discriminate|]. apply in_map_iff in F as (x & Hx & F). discriminate. }
  pose proof (gp_frame _ _ _ _ _ e_2 q T1 T2 Q2 Kn) as [F1 F2 F3].
  destruct w_2o as (_ & HW & _ & HE & _). rewrite HW, HE in *. split.
  - intros k i Hi. destruct (keys_get (devices_of m) (devices_of m1) k i (pp_keys _ _ _ _ P1) Hi) as [i1 Hi1].
    destruct (pp_same _ _ _ _ P1 k i i1 Hi Hi1) as [Fr S1]. destruct (S1 (Some q) HD') as [S2 S3]. destruct (S1 None HN) as [S4 _].
    destruct (F1 k i1 Hi1) as (i' & Hi' & G1 & G2). exists i'. split; [exact Hi'|]. split.
    + rewrite EE, G1. unfold present.
      assert (C1 : In q (config_of (henv E m1) i1)) by (unfold config_of; rewrite (Uf1 k i1 Hi1); exact Hq').
      assert (C : In q (config_of (henv E m) i)) by (unfold config_of; rewrite (Uf k i Hi); exact Hq).
      split; (intros [(u & Hu)|[(u & Hu) (x & Hx & Hc)]]; [left; exists u; now apply S2|right]);
        injection Hx as <-; (split; [exists u; now apply S4|exists q; auto]).
    + intros n. rewrite <- (S3 n). exact (G2 n).
  - intros k i' Hi'. rewrite EE. destruct (F2 k i' Hi') as [(i1 & Hi1)|G]; [left|now right].
    destruct (keys_get (devices_of m1) (devices_of m) k i1) as [i Hi]; [symmetry; exact (pp_keys _ _ _ _ P1)|exact Hi1|]. now exists i.
Qed.
End Whole.
