(** What edit-hardware achieves. *)
From Coq Require Import Lia Sorted.
From Verif Require Import PyBase PyBaseProofs PyDict PyDictProofs ValidationModel ValidationSpec PlatformModel XmlModel XmlSpec
  XmlProofs NamesModel ItemModel ItemSpec ItemProofs PsetProofs ItemSetProofs ItemReachProofs ItemEffectProofs HardwareModel HardwareSpec
  HardwareProofs HardwareIdProofs EmitProofs CountSpec CountItemProofs CountProofs FindSpec FindProofs ProfileModel ProfileSpec
  ProfileProofs ProfileDocProofs NetworkModel NetworkSpec NetworkProofs WildListModel WildListProofs EditHwModel EditHwSpec HwStepProofs
  EditHwProofs EditHwRunProofs EditHwProfProofs EditHwAllProofs EditHwValueProofs EditHwViewProofs CountDefaultProofs.

Lemma on_hw_inv : forall E m f m', on_hw E m f = Ok m' -> exists h, f (henv E m) (devices_of m) = Ok h /\ m' = with_hw m h.
Proof. intros E m f m' H. unfold on_hw in H. step H h Eh. injection H as <-. exists h. now split. Qed.
Lemma sv_ok : forall (x : str), x <> [] -> truthy (VStr x) = true.
Proof. intros [|c t] H; [contradiction|reflexivity]. Qed.
Lemma st_ok : forall (l : list str), l <> [] -> truthy (VTuple l) = true.
Proof. intros [|c t] H; [contradiction|reflexivity]. Qed.

Section Result.
Variables (E : env) (U : user) (P : hw_platform) (s : settings) (m m1 m2 m3 m4 m5 m6 m7 m8 m9 m' : vm)
  (nd : option (list str) * option (list str)).
Hypothesis O : vm_ok E m.
Hypothesis R : run_of E U P s m m1 m2 m3 m4 m5 m6 m7 m8 m9 m' nd.
Notation A := (touched s).
Notation W f := (f E U P s m m1 m2 m3 m4 m5 m6 m7 m8 m9 m' nd O R).
Notation F f := (f E U P s m m1 m2 m3 m4 m5 m6 m7 m8 m9 m' nd R).

Lemma vm_ids : forall a, vm_ok E a -> ids_ok (e_ver E) (devices_of a).
Proof. intros a Oa. exact (ids_of E a Oa). Qed.
Lemma same_after : forall ts a w (Q : item -> Prop), gphase E A ts a m' -> ~ In w ts ->
  (forall k i, In (k, i) (devices_of a) -> is_of w i -> Q i) -> forall k i, In (k, i) (devices_of m') -> is_of w i -> Q i.
Proof. intros ts a w Q G Hw H k i Hi Oi. apply (H k i); [|exact Oi]. now apply (gp_type _ _ _ _ _ G w Hw k i Oi). Qed.
Lemma same_exists : forall ts a w, gphase E A ts a m' -> ~ In w ts ->
  (exists k i, In (k, i) (devices_of a) /\ is_of w i) -> exists k i, In (k, i) (devices_of m') /\ is_of w i.
Proof. intros ts a w G Hw (k & i & Hi & Oi). exists k, i. split; [|exact Oi]. now apply (gp_type _ _ _ _ _ G w Hw k i Oi). Qed.

Lemma on_not : forall b x w l, x <> w -> ~ In w l -> ~ In w (on b x ++ l).
Proof. intros b x w l Hx Hl F. apply in_app_iff in F as [F|F]; [|now apply Hl]. apply on_In in F as [_ F]. now apply Hx. Qed.
Lemma on_not1 : forall b x w, x <> w -> ~ In w (on b x).
Proof. intros b x w Hx F. apply on_In in F as [_ F]. now apply Hx. Qed.

Lemma cpu_later : ~ In CPU (ts_4 E s m nd).
Proof. unfold ts_4, ts_5, ts_6, ts_7, ts_8, ts_9. repeat (apply on_not; [discriminate|]). apply on_not1. discriminate. Qed.
Lemma memory_later : ~ In MEMORY (ts_5 E s m nd).
Proof. unfold ts_5, ts_6, ts_7, ts_8, ts_9. repeat (apply on_not; [discriminate|]). apply on_not1. discriminate. Qed.
Lemma nic_later : ~ In NIC (ts_8 s).
Proof. unfold ts_8, ts_9. repeat (apply on_not; [discriminate|]). apply on_not1. discriminate. Qed.
Lemma serial_later : ~ In SERIAL (ts_9 s).
Proof. unfold ts_9. repeat (apply on_not; [discriminate|]). apply on_not1. discriminate. Qed.

Theorem whole_cpus : forall n, s_cpus s = Some n ->
  (forall k i, In (k, i) (devices_of m') -> is_of CPU i -> has_set E i VIRTUAL_QUANTITY (VStr (zdec n)) (plist s)) /\
  exists k i, In (k, i) (devices_of m') /\ is_of CPU i.
Proof.
  intros n Hn. pose proof (F r_3) as H. rewrite Hn in H. cbn [if_given] in H. unfold set_cpu_count in H. step H u Eu.
  apply on_hw_inv in H as (h & Hh & E3). destruct (VQ_names (e_ver E)) as (N1 & N2 & N3).
  destruct (all_values (henv E m2) _ (L "cpu") CPU VIRTUAL_QUANTITY (IStr (zdec n)) _ _ _ (vm_ids m2 (proj1 (W w_2o))) eq_refl ltac:(discriminate) N3 N1 N2
    (sv_ok _ (zdec_nonempty n)) Hh) as [V1 V2].
  assert (D3 : devices_of m3 = h) by (rewrite E3; reflexivity). split.
  - apply (same_after _ _ CPU (fun i => has_set E i VIRTUAL_QUANTITY (VStr (zdec n)) (plist s)) (W e_3) cpu_later). rewrite D3. exact V1.
  - apply (same_exists _ _ CPU (W e_3) cpu_later). rewrite D3. exact (V2 eq_refl).
Qed.

Theorem whole_memory : forall n, s_memory s = Some n ->
  (forall k i, In (k, i) (devices_of m') -> is_of MEMORY i ->
     has_set E i VIRTUAL_QUANTITY (VStr (zdec n)) (plist s) /\ has_set E i ALLOCATION_UNITS (VStr (L "byte * 2^20")) (plist s)) /\
  exists k i, In (k, i) (devices_of m') /\ is_of MEMORY i.
Proof.
  intros n Hn. pose proof (F r_4) as H. rewrite Hn in H. cbn [if_given] in H. unfold set_memory in H. step H u Eu. step H b Eb.
  pose proof (gp_ok _ _ _ _ _ (W g_3)) as O3.
  destruct (VQ_names (e_ver E)) as (N1 & N2 & N3). destruct (AU_names (e_ver E)) as (M1 & M2 & M3).
  pose proof (all_phase E s m3 (L "memory") MEMORY _ _ _ b O3 eq_refl N1 N2 Eb) as Pb.
  destruct (hp_vm _ _ _ _ _ O3 Pb) as (Ob & _).
  apply on_hw_inv in Eb as (h & Hh & Eqb). apply on_hw_inv in H as (h4 & Hh4 & E4).
  destruct (all_values (henv E m3) _ (L "memory") MEMORY VIRTUAL_QUANTITY (IStr (zdec n)) _ _ _ (vm_ids m3 O3) eq_refl ltac:(discriminate) N3 N1 N2
    (sv_ok _ (zdec_nonempty n)) Hh) as [V1 V2].
  destruct (all_values (henv E b) _ (L "memory") MEMORY ALLOCATION_UNITS (IStr (L "byte * 2^20")) _ _ _ (vm_ids b Ob) eq_refl ltac:(discriminate) M3 M1 M2
    eq_refl Hh4) as [V3 _].
  pose proof (all_kept (henv E b) _ _ _ _ _ _ (vm_ids b Ob) Hh4) as K.
  assert (Db : devices_of b = h) by (rewrite Eqb; reflexivity). assert (D4 : devices_of m4 = h4) by (rewrite E4; reflexivity).
  pose proof (vm_ids m4 (gp_ok _ _ _ _ _ (W g_4))) as I4. rewrite D4 in I4.
  assert (V5 : forall k i, In (k, i) h4 -> is_of MEMORY i -> has_set E i VIRTUAL_QUANTITY (VStr (zdec n)) (plist s)).
  { apply (kept_set E ALLOCATION_UNITS VIRTUAL_QUANTITY (devices_of b) h4 MEMORY _ _ (vm_ids b Ob) I4 K M2 ltac:(discriminate) N3).
    rewrite Db. exact V1. }
  split.
  - apply (same_after _ _ MEMORY (fun i => has_set E i VIRTUAL_QUANTITY (VStr (zdec n)) (plist s) /\
      has_set E i ALLOCATION_UNITS (VStr (L "byte * 2^20")) (plist s)) (W e_4) memory_later).
    rewrite D4. intros k i Hi Oi. split; [exact (V5 k i Hi Oi)|exact (V3 k i Hi Oi)].
  - apply (same_exists _ _ MEMORY (W e_4) memory_later). rewrite D4. destruct (V2 eq_refl) as (k & i & Hi & Oi).
    rewrite <- Db in Hi. destruct (proj1 (vw_there _ _ _ _ (view_kept _ _ MEMORY _ _ M2 K) k) (ex_intro _ i (conj Hi Oi))) as (j & Hj).
    exists k, j. exact Hj.
Qed.

(** Subtypes of controllers *)
Lemma subtypes_values : forall rt w a l b, vm_ok E a -> res_map rt = Ok w -> w <> [] -> l <> [] -> set_subtypes E rt a l s = Ok b ->
  forall k i, In (k, i) (devices_of b) -> is_of w i -> has_set E i RESOURCE_SUB_TYPE (VTuple l) (plist s).
Proof.
  intros rt w a l b Oa Hw Hne Hl H. unfold set_subtypes in H. apply on_hw_inv in H as (h & Hh & ->).
  destruct (RST_names (e_ver E)) as (N1 & N2 & N3).
  exact (proj1 (all_values (henv E a) _ rt w RESOURCE_SUB_TYPE (ISeq l) _ _ _ (vm_ids a Oa) Hw Hne N3 N1 N2 (st_ok _ Hl) Hh)).
Qed.
Theorem whole_scsi : forall l, s_scsi s = Some l -> l <> [] ->
  forall k i, In (k, i) (devices_of m') -> is_of SCSI i -> has_set E i RESOURCE_SUB_TYPE (VTuple l) (plist s).
Proof.
  intros l Hl Hne. pose proof (F r_9) as H. rewrite Hl in H. cbn [if_given] in H.
  apply (same_after _ _ SCSI (fun i => has_set E i RESOURCE_SUB_TYPE (VTuple l) (plist s)) (W g_10)); [apply on_not1; discriminate|].
  exact (subtypes_values (L "scsi") SCSI m8 l m9 (gp_ok _ _ _ _ _ (W g_8)) eq_refl ltac:(discriminate) Hne H).
Qed.
Theorem whole_ide : forall l, s_ide s = Some l -> l <> [] ->
  forall k i, In (k, i) (devices_of m') -> is_of IDE i -> has_set E i RESOURCE_SUB_TYPE (VTuple l) (plist s).
Proof.
  intros l Hl Hne. pose proof (F r_10) as H. rewrite Hl in H. cbn [if_given] in H.
  exact (subtypes_values (L "ide") IDE m9 l m' (gp_ok _ _ _ _ _ (W g_9)) eq_refl ltac:(discriminate) Hne H).
Qed.

(** Values in turn *)
Lemma each_values : forall rt w n l default a b, vm_ok E a -> res_map rt = Ok w -> n <> INSTANCE_ID (e_ver E) -> n <> RESOURCE_TYPE ->
  ~ text_property (e_ver E) n -> str_eqb n RESOURCE_SUB_TYPE = false -> s_profiles s <> Some [] ->
  set_each E rt n l (IStr default) s a = Ok b ->
  view w [n] (devices_of a) (devices_of b) /\
  in_turn E b rt n (fun j => match nth j l default with [] => None | v => Some v end) (targets E b s).
Proof.
  intros rt w n l default a b Oa Hw N1 N2 N3 N4 Hs H.
  pose proof (each_phase E s a rt w n l (IStr default) b Oa Hw N1 N2 H) as Pb.
  destruct (hp_vm _ _ _ _ _ Oa Pb) as (Ob & Prb & Heb & _).
  unfold set_each in H. apply on_hw_inv in H as (h & Hh & Eb). assert (Db : devices_of b = h) by (rewrite Eb; reflexivity).
  pose proof (vm_ids a Oa) as Ia. pose proof (each_kept (henv E a) _ _ _ _ _ _ _ Ia Hh) as K. rewrite <- Db in K.
  pose proof (view_kept _ _ w _ _ N2 K) as V. split; [exact V|].
  unfold set_item_values_per_profile in Hh.
  destruct (find_all_items (henv E a) (devices_of a) (Some rt) [] []) as [ks|] eqn:Ef; [|discriminate]. cbn [rbind] in Hh.
  apply find_all_wanted in Ef as Wk; [|exact Ia|intros c []]. pose proof Wk as (W1 & _ & _).
  destruct (set_values_spec _ n _ _ ks _ _ h W1 (proj1 Ia) Hh) as (Kk & _ & Vk).
  exists ks. rewrite Heb. split; [exact (view_wanted _ rt w _ _ _ ks (res_map_get _ _ Hw) V Wk)|].
  intros j k v Hj Hv. destruct (Vk j k Hj) as (i & i' & Hi & Hi' & Hset). exists i'. rewrite Db. split; [exact Hi'|].
  assert (Nj : nth j (map IStr l) (IStr default) = IStr (nth j l default)) by apply map_nth.
  rewrite Nj in Hset. destruct (nth j l default) as [|c t] eqn:En; [discriminate|]. injection Hv as <-.
  destruct (ids_good (henv E a) (devices_of a) k i Ia Hi) as [Ri _].
  assert (T : to_value (henv E a) n (IStr (c :: t)) = VStr (c :: t)).
  { unfold to_value. rewrite N4. reflexivity. }
  destruct (set_profiles_effect (henv E a) n (IStr (c :: t)) N3 N1 ltac:(rewrite T; reflexivity) _ i i' Ri Hset) as (R' & SB & Se & _).
  intros q Hq Pq. apply (reports_value E i' n q _ R' N3). intros u. rewrite T in Se. apply Se.
  left. split; [|exact (proj1 (same_present (henv E a) n i i' q N1 SB) Pq)].
  unfold targets in Hq. unfold plist_opt. rewrite Prb in Hq. destruct (s_profiles s) as [[|p ps]|]; [now contradict Hs|exact Hq|exact Hq].
Qed.
Lemma turn_view : forall rt w n ns value a b, vm_ok E a -> vm_ok E b -> henv E b = henv E a -> profiles_of E b = profiles_of E a ->
  dget str_eqb rt RES_MAP = Some w ->
  ~ text_property (e_ver E) n -> ~ In n ns -> ~ In (INSTANCE_ID (e_ver E)) ns ->
  view w ns (devices_of a) (devices_of b) -> in_turn E a rt n value (targets E a s) -> in_turn E b rt n value (targets E b s).
Proof.
  intros rt w n ns value a b Oa Ob He Hp Hw N3 Hn HI V (ks & Wk & H). exists ks. rewrite He.
  split; [exact (view_wanted _ rt w _ _ _ ks Hw V Wk)|].
  intros j k v Hj Hv. destruct (H j k v Hj Hv) as (i & Hi & HR).
  destruct Wk as (_ & _ & M). destruct (proj1 (M k) (nth_error_In _ _ Hj)) as (i0 & Hi0 & Wi0).
  rewrite <- (NoDup_same _ k i i0 (gp_nodup E a Oa) Hi Hi0) in Wi0. apply (wanted_is _ rt w i Hw) in Wi0.
  destruct (proj1 (vw_there _ _ _ _ V k) (ex_intro _ i (conj Hi Wi0))) as (i' & Hi' & Oi'). exists i'. split; [exact Hi'|].
  destruct (vw_same _ _ _ _ V k i i' Hi Wi0 Hi' Oi') as [Fz S].
  destruct (ids_good E _ k i (vm_ids a Oa) Hi) as [Ri _]. destruct (ids_good E _ k i' (vm_ids b Ob) Hi') as [Ri' _].
  intros q Hq Pq. rewrite <- (HR q).
  - apply (reports_same_holds E i i' n q q Ri Ri' N3). apply own_holds. intros p u. now apply S.
  - unfold targets in *. rewrite <- Hp. exact Hq.
  - apply (present_same (henv E a) i i' q Fz); [|exact Pq]. intros p u. now apply S.
Qed.

(** Counting *)
Lemma targets_all : forall a, targets E a s = all_or (henv E a) (plist s).
Proof. intros a. unfold targets, plist. destruct (s_profiles s) as [[|p ps]|]; reflexivity. Qed.
Lemma targets_some : forall a, targets E a s <> [].
Proof.
  intros a. unfold targets. destruct (s_profiles s) as [[|p ps]|]; [|discriminate|]; intros H; apply app_eq_nil in H as [_ H]; discriminate.
Qed.
Lemma counts_most : forall a rt w c, vm_ok E a -> res_map rt = Ok w -> NoDup (targets E a s) -> get_counts E a rt s = Ok c ->
  most_devices E a rt (targets E a s) (max_count c).
Proof.
  intros a rt w c Oa Hw ND H. unfold get_counts in H. pose proof (targets_some a) as NE. rewrite (targets_all a) in *.
  destruct (counts_of (henv E a) _ rt w _ c (vm_ids a Oa) Hw ND H) as (N & K & V).
  destruct (max_spec c) as [M1 (p0 & M2)].
  { intros ->. destruct (all_or (henv E a) (plist s)) as [|x r]; [contradiction|]. apply (proj2 (K x)). now left. }
  { intros p z Hz. destruct (V p z Hz) as (ks & _ & ->). lia. }
  split.
  - intros p ks Hp Hk. apply K in Hp. apply in_map_iff in Hp as ([p1 z] & <- & Hz). cbn [fst] in *.
    destruct (V p1 z Hz) as (ks' & Hk' & Ez). rewrite (sorted_unique _ _ _ _ _ _ Hk Hk'), <- Ez. exact (M1 p1 z Hz).
  - destruct (V _ _ M2) as (ks & Hk & Ez). exists p0, ks. split; [apply K, in_map_iff; now exists (p0, max_count c)|]. now split.
Qed.
Lemma most_view : forall rt w ns a b n Q, vm_ok E a -> vm_ok E b -> henv E b = henv E a -> dget str_eqb rt RES_MAP = Some w ->
  ~ In (INSTANCE_ID (e_ver E)) ns -> view w ns (devices_of a) (devices_of b) ->
  most_devices E a rt Q n -> most_devices E b rt Q n.
Proof.
  intros rt w ns a b n Q Oa Ob He Hw Hn V [M1 (p & ks & Hp & Hk & Ez)]. unfold most_devices. rewrite He. split.
  - intros q k Hq Hk'. apply (M1 q k Hq). exact (view_devices (henv E a) rt w ns _ _ q k (vm_ids b Ob) (vm_ids a Oa) Hw Hn (view_sym _ _ _ _ V) Hk').
  - exists p, ks. split; [exact Hp|]. split; [|exact Ez].
    exact (view_devices (henv E a) rt w ns _ _ p ks (vm_ids a Oa) (vm_ids b Ob) Hw Hn V Hk).
Qed.

(** The steps of the network cards *)
Lemma each_view : forall rt w n l x a b, vm_ok E a -> n <> RESOURCE_TYPE -> set_each E rt n l x s a = Ok b -> view w [n] (devices_of a) (devices_of b).
Proof.
  intros rt w n l x a b Oa Hn H. unfold set_each in H. apply on_hw_inv in H as (h & Hh & ->).
  exact (view_kept _ _ w _ _ Hn (each_kept (henv E a) _ _ _ _ _ _ _ (vm_ids a Oa) Hh)).
Qed.
Lemma same_view : forall w ns a, vm_ok E a -> view w ns (devices_of a) (devices_of a).
Proof. intros w ns a Oa. apply (view_more w []); [intros x []|]. apply view_refl. exact (gp_nodup E a Oa). Qed.
Lemma nics_inv : exists c b d, get_counts E m4 (L "ethernet") s = Ok c /\
  match s_nics s with None => b = m4 | Some n => exists a, fold_result (ask_drop U AskDropNics n) c m4 = Ok a /\ set_nic_count E P a n s = Ok b end /\
  match s_nic_types s with None => d = b | Some l => set_nic_types E P b l s = Ok d end /\
  match s_macs s with None => m5 = d | Some l => set_nic_mac_addresses E d l s = Ok m5 end /\
  vm_ok E b /\ vm_ok E d /\ henv E b = henv E m4 /\ hphase E A [NIC] b m5 /\ view NIC [RESOURCE_SUB_TYPE; ADDRESS] (devices_of b) (devices_of m5).
Proof.
  pose proof (F r_5) as H. unfold update_nics in H. step H c Ec. step H b E1. step H d E2. exists c, b, d. split; [reflexivity|].
  pose proof (gp_ok _ _ _ _ _ (W g_4)) as O4.
  assert (P1 : hphase E A [NIC] m4 b /\ match s_nics s with None => b = m4 | Some n => exists a, fold_result (ask_drop U AskDropNics n) c m4 = Ok a /\ set_nic_count E P a n s = Ok b end).
  { destruct (s_nics s) as [n|]; [|injection E1 as E1; rewrite <- E1; split; [now apply hphase_refl|reflexivity]]. step E1 a Ea.
    pose proof (drop_phase E U s AskDropNics n [NIC] m4 c a O4 Ea) as Pa. split; [|exists a; now split].
    apply (hphase_trans E (touched s) [NIC] m4 a b O4 Pa).
    apply hp_vm in Pa; [|exact O4]. unfold set_nic_count in E1. step E1 u Eu.
    exact (count_phase E s a (L "ethernet") NIC _ n b (proj1 Pa) eq_refl E1). }
  destruct P1 as [P1 N1]. destruct (hp_vm _ _ _ _ _ O4 P1) as (Ob & _ & Hb & _). split; [exact N1|].
  assert (P2 : hphase E A [NIC] b d /\ match s_nic_types s with None => d = b | Some l => set_nic_types E P b l s = Ok d end).
  { destruct (s_nic_types s) as [l|]; [|injection E2 as E2; rewrite <- E2; split; [now apply hphase_refl|reflexivity]].
    split; [exact (nic_types_phase E P s b l d Ob E2)|exact E2]. }
  destruct P2 as [P2 N2]. destruct (hp_vm _ _ _ _ _ Ob P2) as (Od & _ & Hd & _). split; [exact N2|].
  split; [destruct (s_macs s); [exact H|now injection H as ->]|]. split; [exact Ob|]. split; [exact Od|]. split; [exact Hb|].
  split.
  - apply (hphase_trans E (touched s) [NIC] b d m5 Ob P2).
    destruct (s_macs s) as [l|]; [exact (macs_phase E s d l m5 Od H)|injection H as H; rewrite <- H; now apply hphase_refl].
  - apply (view_trans _ [RESOURCE_SUB_TYPE] [ADDRESS] _ (devices_of d)).
    + destruct (s_nic_types s) as [l|]; [|rewrite N2; apply same_view, Ob]. unfold set_nic_types in N2. step N2 cs Ecs. step N2 ty Ety. step N2 u Eu.
      apply on_hw_inv in N2 as (h & Hh & ->).
      exact (view_kept _ _ NIC _ _ (proj1 (proj2 (RST_names (e_ver E)))) (all_kept (henv E b) _ _ _ _ _ _ (vm_ids b Ob) Hh)).
    + destruct (s_macs s) as [l|]; [|injection H as H; rewrite <- H; apply same_view, Od]. unfold set_nic_mac_addresses in H. step H x Ex.
      exact (each_view _ NIC ADDRESS _ _ d m5 Od ltac:(discriminate) H).
Qed.

Lemma connect_view : forall l a b, vm_ok E a -> set_nic_networks E a l s = Ok b -> view NIC [CONNECTION] (devices_of a) (devices_of b).
Proof.
  intros l a b Oa H. unfold set_nic_networks in H. step H x Ex. exact (each_view _ NIC CONNECTION _ _ a b Oa ltac:(discriminate) H).
Qed.

Lemma view_6 : view NIC [CONNECTION] (devices_of m5) (devices_of m6).
Proof.
  pose proof (F r_6) as H. pose proof (gp_ok _ _ _ _ _ (W g_5)) as O5. unfold update_networks in H. step H c Ec.
  set (existing := networks (e_ver E) (net_of m5)) in *.
  assert (G : forall names d a b, request_networks E U existing m5 names d = Ok a -> set_nic_networks E a names s = Ok b ->
    view NIC [CONNECTION] (devices_of m5) (devices_of b)).
  { intros names d a b Ra Sb. destruct (request_phase E U existing names d m5 a O5 (fun n H => H) Ra) as (P1 & _ & _).
    rewrite <- (np_hw _ _ _ P1). exact (connect_view names a b (np_ok _ _ _ P1) Sb). }
  destruct (fst nd) as [l|]; cbn [given negb andb orb] in *.
  - rewrite andb_false_r in H. step H a E1. exact (G _ _ a m6 E1 H).
  - rewrite andb_true_r in H. destruct ((0 <? max_count c)%Z && is_nil existing) eqn:Eb.
    + step H a E1. exact (G _ _ a m6 E1 H).
    + destruct (snd nd) as [d|].
      * step H names En. apply all_names_inv in En.
        assert (Hn : forall n, In n names -> In (Some n) (networks (e_ver E) (net_of m5))).
        { intros n Hn. fold existing. rewrite En. apply in_map_iff. eauto. }
        destruct (rename_phase E names _ m5 m6 O5 Hn H) as [P1 _]. rewrite (np_hw _ _ _ P1). apply same_view, O5.
      * injection H as H. rewrite <- H. apply same_view, O5.
Qed.
Lemma view_7 : view NIC [ELEMENT_NAME (e_ver E)] (devices_of m6) (devices_of m7).
Proof.
  pose proof (F r_7) as H. pose proof (gp_ok _ _ _ _ _ (W g_6)) as O6. unfold update_nic_names in H.
  destruct (s_nic_names s) as [l|]; [|injection H as H; rewrite <- H; apply same_view, O6]. step H c Ec.
  exact (each_view _ NIC _ _ _ m6 m7 O6 (proj2 (EN_names (e_ver E))) H).
Qed.
Lemma view_end : view NIC [] (devices_of m7) (devices_of m').
Proof.
  apply view_same; [apply gp_nodup with (1 := gp_ok _ _ _ _ _ (W e_7))|]. exact (gp_type _ _ _ _ _ (W e_7) NIC nic_later).
Qed.
Lemma view_6e : view NIC [ELEMENT_NAME (e_ver E)] (devices_of m6) (devices_of m').
Proof. exact (view_trans _ _ _ _ _ _ view_7 view_end). Qed.
Lemma view_5e : view NIC [CONNECTION; ELEMENT_NAME (e_ver E)] (devices_of m5) (devices_of m').
Proof. exact (view_trans _ _ _ _ _ _ view_6 view_6e). Qed.
Lemma ok_end : vm_ok E m'.
Proof. exact (gp_ok _ _ _ _ _ (W g_10)). Qed.
Lemma env_5 : henv E m' = henv E m5 /\ profiles_of E m' = profiles_of E m5.
Proof. destruct (gp_env _ _ _ _ _ (gp_ok _ _ _ _ _ (W g_5)) (W e_5)) as [H1 H2]. now split. Qed.
Lemma env_6 : henv E m' = henv E m6 /\ profiles_of E m' = profiles_of E m6.
Proof. destruct (gp_env _ _ _ _ _ (gp_ok _ _ _ _ _ (W g_6)) (W e_6)) as [H1 H2]. now split. Qed.
Lemma env_8 : henv E m' = henv E m8 /\ profiles_of E m' = profiles_of E m8.
Proof. destruct (gp_env _ _ _ _ _ (gp_ok _ _ _ _ _ (W g_8)) (W e_8)) as [H1 H2]. now split. Qed.
Lemma IID_plain : ~ In (INSTANCE_ID (e_ver E)) [CONNECTION; ELEMENT_NAME (e_ver E); ADDRESS; RESOURCE_SUB_TYPE].
Proof.
  intros [K|[K|[K|[K|[]]]]].
  - now apply (proj1 (CN_names (e_ver E))).
  - now apply (proj1 (EN_names (e_ver E))).
  - now apply (proj1 (AD_names (e_ver E))).
  - now apply (proj1 (RST_names (e_ver E))).
Qed.

Theorem whole_nic_types : forall l types, s_nic_types s = Some l -> canonical_types l = Ok (map Some types) -> types <> [] ->
  forall k i, In (k, i) (devices_of m') -> is_of NIC i -> has_set E i RESOURCE_SUB_TYPE (VTuple types) (plist s).
Proof.
  intros l types Hl Ht Hne. destruct nics_inv as (c & b & d & _ & _ & H2 & H3 & Ob & Od & _). rewrite Hl in H2.
  unfold set_nic_types in H2. rewrite Ht in H2. cbn [rbind] in H2. step H2 ty Ety. apply all_names_inv in Ety.
  assert (ty = types). { revert Ety. clear. revert ty. induction types as [|x r IH]; intros [|y ty] H; cbn in H; try discriminate; [reflexivity|].
    injection H as -> H. f_equal. now apply IH. }
  subst ty. step H2 u Eu.
  apply on_hw_inv in H2 as (h & Hh & Ed). assert (Dd : devices_of d = h) by (rewrite Ed; reflexivity).
  destruct (RST_names (e_ver E)) as (N1 & N2 & N3).
  pose proof (proj1 (all_values (henv E b) _ (L "ethernet") NIC RESOURCE_SUB_TYPE (ISeq types) _ _ _ (vm_ids b Ob) eq_refl ltac:(discriminate)
    N3 N1 N2 (st_ok _ Hne) Hh)) as V. rewrite <- Dd in V.
  assert (V5 : view NIC [ADDRESS] (devices_of d) (devices_of m5)).
  { destruct (s_macs s) as [ml|]; [|rewrite H3; apply same_view, Od]. unfold set_nic_mac_addresses in H3. step H3 x Ex.
    exact (each_view _ NIC ADDRESS _ _ d m5 Od ltac:(discriminate) H3). }
  apply (view_set E _ RESOURCE_SUB_TYPE _ _ NIC _ _ (vm_ids d Od) (vm_ids m' ok_end) (view_trans _ _ _ _ _ _ V5 view_5e)); [|exact N3|exact V].
  intros [K|[K|[K|[]]]]; [discriminate|discriminate|]. destruct (e_ver E); discriminate.
Qed.

Theorem whole_macs : forall l, s_macs s = Some l -> s_profiles s <> Some [] ->
  in_turn E m' (L "ethernet") ADDRESS (or_last l) (targets E m' s).
Proof.
  intros l Hl Hs. destruct nics_inv as (c & b & d & _ & _ & _ & H3 & Ob & Od & _). rewrite Hl in H3.
  unfold set_nic_mac_addresses in H3. step H3 x Ex. destruct (AD_names (e_ver E)) as (N1 & N2 & N3).
  destruct (each_values (L "ethernet") NIC ADDRESS l x d m5 Od eq_refl N1 N2 N3 eq_refl Hs H3) as [_ T].
  assert (Hx : x = last l []) by (unfold last_of in Ex; destruct l; [discriminate|now injection Ex as <-]). rewrite Hx in T.
  destruct env_5 as [He Hp].
  apply (turn_view (L "ethernet") NIC ADDRESS _ _ m5 m' (gp_ok _ _ _ _ _ (W g_5)) ok_end He Hp eq_refl N3) with (3 := view_5e) (4 := T).
  - intros [K|[K|[]]]; [discriminate|]. destruct (e_ver E); discriminate.
  - intros K. apply IID_plain. destruct K as [K|[K|[]]]; [now left|right; now left].
Qed.

Lemma net_end : net_of m' = net_of m6.
Proof.
  pose proof (gp_ok _ _ _ _ _ (W g_6)) as O6. pose proof (gp_ok _ _ _ _ _ (W g_7)) as O7.
  pose proof (gp_ok _ _ _ _ _ (W g_8)) as O8. pose proof (gp_ok _ _ _ _ _ (W g_9)) as O9.
  rewrite <- (hp_net_same E s _ _ _ O6 (W h_7)), <- (hp_net_same E s _ _ _ O7 (W h_8)).
  assert (N9 : net_of m9 = net_of m8).
  { pose proof (F r_9) as H. destruct (s_scsi s) as [l|]; cbn [if_given] in H; [|injection H as H; now rewrite H].
    exact (hp_net_same E s _ _ _ O8 (subtypes_phase E s (L "scsi") SCSI m8 l m9 O8 eq_refl H)). }
  rewrite <- N9. pose proof (F r_10) as H. destruct (s_ide s) as [l|]; cbn [if_given] in H; [|injection H as H; now rewrite H].
  exact (hp_net_same E s _ _ _ O9 (subtypes_phase E s (L "ide") IDE m9 l m' O9 eq_refl H)).
Qed.

Theorem whole_networks : forall l, s_networks s = Some l -> s_profiles s <> Some [] -> NoDup (targets E m' s) ->
  exists most, most_devices E m' (L "ethernet") (targets E m' s) most /\
    in_turn E m' (L "ethernet") CONNECTION (or_last (expand_list_wildcard l (Z.to_nat most))) (targets E m' s) /\
    forall n, In n (expand_list_wildcard l (Z.to_nat most)) -> In (Some n) (networks (e_ver E) (net_of m')).
Proof.
  intros l Hl Hs ND. assert (Hnd : fst nd = Some l).
  { pose proof (F r_i) as H. unfold infer_networks in H. rewrite Hl in H. destruct (s_nics s); now injection H as <-. }
  pose proof (F r_6) as H. rewrite Hnd in H. pose proof (gp_ok _ _ _ _ _ (W g_5)) as O5. pose proof (gp_ok _ _ _ _ _ (W g_6)) as O6.
  unfold update_networks in H. step H c Ec. cbn [given negb andb] in H. rewrite andb_false_r in H. step H a E1.
  destruct env_5 as [He5 Hp5]. destruct env_6 as [He6 Hp6]. destruct (CN_names (e_ver E)) as (N1 & N2 & N3).
  assert (T5 : targets E m' s = targets E m5 s) by (unfold targets; now rewrite Hp5).
  exists (max_count c). split; [|].
  - rewrite T5. rewrite T5 in ND. apply (most_view (L "ethernet") NIC _ m5 m' _ _ O5 ok_end He5 eq_refl) with (2 := view_5e).
    + intros K. apply IID_plain. destruct K as [K|[K|[]]]; [now left|right; now left].
    + exact (counts_most m5 (L "ethernet") NIC c O5 eq_refl ND Ec).
  - set (new := expand_list_wildcard l (Z.to_nat (max_count c))) in *.
    destruct (request_phase E U _ new _ m5 a O5 (fun n H => H) E1) as (P1 & Hin & _). pose proof (np_ok _ _ _ P1) as Oa.
    pose proof (connect_phase E s a new m6 Oa H) as P6.
    unfold set_nic_networks in H. step H x Ex.
    destruct (each_values (L "ethernet") NIC CONNECTION new x a m6 Oa eq_refl N1 N2 N3 eq_refl Hs H) as [_ T].
    assert (Hx : x = last new []) by (unfold last_of in Ex; destruct new; [discriminate|now injection Ex as <-]). rewrite Hx in T.
    split.
    + apply (turn_view (L "ethernet") NIC CONNECTION _ _ m6 m' O6 ok_end He6 Hp6 eq_refl N3) with (3 := view_6e) (4 := T).
      * intros [K|[]]. destruct (e_ver E); discriminate.
      * intros K. apply IID_plain. destruct K as [K|[]]. right; now left.
    + intros n Hn. rewrite net_end, (hp_net_same E s _ _ _ Oa P6). exact (Hin n Hn).
Qed.

(** Setting the number of devices *)
Lemma count_result : forall rt w nic n a b, vm_ok E a -> res_map rt = Ok w -> (0 <= n)%Z ->
  NoDup (targets E a s) -> countable E a s w -> (forall k i, In (k, i) (devices_of a) -> is_of w i -> i_frozen i = None) ->
  (forall q, In (Some q) (targets E a s) -> In q (profiles_of E a)) ->
  on_hw E a (fun E' h => set_item_count E' nic h rt n (plist s)) = Ok b ->
  number_set E a b rt n (targets E a s).
Proof.
  intros rt w nic n a b Oa Hw Hn ND Hc Hf Hq H.
  pose proof (count_phase E s a rt w nic n b Oa Hw H) as Pb. destruct (hp_vm _ _ _ _ _ Oa Pb) as (Ob & _ & Heb & _).
  apply on_hw_inv in H as (h & Hh & Eb). assert (Db : devices_of b = h) by (rewrite Eb; reflexivity).
  pose proof (vm_ids a Oa) as Ia. pose proof (vm_ids b Ob) as Ib. rewrite Db in Ib.
  assert (Ki : forall k i, In (k, i) (devices_of a) -> kindb (henv E a) w i = true -> is_of w i /\ config_of (henv E a) i = profiles_of E a).
  { intros k i Hi K. apply kindb_iff in K. assert (T : is_of w i).
    { apply (of_type_is (henv E a) rt w i (proj2 (ids_good (henv E a) _ k i Ia Hi)) (res_map_get _ _ Hw)). exists w. split; [exact (res_map_get _ _ Hw)|exact K]. }
    split; [exact T|]. unfold config_of. rewrite (Hf k i Hi T). reflexivity. }
  unfold number_set. rewrite Heb, Db.
  assert (Fin : forall q, (exists ks ks', devices (henv E a) (devices_of a) rt q = Ok ks /\ devices (henv E a) h rt q = Ok ks' /\
     Z.of_nat (length ks') = n /\ ((n <= Z.of_nat (length ks))%Z -> ks' = firstn (Z.to_nat n) ks) /\
     ((Z.of_nat (length ks) <= n)%Z -> incl ks ks')) ->
     exists ks ks', are_devices (henv E a) (devices_of a) rt q ks /\ are_devices (henv E a) h rt q ks' /\
     Z.of_nat (length ks') = n /\ ((n <= Z.of_nat (length ks))%Z -> ks' = firstn (Z.to_nat n) ks) /\
     ((Z.of_nat (length ks) <= n)%Z -> incl ks ks')).
  { intros q (ks & ks' & D1 & D2 & D3). exists ks, ks'. split; [exact (devices_list (henv E a) _ rt w q ks Ia Hw D1)|].
    split; [exact (devices_list (henv E a) _ rt w q ks' Ib Hw D2)|exact D3]. }
  unfold countable in Hc. unfold targets, plist in *. destruct (s_profiles s) as [[|p ps]|].
  - apply NoDup_remove_1 in ND. rewrite app_nil_r in ND. apply NoDup_map_inv in ND.
    destruct (set_count_default (henv E a) nic (devices_of a) rt w n h Ia Hw Hn ND) as (S1 & _); [|exact Hh|].
    { intros k i Hi K. destruct (Ki k i Hi K) as [T C]. split; [exact (Hc k i Hi T)|]. rewrite C. intros x. reflexivity. }
    intros q Hq'. exact (Fin q (S1 q Hq')).
  - destruct (set_count_explicit (henv E a) nic (devices_of a) rt w n (map Some (p :: ps)) h Ia Hw ltac:(discriminate) ND Hn) as (S1 & _); [| |exact Hh|].
    { intros K. apply in_map_iff in K as (x & K & _). discriminate. }
    { intros k i Hi K. destruct (Ki k i Hi K) as [T C]. split; [apply typed_same; exact (Hc k i Hi T)|]. rewrite C. exact Hq. }
    intros q Hq'. exact (Fin q (S1 q Hq')).
  - apply NoDup_remove_1 in ND. rewrite app_nil_r in ND. apply NoDup_map_inv in ND.
    destruct (set_count_default (henv E a) nic (devices_of a) rt w n h Ia Hw Hn ND) as (S1 & _); [|exact Hh|].
    { intros k i Hi K. destruct (Ki k i Hi K) as [T C]. split; [exact (Hc k i Hi T)|]. rewrite C. intros x. reflexivity. }
    intros q Hq'. exact (Fin q (S1 q Hq')).
Qed.
Lemma number_view : forall rt w ns0 ns a0 a b b' n Q, vm_ok E a0 -> vm_ok E a -> vm_ok E b -> vm_ok E b' -> henv E b' = henv E b ->
  dget str_eqb rt RES_MAP = Some w -> ~ In (INSTANCE_ID (e_ver E)) ns0 -> ~ In (INSTANCE_ID (e_ver E)) ns ->
  view w ns0 (devices_of a0) (devices_of a) -> view w ns (devices_of b) (devices_of b') ->
  number_set E a b rt n Q -> number_set E a0 b' rt n Q.
Proof.
  intros rt w ns0 ns a0 a b b' n Q O0 Oa Ob Ob' He Hw Hn0 Hn V0 V H q Hq. destruct (H q Hq) as (ks & ks' & D1 & D2 & D3).
  exists ks, ks'. rewrite He.
  split; [exact (view_devices (henv E b) rt w ns0 _ _ q ks (vm_ids a Oa) (vm_ids a0 O0) Hw Hn0 (view_sym _ _ _ _ V0) D1)|].
  split; [exact (view_devices (henv E b) rt w ns _ _ q ks' (vm_ids b Ob) (vm_ids b' Ob') Hw Hn V D2)|exact D3].
Qed.
Lemma loss_view : forall rt w mk n c a0 a a1, vm_ok E a0 -> vm_ok E a -> henv E m' = henv E a -> targets E a s = targets E m' s ->
  res_map rt = Ok w -> NoDup (targets E a s) ->
  view w [] (devices_of a0) (devices_of a) -> get_counts E a rt s = Ok c -> fold_result (ask_drop U mk n) c a = Ok a1 ->
  incl (v_log a1) (v_log m') -> loss_confirmed E a0 m' rt n (targets E m' s) mk.
Proof.
  intros rt w mk n c a0 a a1 O0 Oa He Ht Hw ND V Hc Ha Hl q ks Hq Hk Hlt. rewrite He in Hk. rewrite <- Ht in Hq.
  unfold get_counts in Hc. rewrite (targets_all a) in *.
  destruct (counts_of (henv E a) _ rt w _ c (vm_ids a Oa) Hw ND Hc) as (_ & K & Vc).
  apply K, in_map_iff in Hq as ([p z] & <- & Hz). cbn [fst] in *. destruct (Vc p z Hz) as (ks2 & Hk2 & ->).
  pose proof (view_devices (henv E a) rt w [] _ _ p ks (vm_ids a0 O0) (vm_ids a Oa) (res_map_get _ _ Hw) (fun x => x) V Hk) as Hk3.
  rewrite (sorted_unique _ _ _ _ _ _ Hk3 Hk2) in *.
  destruct (asked E U mk n c a a1 Oa Ha) as (_ & _ & As). apply Hl. exact (As p _ Hz Hlt).
Qed.
Lemma gp_incl : forall ts a b, gphase E A ts a b -> incl (v_log a) (v_log b).
Proof. intros ts a b G x Hx. destruct (gp_log _ _ _ _ _ G) as (l & -> & _). apply in_app_iff. now left. Qed.
Lemma hp_incl : forall ts a b, hphase E A ts a b -> incl (v_log a) (v_log b).
Proof. intros ts a b G x Hx. destruct (hp_log _ _ _ _ _ G) as (l & -> & _). apply in_app_iff. now left. Qed.

Lemma given_profiles : s_delete_others s = false -> forall q, In (Some q) (targets E m' s) -> In q (profiles_of E m').
Proof.
  intros Hd q Hq. rewrite (proj1 (W end_env)).
  destruct (update_profiles_spec E U s m m1 O (F r_1)) as (D & lg & _ & _ & _ & HD & HP & _).
  unfold targets in Hq. rewrite (proj1 (W end_env)) in Hq. destruct (s_profiles s) as [[|p ps]|] eqn:Es.
  - apply in_app_iff in Hq as [Hq|[Hq|[]]]; [|discriminate]. apply in_map_iff in Hq as (x & Hx & Hq). now injection Hx as <-.
  - apply in_map_iff in Hq as (x & Hx & Hq). injection Hx as <-. apply HP. rewrite (HD Hd). split; [|intros []].
    right. unfold named_profiles. rewrite Es. exact Hq.
  - apply in_app_iff in Hq as [Hq|[Hq|[]]]; [|discriminate]. apply in_map_iff in Hq as (x & Hx & Hq). now injection Hx as <-.
Qed.
Lemma start_same : s_delete_others s = false -> devices_of m2 = devices_of m.
Proof.
  intros Hd. destruct (update_profiles_spec E U s m m1 O (F r_1)) as (D & lg & P1 & _ & _ & HD & _).
  rewrite (proj1 (proj2 (W w_2o))). exact (pp_none _ _ _ _ P1 (HD Hd)).
Qed.
Lemma nic_start : s_delete_others s = false -> same_of_type NIC (devices_of m) (devices_of m4).
Proof.
  intros Hd k i Oi. rewrite <- (start_same Hd).
  rewrite (gp_type _ _ _ _ _ (W g_3) NIC ltac:(apply on_not1; discriminate) k i Oi).
  apply (gp_type _ _ _ _ _ (W g_4) NIC ltac:(apply on_not1; discriminate) k i Oi).
Qed.
Lemma serial_start : s_delete_others s = false -> same_of_type SERIAL (devices_of m) (devices_of m7).
Proof.
  intros Hd k i Oi. rewrite <- (start_same Hd).
  rewrite (gp_type _ _ _ _ _ (W g_3) SERIAL ltac:(apply on_not1; discriminate) k i Oi).
  rewrite (gp_type _ _ _ _ _ (W g_4) SERIAL ltac:(apply on_not1; discriminate) k i Oi).
  rewrite (gp_type _ _ _ _ _ (W g_5) SERIAL ltac:(apply on_not1; discriminate) k i Oi).
  rewrite (gp_type _ _ _ _ _ (W g_6) SERIAL ltac:(apply on_not1; discriminate) k i Oi).
  apply (gp_type _ _ _ _ _ (W g_7) SERIAL ltac:(apply on_not1; discriminate) k i Oi).
Qed.
Lemma env_4 : henv E m' = henv E m4 /\ profiles_of E m' = profiles_of E m4.
Proof. destruct (gp_env _ _ _ _ _ (gp_ok _ _ _ _ _ (W g_4)) (W e_4)) as [H1 H2]. now split. Qed.
Lemma env_7 : henv E m' = henv E m7 /\ profiles_of E m' = profiles_of E m7.
Proof. destruct (gp_env _ _ _ _ _ (gp_ok _ _ _ _ _ (W g_7)) (W e_7)) as [H1 H2]. now split. Qed.

Theorem whole_nic_count : forall n, s_nics s = Some n -> s_delete_others s = false -> NoDup (targets E m' s) ->
  loss_confirmed E m m' (L "ethernet") n (targets E m' s) AskDropNics /\
  ((0 <= n)%Z -> unfrozen (devices_of m) -> countable E m s NIC -> number_set E m m' (L "ethernet") n (targets E m' s)).
Proof.
  intros n Hn Hd ND. pose proof (gp_ok _ _ _ _ _ (W g_4)) as O4. pose proof (gp_ok _ _ _ _ _ (W g_5)) as O5. destruct env_4 as [He Hp].
  assert (T4 : targets E m4 s = targets E m' s) by (unfold targets; now rewrite Hp).
  destruct nics_inv as (c & b & d & Hc & H1 & _ & _ & Ob & _ & Hb & Pb & Vb). rewrite Hn in H1. destruct H1 as (a & Ha & H1).
  destruct (asked E U AskDropNics n c m4 a O4 Ha) as (Da & _ & _).
  pose proof (drop_phase E U s AskDropNics n [] m4 c a O4 Ha) as Pa. destruct (hp_vm _ _ _ _ _ O4 Pa) as (Oa & Pra & Hea & _).
  unfold set_nic_count in H1. step H1 u Eu.
  pose proof (view_same NIC _ _ (gp_nodup E m4 O4) (nic_start Hd)) as V4.
  split.
  - apply (loss_view (L "ethernet") NIC AskDropNics n c m m4 a O O4 He T4 eq_refl ltac:(rewrite T4; exact ND) V4 Hc Ha).
    intros x Hx. apply (gp_incl _ _ _ (W e_5)), (hp_incl _ _ _ Pb).
    exact (hp_incl _ _ _ (count_phase E s a (L "ethernet") NIC _ n b Oa eq_refl H1) x Hx).
  - intros Hn0 Hf Hco.
    assert (D4 : devices_of a = devices_of m4) by (unfold devices_of; now rewrite Da).
    assert (Ta : targets E a s = targets E m' s) by (unfold targets; now rewrite Pra, Hp).
    rewrite <- Ta. apply (number_view (L "ethernet") NIC [] ([RESOURCE_SUB_TYPE; ADDRESS] ++ [CONNECTION; ELEMENT_NAME (e_ver E)]) m a b m' n _ O Oa Ob ok_end);
      [rewrite Hb; exact He|reflexivity|intros []| |rewrite D4; exact V4|exact (view_trans _ _ _ _ _ _ Vb view_5e)|].
    + intros K. apply IID_plain. cbn [app In] in K |- *. tauto.
    + apply (count_result (L "ethernet") NIC (hp_nic_name P) n a b Oa eq_refl Hn0); [rewrite Ta; exact ND| | | |exact H1].
      * intros k i Hi Oi. rewrite D4 in Hi. apply (Hco k i); [|exact Oi]. now apply (nic_start Hd k i Oi).
      * intros k i Hi Oi. rewrite D4 in Hi. apply (Hf k i). now apply (nic_start Hd k i Oi).
      * intros q Hq. rewrite Ta in Hq. rewrite Pra, <- Hp. exact (given_profiles Hd q Hq).
Qed.

(** Serial ports *)
Lemma serial_inv : exists b,
  match s_serials s with None => b = m7 | Some n => exists c a, get_counts E m7 (L "serial") s = Ok c /\
    fold_result (ask_drop U AskDropSerials n) c m7 = Ok a /\ set_serial_count E P a n s = Ok b end /\
  match s_connectivity s with None => m8 = b | Some l => exists c a, get_counts E b (L "serial") s = Ok c /\
    fold_result (ask_drop U AskUnreachable (Z.of_nat (length l))) c b = Ok a /\ set_serial_connectivity E a l s = Ok m8 end /\
  vm_ok E b /\ henv E b = henv E m7 /\ profiles_of E b = profiles_of E m7 /\ incl (v_log b) (v_log m8) /\ view SERIAL [ADDRESS] (devices_of b) (devices_of m8).
Proof.
  pose proof (F r_8) as H. unfold update_serial in H. step H b E1. exists b. pose proof (gp_ok _ _ _ _ _ (W g_7)) as O7.
  assert (P1 : hphase E A [SERIAL] m7 b /\ match s_serials s with None => b = m7 | Some n => exists c a, get_counts E m7 (L "serial") s = Ok c /\
    fold_result (ask_drop U AskDropSerials n) c m7 = Ok a /\ set_serial_count E P a n s = Ok b end).
  { destruct (s_serials s) as [n|]; [|injection E1 as E1; rewrite <- E1; split; [now apply hphase_refl|reflexivity]]. step E1 c Ec. step E1 a Ea.
    pose proof (drop_phase E U s AskDropSerials n [SERIAL] m7 c a O7 Ea) as Pa. split; [|exists c, a; now split].
    apply (hphase_trans E (touched s) [SERIAL] m7 a b O7 Pa). apply hp_vm in Pa; [|exact O7].
    exact (count_phase E s a (L "serial") SERIAL _ n b (proj1 Pa) eq_refl E1). }
  destruct P1 as [P1 N1]. destruct (hp_vm _ _ _ _ _ O7 P1) as (Ob & Prb & Hb & _). split; [exact N1|].
  destruct (s_connectivity s) as [l|].
  - step H c Ec. step H a Ea. pose proof (drop_phase E U s AskUnreachable (Z.of_nat (length l)) [SERIAL] b c a Ob Ea) as Pa.
    destruct (hp_vm _ _ _ _ _ Ob Pa) as (Oa & _). destruct (asked E U AskUnreachable _ c b a Ob Ea) as (Da & _ & _).
    split; [exists c, a; now split|]. split; [exact Ob|]. split; [exact Hb|]. split; [exact Prb|]. unfold set_serial_connectivity in H. split.
    + intros x Hx. apply (hp_incl _ _ _ (each_phase E s a (L "serial") SERIAL _ _ _ m8 Oa eq_refl (proj1 (AD_names (e_ver E))) (proj1 (proj2 (AD_names (e_ver E)))) H)).
      exact (hp_incl _ _ _ Pa x Hx).
    + assert (D : devices_of a = devices_of b) by (unfold devices_of; now rewrite Da). rewrite <- D.
      exact (each_view _ SERIAL ADDRESS _ _ a m8 Oa ltac:(discriminate) H).
  - injection H as H. split; [now rewrite H|]. split; [exact Ob|]. split; [exact Hb|]. split; [exact Prb|]. rewrite <- H.
    split; [intros x Hx; exact Hx|]. apply same_view, Ob.
Qed.
Lemma serial_end : view SERIAL [] (devices_of m8) (devices_of m').
Proof.
  apply view_same; [exact (gp_nodup E m' ok_end)|]. exact (gp_type _ _ _ _ _ (W e_8) SERIAL serial_later).
Qed.
Theorem whole_serial_count : forall n, s_serials s = Some n -> s_delete_others s = false -> NoDup (targets E m' s) ->
  loss_confirmed E m m' (L "serial") n (targets E m' s) AskDropSerials /\
  ((0 <= n)%Z -> unfrozen (devices_of m) -> countable E m s SERIAL -> number_set E m m' (L "serial") n (targets E m' s)).
Proof.
  intros n Hn Hd ND. pose proof (gp_ok _ _ _ _ _ (W g_7)) as O7. destruct env_7 as [He Hp].
  assert (T7 : targets E m7 s = targets E m' s) by (unfold targets; now rewrite Hp).
  destruct serial_inv as (b & H1 & _ & Ob & Hb & _ & Lb & Vb). rewrite Hn in H1. destruct H1 as (c & a & Hc & Ha & H1).
  destruct (asked E U AskDropSerials n c m7 a O7 Ha) as (Da & _ & _).
  pose proof (drop_phase E U s AskDropSerials n [] m7 c a O7 Ha) as Pa. destruct (hp_vm _ _ _ _ _ O7 Pa) as (Oa & Pra & Hea & _).
  unfold set_serial_count in H1.
  pose proof (view_same SERIAL _ _ (gp_nodup E m7 O7) (serial_start Hd)) as V7.
  split.
  - apply (loss_view (L "serial") SERIAL AskDropSerials n c m m7 a O O7 He T7 eq_refl ltac:(rewrite T7; exact ND) V7 Hc Ha).
    intros x Hx. apply (gp_incl _ _ _ (W e_8)), Lb.
    exact (hp_incl _ _ _ (count_phase E s a (L "serial") SERIAL _ n b Oa eq_refl H1) x Hx).
  - intros Hn0 Hf Hco.
    assert (D7 : devices_of a = devices_of m7) by (unfold devices_of; now rewrite Da).
    assert (Ta : targets E a s = targets E m' s) by (unfold targets; now rewrite Pra, Hp).
    rewrite <- Ta. apply (number_view (L "serial") SERIAL [] ([ADDRESS] ++ []) m a b m' n _ O Oa Ob ok_end);
      [rewrite Hb; exact He|reflexivity|intros []| |rewrite D7; exact V7|exact (view_trans _ _ _ _ _ _ Vb serial_end)|].
    + intros K. apply IID_plain. cbn [app In] in K |- *. tauto.
    + apply (count_result (L "serial") SERIAL (hp_nic_name P) n a b Oa eq_refl Hn0); [rewrite Ta; exact ND| | | |exact H1].
      * intros k i Hi Oi. rewrite D7 in Hi. apply (Hco k i); [|exact Oi]. now apply (serial_start Hd k i Oi).
      * intros k i Hi Oi. rewrite D7 in Hi. apply (Hf k i). now apply (serial_start Hd k i Oi).
      * intros q Hq. rewrite Ta in Hq. rewrite Pra, <- Hp. exact (given_profiles Hd q Hq).
Qed.
Theorem whole_connectivity : forall l, s_connectivity s = Some l -> s_profiles s <> Some [] -> NoDup (targets E m' s) ->
  in_turn E m' (L "serial") ADDRESS (or_none l) (targets E m' s) /\
  loss_confirmed E m' m' (L "serial") (Z.of_nat (length l)) (targets E m' s) AskUnreachable.
Proof.
  intros l Hl Hs ND. destruct serial_inv as (b & _ & H2 & Ob & Hb & Prb & _ & Vb). rewrite Hl in H2. destruct H2 as (c & a & Hc & Ha & H2).
  destruct env_7 as [He Hp]. pose proof (gp_ok _ _ _ _ _ (W g_8)) as O8.
  pose proof (drop_phase E U s AskUnreachable _ [] b c a Ob Ha) as Pa. destruct (hp_vm _ _ _ _ _ Ob Pa) as (Oa & _).
  destruct (AD_names (e_ver E)) as (N1 & N2 & N3). unfold set_serial_connectivity in H2. destruct env_8 as [He8 Hp8]. split.
  - destruct (each_values (L "serial") SERIAL ADDRESS l [] a m8 Oa eq_refl N1 N2 N3 eq_refl Hs H2) as [_ T].
    exact (turn_view (L "serial") SERIAL ADDRESS [] _ m8 m' O8 ok_end He8 Hp8 eq_refl N3 (fun x => x) (fun x => x) serial_end T).
  - assert (Tb : targets E b s = targets E m' s) by (unfold targets; now rewrite Prb, Hp).
    pose proof (view_trans _ _ _ _ _ _ Vb serial_end) as V. intros q ks Hq Hk Hlt.
    assert (NI : ~ In (INSTANCE_ID (e_ver E)) ([ADDRESS] ++ [])) by (intros K; apply IID_plain; cbn [app In] in K |- *; tauto).
    pose proof (view_devices (henv E m') (L "serial") SERIAL _ _ _ q ks (vm_ids m' ok_end) (vm_ids b Ob) eq_refl NI (view_sym _ _ _ _ V) Hk) as Hk'.
    refine (loss_view (L "serial") SERIAL AskUnreachable _ c b b a Ob Ob _ Tb eq_refl _ _ Hc Ha _ q ks Hq Hk' Hlt).
    + rewrite Hb. exact He.
    + rewrite Tb. exact ND.
    + apply same_view, Ob.
    + intros x Hx. apply (gp_incl _ _ _ (W e_8)).
      exact (hp_incl _ _ _ (each_phase E s a (L "serial") SERIAL _ _ _ m8 Oa eq_refl N1 N2 H2) x Hx).
Qed.

(** What was asked, which profiles and networks there are *)
Theorem whole_log : exists lg, v_log m' = v_log m ++ lg /\ forall q, In (Confirmed q false) lg -> is_ask_delete q.
Proof.
  destruct (update_profiles_spec E U s m m1 O (F r_1)) as (D & lg & _ & L1 & N1 & _).
  destruct (gp_log _ _ _ _ _ (W e_2)) as (l & L2 & N2). rewrite (proj1 (proj2 (proj2 (F w_2)))), L1 in L2.
  exists (lg ++ l). split; [rewrite L2; symmetry; apply app_assoc|].
  intros q Hq. apply in_app_iff in Hq as [Hq|Hq]; [exact (N1 q Hq)|]. specialize (N2 q false Hq). discriminate.
Qed.
Lemma log_1 : incl (v_log m1) (v_log m').
Proof. rewrite <- (proj1 (proj2 (proj2 (F w_2)))). exact (gp_incl _ _ _ (W e_2)). Qed.
Theorem whole_nets :
  (forall n, In n (networks (e_ver E) (net_of m)) -> In n (networks (e_ver E) (net_of m'))) /\
  (forall n, In n (networks (e_ver E) (net_of m')) -> In n (networks (e_ver E) (net_of m)) \/
     exists t, n = Some t /\ In (Confirmed (AskNetwork t) true) (v_log m')).
Proof.
  destruct (networks_phase E U s m5 _ _ m6 (gp_ok _ _ _ _ _ (W g_5)) (F r_6)) as (_ & H1 & H2).
  rewrite (proj1 (W net_5)) in H1, H2. rewrite net_end. split; [exact H1|]. intros n Hn.
  destruct (H2 n Hn) as [K|(t & -> & K)]; [now left|]. right. exists t. split; [reflexivity|]. exact (gp_incl _ _ _ (W e_6) _ K).
Qed.
Theorem whole_profiles : exists D,
  (forall q, In q (profiles_of E m') <-> (In q (profiles_of E m) \/ exists l, s_profiles s = Some l /\ In q l) /\ ~ In q D) /\
  (forall q, In q (profiles_of E m') -> ~ In q (profiles_of E m) -> In (Confirmed (AskCreate q) true) (v_log m')) /\
  (s_delete_others s = false -> D = []) /\
  (s_delete_others s = true -> s_profiles s = None ->
     In (Confirmed AskDeleteAll true) (v_log m') /\ forall q, In q D <-> In q (profiles_of E m)) /\
  (s_delete_others s = true -> (forall l x, In x (u_order U l) <-> In x l) -> forall l, s_profiles s = Some l ->
     (forall q, In q D -> In q (profiles_of E m) /\ ~ In q l /\ In (Confirmed (AskDelete q) true) (v_log m')) /\
     (forall q, In q (profiles_of E m) -> ~ In q l -> ~ In q D -> In (Confirmed (AskDelete q) false) (v_log m'))).
Proof.
  destruct (update_profiles_spec E U s m m1 O (F r_1)) as (D & lg & P1 & L1 & N1 & HD & HP & HC & _ & _ & HA & HO).
  rewrite (proj1 (W end_env)). exists D.
  assert (I1 : incl lg (v_log m')) by (intros x Hx; apply log_1; rewrite L1; apply in_app_iff; now right).
  assert (NP : forall q, In q (named_profiles s) <-> exists l, s_profiles s = Some l /\ In q l).
  { intros q. unfold named_profiles. destruct (s_profiles s) as [l|]; split; [eauto|intros (x & Hx & H); injection Hx as <-; exact H|intros []|intros (x & Hx & _); discriminate]. }
  split; [intros q; rewrite (HP q), (NP q); reflexivity|]. split.
  - intros q Hq Hn. apply I1, HC; [|exact Hn]. apply HP in Hq as [[Hq|Hq] _]; [contradiction|exact Hq].
  - split; [exact HD|]. split.
    + intros Hd Hs. destruct (HA Hd Hs) as [H1 H2]. split; [apply I1, H1|exact H2].
    + intros Hd HU l Hs. destruct (HO Hd l Hs) as [H1 H2]. destruct (H2 HU) as [H3 H4]. split.
      * intros q Hq. destruct (H3 q Hq) as [H5 H6]. split; [exact H5|]. split; [exact H6|]. apply I1, H1, Hq.
      * intros q H5 H6 H7. destruct (H4 q H5 H6) as [[|] Hb]; [|apply I1, Hb]. exfalso. apply H7, H1, Hb.
Qed.
End Result.
