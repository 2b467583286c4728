(** A whole run of edit-hardware: what C53 says of the edited package holds of the package that is
    found in the output. *)
From Coq Require Import List Ascii Bool ZArith Lia.
Import ListNotations.
From Verif Require Import PyBase PyBaseProofs PyDict PyDictProofs XmlModel XmlSpec XmlProofs NamesModel ItemModel ItemSpec HardwareModel HardwareSpec HardwareProofs HardwareIdProofs CountSpec FindSpec RereadSpec
  ProfileModel ProfileSpec ProfileDocProofs NetworkModel NetworkSpec NetworkProofs DriveModel RefreshModel EditPropModel PlatformModel PathSpec TarModel OpenModel OpenSpec OpenProofs SaveModel SaveSpec
  EditHwModel EditHwSpec EditHwProofs EditHwTreeProofs EditHwConfigProofs EditHwReadProofs CommandModel CommandSpec CommandProofs2 CommandHwModel CommandHwSpec CommandHwProofs TwinProofs.
From Verif Require Import WildListModel.
From Verif Require SaveProofs InfoProfileProofs EditHwProps.

Section Run.
Variables (E : env) (digest : str -> str -> str) (print : elem -> str) (parse : str -> option elem) (capacity : str -> result str) (fuel : nat).
Variables (U : user) (P : platform -> hw_platform) (s : settings) (w w' : world) (d : list str) (u input : str) (same : bool) (output : str) (o : ovf).
Variables (d2 : list str) (u2 : str).
Notation v := (o_version o).
Notation EO := (env_of E o).
Notation m := (vm_of_package o).
Notation wd := (path_of (d ++ [u])).
Notation w1 := (after_opening w wd input).
Hypothesis RUN : hw_run E digest print parse capacity fuel U P s w w' d u input same output o.
Hypothesis PD2 : forall c, In c (d2 ++ [u2]) -> proper c.

Lemma run_consistent : consistent o.
Proof. destruct RUN. now apply (SaveProofs.opened_consistent E digest parse w d u input output). Qed.
Lemma run_vm : open_vm EO (o_envelope o) (o_hardware_section o) = Ok m.
Proof. destruct RUN. now apply (opened_vm E digest parse w wd input output). Qed.

Lemma run_split : exists m', edit_hardware EO U (P (o_platform o)) m s = Ok m' /\
  can_be_written E w1 wd (destination input output) (package_of_vm EO o m') /\ plain_types E (package_of_vm EO o m') /\
  exists o2, factory E digest parse w' (path_of (d2 ++ [u2])) (destination input output) [] = Ok o2 /\ same_package E w1 w' (package_of_vm EO o m') o2.
Proof.
  pose proof run_consistent as K. pose proof run_vm as V. destruct RUN as [R1 R2 R3 R4 R5 R6 R7].
  destruct (command_runs E digest print parse capacity fuel w w' d u input same output o R5 _ R7) as (o1 & ED & WR). pose proof (R6 o1 ED) as ([C1 C2 C3 C4] & RP & PT).
  unfold edit_hardware_package in ED. apply InfoProfileProofs.rbind_ok in ED as (m' & EM & E1). injection E1 as E1. subst o1.
  exists m'. split; [exact EM|]. split; [constructor; assumption|]. split; [exact PT|].
  apply (written_reopens E digest print parse capacity fuel w1 w' wd input same (destination input output) (package_of_vm EO o m') d2 u2); try assumption.
  - exact (edited_consistent E U (P (o_platform o)) s o m' K V EM).
  - constructor; [constructor|exact C3|exact C4].
    + exact (o_hw _ _ (proj1 (ed_ok' E U (P (o_platform o)) s o m' V EM))).
    + exact C1.
    + intros LU. exact (edited_unchanged E U (P (o_platform o)) s o m' EM (factory_reads _ _ _ _ _ _ _ _ R5) (fun k i H => proj2 (proj2 (C1 k i H))) C2 LU).
Qed.

(** ** The package in the output *)
Variable (o2 : ovf).
Hypothesis OUT : factory E digest parse w' (path_of (d2 ++ [u2])) (destination input output) [] = Ok o2.
Notation m2 := (vm_of_package o2).

Record linked (m' : vm) : Prop := {
  l_edit : edit_hardware EO U (P (o_platform o)) m s = Ok m';
  l_same : same_package E w1 w' (package_of_vm EO o m') o2;
  l_types : plain_types E (package_of_vm EO o m');
  l_henv : henv EO m2 = henv EO m';
  l_profiles : profiles_of EO m2 = profiles_of EO m';
  l_read : hw_reachable v (devices_of m2);
  l_edited : hw_reachable v (devices_of m');
  l_config : forall k i, In (k, i) (devices_of m') -> config_of (henv EO m') i = e_profiles (henv EO m');
  l_config2 : forall k i, In (k, i) (devices_of m2) -> config_of (henv EO m') i = e_profiles (henv EO m');
  l_devices : same_hardware (henv EO m') (devices_of m') (devices_of m2) }.
Lemma profiles_named : forall x, consistent x -> o_version x = v -> profiles_of EO (vm_of_package x) = o_profiles x.
Proof. intros x K Vx. unfold profiles_of, config_profiles. cbn [vm_of_package v_doc p_cache fst]. symmetry. exact (k_profiles _ K). Qed.
Lemma run_linked : exists m', linked m'.
Proof.
  destruct run_split as (m' & EM & CW & PT & o2' & O2 & SP). rewrite OUT in O2. injection O2 as <-. exists m'.
  pose proof run_vm as V. pose proof run_consistent as K. destruct RUN as [R1 R2 R3 R4 R5 R6 R7].
  pose proof (SaveProofs.opened_consistent E digest parse w' d2 u2 _ _ _ PD2 R4 OUT) as K2. pose proof (sp_version _ _ _ _ _ SP) as V2. pose proof (sp_profiles _ _ _ _ _ SP) as P2. cbn [package_of_vm o_version o_profiles] in V2, P2.
  pose proof (profiles_named o2 K2 V2) as N2.
  assert (PE : profiles_of EO m2 = profiles_of EO m') by (rewrite N2; exact P2).
  assert (HE : henv EO m2 = henv EO m') by (change (with_profiles EO (profiles_of EO m2) = with_profiles EO (profiles_of EO m')); now rewrite PE).
  pose proof (factory_reads _ _ _ _ _ _ _ _ OUT) as RH. assert (EV : env_of E o2 = henv EO m').
  { change (henv EO m') with (with_profiles EO (profiles_of EO m')). unfold env_of, with_profiles. cbn. now rewrite V2, P2. }
  rewrite EV in RH.
  constructor; try assumption.
  - exact (H_read v (henv EO m') _ _ eq_refl RH).
  - exact (o_hw _ _ (proj1 (ed_ok' E U (P (o_platform o)) s o m' V EM))).
  - destruct (ed_ok E o V) as [OK UF]. exact (run_config EO U (P (o_platform o)) s m m' OK UF EM).
  - intros k i Hi. unfold config_of. now rewrite (read_unfrozen _ _ _ RH k i Hi).
  - exact (sp_hardware _ _ _ _ _ SP).
Qed.

Lemma out_profiles : o_profiles o2 = profiles_of EO m2.
Proof.
  destruct run_linked as (m' & LK). symmetry. apply profiles_named; [|exact (sp_version _ _ _ _ _ (l_same _ LK))]. destruct RUN as [R1 R2 R3 R4 R5 R6 R7]. exact (SaveProofs.opened_consistent E digest parse w' d2 u2 _ _ _ PD2 R4 OUT).
Qed.
Lemma in_profiles : o_profiles o = profiles_of EO m.
Proof. symmetry. apply profiles_named; [exact run_consistent|reflexivity]. Qed.
Lemma same_run : forall m' m'', linked m' -> edit_hardware EO U (P (o_platform o)) m s = Ok m'' -> m'' = m'.
Proof. intros m' m'' LK H. rewrite (l_edit _ LK) in H. now injection H as ->. Qed.

Theorem hw_profiles : forall m', edit_hardware EO U (P (o_platform o)) m s = Ok m' -> exists D,
  (forall q, In q (o_profiles o2) <-> (In q (o_profiles o) \/ exists l, s_profiles s = Some l /\ In q l) /\ ~ In q D) /\
  (forall q, In q (o_profiles o2) -> ~ In q (o_profiles o) -> In (Confirmed (AskCreate q) true) (v_log m')) /\
  (s_delete_others s = false -> D = []) /\
  (s_delete_others s = true -> s_profiles s = None -> In (Confirmed AskDeleteAll true) (v_log m') /\ forall q, In q D <-> In q (o_profiles o)) /\
  (s_delete_others s = true -> (forall l x, In x (u_order U l) <-> In x l) -> forall l, s_profiles s = Some l ->
     (forall q, In q D -> In q (o_profiles o) /\ ~ In q l /\ In (Confirmed (AskDelete q) true) (v_log m')) /\
     (forall q, In q (o_profiles o) -> ~ In q l -> ~ In q D -> In (Confirmed (AskDelete q) false) (v_log m'))).
Proof.
  intros m' EM. destruct run_linked as (m'' & LK). rewrite <- (same_run _ _ LK EM) in LK. rewrite out_profiles, in_profiles, (l_profiles _ LK). exact (EditHwProps.C53_profiles _ _ _ _ _ _ _ _ run_vm EM).
Qed.

Lemma twins : forall m', linked m' -> forall rt p ks, are_devices (henv EO m') (devices_of m') rt p ks <-> are_devices (henv EO m') (devices_of m2) rt p ks.
Proof. intros m' LK. exact (devices_twin (henv EO m') _ _ (l_edited _ LK) (l_read _ LK) (l_devices _ LK) (l_config _ LK) (l_config2 _ LK)). Qed.

Theorem hw_other_profiles : forall q p ps, s_profiles s = Some (p :: ps) -> In q (o_profiles o) -> In q (o_profiles o2) -> ~ In q (p :: ps) -> alike_under EO q m m2.
Proof.
  intros q p ps Hs H1 H2 Hn. destruct run_linked as (m' & LK). rewrite out_profiles, (l_profiles _ LK) in H2. rewrite in_profiles in H1.
  pose proof (EditHwProps.C53_other_profiles _ _ _ _ _ _ _ _ q p ps run_vm (l_edit _ LK) Hs H1 H2 Hn) as [A B].
  pose proof (present_twin (henv EO m') _ _ (l_edited _ LK) (l_read _ LK) (l_config _ LK) (l_config2 _ LK)) as PT. unfold alike_under. rewrite (l_henv _ LK). split.
  - intros k i Hi Hp. destruct (A k i Hi) as (i' & Hi' & Pr & Re). apply Pr in Hp. destruct (to_twin _ _ _ (l_devices _ LK) k i' Hi' (present_values _ _ _ Hp)) as (j & Hj & S). exists j. split; [exact Hj|].
    split; [now apply (PT k i' j (Some q) Hi' Hj S)|]. intros n. rewrite <- (Re n). exact (S n (Some q)).
  - intros k j Hj Hp. destruct (of_twin _ _ _ (l_devices _ LK) k j Hj) as (i' & Hi' & S). apply (PT k i' j (Some q) Hi' Hj S) in Hp. destruct (B k i' Hi') as [Tk|No]; [|elim No; exact Hp].
    destruct Tk as [i Hi]. destruct (A k i Hi) as (i'' & Hi'' & Pr & _). assert (i'' = i') as ->.
    { pose proof (proj1 (reachable_ids _ _ (l_edited _ LK))) as ND. apply (hget_In _ _ _ ND) in Hi'. apply (hget_In _ _ _ ND) in Hi''. congruence. }
    exists i. split; [exact Hi|]. now apply Pr.
Qed.

Theorem hw_other_devices : forall x, s_delete_others s = false -> ~ concerned EO m s x -> alike_of_type EO x (devices_of m) (devices_of m2).
Proof.
  intros x Hd Hc. destruct run_linked as (m' & LK). pose proof (EditHwProps.C53_other_devices _ _ _ _ _ _ _ _ x run_vm (l_edit _ LK) Hd Hc) as A.
  destruct (alike_twin (henv EO m') _ _ (l_edited _ LK) (l_read _ LK) (l_devices _ LK) x) as [B C]. split.
  - intros k i Hi Ho. apply (A k i Ho) in Hi. exact (B k i Hi Ho).
  - intros k j Hj Ho. destruct (C k j Hj Ho) as (i & Hi & Hio & S). exists i. split; [now apply (A k i Hio)|]. now split.
Qed.

Lemma all_set : forall m' x n y Q, linked m' -> ~ text_property v n -> (forall k i, In (k, i) (devices_of m') -> is_of x i -> has_set EO i n y Q) ->
  forall k j, In (k, j) (devices_of m2) -> is_of x j -> has_set EO j n y Q.
Proof.
  intros m' x n y Q LK T H. apply (set_twin (henv EO m') _ _ (l_edited _ LK) (l_read _ LK) (l_devices _ LK) EO x n y Q); [reflexivity|reflexivity|exact T|exact H].
Qed.
Lemma all_set2 : forall m' x, linked m' -> (exists k i, In (k, i) (devices_of m') /\ is_of x i) -> exists k j, In (k, j) (devices_of m2) /\ is_of x j.
Proof. intros m' x LK. exact (some_twin (henv EO m') _ _ (l_edited _ LK) (l_read _ LK) (l_devices _ LK) x). Qed.

Theorem hw_cpus : forall n, s_cpus s = Some n ->
  (forall k i, In (k, i) (devices_of m2) -> is_of CPU i -> has_set EO i VIRTUAL_QUANTITY (VStr (zdec n)) (plist s)) /\
  exists k i, In (k, i) (devices_of m2) /\ is_of CPU i.
Proof.
  intros n Hn. destruct run_linked as (m' & LK). destruct (EditHwProps.C53_cpus _ _ _ _ _ _ _ _ n run_vm (l_edit _ LK) Hn) as [A B]. split; [|exact (all_set2 m' _ LK B)].
  apply (all_set m' _ _ _ _ LK); [intros [F|F]; destruct v; discriminate F|exact A].
Qed.
Theorem hw_memory : forall n, s_memory s = Some n ->
  (forall k i, In (k, i) (devices_of m2) -> is_of MEMORY i ->
     has_set EO i VIRTUAL_QUANTITY (VStr (zdec n)) (plist s) /\ has_set EO i ALLOCATION_UNITS (VStr (L "byte * 2^20")) (plist s)) /\
  exists k i, In (k, i) (devices_of m2) /\ is_of MEMORY i.
Proof.
  intros n Hn. destruct run_linked as (m' & LK). destruct (EditHwProps.C53_memory _ _ _ _ _ _ _ _ n run_vm (l_edit _ LK) Hn) as [A B]. split; [|exact (all_set2 m' _ LK B)].
  intros k i Hi Ho. split.
  - apply (all_set m' MEMORY _ _ _ LK) with (k := k); [intros [F|F]; destruct v; discriminate F| |exact Hi|exact Ho]. intros k1 i1 H1 H2. exact (proj1 (A k1 i1 H1 H2)).
  - apply (all_set m' MEMORY _ _ _ LK) with (k := k); [intros [F|F]; destruct v; discriminate F| |exact Hi|exact Ho]. intros k1 i1 H1 H2. exact (proj2 (A k1 i1 H1 H2)).
Qed.
Theorem hw_types :
  (forall l types, s_nic_types s = Some l -> canonical_types l = Ok (map Some types) -> types <> [] ->
     forall k i, In (k, i) (devices_of m2) -> is_of NIC i -> has_set EO i RESOURCE_SUB_TYPE (VTuple types) (plist s)) /\
  (forall l, s_scsi s = Some l -> l <> [] ->
     forall k i, In (k, i) (devices_of m2) -> is_of SCSI i -> has_set EO i RESOURCE_SUB_TYPE (VTuple l) (plist s)) /\
  (forall l, s_ide s = Some l -> l <> [] ->
     forall k i, In (k, i) (devices_of m2) -> is_of IDE i -> has_set EO i RESOURCE_SUB_TYPE (VTuple l) (plist s)).
Proof.
  destruct run_linked as (m' & LK). destruct (EditHwProps.C53_types _ _ _ _ _ _ _ _ run_vm (l_edit _ LK)) as (A & B & C).
  assert (T : ~ text_property v RESOURCE_SUB_TYPE) by (intros [F|F]; destruct v; discriminate F). split; [|split].
  - intros l types H1 H2 H3. apply (all_set m' _ _ _ _ LK T). exact (A l types H1 H2 H3).
  - intros l H1 H2. apply (all_set m' _ _ _ _ LK T). exact (B l H1 H2).
  - intros l H1 H2. apply (all_set m' _ _ _ _ LK T). exact (C l H1 H2).
Qed.

Lemma out_targets : forall m', linked m' -> targets EO m2 s = targets EO m' s.
Proof. intros m' LK. unfold targets. now rewrite (l_profiles _ LK). Qed.
Lemma out_number : forall m' rt n Q, linked m' -> number_set EO m m' rt n Q -> number_set EO m m2 rt n Q.
Proof.
  intros m' rt n Q LK H q Hq. destruct (H q Hq) as (ks & ks' & A & B & C). exists ks, ks'. rewrite (l_henv _ LK). split; [exact A|]. split; [|exact C]. now apply (twins m' LK).
Qed.
Theorem hw_nics : forall n, s_nics s = Some n -> s_delete_others s = false -> NoDup (targets EO m2 s) -> (0 <= n)%Z -> countable EO m s NIC ->
  number_set EO m m2 (L "ethernet") n (targets EO m2 s).
Proof.
  intros n Hn Hd ND H0 Hc. destruct run_linked as (m' & LK). rewrite (out_targets m' LK) in *. destruct (EditHwProps.C53_nics _ _ _ _ _ _ _ _ n run_vm (l_edit _ LK) Hn Hd ND) as [_ A]. exact (out_number m' _ _ _ LK (A H0 Hc)).
Qed.
Theorem hw_serials : forall n, s_serials s = Some n -> s_delete_others s = false -> NoDup (targets EO m2 s) -> (0 <= n)%Z -> countable EO m s SERIAL ->
  number_set EO m m2 (L "serial") n (targets EO m2 s).
Proof.
  intros n Hn Hd ND H0 Hc. destruct run_linked as (m' & LK). rewrite (out_targets m' LK) in *. destruct (EditHwProps.C53_serials _ _ _ _ _ _ _ _ n run_vm (l_edit _ LK) Hn Hd ND) as [_ A]. exact (out_number m' _ _ _ LK (A H0 Hc)).
Qed.

Lemma out_turn : forall m' rt n value Q, linked m' -> in_turn EO m' rt n value Q -> in_turn EO m2 rt n value Q.
Proof.
  intros m' rt n value Q LK (ks & A & B). exists ks. rewrite (l_henv _ LK).
  pose proof (wanted_twin (henv EO m') _ _ (l_edited _ LK) (l_read _ LK) (l_devices _ LK) rt ks) as WT. split; [now apply WT|].
  intros j k x Hk Hx. destruct (B j k x Hk Hx) as (i & Hi & C). apply WT in A as A2. destruct A2 as (_ & _ & A2). apply nth_error_In in Hk. apply A2 in Hk as (i2 & Hi2 & _). exists i2. split; [exact Hi2|].
  pose proof (same_key (henv EO m') _ _ (l_edited _ LK) (l_devices _ LK) k i i2 Hi Hi2) as S.
  intros q Hq Hp. apply (present_twin (henv EO m') _ _ (l_edited _ LK) (l_read _ LK) (l_config _ LK) (l_config2 _ LK) k i i2 q Hi Hi2 S) in Hp. rewrite <- (C q Hq Hp). exact (S n q).
Qed.
Lemma out_most : forall m' rt Q n, linked m' -> most_devices EO m' rt Q n -> most_devices EO m2 rt Q n.
Proof.
  intros m' rt Q n LK [A (p & ks & B & C & D)]. unfold most_devices. rewrite (l_henv _ LK). split.
  - intros p' ks' Hp Hk. apply (A p' ks' Hp). now apply (twins m' LK).
  - exists p, ks. split; [exact B|]. split; [now apply (twins m' LK)|exact D].
Qed.
Theorem hw_connectivity : forall l, s_connectivity s = Some l -> s_profiles s <> Some [] -> NoDup (targets EO m2 s) -> in_turn EO m2 (L "serial") ADDRESS (or_none l) (targets EO m2 s).
Proof.
  intros l Hl Hs ND. destruct run_linked as (m' & LK). rewrite (out_targets m' LK) in *. exact (out_turn m' _ _ _ _ LK (proj1 (EditHwProps.C53_connectivity _ _ _ _ _ _ _ _ l run_vm (l_edit _ LK) Hl Hs ND))).
Qed.
Theorem hw_macs : forall l, s_macs s = Some l -> s_profiles s <> Some [] -> in_turn EO m2 (L "ethernet") ADDRESS (or_last l) (targets EO m2 s).
Proof.
  intros l Hl Hs. destruct run_linked as (m' & LK). rewrite (out_targets m' LK). exact (out_turn m' _ _ _ _ LK (EditHwProps.C53_macs _ _ _ _ _ _ _ _ l run_vm (l_edit _ LK) Hl Hs)).
Qed.
Theorem hw_networks : forall l, s_networks s = Some l -> s_profiles s <> Some [] -> NoDup (targets EO m2 s) ->
  exists most, most_devices EO m2 (L "ethernet") (targets EO m2 s) most /\
    in_turn EO m2 (L "ethernet") CONNECTION (or_last (expand_list_wildcard l (Z.to_nat most))) (targets EO m2 s).
Proof.
  intros l Hl Hs ND. destruct run_linked as (m' & LK). rewrite (out_targets m' LK) in *. destruct (EditHwProps.C53_networks _ _ _ _ _ _ _ _ l run_vm (l_edit _ LK) Hl Hs ND) as (most & A & B & _).
  exists most. split; [exact (out_most m' _ _ _ LK A)|exact (out_turn m' _ _ _ _ LK B)].
Qed.
Theorem hw_nic_names : forall l, s_nic_names s = Some l -> s_profiles s <> Some [] -> NoDup (targets EO m2 s) ->
  exists most, most_devices EO m2 (L "ethernet") (targets EO m2 s) most /\
    named_in_turn EO m2 (L "ethernet") (expand_list_wildcard l (Z.to_nat most)) (targets EO m2 s).
Proof.
  intros l Hl Hs ND. destruct run_linked as (m' & LK). rewrite (out_targets m' LK) in *. destruct (EditHwProps.C53_nic_names _ _ _ _ _ _ _ _ l run_vm (l_edit _ LK) Hl Hs ND) as (most & A & ks & W & B).
  exists most. split; [exact (out_most m' _ _ _ LK A)|]. exists ks. rewrite (l_henv _ LK).
  pose proof (wanted_twin (henv EO m') _ _ (l_edited _ LK) (l_read _ LK) (l_devices _ LK) (L "ethernet") ks) as WT. split; [now apply WT|].
  intros j k t Hk Ht Hne. destruct (B j k t Hk Ht Hne) as (i & Hi & C). apply WT in W as A2. destruct A2 as (_ & _ & A2). apply nth_error_In in Hk. apply A2 in Hk as (i2 & Hi2 & _). exists i2. split; [exact Hi2|].
  pose proof (same_key (henv EO m') _ _ (l_edited _ LK) (l_devices _ LK) k i i2 Hi Hi2) as S.
  pose proof (good1 (henv EO m') _ (l_edited _ LK) k i Hi) as G1. pose proof (good2 (henv EO m') _ (l_read _ LK) k i2 Hi2) as G2.
  intros PN q Hq Hp. apply (present_twin (henv EO m') _ _ (l_edited _ LK) (l_read _ LK) (l_config _ LK) (l_config2 _ LK) k i i2 q Hi Hi2 S) in Hp.
  pose proof (plain_name_twin EO i i2 t G1 G2 S PN) as PI.
  rewrite <- (C PI q Hq Hp). exact (S _ q).
Qed.

(** ** The rest *)
Lemma beside_of : forall vv sec, beside_system vv sec = filter (fun c => negb (is_item_elem vv c)) (rest_of_section vv sec).
Proof.
  intros vv sec. unfold beside_system, other_children, rest_of_section. induction (echildren sec) as [|x l IH]; [reflexivity|]. cbn [filter].
  destruct (is_item_elem vv x) eqn:A, (str_eqb (etag x) (SYSTEM vv)) eqn:B; cbn [negb filter]; rewrite ?A, ?B; cbn [negb]; rewrite IH; reflexivity.
Qed.
Lemma beyond_of : forall vv e, beyond (envelope_sections vv) e = filter (fun x => negb (existsb (fun t => child_match (fst t) (snd t) x) (envelope_sections vv))) (rest_of vv e).
Proof.
  intros vv e. unfold beyond, rest_of. symmetry. apply filter_filter. intros x Hx. apply negb_true_iff in Hx. apply negb_true_iff. unfold envelope_sections in Hx. cbn [existsb fst snd] in Hx.
  repeat apply orb_false_elim in Hx as [? Hx]. apply orb_false_iff. split; [assumption|]. rewrite <- deploy_match. assumption.
Qed.
Theorem hw_rest : same_beside w1 w' o o2.
Proof.
  destruct run_linked as (m' & LK). destruct (l_same _ LK) as [P1 P2 P3 P4 P5 P6 P7 P8 P9 P10 P11 P12 P13 P14 P15].
  pose proof (run_moved _ _ _ _ _ _ (l_edit _ LK)) as [_ M2 M3 M4 M5]. change (e_ver EO) with v in *. cbn [vm_of_package v_doc v_sec p_env] in M2, M3, M4, M5.
  cbn [package_of_vm o_version o_envelope o_references o_disks o_system o_product o_annotation o_hardware_section o_profiles o_platform o_files] in *.
  constructor; try assumption.
  - destruct P5 as (Q1 & Q2 & Q3). destruct M4 as (N1 & N2 & _). split; [congruence|]. split; [congruence|]. unfold beside_system.
    assert (X : filter (fun e => negb (str_eqb (etag e) (SYSTEM v))) (other_children v (o_hardware_section o)) = filter (fun e => negb (str_eqb (etag e) (SYSTEM v))) (other_children v (v_sec m'))).
    { change (beside_system v (o_hardware_section o) = beside_system v (v_sec m')). rewrite !beside_of. now rewrite M5. }
    rewrite X. apply SaveProofs.same_filter; [|exact Q3]. intros e e' Se. now rewrite (SaveProofs.same_tag _ _ Se).
  - destruct P13 as (Q1 & Q2 & Q3). destruct M2 as (N1 & N2 & _). split; [congruence|]. split; [congruence|]. rewrite beyond_of in Q3 |- *. rewrite M3 in Q3. exact Q3.
Qed.
Lemma findall_others : forall vv sec t, ~ In t (item_tags vv) -> findall t sec = filter (fun c => str_eqb (etag c) t) (other_children vv sec).
Proof.
  intros vv sec t H. unfold findall, other_children. symmetry. apply filter_filter. intros x Hx. apply str_eqb_eq in Hx. apply negb_true_iff. unfold is_item_elem. destruct (mem_str _ _) eqn:M; [|reflexivity].
  elim H. rewrite <- Hx. now apply mem_str_In.
Qed.
Lemma text_kept : forall t x y, same_content x y -> (forall e, In e (findall t x) -> echildren e = []) -> findtext t y = findtext t x.
Proof.
  intros t x y S H. unfold findtext, findall in *. pose proof (SaveProofs.same_filter (fun c => str_eqb (etag c) t) _ _ (fun e e' Se => f_equal (fun z => str_eqb z t) (SaveProofs.same_tag _ _ Se)) (SaveProofs.same_children _ _ S)) as F.
  destruct F as [|a b l l' Sa _]; [reflexivity|]. specialize (H a (or_introl eq_refl)). inversion Sa as [tg at1 tx tx' tl tl' cs cs' _ Et Ea Eb]. subst. cbn [echildren etext] in *. now rewrite (Et H).
Qed.
Theorem hw_system_types :
  (s_system_types s = None -> system_types EO (o_hardware_section o2) = system_types EO (o_hardware_section o)) /\
  (forall l, s_system_types s = Some l -> plain_words l -> system_types EO (o_hardware_section o2) = Some l).
Proof.
  destruct run_linked as (m' & LK). destruct (EditHwProps.C53_system_types _ _ _ _ _ _ _ _ run_vm (l_edit _ LK)) as [A B].
  assert (X : system_types EO (o_hardware_section o2) = system_types EO (v_sec m')).
  { pose proof (sp_section _ _ _ _ _ (l_same _ LK)) as (_ & _ & Q3). pose proof (l_types _ LK) as PT. unfold plain_types in PT. cbn [package_of_vm o_version o_hardware_section] in *.
    assert (NI : ~ In (SYSTEM v) (item_tags v)) by (destruct v; intros F; apply mem_str_In in F; discriminate F).
    pose proof (SaveProofs.same_filter (fun c => str_eqb (etag c) (SYSTEM v)) _ _ (fun e e' Se => f_equal (fun z => str_eqb z (SYSTEM v)) (SaveProofs.same_tag _ _ Se)) Q3) as F.
    rewrite <- (findall_others v (v_sec m') _ NI), <- (findall_others v (o_hardware_section o2) _ NI) in F.
    unfold system_types. change (e_ver EO) with v. destruct (findall (SYSTEM v) (v_sec m')) as [|a l], (findall (SYSTEM v) (o_hardware_section o2)) as [|b l']; [reflexivity|inversion F|inversion F|]. assert (Sa : same_content a b) by now inversion F. rewrite (text_kept _ a b Sa); [reflexivity|]. intros e He. apply (PT a e); [|exact He]. now left. }
  rewrite X. split; [intros H; now rewrite (A H)|]. intros l H W. exact (proj1 (B l H W)).
Qed.

(** The networks *)
Theorem hw_networks_stay : forall m', edit_hardware EO U (P (o_platform o)) m s = Ok m' ->
  forall n, In n (networks v (net_of m2)) -> In n (networks v (net_of m)) \/ exists t, n = Some t /\ In (Confirmed (AskNetwork t) true) (v_log m').
Proof.
  intros m' EM n Hn. destruct run_linked as (m'' & LK). rewrite <- (same_run _ _ LK EM) in LK.
  destruct (EditHwProps.C53_networks_stay _ _ _ _ _ _ _ _ run_vm EM) as [_ A]. apply A. change (e_ver EO) with v.
  pose proof (sp_version _ _ _ _ _ (l_same _ LK)) as V2. cbn [package_of_vm o_version] in V2. pose proof (opened_networks _ _ _ _ _ _ _ _ OUT) as N2. rewrite V2 in N2.
  destruct (sp_networks _ _ _ _ _ (l_same _ LK)) as (sec & _ & SN). cbn [package_of_vm o_version o_networks] in SN.
  assert (C : forall d0, networks v d0 = column (NETWORK v) (NETWORK_NAME v) (network_section v d0)) by (intros d0; unfold networks, column, findall; destruct (network_section v d0); reflexivity).
  rewrite C in Hn |- *. rewrite N2 in Hn. exact (proj1 (proj1 (SN n) Hn)).
Qed.
End Run.
