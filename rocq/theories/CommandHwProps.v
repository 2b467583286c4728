(** Whole runs of edit-hardware (C71): the package is read, changed and written; whoever opens the
    output finds the hardware that was asked for, and all else as it was. *)
From Coq Require Import List Ascii Bool ZArith String.
Import ListNotations.
From Verif Require Import PyBase PyBaseProofs PyDict XmlModel XmlSpec XmlProps NamesModel ItemModel ItemSpec ItemProps ItemEffectProofs GenerateSpec HardwareModel HardwareSpec HardwareProps HardwareIdProofs CountSpec FindSpec RereadSpec
  ProfileModel ProfileSpec ProfileProps NetworkModel NetworkSpec DriveModel EnvPropModel EditPropModel InfoModel PlatformModel RefreshModel RefreshSpec ManifestSpec RawModel PathModel PathSpec TarModel TarSpec TarProps ArchiveProofs WildListModel
  OvfWriteModel OvfWriteSpec OvfWriteProps OpenModel OpenSpec OpenProps SaveModel SaveSpec SaveProps EditHwModel EditHwSpec EditHwProps CommandModel CommandSpec CommandProps CommandHwModel CommandHwSpec CommandHwProofs2.
From Verif Require Import CountProps.
From Verif Require SaveProofs FindProofs WildcardItemProofs ProfileDocProofs CommandHwProofs.
Local Open Scope nat_scope.

Section Runs.
Variables (E : env) (digest : str -> str -> str) (print : elem -> str) (parse : str -> option elem) (capacity : str -> result str) (fuel : nat).
Variables (U : user) (P : platform -> hw_platform) (s : settings) (w w' : world) (d : list str) (u input : str) (same : bool) (output : str) (o : ovf).
Variables (d2 : list str) (u2 : str).
(** [EO] knows the version and the profiles of the input; the package in the output is opened
    with another working directory. *)
Let EO := env_of E o.
Let w1 := after_opening w (path_of (d ++ [u])) input.
Let reopened (o2 : ovf) : Prop := (forall c, In c (d2 ++ [u2]) -> proper c) /\ factory E digest parse w' (path_of (d2 ++ [u2])) (destination input output) [] = Ok o2.
Let ran : Prop := hw_run E digest print parse capacity fuel U P s w w' d u input same output o.

(** The output can be opened. *)
Theorem C71_opens : ran -> (forall c, In c (d2 ++ [u2]) -> proper c) -> exists o2, reopened o2.
Proof.
  intros R PD. destruct (run_split E digest print parse capacity fuel U P s w w' d u input same output o d2 u2 R PD) as (m' & _ & _ & _ & o2 & H & _). exists o2. now split.
Qed.

(** The profiles in the output are the old ones and those given, without those deleted; none is
    made or deleted without consent. *)
Theorem C71_profiles : forall o2 m', ran -> reopened o2 -> edit_hardware EO U (P (o_platform o)) (vm_of_package o) s = Ok m' -> exists D,
  (forall q, In q (o_profiles o2) <-> (In q (o_profiles o) \/ exists l, s_profiles s = Some l /\ In q l) /\ ~ In q D) /\
  (forall q, In q (o_profiles o2) -> ~ In q (o_profiles o) -> In (Confirmed (AskCreate q) true) (v_log m')) /\
  (s_delete_others s = false -> D = []) /\
  (s_delete_others s = true -> s_profiles s = None -> In (Confirmed AskDeleteAll true) (v_log m') /\ forall q, In q D <-> In q (o_profiles o)) /\
  (s_delete_others s = true -> (forall l x, In x (u_order U l) <-> In x l) -> forall l, s_profiles s = Some l ->
     (forall q, In q D -> In q (o_profiles o) /\ ~ In q l /\ In (Confirmed (AskDelete q) true) (v_log m')) /\
     (forall q, In q (o_profiles o) -> ~ In q l -> ~ In q D -> In (Confirmed (AskDelete q) false) (v_log m'))).
Proof. intros o2 m' R [PD OUT]. exact (hw_profiles E digest print parse capacity fuel U P s w w' d u input same output o d2 u2 R PD o2 OUT m'). Qed.

(** Every profile that was not given and not deleted has the same devices with the same values in
    the output as in the input. *)
Theorem C71_other_profiles : forall o2 q p ps, ran -> reopened o2 ->
  s_profiles s = Some (p :: ps) -> In q (o_profiles o) -> In q (o_profiles o2) -> ~ In q (p :: ps) -> alike_under EO q (vm_of_package o) (vm_of_package o2).
Proof. intros o2 q p ps R [PD OUT]. exact (hw_other_profiles E digest print parse capacity fuel U P s w w' d u input same output o d2 u2 R PD o2 OUT q p ps). Qed.

(** The devices of types for which no option is given are the same in the output. *)
Theorem C71_other_devices : forall o2 t, ran -> reopened o2 ->
  s_delete_others s = false -> ~ concerned EO (vm_of_package o) s t -> alike_of_type EO t (o_hardware o) (o_hardware o2).
Proof. intros o2 t R [PD OUT]. exact (hw_other_devices E digest print parse capacity fuel U P s w w' d u input same output o d2 u2 R PD o2 OUT t). Qed.

(** The number of CPUs, and the memory in megabytes, are those given. *)
Theorem C71_cpus : forall o2 n, ran -> reopened o2 -> s_cpus s = Some n ->
  (forall k i, In (k, i) (o_hardware o2) -> is_of CPU i -> has_set EO i VIRTUAL_QUANTITY (VStr (zdec n)) (plist s)) /\
  exists k i, In (k, i) (o_hardware o2) /\ is_of CPU i.
Proof. intros o2 n R [PD OUT]. exact (hw_cpus E digest print parse capacity fuel U P s w w' d u input same output o d2 u2 R PD o2 OUT n). Qed.
Theorem C71_memory : forall o2 n, ran -> reopened o2 -> s_memory s = Some n ->
  (forall k i, In (k, i) (o_hardware o2) -> is_of EditHwSpec.MEMORY i ->
     has_set EO i VIRTUAL_QUANTITY (VStr (zdec n)) (plist s) /\ has_set EO i ALLOCATION_UNITS (VStr (L "byte * 2^20")) (plist s)) /\
  exists k i, In (k, i) (o_hardware o2) /\ is_of EditHwSpec.MEMORY i.
Proof. intros o2 n R [PD OUT]. exact (hw_memory E digest print parse capacity fuel U P s w w' d u input same output o d2 u2 R PD o2 OUT n). Qed.

(** The types of the cards and controllers are those given. *)
Theorem C71_types : forall o2, ran -> reopened o2 ->
  (forall l types, s_nic_types s = Some l -> canonical_types l = Ok (map Some types) -> types <> [] ->
     forall k i, In (k, i) (o_hardware o2) -> is_of NIC i -> has_set EO i RESOURCE_SUB_TYPE (VTuple types) (plist s)) /\
  (forall l, s_scsi s = Some l -> l <> [] ->
     forall k i, In (k, i) (o_hardware o2) -> is_of SCSI i -> has_set EO i RESOURCE_SUB_TYPE (VTuple l) (plist s)) /\
  (forall l, s_ide s = Some l -> l <> [] ->
     forall k i, In (k, i) (o_hardware o2) -> is_of IDE i -> has_set EO i RESOURCE_SUB_TYPE (VTuple l) (plist s)).
Proof. intros o2 R [PD OUT]. exact (hw_types E digest print parse capacity fuel U P s w w' d u input same output o d2 u2 R PD o2 OUT). Qed.

(** Under each of the profiles concerned there are as many cards, and serial ports, as asked for. *)
Theorem C71_numbers : forall o2 n, ran -> reopened o2 -> s_delete_others s = false -> NoDup (targets EO (vm_of_package o2) s) -> (0 <= n)%Z ->
  (s_nics s = Some n -> countable EO (vm_of_package o) s NIC -> number_set EO (vm_of_package o) (vm_of_package o2) (L "ethernet") n (targets EO (vm_of_package o2) s)) /\
  (s_serials s = Some n -> countable EO (vm_of_package o) s SERIAL -> number_set EO (vm_of_package o) (vm_of_package o2) (L "serial") n (targets EO (vm_of_package o2) s)).
Proof.
  intros o2 n R [PD OUT] Hd ND H0. split; intros Hn Hc.
  - exact (hw_nics E digest print parse capacity fuel U P s w w' d u input same output o d2 u2 R PD o2 OUT n Hn Hd ND H0 Hc).
  - exact (hw_serials E digest print parse capacity fuel U P s w w' d u input same output o d2 u2 R PD o2 OUT n Hn Hd ND H0 Hc).
Qed.

(** MAC addresses, networks and names are given to the cards in turn, and connections to the
    serial ports. *)
Theorem C71_macs : forall o2 l, ran -> reopened o2 -> s_macs s = Some l -> s_profiles s <> Some [] ->
  in_turn EO (vm_of_package o2) (L "ethernet") ADDRESS (or_last l) (targets EO (vm_of_package o2) s).
Proof. intros o2 l R [PD OUT]. exact (hw_macs E digest print parse capacity fuel U P s w w' d u input same output o d2 u2 R PD o2 OUT l). Qed.
Theorem C71_connectivity : forall o2 l, ran -> reopened o2 -> s_connectivity s = Some l -> s_profiles s <> Some [] -> NoDup (targets EO (vm_of_package o2) s) ->
  in_turn EO (vm_of_package o2) (L "serial") ADDRESS (or_none l) (targets EO (vm_of_package o2) s).
Proof. intros o2 l R [PD OUT]. exact (hw_connectivity E digest print parse capacity fuel U P s w w' d u input same output o d2 u2 R PD o2 OUT l). Qed.
Theorem C71_networks : forall o2 l, ran -> reopened o2 -> s_networks s = Some l -> s_profiles s <> Some [] -> NoDup (targets EO (vm_of_package o2) s) ->
  exists most, most_devices EO (vm_of_package o2) (L "ethernet") (targets EO (vm_of_package o2) s) most /\
    in_turn EO (vm_of_package o2) (L "ethernet") CONNECTION (or_last (expand_list_wildcard l (Z.to_nat most))) (targets EO (vm_of_package o2) s).
Proof. intros o2 l R [PD OUT]. exact (hw_networks E digest print parse capacity fuel U P s w w' d u input same output o d2 u2 R PD o2 OUT l). Qed.
Theorem C71_nic_names : forall o2 l, ran -> reopened o2 -> s_nic_names s = Some l -> s_profiles s <> Some [] -> NoDup (targets EO (vm_of_package o2) s) ->
  exists most, most_devices EO (vm_of_package o2) (L "ethernet") (targets EO (vm_of_package o2) s) most /\
    named_in_turn EO (vm_of_package o2) (L "ethernet") (expand_list_wildcard l (Z.to_nat most)) (targets EO (vm_of_package o2) s).
Proof. intros o2 l R [PD OUT]. exact (hw_nic_names E digest print parse capacity fuel U P s w w' d u input same output o d2 u2 R PD o2 OUT l). Qed.

(** A network that is new in the output was agreed to. *)
Theorem C71_new_networks : forall o2 m', ran -> reopened o2 -> edit_hardware EO U (P (o_platform o)) (vm_of_package o) s = Ok m' ->
  forall n, In n (networks (o_version o) (net_of (vm_of_package o2))) ->
    In n (networks (o_version o) (net_of (vm_of_package o))) \/ exists t, n = Some t /\ In (Confirmed (AskNetwork t) true) (v_log m').
Proof. intros o2 m' R [PD OUT]. exact (hw_networks_stay E digest print parse capacity fuel U P s w w' d u input same output o d2 u2 R PD o2 OUT m'). Qed.

(** The system types are those given, or as they were. *)
Theorem C71_system_types : forall o2, ran -> reopened o2 ->
  (s_system_types s = None -> system_types EO (o_hardware_section o2) = system_types EO (o_hardware_section o)) /\
  (forall l, s_system_types s = Some l -> plain_words l -> system_types EO (o_hardware_section o2) = Some l).
Proof. intros o2 R [PD OUT]. exact (hw_system_types E digest print parse capacity fuel U P s w w' d u input same output o d2 u2 R PD o2 OUT). Qed.

(** All else in the package is as it was: the product, annotation, disks and files, and sections
    that COT knows nothing of. *)
Theorem C71_rest : forall o2, ran -> reopened o2 -> same_beside w1 w' o o2.
Proof. intros o2 R [PD OUT]. exact (hw_rest E digest print parse capacity fuel U P s w w' d u input same output o d2 u2 R PD o2 OUT). Qed.
End Runs.
Print Assumptions C71_opens.
Print Assumptions C71_profiles.
Print Assumptions C71_other_profiles.
Print Assumptions C71_other_devices.
Print Assumptions C71_cpus.
Print Assumptions C71_memory.
Print Assumptions C71_types.
Print Assumptions C71_numbers.
Print Assumptions C71_macs.
Print Assumptions C71_connectivity.
Print Assumptions C71_networks.
Print Assumptions C71_nic_names.
Print Assumptions C71_new_networks.
Print Assumptions C71_system_types.
Print Assumptions C71_rest.

(** ** A router in an archive, with a CPU device, a network card and a serial port *)
(** A check for devices without free texts *)
Definition value_b (x : value) : bool :=
  match x with VTuple l => forallb (fun t => negb (is_nil t) && negb (existsb (Ascii.eqb " "%char) t)) l | VStr _ => true end.
Definition profile_b (E : env) (k : str) (i : item) (p : profile) : bool :=
  match p with Some x => mem_str x (e_profiles E) && negb (is_nil x) && forallb (fun c => negb (is_space c)) x | None => true end &&
  match reports E i (INSTANCE_ID (e_ver E)) p with Ok (Some (VStr t)) => str_eqb t k | _ => false end.
Definition simple_b (E : env) (ki : str * item) : bool :=
  negb (is_nil (fst ki)) &&
  forallb (fun nd : str * vdict => mem_str (fst nd) (ITEM_CHILDREN (e_ver E)) && negb (is_text E (fst nd)) &&
    forallb (fun vs : value * pset => value_b (fst vs) && forallb (profile_b E (fst ki) (snd ki)) (snd vs)) (snd nd)) (i_props (snd ki)).
Lemma simple_one : forall E h k i, hw_reachable (e_ver E) h -> In (k, i) h -> simple_b E (k, i) = true -> writable E i /\ numbered E k i /\ known_profiles E i.
Proof.
  intros E h k i R Hi H. unfold simple_b in H. cbn [fst snd] in H. apply andb_prop in H as [HK H]. rewrite forallb_forall in H.
  assert (G : good_props (e_ver E) (i_props i)) by exact (proj2 (FindProofs.ids_good E h k i (reachable_ids _ _ R) Hi)).
  assert (X : forall n p x, own (i_props i) n p x -> In n (ITEM_CHILDREN (e_ver E)) /\ is_text E n = false /\ value_b x = true /\ profile_b E k i p = true).
  { intros n p x (dd & ss & A & B & C). specialize (H (n, dd) A). cbn [fst snd] in H. apply andb_prop in H as [H H3]. apply andb_prop in H as [H1 H2]. rewrite forallb_forall in H3. specialize (H3 (x, ss) B). cbn [fst snd] in H3.
    apply andb_prop in H3 as [H3 H4]. rewrite forallb_forall in H4. split; [now apply mem_str_In|]. split; [now apply negb_true_iff in H2|]. split; [exact H3|exact (H4 p C)]. }
  assert (Y : forall n x y, own (i_props i) n (Some x) y -> In x (e_profiles E) /\ x <> [] /\ ValidationSpec.spaceless x).
  { intros n x y Ho. destruct (X n (Some x) y Ho) as (_ & _ & _ & B). unfold profile_b in B. apply andb_prop in B as [B _]. apply andb_prop in B as [B B3]. apply andb_prop in B as [B1 B2]. split; [now apply mem_str_In|]. split; [now destruct x|].
    intros c Hc. rewrite forallb_forall in B3. specialize (B3 c Hc). now apply negb_true_iff in B3. }
  split; [constructor|split].
  - intros n p x Ho. left. exact (proj1 (X n p x Ho)).
  - intros n x y Ho. exact (proj2 (Y n x y Ho)).
  - intros p l t Ho Ht. destruct (X _ _ _ Ho) as (_ & _ & B & _). cbn [value_b] in B. rewrite forallb_forall in B. specialize (B t Ht). apply andb_prop in B as [B1 B2]. split; [now destruct t|]. intros F. apply negb_true_iff in B2.
    assert (Z : existsb (Ascii.eqb " "%char) t = true) by (apply existsb_exists; exists " "%char; split; [exact F|apply Ascii.eqb_refl]). congruence.
  - intros n q t HT HR. exfalso. revert HR. rewrite reports_nothing; [discriminate|exact G|]. intros y Hy. apply WildcardItemProofs.holds_own in Hy as (r & Hy). destruct (X n r y Hy) as (_ & B & _).
    destruct HT as [-> | ->]; unfold is_text, is_desc in B; rewrite str_eqb_refl in B; [discriminate B|]. now rewrite orb_true_r in B.
  - split; [now destruct k|]. intros n q y Ho. destruct (X n q y Ho) as (_ & _ & _ & B). unfold profile_b in B. apply andb_prop in B as [_ B]. destruct (reports E i (INSTANCE_ID (e_ver E)) q) as [[[t|]|]|]; try discriminate B. apply str_eqb_eq in B. now subst.
  - intros n x y Ho. exact (proj1 (Y n x y Ho)).
Qed.
Lemma simple_ok : forall E h, hw_reachable (e_ver E) h -> forallb (simple_b E) h = true ->
  forall k i, In (k, i) h -> writable E i /\ numbered E k i /\ known_profiles E i.
Proof. intros E h R H k i Hi. rewrite forallb_forall in H. exact (simple_one E h k i R Hi (H (k, i) Hi)). Qed.

Definition ch_section : elem := Elem (VIRTUAL_HW_SECTION V1) [] None None
  [Elem (INFO V1) [] (Some (L "hardware")) None [];
   an_item [] [rasd "InstanceID" "1"; rasd "ResourceType" "3"; rasd "VirtualQuantity" "4"];
   an_item [] [rasd "Connection" "Net 1"; rasd "InstanceID" "2"; rasd "ResourceType" "10"];
   an_item [] [rasd "InstanceID" "3"; rasd "ResourceType" "21"];
   an_item [] [rasd "InstanceID" "4"; rasd "ResourceType" "4"; rasd "VirtualQuantity" "256"; rasd "AllocationUnits" "byte * 2^20"]].
Definition ch_system : elem := Elem (VIRTUAL_SYSTEM V1) [] None None [cm_product; ch_section].
Definition ch_nets : elem := Elem (NETWORK_SECTION V1) [] None None (Elem (INFO V1) [] (Some (L "Networks")) None [] :: nets1).
Definition ch_root : elem := Elem (envelope_tag V1) [] None None [cm_refs; sv_disks; ch_nets; sv_deploy; ch_system].
Definition ch_platform (_ : platform) : hw_platform := anything.
(** "--profiles big new --system-type vmx-08 --cpus 8 --memory 512 --nic-types e1000 --mac-addresses ... --nic-networks ... --serial-connectivity ..." *)
Definition ch_settings : settings :=
  mkSettings (Some [L "big"; L "new"]) false (Some [L "vmx-08"]) (Some 8%Z) (Some 512%Z) (Some 1%Z) (Some [L "e1000"]) (Some [L "00:00:00:00:00:01"])
    (Some [L "Net 2"]) None None (Some 1%Z) (Some [L "telnet://localhost:1"]) None None.
Local Notation ch_edit := (edit_hardware_package env0 agrees ch_platform ch_settings).
Definition ch_open : result ovf := factory env0 sv_digest (fun _ => Some ch_root) ex_world (L "/tmp/cot") (L "/home/a.ova") [].
Definition ch_edited : elem :=
  match (do o <- ch_open; do o1 <- ch_edit o; prepare env0 sv_capacity 9 (after_opening ex_world (L "/tmp/cot") (L "/home/a.ova")) o1) with
  | Ok (e, _, _) => xml_reindent e 0
  | Err _ => ch_root
  end.
Definition ch_parse (t : str) : option elem := if str_eqb t (L "old") then Some ch_root else Some ch_edited.
Local Notation ch_run :=
  (command env0 sv_digest sv_print ch_parse sv_capacity 9 ch_edit ex_world (path_of ([L "tmp"] ++ [L "cot"])) (L "/home/a.ova") false (L "/out/b.ovf")).
Lemma ok_pair : forall p : world * result unit, snd p = Ok tt -> p = (fst p, Ok tt). Proof. intros [a b] H. cbn in *. now rewrite H. Qed.
Definition ch_package : ovf := some_package ch_open.
Definition ch_again : result ovf := factory env0 sv_digest ch_parse (fst ch_run) (L "/tmp/new") (L "/out/b.ovf") [].
Definition saw (n : str) (q : profile) (o : ovf) : list (str * option value) :=
  map (fun ki => (fst ki, match reports env0 (snd ki) n q with Ok x => x | Err _ => None end)) (o_hardware o).
Definition ch_wd : str := path_of ([L "tmp"] ++ [L "cot"]).
Definition ch_w1 : world := after_opening ex_world ch_wd (L "/home/a.ova").
Lemma ch_opened : factory env0 sv_digest ch_parse ex_world ch_wd (L "/home/a.ova") (L "/out/b.ovf") = Ok ch_package.
Proof. vm_compute. reflexivity. Qed.
Lemma edited_reached : forall E U P s o o1, open_vm (env_of E o) (o_envelope o) (o_hardware_section o) = Ok (vm_of_package o) ->
  edit_hardware_package E U P s o = Ok o1 -> hw_reachable (o_version o) (o_hardware o1).
Proof.
  intros E U P s o o1 V H. unfold edit_hardware_package in H. destruct (edit_hardware _ _ _ _ _) as [m'|] eqn:EM; [|discriminate H]. cbn [rbind] in H. injection H as <-.
  exact (ProfileDocProofs.o_hw _ _ (proj1 (CommandHwProofs.ed_ok' E U _ s o m' V EM))).
Qed.
Local Notation ch_result := (edit_hardware_package env0 agrees ch_platform ch_settings ch_package).
Definition ch_check {A} (f : ovf -> A) (b : A) : A := match ch_result with Ok x => f x | Err _ => b end.
Lemma ch_after : forall A (f : ovf -> A) b o1, ch_result = Ok o1 -> ch_check f b = b -> f o1 = b.
Proof. intros A f b o1 H. unfold ch_check. rewrite H. exact (fun x => x). Qed.
Definition plain_b (o : ovf) : bool :=
  forallb (fun x => negb (is_item_elem V1 x) || forallb (fun c => is_nil (echildren c) && mem_str (strip_ns (etag c)) (ITEM_CHILDREN V1)) (echildren x)) (echildren (o_hardware_section o)).
Definition types_b (o : ovf) : bool := forallb (fun y => forallb (fun e => is_nil (echildren e)) (findall (VIRTUAL_SYSTEM_TYPE env0) y)) (findall (SYSTEM V1) (o_hardware_section o)).
Lemma ch_version : ch_check o_version V1 = V1. Proof. vm_compute. reflexivity. Qed.
Lemma ch_references : ch_check o_references cm_refs = cm_refs. Proof. vm_compute. reflexivity. Qed.
Lemma ch_files : ch_check o_files [(L "sub/d.vmdk", InTar (L "/home/a.ova") (L "./sub/d.vmdk"))] = [(L "sub/d.vmdk", InTar (L "/home/a.ova") (L "./sub/d.vmdk"))]. Proof. vm_compute. reflexivity. Qed.
Lemma ch_simple : ch_check (fun o => forallb (simple_b (env_of env0 o)) (o_hardware o)) true = true. Proof. vm_compute. reflexivity. Qed.
Lemma ch_plain : ch_check plain_b true = true. Proof. vm_compute. reflexivity. Qed.
Lemma ch_types : ch_check types_b true = true. Proof. vm_compute. reflexivity. Qed.
Lemma ch_was : o_version ch_package = V1. Proof. vm_compute. reflexivity. Qed.
Lemma ch_fields : forall o1, ch_result = Ok o1 ->
  o_version o1 = V1 /\ o_references o1 = cm_refs /\ o_files o1 = [(L "sub/d.vmdk", InTar (L "/home/a.ova") (L "./sub/d.vmdk"))] /\
  hw_reachable V1 (o_hardware o1) /\ forallb (simple_b (env_of env0 o1)) (o_hardware o1) = true /\ plain_b o1 = true /\ types_b o1 = true.
Proof.
  intros o1 H. split; [exact (ch_after _ _ _ o1 H ch_version)|]. split; [exact (ch_after _ _ _ o1 H ch_references)|]. split; [exact (ch_after _ _ _ o1 H ch_files)|].
  split; [rewrite <- ch_was; exact (edited_reached _ _ _ _ _ _ (CommandHwProofs.opened_vm _ _ _ _ _ _ _ _ ch_opened) H)|].
  split; [exact (ch_after _ _ _ o1 H ch_simple)|]. split; [exact (ch_after _ _ _ o1 H ch_plain)|exact (ch_after _ _ _ o1 H ch_types)].
Qed.
Lemma ch_writable : forall o1, ch_result = Ok o1 -> can_be_written env0 ch_w1 ch_wd (L "/out/b.ovf") o1 /\ plain_types env0 o1.
Proof.
  intros o1 H. destruct (ch_fields o1 H) as (F1 & F2 & F3 & F4 & F5 & F6 & F7). split; [constructor|].
  - apply (simple_ok (env_of env0 o1)); [|exact F5]. change (hw_reachable (o_version o1) (o_hardware o1)). now rewrite F1.
  - rewrite F1. intros x c Hx Ix Hc. unfold plain_b in F6. rewrite forallb_forall in F6. specialize (F6 x Hx). apply orb_prop in F6 as [F6|F6].
    + apply negb_true_iff in F6. unfold is_item_elem in F6. destruct Ix as [Ix|[Ix|Ix]]; rewrite Ix in F6; discriminate F6.
    + rewrite forallb_forall in F6. specialize (F6 c Hc). apply andb_prop in F6 as [A B]. split; [now destruct (echildren c)|now apply mem_str_In].
  - rewrite F1. intros F. discriminate F.
  - assert (P1 : TarSpec.plain_name (L "sub/d.vmdk") [L "sub"; L "d.vmdk"]) by (split; [discriminate|]; split; [intros c [<-|[<-|[]]]; repeat split; vm_compute; intuition discriminate|reflexivity]).
    apply (fits_descriptor _ _ _ _ [L "out"] (L "b") ex_data); [reflexivity|discriminate| | | |].
    + intros c [<-|[]]. repeat split; vm_compute; intuition discriminate.
    + split; [vm_compute; intuition discriminate|]. exists "b"%char. split; [now left|discriminate].
    + vm_compute. intuition discriminate.
    + assert (NM : names_in V1 cm_refs = [L "sub/d.vmdk"]) by (vm_compute; reflexivity). rewrite F1, F2, F3, NM. constructor.
      * repeat constructor. intros [].
      * repeat constructor. intros [].
      * intros h. reflexivity.
      * intros h [<-|[]]. split; [now exists [L "sub"; L "d.vmdk"]|]. repeat split; vm_compute; intuition discriminate.
      * intros h r [X|[]]; injection X as <- <-. vm_compute. reflexivity.
      * intros h d n [X|[]]; discriminate X.
      * intros h t n [X|[]]; injection X as <- <- <-. reflexivity.
  - intros y e Hy He. rewrite F1 in Hy. unfold types_b in F7. rewrite forallb_forall in F7. specialize (F7 y Hy). rewrite forallb_forall in F7.
    assert (VT : VIRTUAL_SYSTEM_TYPE (env_of env0 o1) = VIRTUAL_SYSTEM_TYPE env0) by (unfold VIRTUAL_SYSTEM_TYPE; change (e_ver (env_of env0 o1)) with (o_version o1); now rewrite F1).
    rewrite VT in He. specialize (F7 e He). now destruct (echildren e).
Qed.
Lemma countable_of : forall E m s w p ps, e_ver E = V1 -> s_profiles s = Some (p :: ps) -> forallb (fun ki => same_b (snd ki)) (devices_of m) = true -> countable E m s w.
Proof. intros E m s w p ps V S H k i Hi N. rewrite V, S. exact (same_b_ok _ H k i Hi). Qed.
(** All theorems apply to this run, and the output is as they say. *)
Example C71_example :
  hw_run env0 sv_digest sv_print ch_parse sv_capacity 9 agrees ch_platform ch_settings ex_world (fst ch_run) [L "tmp"] (L "cot") (L "/home/a.ova") false (L "/out/b.ovf") ch_package /\
  NoDup (targets (env_of env0 ch_package) (vm_of_package (some_package ch_again)) ch_settings) /\
  countable (env_of env0 ch_package) (vm_of_package ch_package) ch_settings NIC /\ countable (env_of env0 ch_package) (vm_of_package ch_package) ch_settings SERIAL /\
  (let o2 := some_package ch_again in
   o_profiles o2 = [L "small"; L "big"; L "new"] /\
   saw VIRTUAL_QUANTITY (Some (L "big")) o2 = [(L "1", Some (VStr (L "8"))); (L "2", None); (L "3", None); (L "4", Some (VStr (L "512")))] /\
   saw VIRTUAL_QUANTITY (Some (L "small")) o2 = [(L "1", Some (VStr (L "4"))); (L "2", None); (L "3", None); (L "4", Some (VStr (L "256")))] /\
   map snd (saw CONNECTION (Some (L "new")) o2) = [None; Some (VStr (L "Net 2")); None; None] /\
   map snd (saw ADDRESS (Some (L "new")) o2) = [None; Some (VStr (L "00:00:00:00:00:01")); Some (VStr (L "telnet://localhost:1")); None] /\
   map snd (saw RESOURCE_SUB_TYPE (Some (L "big")) o2) = [None; Some (VTuple [L "E1000"]); None; None] /\
   system_types env0 (o_hardware_section o2) = Some [L "vmx-08"] /\ o_complaints o2 = []).
Proof.
  split; [|split; [apply nodup_p_ok; vm_compute; reflexivity|split; [|split; [|vm_compute; repeat split]]]].
  - constructor.
    + intros x c H; injection H as <-; eexists; split; [vm_compute; reflexivity|]; split; [vm_compute; discriminate|reflexivity].
    + intros a x; split; [discriminate|]; intros c [<-|[]]; vm_compute; tauto.
    + intros c [<-|[<-|[]]]; vm_compute; repeat split; intuition discriminate.
    + intros t r H. assert (X : etag r = etag ch_root).
      { unfold ch_parse in H. assert (Y : forall x, Some x = Some r -> r = x) by (intros x Q; now inversion Q). destruct (str_eqb t (L "old")); apply Y in H; rewrite H; [reflexivity|]. clear H. vm_compute. reflexivity. }
      rewrite X. clear. vm_compute. intuition discriminate.
    + exact ch_opened.
    + intros o1 H. destruct (ch_writable o1 H) as [W1 W2]. split; [exact W1|]. split; [|exact W2].
      intros e r l HP. exists ch_edited. split; [reflexivity|]. unfold ch_edited. assert (F : ch_open = Ok ch_package) by (vm_compute; reflexivity). rewrite F. cbn [rbind]. rewrite H. cbn [rbind].
      change (path_of ([L "tmp"] ++ [L "cot"])) with (L "/tmp/cot") in HP. rewrite HP. apply SaveProofs.same_itself.
    + apply ok_pair. vm_compute. reflexivity.
  - apply (countable_of _ _ _ _ (L "big") [L "new"]); [exact ch_was|reflexivity|vm_compute; reflexivity].
  - apply (countable_of _ _ _ _ (L "big") [L "new"]); [exact ch_was|reflexivity|vm_compute; reflexivity].
Qed.
Print Assumptions C71_example.
