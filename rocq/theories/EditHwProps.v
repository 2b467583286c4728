(** C53: edit-hardware. *)
From Coq Require Import Lia.
From Verif Require Import PyBase PyBaseProofs PyDict ValidationModel ValidationSpec PlatformModel XmlModel NamesModel ItemModel ItemSpec
  HardwareModel HardwareSpec CountSpec FindSpec ProfileModel NetworkModel WildListModel EditHwModel EditHwSpec
  EditHwProofs EditHwRunProofs EditHwProfProofs EditHwAllProofs EditHwValueProofs EditHwViewProofs EditHwResultProofs EditHwNameProofs EditHwSystemProofs
  ItemProps HardwareProps CountProps ProfileProps NetworkProps.

(** Without any option the command is refused. *)
Theorem C53_no_work : forall E U P m s, no_options s -> edit_hardware E U P m s = Err EInvalidInput.
Proof.
  intros E U P m s (H1 & H2 & H3 & H4 & H5 & H6 & H7 & H8 & H9 & H10 & H11 & H12 & H13 & H14 & H15).
  unfold edit_hardware, some_work. rewrite H1, H2, H3, H4, H5, H6, H7, H8, H9, H10, H11, H12, H13, H14, H15. reflexivity.
Qed.
Print Assumptions C53_no_work.
(** With any of them it has work to do. *)
Theorem C53_work : forall s, some_work s = true <-> ~ no_options s.
Proof.
  intros s. unfold some_work, no_options. split.
  - intros H (H1 & H2 & H3 & H4 & H5 & H6 & H7 & H8 & H9 & H10 & H11 & H12 & H13 & H14 & H15).
    rewrite H1, H2, H3, H4, H5, H6, H7, H8, H9, H10, H11, H12, H13, H14, H15 in H. discriminate.
  - intros H. apply Bool.not_false_iff_true. intros F. apply H.
    repeat match type of F with (_ || _)%bool = false => apply Bool.orb_false_elim in F as [F ?] end.
    repeat match goal with K : negb ?b = false |- _ => apply Bool.negb_false_iff in K end.
    repeat split; match goal with |- ?x = _ => destruct x; [discriminate|reflexivity] || assumption || (destruct x; [reflexivity|discriminate]) end.
Qed.
Print Assumptions C53_work.

(** The command goes on only if the user agreed to all that was asked, except that they may
    keep single profiles. *)
Theorem C53_consent : forall E U P envelope sec m s m', open_vm E envelope sec = Ok m -> edit_hardware E U P m s = Ok m' ->
  forall q, In (Confirmed q false) (v_log m') -> is_ask_delete q.
Proof.
  intros E U P envelope sec m s m' Ho H. destruct (open_vm_ok _ _ _ _ Ho) as (O & _ & L0 & _).
  apply edit_run in H as (m1 & m2 & m3 & m4 & m5 & m6 & m7 & m8 & m9 & nd & R).
  destruct (whole_log _ _ _ _ _ _ _ _ _ _ _ _ _ _ _ _ O R) as (lg & L1 & N). rewrite L1, L0. exact N.
Qed.
Print Assumptions C53_consent.

(** The profiles afterwards are the old ones and those given, without those deleted.  None is
    made, and none deleted, without consent; without "delete all others" none is deleted. *)
Theorem C53_profiles : forall E U P envelope sec m s m', open_vm E envelope sec = Ok m -> edit_hardware E U P m s = Ok m' ->
  exists D,
  (forall q, In q (profiles_of E m') <-> (In q (profiles_of E m) \/ exists l, s_profiles s = Some l /\ In q l) /\ ~ In q D) /\
  (forall q, In q (profiles_of E m') -> ~ In q (profiles_of E m) -> In (Confirmed (AskCreate q) true) (v_log m')) /\
  (s_delete_others s = false -> D = []) /\
  (s_delete_others s = true -> s_profiles s = None ->
     In (Confirmed AskDeleteAll true) (v_log m') /\ forall q, In q D <-> In q (profiles_of E m)) /\
  (s_delete_others s = true -> (forall l x, In x (u_order U l) <-> In x l) -> forall l, s_profiles s = Some l ->
     (forall q, In q D -> In q (profiles_of E m) /\ ~ In q l /\ In (Confirmed (AskDelete q) true) (v_log m')) /\
     (forall q, In q (profiles_of E m) -> ~ In q l -> ~ In q D -> In (Confirmed (AskDelete q) false) (v_log m'))).
Proof.
  intros E U P envelope sec m s m' Ho H. destruct (open_vm_ok _ _ _ _ Ho) as (O & _).
  apply edit_run in H as (m1 & m2 & m3 & m4 & m5 & m6 & m7 & m8 & m9 & nd & R). exact (whole_profiles _ _ _ _ _ _ _ _ _ _ _ _ _ _ _ _ O R).
Qed.
Print Assumptions C53_profiles.

(** When profiles are given, every other profile of the package sees the same devices with
    the same values as before. *)
Theorem C53_other_profiles : forall E U P envelope sec m s m' q p ps, open_vm E envelope sec = Ok m ->
  edit_hardware E U P m s = Ok m' -> s_profiles s = Some (p :: ps) ->
  In q (profiles_of E m) -> In q (profiles_of E m') -> ~ In q (p :: ps) -> same_under E q m m'.
Proof.
  intros E U P envelope sec m s m' q p ps Ho H Hs Hq Hq' Hn. destruct (open_vm_ok _ _ _ _ Ho) as (O & Un & _).
  apply edit_run in H as (m1 & m2 & m3 & m4 & m5 & m6 & m7 & m8 & m9 & nd & R).
  exact (whole_frame _ _ _ _ _ _ _ _ _ _ _ _ _ _ _ _ O R Un q p ps Hs Hq Hq' Hn).
Qed.
Print Assumptions C53_other_profiles.

(** The devices of a type for which no option is given are not touched. *)
Theorem C53_other_devices : forall E U P envelope sec m s m' w, open_vm E envelope sec = Ok m ->
  edit_hardware E U P m s = Ok m' -> s_delete_others s = false -> ~ concerned E m s w ->
  same_of_type w (devices_of m) (devices_of m').
Proof.
  intros E U P envelope sec m s m' w Ho H Hd Hw. destruct (open_vm_ok _ _ _ _ Ho) as (O & _).
  apply edit_run in H as (m1 & m2 & m3 & m4 & m5 & m6 & m7 & m8 & m9 & nd & R).
  exact (whole_types _ _ _ _ _ _ _ _ _ _ _ _ _ _ _ _ O R Hd w Hw).
Qed.
Print Assumptions C53_other_devices.

(** All CPU devices have the given number, and there is one. *)
Theorem C53_cpus : forall E U P envelope sec m s m' n, open_vm E envelope sec = Ok m -> edit_hardware E U P m s = Ok m' ->
  s_cpus s = Some n ->
  (forall k i, In (k, i) (devices_of m') -> is_of CPU i -> has_set E i VIRTUAL_QUANTITY (VStr (zdec n)) (plist s)) /\
  exists k i, In (k, i) (devices_of m') /\ is_of CPU i.
Proof.
  intros E U P envelope sec m s m' n Ho H Hn. destruct (open_vm_ok _ _ _ _ Ho) as (O & _).
  apply edit_run in H as (m1 & m2 & m3 & m4 & m5 & m6 & m7 & m8 & m9 & nd & R).
  exact (whole_cpus _ _ _ _ _ _ _ _ _ _ _ _ _ _ _ _ O R n Hn).
Qed.
Print Assumptions C53_cpus.

(** All memory devices have the given number, counted in megabytes, and there is one. *)
Theorem C53_memory : forall E U P envelope sec m s m' n, open_vm E envelope sec = Ok m -> edit_hardware E U P m s = Ok m' ->
  s_memory s = Some n ->
  (forall k i, In (k, i) (devices_of m') -> is_of MEMORY i ->
     has_set E i VIRTUAL_QUANTITY (VStr (zdec n)) (plist s) /\ has_set E i ALLOCATION_UNITS (VStr (L "byte * 2^20")) (plist s)) /\
  exists k i, In (k, i) (devices_of m') /\ is_of MEMORY i.
Proof.
  intros E U P envelope sec m s m' n Ho H Hn. destruct (open_vm_ok _ _ _ _ Ho) as (O & _).
  apply edit_run in H as (m1 & m2 & m3 & m4 & m5 & m6 & m7 & m8 & m9 & nd & R).
  exact (whole_memory _ _ _ _ _ _ _ _ _ _ _ _ _ _ _ _ O R n Hn).
Qed.
Print Assumptions C53_memory.

(** The cards have the given types, by their canonical names; so do the controllers. *)
Theorem C53_types : forall E U P envelope sec m s m', open_vm E envelope sec = Ok m -> edit_hardware E U P m s = Ok m' ->
  (forall l types, s_nic_types s = Some l -> canonical_types l = Ok (map Some types) -> types <> [] ->
     forall k i, In (k, i) (devices_of m') -> is_of NIC i -> has_set E i RESOURCE_SUB_TYPE (VTuple types) (plist s)) /\
  (forall l, s_scsi s = Some l -> l <> [] ->
     forall k i, In (k, i) (devices_of m') -> is_of SCSI i -> has_set E i RESOURCE_SUB_TYPE (VTuple l) (plist s)) /\
  (forall l, s_ide s = Some l -> l <> [] ->
     forall k i, In (k, i) (devices_of m') -> is_of IDE i -> has_set E i RESOURCE_SUB_TYPE (VTuple l) (plist s)).
Proof.
  intros E U P envelope sec m s m' Ho H. destruct (open_vm_ok _ _ _ _ Ho) as (O & _).
  apply edit_run in H as (m1 & m2 & m3 & m4 & m5 & m6 & m7 & m8 & m9 & nd & R). split; [|split].
  - exact (whole_nic_types _ _ _ _ _ _ _ _ _ _ _ _ _ _ _ _ O R).
  - exact (whole_scsi _ _ _ _ _ _ _ _ _ _ _ _ _ _ _ _ O R).
  - exact (whole_ide _ _ _ _ _ _ _ _ _ _ _ _ _ _ _ _ O R).
Qed.
Print Assumptions C53_types.

(** The number of cards: cards are taken away only with consent, and afterwards each of the
    profiles has the given number of them. *)
Theorem C53_nics : forall E U P envelope sec m s m' n, open_vm E envelope sec = Ok m -> edit_hardware E U P m s = Ok m' ->
  s_nics s = Some n -> s_delete_others s = false -> NoDup (targets E m' s) ->
  loss_confirmed E m m' (L "ethernet") n (targets E m' s) AskDropNics /\
  ((0 <= n)%Z -> countable E m s NIC -> number_set E m m' (L "ethernet") n (targets E m' s)).
Proof.
  intros E U P envelope sec m s m' n Ho H Hn Hd ND. destruct (open_vm_ok _ _ _ _ Ho) as (O & Un & _).
  apply edit_run in H as (m1 & m2 & m3 & m4 & m5 & m6 & m7 & m8 & m9 & nd & R).
  destruct (whole_nic_count _ _ _ _ _ _ _ _ _ _ _ _ _ _ _ _ O R n Hn Hd ND) as [H1 H2]. split; [exact H1|].
  intros H0 Hc. exact (H2 H0 Un Hc).
Qed.
Print Assumptions C53_nics.

(** The same for serial ports. *)
Theorem C53_serials : forall E U P envelope sec m s m' n, open_vm E envelope sec = Ok m -> edit_hardware E U P m s = Ok m' ->
  s_serials s = Some n -> s_delete_others s = false -> NoDup (targets E m' s) ->
  loss_confirmed E m m' (L "serial") n (targets E m' s) AskDropSerials /\
  ((0 <= n)%Z -> countable E m s SERIAL -> number_set E m m' (L "serial") n (targets E m' s)).
Proof.
  intros E U P envelope sec m s m' n Ho H Hn Hd ND. destruct (open_vm_ok _ _ _ _ Ho) as (O & Un & _).
  apply edit_run in H as (m1 & m2 & m3 & m4 & m5 & m6 & m7 & m8 & m9 & nd & R).
  destruct (whole_serial_count _ _ _ _ _ _ _ _ _ _ _ _ _ _ _ _ O R n Hn Hd ND) as [H1 H2]. split; [exact H1|].
  intros H0 Hc. exact (H2 H0 Un Hc).
Qed.
Print Assumptions C53_serials.

(** The connections of serial ports are set in turn; ports left without one are confirmed. *)
Theorem C53_connectivity : forall E U P envelope sec m s m' l, open_vm E envelope sec = Ok m -> edit_hardware E U P m s = Ok m' ->
  s_connectivity s = Some l -> s_profiles s <> Some [] -> NoDup (targets E m' s) ->
  in_turn E m' (L "serial") ADDRESS (or_none l) (targets E m' s) /\
  loss_confirmed E m' m' (L "serial") (Z.of_nat (length l)) (targets E m' s) AskUnreachable.
Proof.
  intros E U P envelope sec m s m' l Ho H Hl Hs ND. destruct (open_vm_ok _ _ _ _ Ho) as (O & _).
  apply edit_run in H as (m1 & m2 & m3 & m4 & m5 & m6 & m7 & m8 & m9 & nd & R).
  exact (whole_connectivity _ _ _ _ _ _ _ _ _ _ _ _ _ _ _ _ O R l Hl Hs ND).
Qed.
Print Assumptions C53_connectivity.

(** The MAC addresses are given to the cards in turn, the last one to all further cards. *)
Theorem C53_macs : forall E U P envelope sec m s m' l, open_vm E envelope sec = Ok m -> edit_hardware E U P m s = Ok m' ->
  s_macs s = Some l -> s_profiles s <> Some [] -> in_turn E m' (L "ethernet") ADDRESS (or_last l) (targets E m' s).
Proof.
  intros E U P envelope sec m s m' l Ho H Hl Hs. destruct (open_vm_ok _ _ _ _ Ho) as (O & _).
  apply edit_run in H as (m1 & m2 & m3 & m4 & m5 & m6 & m7 & m8 & m9 & nd & R).
  exact (whole_macs _ _ _ _ _ _ _ _ _ _ _ _ _ _ _ _ O R l Hl Hs).
Qed.
Print Assumptions C53_macs.

(** The networks, with patterns written out for the largest number of cards (C26), are given
    to the cards in turn, the last one to all further cards; all of them are defined. *)
Theorem C53_networks : forall E U P envelope sec m s m' l, open_vm E envelope sec = Ok m -> edit_hardware E U P m s = Ok m' ->
  s_networks s = Some l -> s_profiles s <> Some [] -> NoDup (targets E m' s) ->
  exists most, most_devices E m' (L "ethernet") (targets E m' s) most /\
    in_turn E m' (L "ethernet") CONNECTION (or_last (expand_list_wildcard l (Z.to_nat most))) (targets E m' s) /\
    forall n, In n (expand_list_wildcard l (Z.to_nat most)) -> In (Some n) (networks (e_ver E) (net_of m')).
Proof.
  intros E U P envelope sec m s m' l Ho H Hl Hs ND. destruct (open_vm_ok _ _ _ _ Ho) as (O & _).
  apply edit_run in H as (m1 & m2 & m3 & m4 & m5 & m6 & m7 & m8 & m9 & nd & R).
  exact (whole_networks _ _ _ _ _ _ _ _ _ _ _ _ _ _ _ _ O R l Hl Hs ND).
Qed.
Print Assumptions C53_networks.

(** No network is lost, none is added without consent. *)
Theorem C53_networks_stay : forall E U P envelope sec m s m', open_vm E envelope sec = Ok m -> edit_hardware E U P m s = Ok m' ->
  (forall n, In n (networks (e_ver E) (net_of m)) -> In n (networks (e_ver E) (net_of m'))) /\
  (forall n, In n (networks (e_ver E) (net_of m')) -> In n (networks (e_ver E) (net_of m)) \/
     exists t, n = Some t /\ In (Confirmed (AskNetwork t) true) (v_log m')).
Proof.
  intros E U P envelope sec m s m' Ho H. destruct (open_vm_ok _ _ _ _ Ho) as (O & _).
  apply edit_run in H as (m1 & m2 & m3 & m4 & m5 & m6 & m7 & m8 & m9 & nd & R). exact (whole_nets _ _ _ _ _ _ _ _ _ _ _ _ _ _ _ _ O R).
Qed.
Print Assumptions C53_networks_stay.

(** The system types are read back as given; without the option the section keeps them, and
    in any case all its other elements. *)
Theorem C53_system_types : forall E U P envelope sec m s m', open_vm E envelope sec = Ok m -> edit_hardware E U P m s = Ok m' ->
  (s_system_types s = None -> v_sec m' = sec) /\
  (forall l, s_system_types s = Some l -> plain_words l ->
     system_types E (v_sec m') = Some l /\ forall t, t <> SYSTEM (e_ver E) -> findall t (v_sec m') = findall t sec).
Proof.
  intros E U P envelope sec m s m' Ho H. destruct (open_vm_ok _ _ _ _ Ho) as (O & _ & _ & S0).
  apply edit_run in H as (m1 & m2 & m3 & m4 & m5 & m6 & m7 & m8 & m9 & nd & R).
  destruct (update_profiles_spec E U s m m1 O (r_1 _ _ _ _ _ _ _ _ _ _ _ _ _ _ _ _ R)) as (D & lg & P1 & _).
  pose proof (pp_sec _ _ _ _ P1) as S1. pose proof (gp_sec _ _ _ _ _ (e_2 _ _ _ _ _ _ _ _ _ _ _ _ _ _ _ _ O R)) as S2.
  pose proof (r_2 _ _ _ _ _ _ _ _ _ _ _ _ _ _ _ _ R) as H2. split.
  - intros Hn. rewrite Hn in H2. cbn [if_given] in H2. injection H2 as H2. congruence.
  - intros l Hl [Hl1 Hl2]. rewrite Hl in H2. cbn [if_given] in H2.
    destruct (set_system_types E (v_sec m1) l) as [sec'|] eqn:Es; [|discriminate]. cbn [rbind] in H2. injection H2 as H2.
    assert (S3 : v_sec m' = sec') by (rewrite S2, <- H2; reflexivity). rewrite S3. rewrite S1, S0 in Es.
    exact (system_types_set E sec l sec' Hl1 Hl2 Es).
Qed.
Print Assumptions C53_system_types.

(** The network cards get the names in turn, a wildcard expanded to as many names as there are
    cards, under each of the profiles: a name that mentions none of the values of its card is
    reported as it was given. *)
Theorem C53_nic_names : forall E U P envelope sec m s m' l, open_vm E envelope sec = Ok m -> edit_hardware E U P m s = Ok m' ->
  s_nic_names s = Some l -> s_profiles s <> Some [] -> NoDup (targets E m' s) ->
  exists most, most_devices E m' (L "ethernet") (targets E m' s) most /\
    named_in_turn E m' (L "ethernet") (expand_list_wildcard l (Z.to_nat most)) (targets E m' s).
Proof.
  intros E U P envelope sec m s m' l Ho H Hl Hs ND. destruct (open_vm_ok _ _ _ _ Ho) as (O & _).
  apply edit_run in H as (m1 & m2 & m3 & m4 & m5 & m6 & m7 & m8 & m9 & nd & R).
  exact (whole_names _ _ _ _ _ _ _ _ _ _ _ _ _ _ _ _ O R l Hl Hs ND).
Qed.
Print Assumptions C53_nic_names.

(** ** Examples *)
Definition nic_on (attrs : list (str * str)) (id net : string) : elem :=
  an_item attrs [rasd "ElementName" "NIC"; rasd "InstanceID" id; rasd "ResourceType" "10"; rasd "Connection" net].
Definition some_cpu : elem := an_item [] [rasd "ElementName" "CPUs"; rasd "InstanceID" "1"; rasd "ResourceType" "3"; rasd "VirtualQuantity" "2"].
Definition some_port : elem := an_item [] [rasd "ElementName" "Serial"; rasd "InstanceID" "9"; rasd "ResourceType" "21"].
Definition package (nets : list elem) (items : list elem) : elem :=
  Elem (OVF_NS V1 ++ L "Envelope") [] None None
    ([Elem (OVF_NS V1 ++ L "References") [] None None []] ++
     (if is_nil nets then [] else [Elem (NETWORK_SECTION V1) [] None None (Elem (INFO V1) [] (Some (L "Networks")) None [] :: nets)]) ++
     [deploy0; Elem (VIRTUAL_SYSTEM V1) [] None None [CountProps.sec items]]).
Definition opened (nets items : list elem) : result vm := open_vm env0 (package nets items) (CountProps.sec items).
Definition nets1 : list elem := [net V1 (L "Net 1") (L "one"); net V1 (L "Net 2") (L "two")].
Definition items1 : list elem := [some_cpu; nic_on [] "4" "Net 1"; nic_on [] "5" "Net 2"; some_port].
Definition agrees : user := mkUser (fun _ _ => true) (fun _ _ d => d) (fun l => l).
Definition refuses : user := mkUser (fun _ _ => false) (fun _ _ d => d) (fun l => l).
Definition anything : hw_platform := mkHwPlatform (fun _ _ => Ok tt) (fun _ => Ok tt) (fun z => L "GigabitEthernet" ++ zdec z).
Definition nothing : settings :=
  mkSettings None false None None None None None None None None None None None None None.
Definition run (U : user) (r : result vm) (s : settings) : result vm := do m <- r; edit_hardware env0 U anything m s.
(** The values of a property of the devices under a profile, what was asked, the networks *)
Definition seen (n : str) (q : profile) (r : result vm) : list (str * option value) :=
  match r with
  | Ok m => map (fun ki => (fst ki, match reports env0 (snd ki) n q with Ok o => o | Err _ => None end)) (devices_of m)
  | Err _ => []
  end.
Definition questions (r : result vm) : list entry := match r with Ok m => v_log m | Err _ => [] end.
Definition names (r : result vm) : list (option str) := match r with Ok m => networks V1 (net_of m) | Err _ => [] end.
Definition all_profiles (r : result vm) : list str := match r with Ok m => profiles_of env0 m | Err _ => [] end.

(** "--cpus 4 --nics 3 --nic-networks Net_{1}" for the profile "big": there are three cards in "big" and
    two in "small", where nothing changes. *)
Definition set1 : settings :=
  mkSettings (Some [L "big"]) false None (Some 4%Z) None (Some 3%Z) None None (Some [L "Net {1}"]) None None None None None None.
Example C53_example : let r := run agrees (opened nets1 items1) set1 in
  seen VIRTUAL_QUANTITY (Some (L "big")) r =
    [(L "1", Some (VStr (L "4"))); (L "4", None); (L "5", None); (L "9", None); (L "6", None)] /\
  seen VIRTUAL_QUANTITY (Some (L "small")) r =
    [(L "1", Some (VStr (L "2"))); (L "4", None); (L "5", None); (L "9", None); (L "6", None)] /\
  seen CONNECTION (Some (L "big")) r =
    [(L "1", None); (L "4", Some (VStr (L "Net 1"))); (L "5", Some (VStr (L "Net 2"))); (L "9", None); (L "6", Some (VStr (L "Net 3")))] /\
  names r = [Some (L "Net 1"); Some (L "Net 2"); Some (L "Net 3")] /\
  questions r = [Confirmed (AskNetwork (L "Net 3")) true; Entered (AskNetworkDescription (L "Net 3")) (L "Net 3")].
Proof. vm_compute. repeat split. Qed.

(** Fewer cards, one serial port, another profile: all is asked; a user who refuses stops it. *)
Definition set2 : settings :=
  mkSettings (Some [L "tiny"; L "big"]) false None None None (Some 1%Z) None None None None None (Some 2%Z) (Some [L "telnet://localhost:1"]) None None.
Example C53_questions : let r := run agrees (opened nets1 items1) set2 in
  questions r =
    [Confirmed (AskCreate (L "tiny")) true; Entered (AskLabel (L "tiny")) (L "tiny"); Entered (AskDescription (L "tiny")) (L "tiny");
     Confirmed (AskDropNics (Some (L "tiny")) 2) true; Confirmed (AskDropNics (Some (L "big")) 2) true;
     Confirmed (AskUnreachable (Some (L "tiny")) 2) true; Confirmed (AskUnreachable (Some (L "big")) 2) true] /\
  all_profiles r = [L "big"; L "small"; L "tiny"] /\
  run refuses (opened nets1 items1) set2 = Err ESystemExit.
Proof. vm_compute. repeat split. Qed.

(** The hypotheses of [C53_nics] for this package *)
Definition no_vm : vm := mkVm (mkPdoc (package [] []) NoSection [] None) false (CountProps.sec []) [].
Definition vm_of (r : result vm) : vm := match r with Ok m => m | Err _ => no_vm end.
Definition vm1 : vm := vm_of (opened nets1 items1).
Lemma countable_b : forall m s w p ps, s_profiles s = Some (p :: ps) -> forallb (fun ki => same_b (snd ki)) (devices_of m) = true ->
  countable env0 m s w.
Proof. intros m s w p ps Hs H k i Hi _. rewrite Hs. exact (same_b_ok _ H k i Hi). Qed.
Lemma countable_g : forall m s w, s_profiles s = None -> forallb (fun ki => generic_b (snd ki)) (devices_of m) = true ->
  countable env0 m s w.
Proof. intros m s w Hs H k i Hi _. rewrite Hs. exact (proj1 (generic_b_ok _ H k i Hi)). Qed.
Fixpoint nodup_p (l : list profile) : bool := match l with [] => true | p :: l' => negb (pmem p l') && nodup_p l' end.
Lemma nodup_p_ok : forall l, nodup_p l = true -> NoDup l.
Proof.
  induction l as [|p l IH]; intros H; [constructor|]. cbn [nodup_p] in H. apply andb_prop in H as [H1 H2].
  constructor; [|exact (IH H2)]. intros F. apply PsetProofs.pmem_In in F. rewrite F in H1. discriminate.
Qed.
Example C53_nics_example :
  opened nets1 items1 = Ok vm1 /\ (exists m', run agrees (opened nets1 items1) set2 = Ok m') /\
  NoDup (targets env0 (vm_of (run agrees (opened nets1 items1) set2)) set2) /\
  countable env0 vm1 set2 NIC /\ countable env0 vm1 set2 SERIAL.
Proof.
  split; [vm_compute; reflexivity|]. split; [eexists; vm_compute; reflexivity|].
  split; [apply nodup_p_ok; vm_compute; reflexivity|].
  split; apply (countable_b vm1 set2 _ (L "tiny") [L "big"] eq_refl); vm_compute; reflexivity.
Qed.
(** Without profiles: all options at once *)
Definition set3 : settings :=
  mkSettings None false (Some [L "vmx-08"; L "xen"]) (Some 4%Z) (Some 512%Z) (Some 3%Z) (Some [L "e1000"; L "VmxNet3"]) (Some [L "00:00:00:00:00:01"])
    (Some [L "Net 1"]) (Some [L "All"]) (Some [L "eth{0}"]) (Some 2%Z) (Some [L "telnet://localhost:1"; L "telnet://localhost:2"]) (Some [L "virtio"]) None.
Example C53_default_example : let r := run agrees (opened nets1 items1) set3 in
  countable env0 vm1 set3 NIC /\ countable env0 vm1 set3 SERIAL /\ NoDup (targets env0 (vm_of r) set3) /\
  map snd (seen ADDRESS None r) = [None; Some (VStr (L "00:00:00:00:00:01")); Some (VStr (L "00:00:00:00:00:01"));
     Some (VStr (L "telnet://localhost:1")); None; Some (VStr (L "00:00:00:00:00:01")); Some (VStr (L "telnet://localhost:2"))] /\
  map snd (seen RESOURCE_SUB_TYPE None r) = [None; Some (VTuple [L "E1000"; L "VMXNET3"]); Some (VTuple [L "E1000"; L "VMXNET3"]); None; None;
     Some (VTuple [L "E1000"; L "VMXNET3"]); None] /\
  system_types env0 (v_sec (vm_of r)) = Some [L "vmx-08"; L "xen"].
Proof.
  cbv zeta. split; [apply (countable_g vm1 set3 _ eq_refl); vm_compute; reflexivity|].
  split; [apply (countable_g vm1 set3 _ eq_refl); vm_compute; reflexivity|].
  split; [apply nodup_p_ok; vm_compute; reflexivity|]. split; [vm_compute; reflexivity|]. split; vm_compute; reflexivity.
Qed.
(** Other profiles are deleted: the user is asked about each. *)
Definition set4 : settings := mkSettings (Some [L "big"]) true None None None None None None None None None None None None None.
Definition set5 : settings := mkSettings None true None None None None None None None None None None None None None.
Example C53_delete_example :
  all_profiles (run agrees (opened nets1 items1) set4) = [L "big"] /\
  questions (run agrees (opened nets1 items1) set4) = [Confirmed (AskDelete (L "small")) true] /\
  all_profiles (run refuses (opened nets1 items1) set4) = [L "big"; L "small"] /\
  questions (run refuses (opened nets1 items1) set4) = [Confirmed (AskDelete (L "small")) false] /\
  all_profiles (run agrees (opened nets1 items1) set5) = [] /\
  run refuses (opened nets1 items1) set5 = Err ESystemExit.
Proof. vm_compute. repeat split. Qed.

(** ** What is false *)

(** A card may change though no option for cards is given: in a package without networks,
    "--cpus 2" makes "VM Network" and connects all cards to it. *)
Definition cpus2 : settings := mkSettings None false None (Some 2%Z) None None None None None None None None None None None.
Theorem C53_cards_untouched_refuted :
  seen CONNECTION None (opened [] [some_cpu; nic_on [] "4" "Lan"]) = [(L "1", None); (L "4", Some (VStr (L "Lan")))] /\
  seen CONNECTION None (run agrees (opened [] [some_cpu; nic_on [] "4" "Lan"]) cpus2) = [(L "1", None); (L "4", Some (VStr (L "VM Network")))] /\
  run refuses (opened [] [some_cpu; nic_on [] "4" "Lan"]) cpus2 = Err ESystemExit.
Proof. vm_compute. repeat split. Qed.
Print Assumptions C53_cards_untouched_refuted.

(** A new card is not always connected: with networks but without cards, "--nics 1" makes a
    card without a network. *)
Definition nics_1 : settings := mkSettings None false None None None (Some 1%Z) None None None None None None None None None.
Theorem C53_connected_refuted :
  names (run agrees (opened nets1 [some_cpu]) nics_1) = [Some (L "Net 1"); Some (L "Net 2")] /\
  seen RESOURCE_TYPE None (run agrees (opened nets1 [some_cpu]) nics_1) = [(L "1", Some (VStr (L "3"))); (L "2", Some (VStr (L "10")))] /\
  seen CONNECTION None (run agrees (opened nets1 [some_cpu]) nics_1) = [(L "1", None); (L "2", None)].
Proof. vm_compute. repeat split. Qed.
Print Assumptions C53_connected_refuted.

(** More cards may reconnect old ones: the networks are given out in the order in which they
    are declared, nothing is asked about the old cards. *)
Definition nics_3 : settings := mkSettings None false None None None (Some 3%Z) None None None None None None None None None.
Theorem C53_old_cards_stay_refuted : let r := opened nets1 [nic_on [] "4" "Net 2"; nic_on [] "5" "Net 1"] in
  seen CONNECTION None r = [(L "4", Some (VStr (L "Net 2"))); (L "5", Some (VStr (L "Net 1")))] /\
  seen CONNECTION None (run agrees r nics_3) =
    [(L "4", Some (VStr (L "Net 1"))); (L "5", Some (VStr (L "Net 2"))); (L "6", Some (VStr (L "Net 3")))] /\
  questions (run agrees r nics_3) = [Confirmed (AskNetwork (L "Net 3")) true; Entered (AskNetworkDescription (L "Net 3")) (L "Net 3")].
Proof. vm_compute. repeat split. Qed.
Print Assumptions C53_old_cards_stay_refuted.

(** The list for a profile is not given to the cards of that profile in turn: a card outside
    the profile uses up its place. *)
Definition small_nets : settings :=
  mkSettings (Some [L "small"]) false None None None None None None (Some [L "Net 1"; L "Net 2"]) None None None None None None.
Theorem C53_in_turn_refuted :
  let r := run agrees (opened nets1 [nic_on [(ITEM_CONFIG V1, L "big")] "4" "Net 1"; nic_on [(ITEM_CONFIG V1, L "small")] "5" "Net 1"]) small_nets in
  seen (INSTANCE_ID V1) (Some (L "small")) r = [(L "4", None); (L "5", Some (VStr (L "5")))] /\
  seen CONNECTION (Some (L "small")) r = [(L "4", None); (L "5", Some (VStr (L "Net 2")))].
Proof. vm_compute. repeat split. Qed.
Print Assumptions C53_in_turn_refuted.

(** "--profiles small --cpus 2" succeeds although "small" has no CPU before or after. *)
Definition small_cpus : settings := mkSettings (Some [L "small"]) false None (Some 2%Z) None None None None None None None None None None None.
Theorem C53_cpus_refuted :
  let r := run agrees (opened nets1 [an_item [(ITEM_CONFIG V1, L "big")] [rasd "ElementName" "CPUs"; rasd "InstanceID" "1"; rasd "ResourceType" "3"]]) small_cpus in
  seen VIRTUAL_QUANTITY (Some (L "small")) r = [(L "1", Some (VStr (L "2")))] /\
  seen (INSTANCE_ID V1) (Some (L "small")) r = [(L "1", None)].
Proof. vm_compute. repeat split. Qed.
Print Assumptions C53_cpus_refuted.

(** "--nic-names eth{0}": each card has its own name *)
Definition names_eth : settings := mkSettings None false None None None None None None None None (Some [L "eth{0}"]) None None None None.
Definition card4 : item := match find (fun ki => str_eqb (fst ki) (L "4")) (devices_of (vm_of (run agrees (opened nets1 items1) names_eth))) with
                           | Some ki => snd ki | None => new_ovfitem env0 end.
Example C53_names_example : let r := run agrees (opened nets1 items1) names_eth in
  NoDup (targets env0 (vm_of r) names_eth) /\ In (L "4", card4) (devices_of (vm_of r)) /\ plain_name env0 card4 (L "eth0") /\
  seen (ELEMENT_NAME V1) None r = [(L "1", Some (VStr (L "CPUs"))); (L "4", Some (VStr (L "eth0"))); (L "5", Some (VStr (L "eth1"))); (L "9", Some (VStr (L "Serial")))].
Proof.
  cbv zeta. split; [apply nodup_p_ok; vm_compute; reflexivity|].
  split; [vm_compute; right; left; reflexivity|]. split; [|vm_compute; reflexivity].
  apply (plain_card env0 card4 (L "eth0") (L "Net 1") [None]); [vm_compute; reflexivity|vm_compute; reflexivity|vm_compute; reflexivity|vm_compute; reflexivity|vm_compute; reflexivity| |vm_compute; reflexivity|vm_compute; reflexivity|vm_compute; reflexivity|vm_compute; reflexivity].
  intros [F|[F|[F|[F|[]]]]]; vm_compute in F; discriminate F.
Qed.
Print Assumptions C53_names_example.
(** A single card is called by the wildcard itself: "eth{0}". *)
Theorem C53_single_card_name_refuted :
  seen (ELEMENT_NAME V1) None (run agrees (opened nets1 [nic_on [] "4" "Net 1"]) names_eth) = [(L "4", Some (VStr (L "eth{0}")))].
Proof. vm_compute. reflexivity. Qed.
Print Assumptions C53_single_card_name_refuted.
(** When the cards are in different profiles there are more of them than under any one profile, and
    those for which no name is left are called "None", even with a wildcard (which is not expanded either). *)
Theorem C53_left_over_names_refuted :
  let r := run agrees (opened nets1 [nic_on [(ITEM_CONFIG V1, L "big")] "4" "Net 1"; nic_on [(ITEM_CONFIG V1, L "small")] "5" "Net 1"]) names_eth in
  seen (ELEMENT_NAME V1) (Some (L "big")) r = [(L "4", Some (VStr (L "eth{0}"))); (L "5", None)] /\
  seen (ELEMENT_NAME V1) (Some (L "small")) r = [(L "4", None); (L "5", Some (VStr (L "None")))].
Proof. vm_compute. split; reflexivity. Qed.
Print Assumptions C53_left_over_names_refuted.
