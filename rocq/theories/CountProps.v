(** C17: the number of devices of a type in each profile. *)
From Coq Require Import Lia Sorted.
From Verif Require Import PyBase PyDict ValidationModel ValidationSpec ValidationProofs XmlModel XmlSpec NamesModel
  ItemModel ItemSpec HardwareModel HardwareSpec HardwareProofs HardwareIdProofs ItemReachProofs ItemProps HardwareProps
  ProfileModel ProfileProps CountSpec CountItemProofs CountProofs CountDefaultProofs.

Lemma of_type_kind : forall E rt v i, res_map rt = Ok v -> (of_type E rt i <-> kindb E v i = true).
Proof.
  intros E rt v i Hv. unfold res_map in Hv. rewrite kindb_iff. unfold of_type.
  destruct (dget str_eqb rt RES_MAP) as [w|]; [|discriminate]. injection Hv as ->. split.
  - intros (u & Hu & H). injection Hu as ->. exact H.
  - intros H. exists v. auto.
Qed.
Lemma StronglySorted_filter : forall (A : Type) (R : A -> A -> Prop) f l,
  StronglySorted R l -> StronglySorted R (filter f l).
Proof.
  intros A R f l H. induction H as [|a l H IH HF]; [constructor|]. cbn [filter].
  destruct (f a); [|exact IH]. constructor; [exact IH|]. rewrite Forall_forall in *.
  intros x Hx. apply filter_In in Hx as [Hx _]. now apply HF.
Qed.
Lemma devices_are : forall E h rt v p ks, hw_reachable (e_ver E) h -> res_map rt = Ok v ->
  devices E h rt p = Ok ks -> are_devices E h rt p ks.
Proof.
  intros E h rt v p ks R Hv H. apply reachable_ids in R as [ND Hids].
  pose proof (devices_In E h rt v p ks ND Hv H) as M.
  destruct (find_all_inv _ _ _ _ _ H) as (keys & Hk & _).
  unfold devices in H. rewrite (find_all_filter _ _ _ _ _ _ Hv Hk) in H. injection H as H.
  apply natural_sort_sound in Hk as (Pm & Hs & _). rewrite <- H in *. split; [|split].
  - apply NoDup_filter. exact (Permutation.Permutation_NoDup Pm ND).
  - now apply StronglySorted_filter.
  - intros k. rewrite M. split; intros (i & Hi & HT & HP); exists i; (split; [exact Hi|]).
    + split; [now apply (of_type_kind E rt v i Hv)|].
      apply has_own in HP; [exact HP|]. destruct (Hids k i Hi) as [Ri _]. exact (reachable_good _ _ Ri).
    + split; [now apply (of_type_kind E rt v i Hv)|].
      apply has_own; [|exact HP]. destruct (Hids k i Hi) as [Ri _]. exact (reachable_good _ _ Ri).
Qed.

(** The count reported for a profile is the number of devices of the type in it. *)
Theorem C17_count : forall E h rt p n, hw_reachable (e_ver E) h ->
  get_item_count E h (Some rt) p = Ok n -> (exists v, dget str_eqb rt RES_MAP = Some v) ->
  exists ks, are_devices E h rt p ks /\ n = Z.of_nat (length ks).
Proof.
  intros E h rt p n R H [v Hv]. assert (Hm : res_map rt = Ok v) by (unfold res_map; now rewrite Hv).
  assert (K : exists keys, natural_sort (map fst h) = Ok keys).
  { unfold get_item_count, item_counts in H. cbn [all_or] in H.
    destruct (find_all_items E h (Some rt) [] []) as [all|] eqn:Ef; [|discriminate].
    destruct (find_all_inv _ _ _ _ _ Ef) as (keys & Hk & _). eauto. }
  destruct K as [keys Hk]. set (ks := filter (matches E v [p] h) keys).
  assert (D : devices E h rt p = Ok ks) by (unfold devices; now rewrite (find_all_filter _ _ _ _ _ _ Hm Hk)).
  exists ks. split; [exact (devices_are E h rt v p ks R Hm D)|].
  rewrite (count_devices E h rt v p ks Hm D) in H. now injection H.
Qed.
Print Assumptions C17_count.

(** Setting the count in named profiles, when each device of the type knows of these
    profiles and has its type wherever it has its InstanceID: each of them has that
    many devices afterwards, a surplus taken from the highest-numbered; the other named
    profiles keep their devices; devices of other types stay as they are; none vanishes. *)
Theorem C17_explicit : forall E nic h rt count P h', hw_reachable (e_ver E) h ->
  (exists v, dget str_eqb rt RES_MAP = Some v) -> P <> [] -> NoDup P -> (0 <= count)%Z -> ~ In None P ->
  (forall k i, In (k, i) h -> of_type E rt i ->
     same_profiles (e_ver E) i /\ forall x, In (Some x) P -> In x (config_of E i)) ->
  set_item_count E nic h rt count P = Ok h' ->
  (forall p, In p P -> exists ks ks', are_devices E h rt p ks /\ are_devices E h' rt p ks' /\
     Z.of_nat (length ks') = count /\
     ((count <= Z.of_nat (length ks))%Z -> ks' = firstn (Z.to_nat count) ks) /\
     ((Z.of_nat (length ks) <= count)%Z -> incl ks ks')) /\
  (forall x, ~ In (Some x) P -> exists ks, are_devices E h rt (Some x) ks /\ are_devices E h' rt (Some x) ks) /\
  (forall k i, In (k, i) h -> ~ of_type E rt i -> In (k, i) h') /\
  incl (map fst h) (map fst h').
Proof.
  intros E nic h rt count P h' R [v Hv] HP ND Hc HN Hd H.
  assert (Hm : res_map rt = Ok v) by (unfold res_map; now rewrite Hv).
  assert (R' : hw_reachable (e_ver E) h').
  { apply (H_step _ h); [exact R|]. exact (H_count _ _ E nic _ _ _ _ eq_refl H). }
  destruct (set_count_explicit E nic h rt v count P h' (reachable_ids _ _ R) Hm HP ND Hc HN) as (A & B & C & D); [|exact H|].
  { intros k i Hi Ki. apply (Hd k i Hi). now apply (of_type_kind E rt v i Hm). }
  split; [|split; [|split]].
  - intros p Hp. destruct (A p Hp) as (ks & ks' & D1 & D2 & HA). exists ks, ks'.
    split; [exact (devices_are _ _ _ _ _ _ R Hm D1)|]. split; [exact (devices_are _ _ _ _ _ _ R' Hm D2)|exact HA].
  - intros x Hx. destruct (B x Hx) as (ks & ks' & D1 & D2 & HB). exists ks.
    split; [exact (devices_are _ _ _ _ _ _ R Hm D1)|].
    apply (devices_are _ _ _ _ _ _ R Hm) in D1 as (N1 & S1 & M1).
    apply (devices_are _ _ _ _ _ _ R' Hm) in D2 as (N2 & S2 & M2).
    split; [exact N1|]. split; [exact S1|]. intros k. now rewrite <- HB.
  - intros k i Hi HT. apply C; [exact Hi|]. destruct (kindb E v i) eqn:K; [|reflexivity].
    exfalso. apply HT. now apply (of_type_kind E rt v i Hm).
  - exact D.
Qed.
Print Assumptions C17_explicit.

(** Without a profile list, when the devices of the type are all generic: every profile
    of the document, and the default one, has that many devices afterwards. *)
Theorem C17_default : forall E nic h rt count h', hw_reachable (e_ver E) h ->
  (exists v, dget str_eqb rt RES_MAP = Some v) -> NoDup (e_profiles E) -> (0 <= count)%Z ->
  (forall k i, In (k, i) h -> of_type E rt i ->
     generic (e_ver E) i /\ forall x, In x (config_of E i) <-> In x (e_profiles E)) ->
  set_item_count E nic h rt count [] = Ok h' ->
  (forall p, p = None \/ (exists x, p = Some x /\ In x (e_profiles E)) ->
     exists ks ks', are_devices E h rt p ks /\ are_devices E h' rt p ks' /\
     Z.of_nat (length ks') = count /\
     ((count <= Z.of_nat (length ks))%Z -> ks' = firstn (Z.to_nat count) ks) /\
     ((Z.of_nat (length ks) <= count)%Z -> incl ks ks')) /\
  (forall k i, In (k, i) h -> ~ of_type E rt i -> In (k, i) h') /\
  incl (map fst h) (map fst h').
Proof.
  intros E nic h rt count h' R [v Hv] ND Hc Hd H.
  assert (Hm : res_map rt = Ok v) by (unfold res_map; now rewrite Hv).
  assert (R' : hw_reachable (e_ver E) h').
  { apply (H_step _ h); [exact R|]. exact (H_count _ _ E nic _ _ _ _ eq_refl H). }
  destruct (set_count_default E nic h rt v count h' (reachable_ids _ _ R) Hm Hc ND) as (A & C & D); [|exact H|].
  { intros k i Hi Ki. apply (Hd k i Hi). now apply (of_type_kind E rt v i Hm). }
  split; [|split].
  - intros p Hp. destruct (A p) as (ks & ks' & D1 & D2 & HA).
    { apply in_app_iff. destruct Hp as [-> |(x & -> & Hx)]; [right; now left|left; now apply in_map]. }
    exists ks, ks'. split; [exact (devices_are _ _ _ _ _ _ R Hm D1)|].
    split; [exact (devices_are _ _ _ _ _ _ R' Hm D2)|exact HA].
  - intros k i Hi HT. apply C; [exact Hi|]. destruct (kindb E v i) eqn:K; [|reflexivity].
    exfalso. apply HT. now apply (of_type_kind E rt v i Hm).
  - exact D.
Qed.
Print Assumptions C17_default.

(** ** Examples: a CPU, and network cards 4 (everywhere), 5 (only "big") and 7 (only "small") *)
Definition nic_item (attrs : list (str * str)) (id : string) : elem :=
  an_item attrs [rasd "ElementName" "NIC"; rasd "InstanceID" id; rasd "ResourceType" "10"].
Definition cpu_item : elem := an_item [] [rasd "ElementName" "CPUs"; rasd "InstanceID" "1"; rasd "ResourceType" "3"].
Definition sec (items : list elem) : elem :=
  Elem (OVF_NS V1 ++ L "VirtualHardwareSection") [] None None items.
Definition hw_of (items : list elem) : hw :=
  match read_hardware env0 (sec items) with Ok h => h | Err _ => [] end.
Definition ethernet : str := L "ethernet".
Definition nics1 : hw := hw_of [cpu_item; nic_item [] "4"; nic_item [(ITEM_CONFIG V1, L "big")] "5";
                                nic_item [(ITEM_CONFIG V1, L "small")] "7"].
Definition nics2 : hw := hw_of [cpu_item; nic_item [] "4"; nic_item [] "5"; nic_item [] "10"].
Definition nics3 : hw := hw_of [cpu_item; nic_item [(ITEM_CONFIG V1, L "big")] "5"; nic_item [(ITEM_CONFIG V1, L "small")] "7"].
Definition nics4 : hw := hw_of [cpu_item; nic_item [] "4"].
Definition guess (n : Z) : str := L "GigabitEthernet" ++ zdec n.

(** The profiles under which a property is recorded. *)
Definition recs (i : item) (n : str) : list profile :=
  flat_map (fun nd => if str_eqb (fst nd) n then flat_map snd (snd nd) else []) (i_props i).
Lemma recs_In : forall i n p, (exists v, own (i_props i) n p v) <-> In p (recs i n).
Proof.
  intros i n p. unfold own, recs. rewrite in_flat_map. split.
  - intros (v & d & s & H1 & H2 & H3). exists (n, d). split; [exact H1|]. cbn [fst snd].
    rewrite PyBaseProofs.str_eqb_refl. apply in_flat_map. exists (v, s). auto.
  - intros ([m d] & H1 & H2). cbn [fst snd] in H2. destruct (str_eqb m n) eqn:E; [|contradiction].
    apply PyBaseProofs.str_eqb_eq in E as ->. apply in_flat_map in H2 as ([v s] & H2 & H3). exists v, d, s. auto.
Qed.
Definition same_b (i : item) : bool := pset_eqb (recs i (INSTANCE_ID V1)) (recs i RESOURCE_TYPE).
Definition generic_b (i : item) : bool :=
  pset_eqb (recs i (INSTANCE_ID V1)) [None] && pset_eqb (recs i RESOURCE_TYPE) [None] &&
  strs_eqb (config_of env0 i) (e_profiles env0).
Lemma same_b_ok : forall h : hw, forallb (fun ki => same_b (snd ki)) h = true ->
  forall k i, In (k, i) h -> same_profiles V1 i.
Proof.
  intros h H k i Hi p. rewrite forallb_forall in H. specialize (H _ Hi). cbn [snd] in H.
  rewrite !recs_In. exact (proj1 (PsetProofs.pset_eqb_spec _ _) H p).
Qed.
Lemma generic_b_ok : forall h : hw, forallb (fun ki => generic_b (snd ki)) h = true ->
  forall k i, In (k, i) h -> generic V1 i /\ config_of env0 i = e_profiles env0.
Proof.
  intros h H k i Hi. rewrite forallb_forall in H. specialize (H _ Hi). cbn [snd] in H.
  unfold generic_b in H. apply andb_true_iff in H as [H H3]. apply andb_true_iff in H as [H1 H2].
  split; [|exact (proj1 (PsetProofs.strs_eqb_eq _ _) H3)]. intros p. rewrite !recs_In.
  rewrite (proj1 (PsetProofs.pset_eqb_spec _ _) H1 p), (proj1 (PsetProofs.pset_eqb_spec _ _) H2 p).
  cbn [In]. split; (split; [intros [H|[]]; congruence|intros ->; now left]).
Qed.
Lemma knows_b_ok : forall x (h : hw), forallb (fun ki => mem_str x (config_of env0 (snd ki))) h = true ->
  forall k i, In (k, i) h -> In x (config_of env0 i).
Proof.
  intros x h H k i Hi. rewrite forallb_forall in H. specialize (H _ Hi). now apply PyBaseProofs.mem_str_In in H.
Qed.
Lemma hw_of_reachable : forall l, (exists h, read_hardware env0 (sec l) = Ok h) -> hw_reachable V1 (hw_of l).
Proof.
  intros l [h H]. unfold hw_of. rewrite H. exact (H_read V1 env0 (sec l) h eq_refl H).
Qed.

Lemma nics1_reachable : hw_reachable V1 nics1.
Proof. unfold nics1. match goal with |- hw_reachable _ (hw_of ?l) => apply (hw_of_reachable l) end. eexists. vm_compute. reflexivity. Qed.
Lemma nics2_reachable : hw_reachable V1 nics2.
Proof. unfold nics2. match goal with |- hw_reachable _ (hw_of ?l) => apply (hw_of_reachable l) end. eexists. vm_compute. reflexivity. Qed.
Lemma nics3_reachable : hw_reachable V1 nics3.
Proof. unfold nics3. match goal with |- hw_reachable _ (hw_of ?l) => apply (hw_of_reachable l) end. eexists. vm_compute. reflexivity. Qed.
Lemma nics4_reachable : hw_reachable V1 nics4.
Proof. unfold nics4. match goal with |- hw_reachable _ (hw_of ?l) => apply (hw_of_reachable l) end. eexists. vm_compute. reflexivity. Qed.

Example C17_count_example : hw_reachable V1 nics1 /\
  get_item_count env0 nics1 (Some ethernet) (Some (L "big")) = Ok 2%Z /\
  get_item_count env0 nics1 (Some ethernet) None = Ok 1%Z.
Proof.
  split; [exact nics1_reachable|].
  split; [vm_compute; reflexivity|]. vm_compute. reflexivity.
Qed.

(** Three cards in "big": card 7 joins it, no new one is made; "small" keeps 4 and 7. *)
Example C17_explicit_example : exists h', hw_reachable V1 nics1 /\
  (exists v, dget str_eqb ethernet RES_MAP = Some v) /\
  (forall k i, In (k, i) nics1 -> same_profiles V1 i) /\
  (forall k i, In (k, i) nics1 -> In (L "big") (config_of env0 i)) /\
  set_item_count env0 guess nics1 ethernet 3 [Some (L "big")] = Ok h' /\
  devices env0 h' ethernet (Some (L "big")) = Ok [L "4"; L "5"; L "7"] /\
  devices env0 h' ethernet (Some (L "small")) = Ok [L "4"; L "7"].
Proof.
  eexists. split; [exact nics1_reachable|].
  split; [eexists; vm_compute; reflexivity|].
  split; [apply same_b_ok; vm_compute; reflexivity|].
  split; [apply knows_b_ok; vm_compute; reflexivity|].
  split; [vm_compute; reflexivity|]. split; [vm_compute; reflexivity|]. vm_compute. reflexivity.
Qed.

(** From three cards to two, and from one to three. *)
Example C17_default_example : exists h' h'', hw_reachable V1 nics2 /\
  (forall k i, In (k, i) nics2 -> generic V1 i /\ config_of env0 i = e_profiles env0) /\
  set_item_count env0 guess nics2 ethernet 2 [] = Ok h' /\
  devices env0 h' ethernet (Some (L "small")) = Ok [L "4"; L "5"] /\
  (forall k i, In (k, i) nics4 -> generic V1 i /\ config_of env0 i = e_profiles env0) /\
  set_item_count env0 guess nics4 ethernet 3 [] = Ok h'' /\
  devices env0 h'' ethernet None = Ok [L "4"; L "5"; L "6"].
Proof.
  eexists. eexists. split; [exact nics2_reachable|].
  split; [apply generic_b_ok; vm_compute; reflexivity|].
  split; [vm_compute; reflexivity|]. split; [vm_compute; reflexivity|].
  split; [apply generic_b_ok; vm_compute; reflexivity|].
  split; [vm_compute; reflexivity|]. vm_compute. reflexivity.
Qed.

(** ** What is false in general *)

(** Without a profile list and with devices that differ between profiles, a profile can
    end with more devices than asked for: the device is added to the default profile,
    and with it to every profile. *)
Theorem C17_default_refuted : exists E nic h rt h', hw_reachable (e_ver E) h /\
  (forall k i, In (k, i) h -> same_profiles (e_ver E) i) /\ NoDup (e_profiles E) /\
  set_item_count E nic h rt 1 [] = Ok h' /\
  exists x, In x (e_profiles E) /\ get_item_count E h' (Some rt) (Some x) = Ok 2%Z.
Proof.
  exists env0, guess, nics3, ethernet. eexists. split; [exact nics3_reachable|].
  split; [apply same_b_ok; vm_compute; reflexivity|].
  split. { constructor; [intros [F|[]]; vm_compute in F; discriminate|]. constructor; [intros []|constructor]. }
  split; [vm_compute; reflexivity|].
  eexists. split; [left; reflexivity|]. vm_compute. reflexivity.
Qed.
Print Assumptions C17_default_refuted.

(** Asking for more devices by naming all profiles fails when the existing device is in
    all of them by default. *)
Theorem C17_all_named_refuted : exists E nic h rt, hw_reachable (e_ver E) h /\
  (forall k i, In (k, i) h -> same_profiles (e_ver E) i) /\
  set_item_count E nic h rt 2 (map Some (e_profiles E)) = Err ERuntimeError.
Proof.
  exists env0, guess, nics4, ethernet. split; [exact nics4_reachable|].
  split; [apply same_b_ok; vm_compute; reflexivity|]. vm_compute. reflexivity.
Qed.
Print Assumptions C17_all_named_refuted.
