(** C66: the hardware that was written is read again as it was. *)
From Coq Require Import List Ascii Lia.
Import ListNotations.
From Verif Require Import PyBase ValidationSpec XmlModel XmlSpec XmlProofs NamesModel ItemModel ItemSpec GenerateSpec ItemReachProofs HardwareModel HardwareSpec
  HardwareIdProofs ItemEffectProofs HwStepProofs ItemProps WildcardProps GenerateProps HardwareProps RereadSpec RereadProofs.

(** The hardware was read and edited in any way, and the devices can be written, have their
    number under each of their profiles, and use only profiles of the document. When it is
    written, and the document is laid out in any way, it can be read again: the same devices
    with the same numbers, and the same value of each property under each profile. *)
Theorem C66_hardware_reread : forall E h sec sec' sec2, hw_reachable (e_ver E) h ->
  (forall k i, In (k, i) h -> writable E i /\ numbered E k i /\ known_profiles E i) ->
  update_xml E h sec = Ok sec' -> ~ looks_unchanged (e_ver E) h sec -> same_content sec' sec2 ->
  exists h2, read_hardware E sec2 = Ok h2 /\ same_hardware E h h2.
Proof. exact reread. Qed.
Print Assumptions C66_hardware_reread.

(** In particular after reindenting, which is what is done before the document is saved. *)
Theorem C66_reindented : forall E h sec sec' d, hw_reachable (e_ver E) h ->
  (forall k i, In (k, i) h -> writable E i /\ numbered E k i /\ known_profiles E i) ->
  update_xml E h sec = Ok sec' -> ~ looks_unchanged (e_ver E) h sec ->
  exists h2, read_hardware E (xml_reindent sec' d) = Ok h2 /\ same_hardware E h h2.
Proof. intros E h sec sec' d H1 H2 H3 H4. apply (reread E h sec sec' _ H1 H2 H3 H4). apply reindent_same. Qed.
Print Assumptions C66_reindented.

(** Example: 4 CPUs, 8 under profile "big", named after their number, and memory. *)
Definition cpus_and_memory : elem :=
  Elem (OVF_NS V1 ++ L "VirtualHardwareSection") [] None None
    [Elem (INFO V1) [] (Some (L "hardware")) None [];
     an_item [] [rasd "ElementName" "4 virtual CPUs"; rasd "InstanceID" "1"; rasd "VirtualQuantity" "4"];
     an_item [] [rasd "InstanceID" "3"; rasd "ResourceType" "4"; rasd "VirtualQuantity" "512"];
     an_item [(ITEM_CONFIG V1, L "big")] [rasd "ElementName" "8 virtual CPUs"; rasd "InstanceID" "1"; rasd "VirtualQuantity" "8"]].
Definition cpu_device : item := mkItem NAMED (RASD V1) false None.
Definition MEMORY : props :=
  [(L "InstanceID", [(VStr (L "3"), [None])]); (L "ResourceType", [(VStr (L "4"), [None])]); (VIRTUAL_QUANTITY, [(VStr (L "512"), [None])])].
Definition memory_device : item := mkItem MEMORY (RASD V1) false None.
Definition two_devices : hw := [(L "1", cpu_device); (L "3", memory_device)].
Lemma two_devices_read : read_hardware env0 cpus_and_memory = Ok two_devices.
Proof. vm_compute. reflexivity. Qed.
Lemma two_reachable : hw_reachable V1 two_devices.
Proof. exact (H_read V1 env0 _ _ eq_refl two_devices_read). Qed.
Lemma writable_props : forall E i j, i_props i = i_props j -> writable E i -> writable E j.
Proof.
  intros E i j H [W1 W2 W3 W4]. unfold reports in W4. rewrite H in *. constructor; assumption.
Qed.
Lemma memory_own : forall n p v, own MEMORY n p v -> p = None /\
  ((n = L "InstanceID" /\ v = VStr (L "3")) \/ (n = L "ResourceType" /\ v = VStr (L "4")) \/ (n = VIRTUAL_QUANTITY /\ v = VStr (L "512"))).
Proof.
  intros n p v (d & s & Hd & Hs & Hp). destruct Hd as [Hd|[Hd|[Hd|[]]]]; injection Hd as <- <-; (destruct Hs as [Hs|[]]; injection Hs as <- <-; destruct Hp as [<-|[]]; tauto).
Qed.
Lemma memory_good : good_props V1 MEMORY.
Proof. exact (reachable_good V1 _ (proj1 (proj2 (reachable_ids _ _ two_reachable) (L "3") memory_device (or_intror (or_introl eq_refl))))). Qed.
Lemma memory_writable : writable env0 memory_device.
Proof.
  constructor; cbn [i_props memory_device].
  - intros n p v H. left. apply memory_own in H as [_ H]. vm_compute. intuition (subst; tauto).
  - intros n x v H. apply memory_own in H as [H _]. discriminate H.
  - intros p l w H. apply memory_own in H as [_ [[H _]|[[H _]|[H _]]]]; discriminate H.
  - intros n q t HT. rewrite ItemEffectProofs.reports_nothing; [discriminate|exact memory_good|]. intros v H.
    apply WildcardItemProofs.holds_own in H as (r & H). apply memory_own in H as [_ [[H _]|[[H _]|[H _]]]]; destruct HT as [-> | ->]; discriminate H.
Qed.
Example C66_example : hw_reachable V1 two_devices /\
  (forall k i, In (k, i) two_devices -> has_values i /\ writable env0 i /\ numbered env0 k i /\ known_profiles env0 i) /\
  ~ looks_unchanged V1 two_devices cpus_and_memory /\
  exists sec', update_xml env0 two_devices cpus_and_memory = Ok sec' /\ sec' <> cpus_and_memory.
Proof.
  split; [exact two_reachable|]. split.
  { intros k i [H|[H|[]]]; injection H as <- <-.
    - assert (O : forall n p v, own NAMED n p v -> (p = None \/ p = Some (L "big"))).
      { intros n p v H. rewrite <- named_props in H. apply named_own in H. intuition. }
      split; [exists (L "InstanceID"), None, (VStr (L "1")), [(VStr (L "1"), [None])], [None]; split; [now left|]; split; now left|].
      split; [exact (writable_props env0 named_cpus cpu_device named_props named_writable)|]. split.
      + split; [discriminate|]. intros n q v H. destruct (O n q v H) as [-> | ->]; vm_compute; reflexivity.
      + intros n x v H. destruct (O n _ v H) as [F|F]; [discriminate|]. injection F as ->. right. now left.
    - split; [exists (L "InstanceID"), None, (VStr (L "3")), [(VStr (L "3"), [None])], [None]; split; [now left|]; split; now left|].
      split; [exact memory_writable|]. split.
      + split; [discriminate|]. intros n q v H. apply memory_own in H as [-> _]. vm_compute. reflexivity.
      + intros n x v H. apply memory_own in H as [H _]. discriminate H. }
  split; [intros [H _]; vm_compute in H; discriminate H|].
  assert (X : exists sec', update_xml env0 two_devices cpus_and_memory = Ok sec' /\
    map (fun x => get_attr x (ITEM_CONFIG V1)) (echildren sec') <> map (fun x => get_attr x (ITEM_CONFIG V1)) (echildren cpus_and_memory)).
  { eexists. split; [vm_compute; reflexivity|]. vm_compute. intros F. injection F. discriminate. }
  destruct X as (s & X1 & X2). exists s. split; [exact X1|]. intros F. apply X2. now rewrite F.
Qed.

(** ** Without the number: the memory is there under profile "big" only, and is set for "small" *)
Definition big_memory : elem :=
  Elem (OVF_NS V1 ++ L "VirtualHardwareSection") [] None None
    [Elem (INFO V1) [] (Some (L "hardware")) None [];
     an_item [] [rasd "InstanceID" "1"; rasd "ResourceType" "3"; rasd "VirtualQuantity" "4"];
     an_item [(ITEM_CONFIG V1, L "big")] [rasd "InstanceID" "3"; rasd "ResourceType" "4"; rasd "VirtualQuantity" "1024"]].
Theorem C66_cannot_be_read_refuted : exists E sec h h' sec',
  In (L "small") (e_profiles E) /\ read_hardware E sec = Ok h /\
  set_value_for_all_items E h (L "memory") VIRTUAL_QUANTITY (IStr (L "2048")) [Some (L "small")] true = Ok h' /\
  update_xml E h' sec = Ok sec' /\
  read_hardware E sec' = Err EAttributeError.
Proof.
  exists env0, big_memory. do 3 eexists. split; [now left|]. do 3 (split; [vm_compute; reflexivity|]). vm_compute. reflexivity.
Qed.
Print Assumptions C66_cannot_be_read_refuted.

(** ** A device of a profile that the document does not have *)
Theorem C66_unknown_profile_refuted : exists E sec h h' sec',
  read_hardware E sec = Ok h /\
  set_value_for_all_items E h (L "memory") VIRTUAL_QUANTITY (IStr (L "2048")) [Some (L "huge")] true = Ok h' /\
  update_xml E h' sec = Ok sec' /\
  read_hardware E sec' = Err EOVFHardwareData.
Proof.
  exists env0, cpus_and_memory. do 3 eexists. do 3 (split; [vm_compute; reflexivity|]). vm_compute. reflexivity.
Qed.
Print Assumptions C66_unknown_profile_refuted.

(** ** A device without values keeps its number until the package is opened again *)
Theorem C66_empty_device_refuted : exists E sec h h' sec' h2,
  read_hardware E sec = Ok h /\ drop_profile E h (L "big") = Ok h' /\
  update_xml E h' sec = Ok sec' /\ read_hardware E sec' = Ok h2 /\
  map fst h' = [L "1"; L "3"] /\ map fst h2 = [L "1"].
Proof.
  exists env0, big_memory. do 4 eexists. do 5 (split; [vm_compute; reflexivity|]). vm_compute. reflexivity.
Qed.
Print Assumptions C66_empty_device_refuted.
