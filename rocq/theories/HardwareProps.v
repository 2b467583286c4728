(** C11: InstanceIDs; C18: writing the hardware section. *)
From Coq Require Import Lia.
From Verif Require Import PyBase PyDict ValidationModel ValidationSpec XmlModel XmlSpec NamesModel ItemModel
  ItemSpec HardwareModel HardwareSpec HardwareProofs HardwareIdProofs UpdateProofs UpdateHistoryProofs ItemProps.

(** ** An example: CPUs, and memory that differs under profile "big" *)
Definition rasd (n t : string) : elem := Elem (RASD V1 ++ L n) [] (Some (L t)) None [].
Definition an_item (attrs : list (str * str)) (cs : list elem) : elem := Elem (ITEM V1) attrs None None cs.
Definition section0 : elem :=
  Elem (OVF_NS V1 ++ L "VirtualHardwareSection") [] None None
    [Elem (INFO V1) [] (Some (L "hardware")) None [];
     an_item [] [rasd "ElementName" "CPUs"; rasd "InstanceID" "1"; rasd "ResourceType" "3"; rasd "VirtualQuantity" "2"];
     Elem (L "{x}Extra") [] None None [];
     an_item [] [rasd "ElementName" "RAM"; rasd "InstanceID" "3"; rasd "ResourceType" "4"; rasd "VirtualQuantity" "512"];
     an_item [(ITEM_CONFIG V1, L "big")]
       [rasd "ElementName" "RAM"; rasd "InstanceID" "3"; rasd "ResourceType" "4"; rasd "VirtualQuantity" "1024"]].
Definition hw0 : hw := match read_hardware env0 section0 with Ok h => h | Err _ => [] end.
Example hw0_read : read_hardware env0 section0 = Ok hw0 /\ map fst hw0 = [L "1"; L "3"].
Proof. vm_compute. auto. Qed.
Example hw0_reachable : hw_reachable V1 hw0.
Proof. exact (H_read V1 env0 section0 hw0 eq_refl (proj1 hw0_read)). Qed.

(** ** C11 *)

(** The search for a free InstanceID always ends, with the first free number from the
    given one on. *)
Theorem C11_unused_id : forall h start, exists s,
  find_unused_instance_id h start = Ok s /\ first_free h start s.
Proof.
  intros h start. destruct (find_unused_ok h start) as [s H]. exists s. split; [exact H|].
  exact (unused_from_spec _ h start s H).
Qed.
Print Assumptions C11_unused_id.

(** A new device takes the first free number; all others stay as they are. *)
Theorem C11_new_device : forall E h rt P k h', new_item E h rt P = Ok (k, h') ->
  first_free h 1 k /\ exists i, h' = h ++ [(k, i)] /\ has_id E i k.
Proof. exact new_item_fresh. Qed.
Print Assumptions C11_new_device.

(** A cloned device takes the first free number from that of its parent on; all
    others stay as they are. *)
Theorem C11_cloned_device : forall E h k P k' h', hw_reachable (e_ver E) h ->
  clone_item E h k P = Ok (k', h') ->
  exists start, py_int k = Some start /\ first_free h start k' /\
    exists i, h' = h ++ [(k', i)] /\ has_id E i k'.
Proof. exact clone_item_fresh. Qed.
Print Assumptions C11_cloned_device.

(** After any history, devices that answer the same InstanceID are the same, and it is
    the one they are filed under. *)
Theorem C11_unique : forall E h k1 i1 k2 i2 id, hw_reachable (e_ver E) h ->
  In (k1, i1) h -> In (k2, i2) h -> has_id E i1 id -> has_id E i2 id ->
  id = k1 /\ k1 = k2 /\ i1 = i2.
Proof. exact unique_ids. Qed.
Print Assumptions C11_unique.

Example C11_example : exists k h' k' h'',
  new_item env0 hw0 (L "ethernet") [] = Ok (k, h') /\ k = L "2" /\
  clone_item env0 h' (L "1") [Some (L "big")] = Ok (k', h'') /\ k' = L "4" /\
  map fst h'' = [L "1"; L "3"; L "2"; L "4"] /\ hw_reachable V1 h''.
Proof.
  assert (E : exists k h' k' h'', new_item env0 hw0 (L "ethernet") [] = Ok (k, h') /\ k = L "2" /\
    clone_item env0 h' (L "1") [Some (L "big")] = Ok (k', h'') /\ k' = L "4" /\
    map fst h'' = [L "1"; L "3"; L "2"; L "4"]).
  { do 4 eexists. do 4 (split; [vm_compute; reflexivity|]). vm_compute. reflexivity. }
  destruct E as (k & h' & k' & h'' & E1 & -> & E2 & -> & E3). exists (L "2"), h', (L "4"), h''.
  split; [exact E1|]. split; [reflexivity|]. split; [exact E2|]. split; [reflexivity|].
  split; [exact E3|].
  apply (H_step V1 h'); [apply (H_step V1 hw0); [exact hw0_reachable|]|].
  - exact (H_new V1 _ env0 _ _ _ _ eq_refl E1).
  - exact (H_clone V1 _ env0 _ _ _ _ eq_refl E2).
Qed.

(** ** C18 *)

(** A successful write either finds nothing changed and leaves the document alone, or
    leaves in the section exactly the elements generated from the devices in natural
    order of their IDs, and all other children as they were. *)
Theorem C18_content : forall E h sec sec', hw_reachable (e_ver E) h ->
  update_xml E h sec = Ok sec' ->
  (looks_unchanged (e_ver E) h sec /\ sec' = sec) \/
  (~ looks_unchanged (e_ver E) h sec /\
   exists xs, generated E h xs /\ holds_items (e_ver E) sec xs sec').
Proof. intros E h sec sec' H. exact (update_content E h sec sec' (proj1 (reachable_ids _ _ H))). Qed.
Print Assumptions C18_content.

(** Children other than Items survive, in order. *)
Theorem C18_others_kept : forall E h sec sec', hw_reachable (e_ver E) h ->
  update_xml E h sec = Ok sec' ->
  same_but_children sec sec' /\ other_children (e_ver E) sec' = other_children (e_ver E) sec.
Proof.
  intros E h sec sec' H Hw.
  destruct (update_content E h sec sec' (proj1 (reachable_ids _ _ H)) Hw) as [[_ ->]|[_ (xs & G & Hh)]].
  - split; [|reflexivity]. unfold same_but_children. auto.
  - split; [apply Hh|]. exact (proj1 (other_children_after E h sec xs sec' G Hh)).
Qed.
Print Assumptions C18_others_kept.

(** Writing again changes nothing. *)
Theorem C18_second_write : forall E h sec sec', hw_reachable (e_ver E) h ->
  update_xml E h sec = Ok sec' -> update_xml E h sec' = Ok sec'.
Proof. intros E h sec sec' H. exact (update_twice E h sec sec' (proj1 (reachable_ids _ _ H))). Qed.
Print Assumptions C18_second_write.

(** No update is lost: whatever was read, edited and written before, after a write the
    Items of the document describe the devices as they are. *)
Theorem C18_no_lost_update : forall E h sec sec', history (e_ver E) h sec ->
  update_xml E h sec = Ok sec' -> describes (e_ver E) sec' h.
Proof. exact no_lost_update. Qed.
Print Assumptions C18_no_lost_update.

(** Example: two devices, three Items; a new network card; the write succeeds. *)
Example C18_example : exists k h' sec', new_item env0 hw0 (L "ethernet") [] = Ok (k, h') /\
  update_xml env0 h' section0 = Ok sec' /\ history V1 h' section0 /\
  map etag (echildren sec') = [INFO V1; ITEM V1; ITEM V1; ITEM V1; ITEM V1; L "{x}Extra"] /\
  map (fun x => option_map etext (find (fun c => str_eqb (etag c) (RASD V1 ++ L "InstanceID")) (echildren x)))
    (item_children V1 sec') =
  [Some (Some (L "1")); Some (Some (L "2")); Some (Some (L "3")); Some (Some (L "3"))].
Proof.
  assert (E : exists k h' sec', new_item env0 hw0 (L "ethernet") [] = Ok (k, h') /\
    update_xml env0 h' section0 = Ok sec' /\
    map etag (echildren sec') = [INFO V1; ITEM V1; ITEM V1; ITEM V1; ITEM V1; L "{x}Extra"] /\
    map (fun x => option_map etext (find (fun c => str_eqb (etag c) (RASD V1 ++ L "InstanceID")) (echildren x)))
      (item_children V1 sec') =
    [Some (Some (L "1")); Some (Some (L "2")); Some (Some (L "3")); Some (Some (L "3"))]).
  { do 3 eexists. do 3 (split; [vm_compute; reflexivity|]). vm_compute. reflexivity. }
  destruct E as (k & h' & sec' & E1 & E2 & E3 & E4). exists k, h', sec'.
  split; [exact E1|]. split; [exact E2|]. split; [|split; [exact E3|exact E4]].
  apply (HH_step V1 hw0).
  - exact (HH_read V1 env0 section0 hw0 eq_refl (proj1 hw0_read)).
  - exact (H_new V1 _ env0 _ _ _ _ eq_refl E1).
Qed.
