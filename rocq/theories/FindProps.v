(** C45: looking up devices, setting a property of all of them, cloned devices. *)
From Coq Require Import Lia Sorted.
From Verif Require Import PyBase PyDict ValidationModel ValidationSpec XmlModel NamesModel ItemModel ItemSpec
  HardwareModel HardwareSpec HardwareIdProofs CountSpec FindSpec FindProofs ItemProps HardwareProps CountProps.

(** Exactly the devices of the type, in all the profiles, that meet all conditions are
    listed, lowest InstanceID first. *)
Theorem C45_find_all : forall E h rt conds P ks, hw_reachable (e_ver E) h -> plain_conditions (e_ver E) conds ->
  find_all_items E h rt conds P = Ok ks -> are_wanted E h rt conds P ks.
Proof. intros E h rt conds P ks H. apply find_all_wanted. now apply reachable_ids. Qed.
Print Assumptions C45_find_all.

(** The listing fails only for an unknown type, or if the InstanceIDs cannot be sorted. *)
Theorem C45_find_all_ok : forall E h rt conds P keys, hw_reachable (e_ver E) h -> plain_conditions (e_ver E) conds ->
  natural_sort (map fst h) = Ok keys -> (forall t, rt = Some t -> exists v, dget str_eqb t RES_MAP = Some v) ->
  exists ks, find_all_items E h rt conds P = Ok ks.
Proof. intros E h rt conds P keys H. apply find_all_ok. now apply reachable_ids. Qed.
Print Assumptions C45_find_all_ok.

(** Looking up one device: the only one that fits is returned; none if none fits;
    an error if several fit, never an arbitrary one of them. *)
Theorem C45_find_one : forall E h rt conds p, hw_reachable (e_ver E) h -> plain_conditions (e_ver E) conds ->
  match find_item E h rt conds p with
  | Ok (Some k) => exists i, In (k, i) h /\ wanted E rt conds [p] i /\
                     forall k' i', In (k', i') h -> wanted E rt conds [p] i' -> k' = k
  | Ok None => forall k i, In (k, i) h -> ~ wanted E rt conds [p] i
  | Err ELookupError => exists k i k' i', In (k, i) h /\ In (k', i') h /\ k <> k' /\
                          wanted E rt conds [p] i /\ wanted E rt conds [p] i'
  | Err _ => (exists s, natural_sort (map fst h) = Err s) \/
             exists t, rt = Some t /\ dget str_eqb t RES_MAP = None
  end.
Proof. intros E h rt conds p H. apply find_item_wanted. now apply reachable_ids. Qed.
Print Assumptions C45_find_one.

(** Setting the values of a property device by device: the first value goes to the device
    with the lowest InstanceID and so on, the default to all further ones.  Each is seen
    under the given profiles that the device is in, and nowhere else; other properties and
    devices stay. *)
Theorem C45_values_in_order : forall E h rt n xs P default h', hw_reachable (e_ver E) h ->
  ~ text_property (e_ver E) n -> n <> INSTANCE_ID (e_ver E) ->
  (forall m, truthy (to_value E n (nth m xs default)) = true) ->
  set_item_values_per_profile E h rt n xs P default = Ok h' ->
  exists ks, are_wanted E h (Some rt) [] [] ks /\ map fst h' = map fst h /\
    (forall k i, ~ In k ks -> (In (k, i) h' <-> In (k, i) h)) /\
    forall m k, nth_error ks m = Some k -> exists i i', In (k, i) h /\ In (k, i') h' /\
      (forall q, seen_under E i n (match P with Some l => l | None => map Some (e_profiles E) ++ [None] end) q ->
         reports E i' n q = Ok (Some (to_value E n (nth m xs default)))) /\
      (forall q, ~ seen_under E i n (match P with Some l => l | None => map Some (e_profiles E) ++ [None] end) q ->
         reports E i' n q = reports E i n q) /\
      (forall n' q, n' <> n -> ~ text_property (e_ver E) n' -> reports E i' n' q = reports E i n' q).
Proof. intros E h rt n xs P default h' H. apply values_set. now apply reachable_ids. Qed.
Print Assumptions C45_values_in_order.

(** Setting one value for all devices of a type: all of them have it, nothing else
    changes; if there is none, a new device with this value is made on request. *)
Theorem C45_value_for_all : forall E h rt n x P create h', hw_reachable (e_ver E) h ->
  ~ text_property (e_ver E) n -> n <> INSTANCE_ID (e_ver E) -> truthy (to_value E n x) = true ->
  set_value_for_all_items E h rt n x P create = Ok h' ->
  exists ks, are_wanted E h (Some rt) [] [] ks /\
    (ks <> [] -> map fst h' = map fst h /\ (forall k i, ~ In k ks -> (In (k, i) h' <-> In (k, i) h)) /\
       forall k, In k ks -> exists i i', In (k, i) h /\ In (k, i') h' /\
         (forall q, reaches (i_props i) n P q -> reports E i' n q = Ok (Some (to_value E n x))) /\
         (forall q, ~ reaches (i_props i) n P q -> reports E i' n q = reports E i n q) /\
         (forall n' q, n' <> n -> ~ text_property (e_ver E) n' -> reports E i' n' q = reports E i n' q)) /\
    (ks = [] -> create = false -> h' = h) /\
    (ks = [] -> create = true -> exists k i, first_free h 1 k /\ h' = h ++ [(k, i)] /\ has_id E i k /\
       (n <> RESOURCE_TYPE -> forall q, (match P with [] => q = None | _ => In q P end) ->
          reports E i n q = Ok (Some (to_value E n x)))).
Proof. intros E h rt n x P create h' H. apply all_set. now apply reachable_ids. Qed.
Print Assumptions C45_value_for_all.

(** A clone has a new InstanceID and the values of its parent under the profiles it is made
    for; under other profiles that the parent is in it has none. *)
Theorem C45_clone : forall E h k parent Q k' h', hw_reachable (e_ver E) h -> In (k, parent) h ->
  clone_item E h k Q = Ok (k', h') ->
  exists i start, py_int k = Some start /\ first_free h start k' /\ h' = h ++ [(k', i)] /\
    reachable (e_ver E) i /\ has_id E i k' /\
    forall n, n <> INSTANCE_ID (e_ver E) -> ~ text_property (e_ver E) n ->
      (forall c, In c (config_of E parent) -> In (Some c) Q -> reports E i n (Some c) = reports E parent n (Some c)) /\
      (forall c, In c (config_of E parent) -> In c (e_profiles E) -> ~ In (Some c) Q -> present E parent (Some c) ->
         reports E i n (Some c) = Ok None) /\
      ((forall c, In c (e_profiles E) -> present E parent (Some c) -> In (Some c) Q) ->
         forall q, reports E i n q = reports E parent n q).
Proof. intros E h k parent Q k' h' H. apply clone_copies. now apply reachable_ids. Qed.
Print Assumptions C45_clone.

(** A clone is moved to the next address on its parent, a network card gets the next name;
    nothing else changes.  A device with an address of its own cannot be cloned. *)
Theorem C45_clone_adjusted : forall E nic i Q n i', reachable (e_ver E) i -> update_cloned E nic i Q n = Ok i' ->
  (forall q v, ~ own (i_props i) ADDRESS q v) /\
  (((forall q v, ~ own (i_props i) ADDRESS_ON_PARENT q v) /\ forall q v, ~ own (i_props i') ADDRESS_ON_PARENT q v) \/
   exists a z, only_value (i_props i) ADDRESS_ON_PARENT (VStr a) /\ py_int a = Some z /\
     (forall q, reaches (i_props i) ADDRESS_ON_PARENT Q q -> reports E i' ADDRESS_ON_PARENT q = Ok (Some (VStr (zdec (z + 1))))) /\
     (forall q, ~ reaches (i_props i) ADDRESS_ON_PARENT Q q -> reports E i' ADDRESS_ON_PARENT q = reports E i ADDRESS_ON_PARENT q)) /\
  (only_value (i_props i) RESOURCE_TYPE (VStr (L "10")) -> nic n <> [] ->
     safe_values E (i_props i) (ELEMENT_NAME (e_ver E)) Q -> safe_text E (i_props i) (ELEMENT_NAME (e_ver E)) Q (nic n) ->
     forall q, requested (i_props i) (ELEMENT_NAME (e_ver E)) Q q ->
       reports E i' (ELEMENT_NAME (e_ver E)) q = Ok (Some (VStr (nic n)))) /\
  (forall m q w, m <> ADDRESS_ON_PARENT ->
     (m = ELEMENT_NAME (e_ver E) -> ~ only_value (i_props i) RESOURCE_TYPE (VStr (L "10"))) ->
     own (i_props i') m q w <-> own (i_props i) m q w).
Proof. exact cloned_updated. Qed.
Print Assumptions C45_clone_adjusted.

(** ** Examples *)
Definition nic_at (attrs : list (str * str)) (id a : string) : elem :=
  an_item attrs [rasd "ElementName" "NIC"; rasd "InstanceID" id; rasd "ResourceType" "10"; rasd "AddressOnParent" a;
                 rasd "Connection" "Net"].
Definition nics5 : hw := hw_of [cpu_item; nic_at [] "10" "7"; nic_at [(ITEM_CONFIG V1, L "big")] "9" "8"].
Lemma nics5_reachable : hw_reachable V1 nics5.
Proof. unfold nics5. match goal with |- hw_reachable _ (hw_of ?l) => apply (hw_of_reachable l) end. eexists. vm_compute. reflexivity. Qed.

(** Card 9, only in "big", comes before card 10; the profile "small" sees only card 10;
    two cards have no common address. *)
Example C45_find_example : hw_reachable V1 nics5 /\
  find_all_items env0 nics5 (Some ethernet) [] [] = Ok [L "9"; L "10"] /\
  find_all_items env0 nics5 (Some ethernet) [(ADDRESS_ON_PARENT, Some (VStr (L "8")))] [] = Ok [L "9"] /\
  find_item env0 nics5 (Some ethernet) [] (Some (L "small")) = Ok (Some (L "10")) /\
  find_item env0 nics5 (Some ethernet) [] (Some (L "big")) = Err ELookupError /\
  find_item env0 nics5 (Some (L "harddisk")) [] None = Ok None.
Proof. split; [exact nics5_reachable|]. do 4 (split; [vm_compute; reflexivity|]). vm_compute. reflexivity. Qed.

(** What the devices report. *)
Definition shown (h : hw) (k : str) (n : str) (p : profile) : option (result (option value)) :=
  match dget str_eqb k h with Some i => Some (reports env0 i n p) | None => None end.

Example C45_values_example : exists h',
  set_item_values_per_profile env0 nics5 ethernet CONNECTION [IStr (L "A"); IStr (L "B")] None (IStr (L "Z")) = Ok h' /\
  shown h' (L "9") CONNECTION (Some (L "big")) = Some (Ok (Some (VStr (L "A")))) /\
  shown h' (L "9") CONNECTION (Some (L "small")) = Some (Ok None) /\
  shown h' (L "10") CONNECTION (Some (L "big")) = Some (Ok (Some (VStr (L "B")))) /\
  shown h' (L "10") CONNECTION None = Some (Ok (Some (VStr (L "B")))) /\
  shown h' (L "10") ADDRESS_ON_PARENT None = Some (Ok (Some (VStr (L "7")))).
Proof. eexists. split; [vm_compute; reflexivity|]. do 4 (split; [vm_compute; reflexivity|]). vm_compute. reflexivity. Qed.

Example C45_all_example : exists h' h'',
  set_value_for_all_items env0 nics5 ethernet CONNECTION (IStr (L "M")) [] true = Ok h' /\
  shown h' (L "9") CONNECTION (Some (L "big")) = Some (Ok (Some (VStr (L "M")))) /\
  shown h' (L "10") CONNECTION (Some (L "big")) = Some (Ok (Some (VStr (L "M")))) /\
  set_value_for_all_items env0 h' (L "memory") VIRTUAL_QUANTITY (IStr (L "64")) [] true = Ok h'' /\
  map fst h'' = map fst nics5 ++ [L "2"] /\
  shown h'' (L "2") VIRTUAL_QUANTITY (Some (L "big")) = Some (Ok (Some (VStr (L "64")))).
Proof.
  eexists _, _. split; [vm_compute; reflexivity|]. do 2 (split; [vm_compute; reflexivity|]).
  split; [vm_compute; reflexivity|]. split; [vm_compute; reflexivity|]. vm_compute. reflexivity.
Qed.

(** A card for "big" cloned from card 10: number 11, address 8, a new name. *)
Example C45_clone_example : exists h' i i',
  clone_item env0 nics5 (L "10") [Some (L "big")] = Ok (L "11", h') /\
  dget str_eqb (L "11") h' = Some i /\
  reports env0 i CONNECTION (Some (L "big")) = Ok (Some (VStr (L "Net"))) /\
  reports env0 i CONNECTION (Some (L "small")) = Ok None /\
  update_cloned env0 guess i [Some (L "big")] 2 = Ok i' /\
  reports env0 i' ADDRESS_ON_PARENT (Some (L "big")) = Ok (Some (VStr (L "8"))) /\
  reports env0 i' (ELEMENT_NAME V1) (Some (L "big")) = Ok (Some (VStr (L "GigabitEthernet2"))).
Proof.
  eexists _, _, _. split; [vm_compute; reflexivity|]. split; [vm_compute; reflexivity|].
  do 2 (split; [vm_compute; reflexivity|]). split; [vm_compute; reflexivity|]. split; [vm_compute; reflexivity|].
  vm_compute. reflexivity.
Qed.

(** A value is used up by a device even if it is in none of the profiles: the only card in
    "small" does not get the first value. *)
Theorem C45_values_in_order_refuted : ~ forall E h rt n x P h' k i,
  hw_reachable (e_ver E) h -> set_item_values_per_profile E h rt n [IStr x] (Some [P]) (IStr []) = Ok h' ->
  find_all_items E h (Some rt) [] [P] = Ok [k] -> dget str_eqb k h' = Some i ->
  n <> INSTANCE_ID (e_ver E) -> ~ text_property (e_ver E) n -> n = CONNECTION -> x <> [] ->
  reports E i n P = Ok (Some (VStr x)).
Proof.
  intros H.
  assert (K : exists h' i, set_item_values_per_profile env0 nics5 ethernet CONNECTION [IStr (L "A")] (Some [Some (L "small")]) (IStr []) = Ok h' /\
    find_all_items env0 nics5 (Some ethernet) [] [Some (L "small")] = Ok [L "10"] /\
    dget str_eqb (L "10") h' = Some i /\ reports env0 i CONNECTION (Some (L "small")) <> Ok (Some (VStr (L "A")))).
  { eexists _, _. split; [vm_compute; reflexivity|]. split; [vm_compute; reflexivity|].
    split; [vm_compute; reflexivity|]. vm_compute. discriminate. }
  destruct K as (h' & i & A & B & C & D). apply D.
  assert (N1 : CONNECTION <> INSTANCE_ID (e_ver env0)) by discriminate.
  assert (N2 : ~ text_property (e_ver env0) CONNECTION) by (intros [F|F]; discriminate F).
  assert (N3 : L "A" <> []) by discriminate.
  exact (H env0 nics5 ethernet CONNECTION (L "A") (Some (L "small")) h' (L "10") i nics5_reachable A B C N1 N2 eq_refl N3).
Qed.
Print Assumptions C45_values_in_order_refuted.
