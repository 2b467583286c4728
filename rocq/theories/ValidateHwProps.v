(** C55: the check of the hardware against the platform, made before a VM is written. *)
From Coq Require Import Lia.
From Verif Require Import PyBase PyDict UnitsModel ValidationModel PlatformModel PlatformSpec XmlModel NamesModel
  ItemModel ItemSpec HardwareModel HardwareSpec HardwareIdProofs HardwareProofs ItemProps HardwareProps CountSpec CountProps FindSpec
  ValidateHwModel ValidateHwSpec ValidateHwProofs.

(** The check succeeds exactly when, under every profile of the document, the numbers of
    CPUs, of MiB of memory and of NICs are acceptable to the platform, and every type of
    every NIC is supported.  There is a warning exactly when it does not succeed.  A
    warning about a number names a profile that has such a number; each unacceptable
    number is warned about in one of the profiles that have it.  The numbers are
    remembered by the platform. *)
Theorem C55_validate : forall p E h history keys, hw_reachable (e_ver E) h -> natural_sort (map fst h) = Ok keys ->
  (forall q, profile_of E q -> readable E h q) ->
  exists r, validate_hardware p E h (after p [] history) = Ok r /\
    (k_ok r = true <->
       (forall q x n, profile_of E q -> measured E h q x n -> acceptable p history x n) /\
       (forall t, nic_type E h t -> In t (supported_nic_types p))) /\
    (k_warn r = [] <-> k_ok r = true) /\
    (forall q x, In (q, Some x) (k_warn r) -> profile_of E q /\ exists n, measured E h q x n /\ ~ acceptable p history x n) /\
    (forall q, In (q, None) (k_warn r) -> profile_of E q /\ ~ forall t, nic_type E h t -> In t (supported_nic_types p)) /\
    (forall q x n, profile_of E q -> measured E h q x n -> ~ acceptable p history x n ->
       exists q', profile_of E q' /\ measured E h q' x n /\ In (q', Some x) (k_warn r)) /\
    (forall x n, In (x, n) (k_seen r) <-> In (x, n) history \/ exists q, profile_of E q /\ measured E h q x n).
Proof. exact validate_spec. Qed.
Print Assumptions C55_validate.

(** A VM with two CPU devices, or two memory devices, under one profile cannot be checked
    at all, and so not be written. *)
Theorem C55_two_devices : forall p E h seen q rt, hw_reachable (e_ver E) h -> profile_of E q ->
  rt = "cpu"%string \/ rt = "memory"%string ->
  (exists k i k' i', device E h rt q k i /\ device E h rt q k' i' /\ k <> k') ->
  exists e, validate_hardware p E h seen = Err e.
Proof. exact validate_two. Qed.
Print Assumptions C55_two_devices.

(** ** Examples *)
Definition cpu_n (attrs : list (str * str)) (id n : string) : elem :=
  an_item attrs [rasd "ElementName" "CPUs"; rasd "InstanceID" id; rasd "ResourceType" "3"; rasd "VirtualQuantity" n].
Definition memory_n (n : string) : elem :=
  an_item [] [rasd "AllocationUnits" "byte * 2^20"; rasd "ElementName" "RAM"; rasd "InstanceID" "2"; rasd "ResourceType" "4";
              rasd "VirtualQuantity" n].
Definition nic_t (attrs : list (str * str)) (id t : string) : elem :=
  an_item attrs [rasd "ElementName" "NIC"; rasd "InstanceID" id; rasd "ResourceSubType" t; rasd "ResourceType" "10"].
Definition big : list (str * str) := [(ITEM_CONFIG V1, L "big")].
Definition small : list (str * str) := [(ITEM_CONFIG V1, L "small")].
(** One CPU, four in the profile "big". *)
Definition machine : hw := hw_of [cpu_n [] "1" "1"; cpu_n big "1" "4"; memory_n "512"; nic_t [] "3" "E1000"; nic_t big "4" "E1000"].

Ltac read_ok := match goal with |- hw_reachable _ (hw_of ?l) => apply (hw_of_reachable l) end; eexists; vm_compute; reflexivity.
Lemma machine_reachable : hw_reachable V1 machine.
Proof. unfold machine. read_ok. Qed.

Lemma readable_ok : forall E h q keys kc ic sc n km im sm um b, hw_reachable (e_ver E) h ->
  natural_sort (map fst h) = Ok keys ->
  find_item E h (Some (L "cpu")) [] q = Ok (Some kc) -> hitem kc h = Ok ic ->
  reports E ic VIRTUAL_QUANTITY q = Ok (Some (VStr sc)) -> py_int sc = Some n ->
  find_item E h (Some (L "memory")) [] q = Ok (Some km) -> hitem km h = Ok im ->
  reports E im VIRTUAL_QUANTITY q = Ok (Some (VStr sm)) -> reports E im ALLOCATION_UNITS q = Ok (Some (VStr um)) ->
  programmatic_bytes_to_int sm um = Ok b -> (Z.abs b <? 2 ^ 53)%Z = true -> readable E h q.
Proof.
  intros E h q keys kc ic sc n km im sm um b HR Hk Fc Ic Qc Nc Fm Im Qm Um Bm Sm.
  pose proof (reachable_ids _ _ HR) as Hi.
  pose proof (find_one E h "cpu" q keys Hi Hk rmap_cpu) as C. rewrite Fc in C. destruct C as (ic' & Ic' & Dc & Ac).
  rewrite Ic in Ic'. injection Ic' as <-.
  pose proof (find_one E h "memory" q keys Hi Hk rmap_memory) as M. rewrite Fm in M. destruct M as (im' & Im' & Dm & Am).
  rewrite Im in Im'. injection Im' as <-.
  split; [exact Ac|]. split; [exact Am|]. split.
  - intros k i D. destruct (device_unique E h "cpu" q kc ic k i (proj1 Hi) Ac Dc D) as [-> ->]. now exists sc, n.
  - intros k i D. destruct (device_unique E h "memory" q km im k i (proj1 Hi) Am Dm D) as [-> ->].
    exists sm, um, b. split; [exact Qm|]. split; [now left|]. split; [exact Bm|]. now apply Z.ltb_lt.
Qed.

Definition readable_b (E : env) (h : hw) (q : profile) : bool :=
  match find_item E h (Some (L "cpu")) [] q, find_item E h (Some (L "memory")) [] q with
  | Ok (Some kc), Ok (Some km) =>
      match hitem kc h, hitem km h with
      | Ok ic, Ok im =>
          match reports E ic VIRTUAL_QUANTITY q, reports E im VIRTUAL_QUANTITY q, reports E im ALLOCATION_UNITS q with
          | Ok (Some (VStr sc)), Ok (Some (VStr sm)), Ok (Some (VStr um)) =>
              match py_int sc, programmatic_bytes_to_int sm um with
              | Some _, Ok b => (Z.abs b <? 2 ^ 53)%Z
              | _, _ => false
              end
          | _, _, _ => false
          end
      | _, _ => false
      end
  | _, _ => false
  end.
Lemma readable_b_ok : forall E h q keys, hw_reachable (e_ver E) h -> natural_sort (map fst h) = Ok keys ->
  readable_b E h q = true -> readable E h q.
Proof.
  intros E h q keys HR Hk H. unfold readable_b in H.
  destruct (find_item E h (Some (L "cpu")) [] q) as [[kc|]|] eqn:Fc; try discriminate H.
  destruct (find_item E h (Some (L "memory")) [] q) as [[km|]|] eqn:Fm; try discriminate H.
  destruct (hitem kc h) as [ic|] eqn:Ic; [|discriminate H]. destruct (hitem km h) as [im|] eqn:Im; [|discriminate H].
  destruct (reports E ic VIRTUAL_QUANTITY q) as [[[sc|]|]|] eqn:Qc; try discriminate H.
  destruct (reports E im VIRTUAL_QUANTITY q) as [[[sm|]|]|] eqn:Qm; try discriminate H.
  destruct (reports E im ALLOCATION_UNITS q) as [[[um|]|]|] eqn:Um; try discriminate H.
  destruct (py_int sc) as [n|] eqn:N; [|discriminate H].
  destruct (programmatic_bytes_to_int sm um) as [b|] eqn:B; [|discriminate H].
  exact (readable_ok E h q keys kc ic sc n km im sm um b HR Hk Fc Ic Qc N Fm Im Qm Um B H).
Qed.

Lemma machine_sorted : natural_sort (map fst machine) = Ok [L "1"; L "2"; L "3"; L "4"].
Proof. vm_compute. reflexivity. Qed.
Lemma machine_readable : forall q, profile_of env0 q -> readable env0 machine q.
Proof.
  intros [x|] H; [|discriminate H]. apply (readable_b_ok env0 machine (Some x) _ machine_reachable machine_sorted).
  destruct H as [<-|[<-|[]]]; vm_compute; reflexivity.
Qed.
(** An IOSv has one CPU: the profile "big" is warned about; the second time all is well. *)
Example C55_validate_nonvacuous :
  (exists keys, natural_sort (map fst machine) = Ok keys) /\
  (forall q, profile_of env0 q -> readable env0 machine q) /\
  validate_hardware IOSv env0 machine (after IOSv [] []) =
    Ok (mkChecked false [(HNics, 2%Z); (HCpus, 4%Z); (HNics, 1%Z); (HMemory, 512%Z); (HCpus, 1%Z)]
          [(Some (L "big"), Some HCpus)]) /\
  (exists r, validate_hardware Generic env0 machine (after Generic [] []) = Ok r /\ k_ok r = true) /\
  exists r, validate_hardware CSR1000V env0 machine (after CSR1000V [] []) = Ok r /\
    k_warn r = [(Some (L "small"), Some HMemory); (Some (L "small"), Some HNics); (Some (L "big"), Some HNics)].
Proof.
  split; [eexists; vm_compute; reflexivity|]. split; [exact machine_readable|]. split; [vm_compute; reflexivity|].
  split; eexists; (split; [vm_compute; reflexivity|]); reflexivity.
Qed.

(** What the check does not do. *)
Definition with_two : hw := hw_of [cpu_n [] "1" "1"; cpu_n [] "5" "1"].
Lemma with_two_reachable : hw_reachable V1 with_two.
Proof. unfold with_two. read_ok. Qed.
(** A failed check is not repeated: asked again, the same hardware is fine. *)
Theorem C55_again_refuted : exists p E h r, hw_reachable (e_ver E) h /\ validate_hardware p E h [] = Ok r /\
  k_ok r = false /\ exists r', validate_hardware p E h (k_seen r) = Ok r' /\ k_ok r' = true /\ k_warn r' = [].
Proof.
  exists IOSv, env0, machine. eexists. split; [exact machine_reachable|]. split; [vm_compute; reflexivity|].
  split; [reflexivity|]. eexists. split; [vm_compute; reflexivity|]. now split.
Qed.
Print Assumptions C55_again_refuted.

(** Bad hardware does not always give a warning: two CPU devices in a profile are an
    error, and so are a CPU device without a number or with one that is no integer. *)
Theorem C55_error_refuted : exists E h1 h2 h3, (forall h, In h [h1; h2; h3] -> hw_reachable (e_ver E) h) /\
  validate_hardware Generic E h1 [] = Err ELookupError /\
  validate_hardware Generic E h2 [] = Err ETypeError /\
  validate_hardware Generic E h3 [] = Err EValueError.
Proof.
  exists env0, with_two, (hw_of [cpu_item]), (hw_of [cpu_n [] "1" "1.0"]). split.
  - intros h [<-|[<-|[<-|[]]]]; [exact with_two_reachable|read_ok|read_ok].
  - vm_compute. repeat split.
Qed.
Print Assumptions C55_error_refuted.
Example C55_two_devices_nonvacuous : profile_of env0 (Some (L "big")) /\
  exists k i k' i', device env0 with_two "cpu" (Some (L "big")) k i /\ device env0 with_two "cpu" (Some (L "big")) k' i' /\ k <> k'.
Proof.
  split; [right; now left|].
  pose proof (FindProofs.find_item_wanted env0 with_two (Some (L "cpu")) [] (Some (L "big")) (reachable_ids _ _ with_two_reachable) (no_conds _)) as F.
  assert (X : find_item env0 with_two (Some (L "cpu")) [] (Some (L "big")) = Err ELookupError) by (vm_compute; reflexivity).
  rewrite X in F. destruct F as (k & i & k' & i' & A & B & N & C & D). exists k, i, k', i'.
  exact (conj (conj A C) (conj (conj B D) N)).
Qed.

(** The types of NICs are not told apart by profile: a NIC that only the profile "big" has
    makes every profile fail, with a warning for each. *)
Theorem C55_types_by_profile_refuted : exists p E h r, hw_reachable (e_ver E) h /\
  (forall k i, device E h "ethernet" (Some (L "small")) k i -> k = L "3") /\
  (exists i, device E h "ethernet" (Some (L "small")) (L "3") i /\
     forall q l, own (i_props i) RESOURCE_SUB_TYPE q (VTuple l) -> forall t, In t l -> In t (supported_nic_types p)) /\
  validate_hardware p E h [] = Ok r /\ In (Some (L "small"), None) (k_warn r).
Proof.
  set (h := hw_of [nic_t [] "3" "E1000"; nic_t big "4" "VMXNET3"]).
  assert (R : hw_reachable V1 h) by (unfold h; read_ok).
  assert (F : find_item env0 h (Some (L "ethernet")) [] (Some (L "small")) = Ok (Some (L "3"))) by (vm_compute; reflexivity).
  exists IOSv, env0, h. eexists. split; [exact R|].
  pose proof (find_one env0 h "ethernet" (Some (L "small")) [L "3"; L "4"] (reachable_ids _ _ R) eq_refl rmap_nic) as O.
  rewrite F in O. destruct O as (i & Hi & D & A). split; [|split; [|split; [vm_compute; reflexivity|]]].
  - intros k j Dj. exact (A k j (L "3") i Dj D).
  - exists i. split; [exact D|]. vm_compute in Hi. injection Hi as <-. cbn [i_props].
    intros q l (d & s & H1 & H2 & _) t Ht. cbn [In] in H1.
    repeat (destruct H1 as [H1|H1]; [try discriminate H1; injection H1 as <-; destruct H2 as [H2|[]]; injection H2 as <- _;
      destruct Ht as [<-|[]]; now left|]). destruct H1.
  - cbn. auto.
Qed.
Print Assumptions C55_types_by_profile_refuted.
