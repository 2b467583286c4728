(** What users rely on when they run edit-hardware. *)
From Verif Require Import PyBase PyDict XmlModel NamesModel ItemModel ItemSpec HardwareModel HardwareSpec CountSpec
  FindSpec ProfileModel NetworkModel EditHwModel.

(** The devices of the VM. *)
Definition devices_of (m : vm) : hw := p_hw (v_doc m).

(** The ResourceType numbers of the devices that the command knows (DMTF CIM_ResourceAllocationSettingData). *)
Definition CPU : str := L "3".
Definition MEMORY : str := L "4".
Definition IDE : str := L "5".
Definition SCSI : str := L "6".
Definition NIC : str := L "10".
Definition SERIAL : str := L "21".

(** The device is of the type with this number. *)
Definition is_of (w : str) (i : item) : Prop := only_value (i_props i) RESOURCE_TYPE (VStr w).

(** The devices of this type are the very same before and after. *)
Definition same_of_type (w : str) (h h' : hw) : Prop :=
  forall k i, is_of w i -> (In (k, i) h <-> In (k, i) h').

(** Under profile [q] the VM is as before: the devices present and all that they report are
    the same; new devices are not present. *)
Definition same_under (E : env) (q : str) (m m' : vm) : Prop :=
  (forall k i, In (k, i) (devices_of m) -> exists i', In (k, i') (devices_of m') /\
     (present (henv E m') i' (Some q) <-> present (henv E m) i (Some q)) /\
     forall n, reports E i' n (Some q) = reports E i n (Some q)) /\
  (forall k i', In (k, i') (devices_of m') -> taken (devices_of m) k \/ ~ present (henv E m') i' (Some q)).

(** Questions that may be answered with no while the command goes on. *)
Definition is_ask_delete (q : prompt) : Prop := exists p, q = AskDelete p.

(** The devices of the type that the command may change: the option for it was given.  A
    network card may also be changed if the package defines no network. *)
Definition concerned (E : env) (m : vm) (s : settings) (w : str) : Prop :=
  (w = CPU /\ s_cpus s <> None) \/
  (w = MEMORY /\ s_memory s <> None) \/
  (w = NIC /\ (s_nics s <> None \/ s_nic_types s <> None \/ s_macs s <> None \/ s_networks s <> None \/
               s_nic_names s <> None \/ networks (e_ver E) (net_of m) = [])) \/
  (w = SERIAL /\ (s_serials s <> None \/ s_connectivity s <> None)) \/
  (w = SCSI /\ s_scsi s <> None) \/
  (w = IDE /\ s_ide s <> None).

(** The profiles that the options are for: those given, or all and the default. *)
Definition targets (E : env) (m : vm) (s : settings) : list profile :=
  match s_profiles s with
  | Some (p :: ps) => map Some (p :: ps)
  | _ => map Some (profiles_of E m) ++ [None]
  end.

(** The devices of the type, lowest InstanceID first, have the values in turn: the [j]-th has
    [value j] under each of the profiles [Q] that it is in.  Devices without a value are not
    spoken of. *)
Definition in_turn (E : env) (m : vm) (rt n : str) (value : nat -> option str) (Q : list profile) : Prop :=
  exists ks, are_wanted (henv E m) (devices_of m) (Some rt) [] [] ks /\
  forall j k v, nth_error ks j = Some k -> value j = Some v -> exists i, In (k, i) (devices_of m) /\
    forall q, In q Q -> present (henv E m) i q -> reports E i n q = Ok (Some (VStr v)).

(** The [j]-th of the list, or its last; the [j]-th of the list, or nothing.  (The empty text
    is not spoken of.) *)
Definition or_last (l : list str) (j : nat) : option str := match nth j l (last l []) with [] => None | v => Some v end.
Definition or_none (l : list str) (j : nat) : option str := match nth j l [] with [] => None | v => Some v end.

(** The name has no underscore and mentions none of the values that are kept as placeholders
    in names: quantity, subtype and network of the device. *)
Definition plain_name (E : env) (i : item) (t : str) : Prop :=
  no_underscore t /\ forall Q w x, Q <> [] -> embeds E (i_props i) Q (ELEMENT_NAME (e_ver E)) w x ->
    plain_pattern x = true /\ contains x t = false.
(** The devices of the type, lowest InstanceID first, have the names in turn, under each of the
    profiles [Q] that they are in. *)
Definition named_in_turn (E : env) (m : vm) (rt : str) (names : list str) (Q : list profile) : Prop :=
  exists ks, are_wanted (henv E m) (devices_of m) (Some rt) [] [] ks /\
  forall j k t, nth_error ks j = Some k -> nth_error names j = Some t -> t <> [] -> exists i, In (k, i) (devices_of m) /\
    (plain_name E i t -> forall q, In q Q -> present (henv E m) i q -> reports E i (ELEMENT_NAME (e_ver E)) q = Ok (Some (VStr t))).

(** [n] is the largest number of devices of the type under one of the profiles [Q]. *)
Definition most_devices (E : env) (m : vm) (rt : str) (Q : list profile) (n : Z) : Prop :=
  (forall p ks, In p Q -> are_devices (henv E m) (devices_of m) rt p ks -> (Z.of_nat (length ks) <= n)%Z) /\
  exists p ks, In p Q /\ are_devices (henv E m) (devices_of m) rt p ks /\ Z.of_nat (length ks) = n.

(** The devices of the type are in the profiles in a way that allows to set their number (C17):
    with given profiles, each has its resource type wherever it has its InstanceID;
    otherwise each is in all profiles alike. *)
Definition countable (E : env) (m : vm) (s : settings) (w : str) : Prop :=
  forall k i, In (k, i) (devices_of m) -> is_of w i ->
    match s_profiles s with Some (_ :: _) => same_profiles (e_ver E) i | _ => generic (e_ver E) i end.

(** Under each of the profiles [Q] there are [n] devices of the type; when there were too
    many the first ones are left, otherwise all old ones are among them. *)
Definition number_set (E : env) (m m' : vm) (rt : str) (n : Z) (Q : list profile) : Prop :=
  forall q, In q Q -> exists ks ks',
    are_devices (henv E m') (devices_of m) rt q ks /\ are_devices (henv E m') (devices_of m') rt q ks' /\
    Z.of_nat (length ks') = n /\
    ((n <= Z.of_nat (length ks))%Z -> ks' = firstn (Z.to_nat n) ks) /\
    ((Z.of_nat (length ks) <= n)%Z -> incl ks ks').

(** The user agreed to each profile of [Q] losing devices of the type. *)
Definition loss_confirmed (E : env) (m m' : vm) (rt : str) (n : Z) (Q : list profile) (ask : profile -> Z -> prompt) : Prop :=
  forall q ks, In q Q -> are_devices (henv E m') (devices_of m) rt q ks -> (n < Z.of_nat (length ks))%Z ->
    In (Confirmed (ask q (Z.of_nat (length ks))) true) (v_log m').

(** The device reports the value under each of the profiles [P]; if no profiles are given it
    has no other value anywhere. *)
Definition has_set (E : env) (i : item) (n : str) (v : value) (P : list profile) : Prop :=
  (forall p, In p P -> reports E i n p = Ok (Some v)) /\ (P = [] -> only_value (i_props i) n v).

(** The words of the system types can be told apart. *)
Definition plain_words (l : list str) : Prop := l <> [] /\ forall w, In w l -> w <> [] /\ ~ In " "%char w.

(** No option is given. *)
Definition no_options (s : settings) : Prop :=
  s_profiles s = None /\ s_delete_others s = false /\ s_system_types s = None /\ s_cpus s = None /\ s_memory s = None /\
  s_nics s = None /\ s_nic_types s = None /\ s_macs s = None /\ s_networks s = None /\ s_net_descs s = None /\
  s_nic_names s = None /\ s_serials s = None /\ s_connectivity s = None /\ s_scsi s = None /\ s_ide s = None.
