(** What users rely on when the hardware is checked against the platform. *)
From Verif Require Import PyBase PyDict UnitsModel ValidationModel PlatformModel PlatformSpec XmlModel
  NamesModel ItemModel ItemSpec HardwareModel CountSpec FindSpec.

(** The profiles of the document, or the default if there is none. *)
Definition profile_of (E : env) (q : profile) : Prop :=
  match q with Some x => In x (e_profiles E) | None => e_profiles E = [] end.

(** The device [i], with InstanceID [k], is of the type and in the profile. *)
Definition device (E : env) (h : hw) (rt : string) (q : profile) (k : str) (i : item) : Prop :=
  In (k, i) h /\ wanted E (Some (L rt)) [] [q] i.

(** The quantity of the device under the profile, and the text of its units (empty if it
    has none). *)
Definition quantity (E : env) (i : item) (q : profile) (s : str) : Prop :=
  reports E i VIRTUAL_QUANTITY q = Ok (Some (VStr s)).
Definition units (E : env) (i : item) (q : profile) (u : str) : Prop :=
  reports E i ALLOCATION_UNITS q = Ok (Some (VStr u)) \/
  (reports E i ALLOCATION_UNITS q = Ok None /\ u = []).

(** The number of CPUs, of whole MiB of memory and of NICs under a profile. *)
Inductive measured (E : env) (h : hw) (q : profile) : hardware -> Z -> Prop :=
| M_cpus k i s n : device E h "cpu" q k i -> quantity E i q s -> py_int s = Some n ->
    measured E h q HCpus n
| M_memory k i s u b : device E h "memory" q k i -> quantity E i q s -> units E i q u ->
    programmatic_bytes_to_int s u = Ok b -> measured E h q HMemory (Z.quot b (1024 * 1024))
| M_nics ks : NoDup ks -> (forall k, In k ks <-> exists i, device E h "ethernet" q k i) ->
    measured E h q HNics (Z.of_nat (length ks)).

(** A type of some NIC, whatever profile the NIC is in. *)
Definition nic_type (E : env) (h : hw) (t : str) : Prop :=
  exists k i q l, In (k, i) h /\ wanted E (Some (L "ethernet")) [] [] i /\
    own (i_props i) RESOURCE_SUB_TYPE q (VTuple l) /\ In t l.

(** The profile has at most one CPU device and one memory device, and their numbers can
    be read. *)
Definition at_most_one (E : env) (h : hw) (rt : string) (q : profile) : Prop :=
  forall k i k' i', device E h rt q k i -> device E h rt q k' i' -> k = k'.
Definition readable (E : env) (h : hw) (q : profile) : Prop :=
  at_most_one E h "cpu" q /\ at_most_one E h "memory" q /\
  (forall k i, device E h "cpu" q k i -> exists s n, quantity E i q s /\ py_int s = Some n) /\
  (forall k i, device E h "memory" q k i -> exists s u b, quantity E i q s /\ units E i q u /\
     programmatic_bytes_to_int s u = Ok b /\ (Z.abs b < 2 ^ 53)%Z).

(** The platform has nothing against the number: it is within the limits, or it was
    complained about before (the platform complains about a number only once); CPU counts
    not on the platform's list are never accepted. *)
Definition acceptable (p : platform) (history : list (hardware * Z)) (x : hardware) (n : Z) : Prop :=
  (In (x, n) history \/ (~ too_low p x n /\ ~ too_high p x n)) /\ ~ bad_cpu_count p x n.
