(** What users rely on about the number of devices of a type. *)
From Coq Require Import Sorted.
From Verif Require Import PyBase PyDict ValidationSpec NamesModel ItemModel ItemSpec HardwareModel HardwareSpec.

(** The device is of the named type ('cpu', 'ethernet', ...). *)
Definition of_type (E : env) (rt : str) (i : item) : Prop :=
  exists v, dget str_eqb rt RES_MAP = Some v /\
            get_value E (i_props i) RESOURCE_TYPE None = Ok (Some (VStr v)).

(** The device has a resource type under the same profiles as its InstanceID, as it has
    when each Item element of the document has both. *)
Definition same_profiles (ver : version) (i : item) : Prop :=
  forall p, (exists v, own (i_props i) (INSTANCE_ID ver) p v) <->
            (exists w, own (i_props i) RESOURCE_TYPE p w).

(** The devices of a type in a profile, by InstanceID in natural order. *)
Definition devices (E : env) (h : hw) (rt : str) (p : profile) : result (list str) :=
  find_all_items E h (Some rt) [] [p].

(** The device exists under every profile, by default. *)
Definition generic (ver : version) (i : item) : Prop :=
  forall p, ((exists v, own (i_props i) (INSTANCE_ID ver) p v) <-> p = None) /\
            ((exists w, own (i_props i) RESOURCE_TYPE p w) <-> p = None).

(** The device is in the profile: its InstanceID is recorded for it, or recorded by
    default and the profile is one of those the device knows of. *)
Definition present (E : env) (i : item) (p : profile) : Prop :=
  (exists v, own (i_props i) (INSTANCE_ID (e_ver E)) p v) \/
  ((exists v, own (i_props i) (INSTANCE_ID (e_ver E)) None v) /\
   exists x, p = Some x /\ In x (config_of E i)).

(** [ks] are the devices of the type in the profile, lowest InstanceID first. *)
Definition are_devices (E : env) (h : hw) (rt : str) (p : profile) (ks : list str) : Prop :=
  NoDup ks /\ StronglySorted (fun a b => ~ natural_lt b a) ks /\
  forall k, In k ks <-> exists i, In (k, i) h /\ of_type E rt i /\ present E i p.
