(** What it means that a document describes the hardware it was written for. *)
From Coq Require Import List.
Import ListNotations.
From Verif Require Import PyBase XmlModel NamesModel ItemModel ItemSpec GenerateSpec HardwareModel.

(** The device has a value for some property under some profile. *)
Definition has_values (i : item) : Prop := exists n q v, own (i_props i) n q v.
(** Under each profile for which the device has values, its InstanceID is [k]. *)
Definition numbered (E : env) (k : str) (i : item) : Prop :=
  k <> [] /\ forall n q v, own (i_props i) n q v -> reports E i (INSTANCE_ID (e_ver E)) q = Ok (Some (VStr k)).
(** The profiles of the device are profiles of the document. *)
Definition known_profiles (E : env) (i : item) : Prop :=
  forall n x v, own (i_props i) n (Some x) v -> In x (e_profiles E).

(** The same devices, apart from those without any values: each property has the same value
    under each profile. *)
Definition same_reports (E : env) (i j : item) : Prop := forall n q, reports E j n q = reports E i n q.
Definition same_hardware (E : env) (h h' : hw) : Prop :=
  NoDup (map fst h') /\
  (forall k i, In (k, i) h -> has_values i -> exists j, In (k, j) h' /\ same_reports E i j) /\
  (forall k j, In (k, j) h' -> exists i, In (k, i) h /\ has_values i /\ same_reports E i j).
