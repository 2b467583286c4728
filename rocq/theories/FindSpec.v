(** What users rely on when devices are looked up and their properties set. *)
From Coq Require Import Sorted.
From Verif Require Import PyBase PyDict ValidationSpec NamesModel ItemModel ItemSpec HardwareModel CountSpec.

(** All records of property [n] have the value [v], and there is one. *)
Definition only_value (ps : props) (n : str) (v : value) : Prop :=
  (exists p, own ps n p v) /\ forall q w, own ps n q w -> w = v.

(** A condition on a property: it has this only value, or no only value. *)
Definition meets (i : item) (c : str * option value) : Prop :=
  match snd c with
  | Some v => only_value (i_props i) (fst c) v
  | None => forall v, ~ only_value (i_props i) (fst c) v
  end.

(** The device is of the type, if one is asked for, in all profiles of [P], and meets
    all conditions. *)
Definition wanted (E : env) (rt : option str) (conds : list (str * option value)) (P : list profile)
    (i : item) : Prop :=
  (forall t, rt = Some t -> exists v, dget str_eqb t RES_MAP = Some v /\ only_value (i_props i) RESOURCE_TYPE (VStr v)) /\
  (forall p, In p P -> present E i p) /\
  (forall c, In c conds -> meets i c).

(** [ks] are the wanted devices, lowest InstanceID first. *)
Definition are_wanted (E : env) (h : hw) (rt : option str) (conds : list (str * option value)) (P : list profile)
    (ks : list str) : Prop :=
  NoDup ks /\ StronglySorted (fun a b => ~ natural_lt b a) ks /\
  forall k, In k ks <-> exists i, In (k, i) h /\ wanted E rt conds P i.

(** Conditions on properties other than the free texts. *)
Definition plain_conditions (ver : version) (conds : list (str * option value)) : Prop :=
  forall c, In c conds -> ~ text_property ver (fst c).

(** The value set under the profiles [P] is seen under profile [q]: it is set for [q]
    itself, or for the default profile while [q] has no value of its own; always only for
    profiles that the device is in. *)
Definition seen_under (E : env) (i : item) (n : str) (P : list profile) (q : profile) : Prop :=
  (In q P /\ present E i q) \/
  (In None P /\ present E i None /\ forall w, ~ own (i_props i) n q w).
