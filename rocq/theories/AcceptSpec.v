(** When files can be added and removed. *)
From Verif Require Import PyBase PyDict ValidationModel XmlModel NamesModel ItemModel ItemSpec HardwareModel CountSpec FindSpec DriveModel DriveSpec.

(** The identifiers of the devices can be put in order (they have no digits outside ASCII,
    say). *)
Definition sortable (m : vmd) : Prop := exists keys, natural_sort (map fst (m_hw m)) = Ok keys.

(** Every device that refers to something is on a controller that is there in the default
    profile. *)
Definition attached (E : env) (m : vmd) : Prop :=
  forall k i p v, In (k, i) (m_hw m) -> own (i_props i) HOST_RESOURCE p v ->
    exists ck ci, only_value (i_props i) PARENT (VStr ck) /\ In (ck, ci) (m_hw m) /\ present E ci None.

(** Every device that refers to something is a CD-ROM drive or a hard disk. *)
Definition only_drives (m : vmd) : Prop :=
  forall k i p v, In (k, i) (m_hw m) -> own (i_props i) HOST_RESOURCE p v ->
    only_value (i_props i) RESOURCE_TYPE (VStr (L "15")) \/ only_value (i_props i) RESOURCE_TYPE (VStr (L "17")).

(** A File with the name, or with the identifier if one is given. *)
Definition meant (v : version) (m : vmd) (name file_id : option str) (f : elem) : Prop :=
  In f (files v m) /\
  ((exists s, name = Some s /\ get_attr f (FILE_HREF v) = Some s) \/ (exists s, file_id = Some s /\ get_attr f (FILE_ID v) = Some s)).

(** A File that is as the user says. *)
Definition fits (v : version) (m : vmd) (name file_id : option str) (f : elem) : Prop :=
  meant v m name file_id f /\
  (forall s, name = Some s -> get_attr f (FILE_HREF v) = Some s) /\
  (forall s, file_id = Some s -> get_attr f (FILE_ID v) = Some s).
