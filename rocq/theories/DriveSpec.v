(** What users rely on about files, disks, drives and their addresses. *)
From Coq Require Import Sorted ZArith.
From Verif Require Import PyBase PyDict XmlModel NamesModel ItemModel ItemSpec HardwareModel CountSpec FindSpec DriveModel.

(** ** Addresses *)

(** Every device has its InstanceID. *)
Definition identified (E : env) (h : hw) : Prop :=
  forall k i, In (k, i) h -> exists p, own (i_props i) (INSTANCE_ID (e_ver E)) p (VStr k).

(** Some device has address [a] on the controller with InstanceID [ck]. *)
Definition occupied (h : hw) (ck : str) (a : Z) : Prop :=
  exists k i, In (k, i) h /\ only_value (i_props i) PARENT (VStr ck) /\
              only_value (i_props i) ADDRESS_ON_PARENT (VStr (zdec a)).

(** Some controller of the type has address [a]. *)
Definition controller_at (h : hw) (ct : str) (a : Z) : Prop :=
  exists t k i, dget str_eqb ct RES_MAP = Some t /\ In (k, i) h /\
    only_value (i_props i) RESOURCE_TYPE (VStr t) /\ only_value (i_props i) ADDRESS (VStr (zdec a)).

(** [a] is the lowest number from 0 on that is not used. *)
Definition lowest_unused (used : Z -> Prop) (a : Z) : Prop :=
  (0 <= a)%Z /\ ~ used a /\ forall b, (0 <= b < a)%Z -> used b.

(** The last address that is used on a controller, where there is a limit. *)
Definition last_slot (ct : str) (z : Z) : Prop := (ct = L "scsi" /\ z = 7%Z) \/ (ct = L "ide" /\ z = 1%Z).
(** The last address of a controller. *)
Definition last_controller (ct : str) (z : Z) : Prop := (ct = L "scsi" /\ z = 3%Z) \/ (ct = L "ide" /\ z = 1%Z).

(** All addresses on the controller are in use. *)
Definition full (h : hw) (ct ck : str) : Prop :=
  exists z, last_slot ct z /\ forall b, (0 <= b <= z)%Z -> occupied h ck b.

(** The device is one of the named type. *)
Definition is_a (rt : str) (i : item) : Prop :=
  exists t, dget str_eqb rt RES_MAP = Some t /\ only_value (i_props i) RESOURCE_TYPE (VStr t).

(** ** References *)

Definition files (v : version) (m : vmd) : list elem :=
  filter (fun e => str_eqb (etag e) (FILE v)) (echildren (m_refs m)).
Definition disks (v : version) (m : vmd) : list elem :=
  match m_disks m with
  | Some s => filter (fun e => str_eqb (etag e) (DISK v)) (echildren s)
  | None => []
  end.

(** Each of the elements has the attribute, and no two have the same value. *)
Definition unique_attr (k : str) (l : list elem) : Prop :=
  (forall e, In e l -> exists x, get_attr e k = Some x) /\ NoDup (map (fun e => get_attr e k) l).

(** A HostResource that stands for the disk (file) with this identifier. *)
Definition refers_disk (v : version) (s id : str) : Prop := s = DISK_REF v ++ id \/ s = OLD_DISK_REF ++ id.
Definition refers_file (v : version) (s id : str) : Prop := s = FILE_REF v ++ id \/ s = OLD_FILE_REF ++ id.

(** No identifier is used twice, and no reference leads nowhere. *)
Record linked (v : version) (m : vmd) : Prop := {
  l_file_ids : unique_attr (FILE_ID v) (files v m);
  l_file_names : unique_attr (FILE_HREF v) (files v m);
  l_disk_ids : unique_attr (DISK_ID v) (disks v m);
  l_disk_files : forall d r, In d (disks v m) -> get_attr d (DISK_FILE_REF v) = Some r ->
    exists f, In f (files v m) /\ get_attr f (FILE_ID v) = Some r;
  l_drive_disks : forall k i p s id, In (k, i) (m_hw m) -> own (i_props i) HOST_RESOURCE p (VStr s) ->
    refers_disk v s id -> exists d, In d (disks v m) /\ get_attr d (DISK_ID v) = Some id;
  l_drive_files : forall k i p s id, In (k, i) (m_hw m) -> own (i_props i) HOST_RESOURCE p (VStr s) ->
    refers_file v s id -> exists f, In f (files v m) /\ get_attr f (FILE_ID v) = Some id }.

(** Each drive has one HostResource at most, and exists in the default profile if it has
    one. *)
Definition plain_drives (E : env) (m : vmd) : Prop :=
  forall k i, In (k, i) (m_hw m) ->
    (forall p q v w, own (i_props i) HOST_RESOURCE p v -> own (i_props i) HOST_RESOURCE q w -> v = w) /\
    (forall p v, own (i_props i) HOST_RESOURCE p v -> present E i None).

(** Exactly the Files in the descriptor are copied when it is written. *)
Definition sourced (v : version) (m : vmd) : Prop :=
  NoDup (map fst (m_sources m)) /\
  forall h, (exists d, dget str_eqb h (m_sources m) = Some d) <->
            exists f, In f (files v m) /\ get_attr f (FILE_HREF v) = Some h.
(** Where the other Files are copied from does not change. *)
Definition same_sources (v : version) (m m' : vmd) (name : str) : Prop :=
  forall f h, In f (files v m') -> get_attr f (FILE_HREF v) = Some h -> h <> name ->
    dget str_eqb h (m_sources m') = dget str_eqb h (m_sources m).

(** The disk and the file behind a HostResource. *)
Definition disk_of (v : version) (m : vmd) (s : str) (d : elem) : Prop :=
  In d (disks v m) /\ exists id, get_attr d (DISK_ID v) = Some id /\ refers_disk v s id.
Definition file_of (v : version) (m : vmd) (s : str) (f : elem) : Prop :=
  In f (files v m) /\ exists id, get_attr f (FILE_ID v) = Some id /\
    (refers_file v s id \/ exists d, disk_of v m s d /\ get_attr d (DISK_FILE_REF v) = Some id).

(** No two drives have the same disk or the same file. *)
Definition one_drive (v : version) (m : vmd) : Prop :=
  forall k i p s k' i' p' s', In (k, i) (m_hw m) -> own (i_props i) HOST_RESOURCE p (VStr s) ->
    In (k', i') (m_hw m) -> own (i_props i') HOST_RESOURCE p' (VStr s') ->
    (exists d, disk_of v m s d /\ disk_of v m s' d) \/ (exists f, file_of v m s f /\ file_of v m s' f) -> k = k'.

(** No two Disks have the same File. *)
Definition one_disk (v : version) (m : vmd) : Prop :=
  forall d d' r, In d (disks v m) -> In d' (disks v m) ->
    get_attr d (DISK_FILE_REF v) = Some r -> get_attr d' (DISK_FILE_REF v) = Some r -> d = d'.

(** No identifier has a slash in it. *)
Definition plain_ids (v : version) (m : vmd) : Prop :=
  (forall f id, In f (files v m) -> get_attr f (FILE_ID v) = Some id -> ~ In "/"%char id) /\
  (forall d id, In d (disks v m) -> get_attr d (DISK_ID v) = Some id -> ~ In "/"%char id).

(** [l'] is [l] with [x] added somewhere or put in the place of one element, or with one
    element less, or the same. *)
Definition replaced (l l' : list elem) (x : elem) : Prop :=
  exists A o B, l = A ++ o ++ B /\ length o <= 1 /\ l' = A ++ x :: B.
Definition removed (l l' : list elem) : Prop :=
  exists A o B, l = A ++ o ++ B /\ length o <= 1 /\ l' = A ++ B.

(** A Disk with the identifier [x] is the one of the File [x]. *)
Definition own_disk_id (v : version) (m : vmd) (x : str) : Prop :=
  forall d, In d (disks v m) -> get_attr d (DISK_ID v) = Some x -> get_attr d (DISK_FILE_REF v) = Some x.

(** The address of a controller is a text without a colon. *)
Definition plain_addresses (h : hw) : Prop :=
  forall k i p w, In (k, i) h -> own (i_props i) ADDRESS p w -> exists s, w = VStr s /\ ~ In ":"%char s.

(** The devices are kept under their InstanceIDs, no two under the same, and each is one
    that was read and changed by the functions of the item (this holds of all hardware that
    can be reached, C18). *)
Definition kept (ver : version) (h : hw) : Prop :=
  NoDup (map fst h) /\
  forall k i, In (k, i) h -> reachable ver i /\ forall p v, own (i_props i) (INSTANCE_ID ver) p v -> v = VStr k.

(** A package in which all is in order. *)
Record orderly (E : env) (m : vmd) : Prop := {
  o_ids : kept (e_ver E) (m_hw m);
  o_named : identified E (m_hw m);
  o_linked : linked (e_ver E) m;
  o_plain : plain_drives E m;
  o_plain_ids : plain_ids (e_ver E) m;
  o_disk : one_disk (e_ver E) m;
  o_drive : one_drive (e_ver E) m;
  o_sourced : sourced (e_ver E) m }.

(** The name and the identifier have no slash in them (the name is the last part of a
    path). *)
Definition no_slash (im : image) (file_id : option str) : Prop :=
  ~ In "/"%char (im_name im) /\ forall s, file_id = Some s -> ~ In "/"%char s.

(** A Disk whose identifier is the one of the File to be added, or of a File that is there,
    is the Disk of that File. *)
Definition disk_ids_apart (v : version) (m : vmd) (im : image) (file_id : option str) : Prop :=
  forall x, x = im_name im \/ file_id = Some x \/ (exists f, In f (files v m) /\ get_attr f (FILE_ID v) = Some x) ->
    own_disk_id v m x.

(** A File that has the name as its identifier also has it as its name; a File with this
    name has the identifier that is asked for. *)
Definition ids_agree (v : version) (m : vmd) (im : image) (file_id : option str) : Prop :=
  (file_id = None -> forall f, In f (files v m) -> get_attr f (FILE_ID v) = Some (im_name im) ->
     get_attr f (FILE_HREF v) = Some (im_name im)) /\
  (forall s f, file_id = Some s -> In f (files v m) -> get_attr f (FILE_HREF v) = Some (im_name im) ->
     get_attr f (FILE_ID v) = Some s).

(** A type of device that is in the table. *)
Definition known_type (t : str) : Prop := exists n, dget str_eqb t RES_MAP = Some n.

(** Commands one after the other, with any answers to the questions. *)
Inductive managed (E : env) : vmd -> vmd -> Prop :=
| M_start : forall m, managed E m m
| M_add_disk : forall m m1 agree fuel guess im dt file_id controller subtype address diskname desc m2 k,
    managed E m m1 -> no_slash im file_id -> (dt = L "harddisk" -> disk_ids_apart (e_ver E) m1 im file_id) ->
    (forall c, controller = Some c -> known_type c) -> known_type (guess dt) ->
    add_disk_worker agree E fuel guess m1 im dt file_id controller subtype address diskname desc = Ok (m2, k) ->
    managed E m m2
| M_add_file : forall m m1 agree im file_id m2,
    managed E m m1 -> no_slash im file_id -> ids_agree (e_ver E) m1 im file_id ->
    add_file_run agree E m1 im file_id = Ok m2 -> managed E m m2
| M_remove_file : forall m m1 agree path file_id m2,
    managed E m m1 -> remove_file_run agree E m1 path file_id = Ok m2 -> managed E m m2.
