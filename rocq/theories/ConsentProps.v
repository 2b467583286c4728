(** C30: nothing that is in the package is replaced or removed without consent. *)
From Coq Require Import List Ascii ZArith.
Import ListNotations.
From Verif Require Import PyBase XmlModel NamesModel ItemModel ItemProps HardwareModel HardwareSpec CountSpec DriveModel DriveSpec OrderlyProofs ConsentProofs DriveProps.
Local Open Scope nat_scope.

(** add-disk: a File that is not there any more was one the user agreed to replace; before a
    Disk or a drive that was there is used for the new file, the user agreed to replace a
    File or to fill an empty drive, and before its kind is changed to that too.  The user
    has agreed to every new controller, and to every other subtype of one that was there;
    no other device changes. *)
Theorem C30_consent_add_disk : forall agree E fuel guess m im dt file_id controller subtype address diskname desc m' k,
  orderly E m ->
  add_disk_worker agree E fuel guess m im dt file_id controller subtype address diskname desc = Ok (m', k) ->
  (forall f, In f (files (e_ver E) m) -> ~ In f (files (e_ver E) m') -> agree (ReplaceFile (get_attr f (FILE_HREF (e_ver E))) (im_name im)) = true) /\
  ((exists d, In d (disks (e_ver E) m) /\ ~ In d (disks (e_ver E) m')) \/ taken (m_hw m) k ->
     (exists f, In f (files (e_ver E) m) /\ agree (ReplaceFile (get_attr f (FILE_HREF (e_ver E))) (im_name im)) = true) \/ agree (FillEmptyDrive dt) = true) /\
  (forall i, In (k, i) (m_hw m) -> ~ is_a dt i -> exists t, agree (ChangeDrive t dt) = true) /\
  (forall k', taken (m_hw m') k' -> ~ taken (m_hw m) k' -> k' <> k -> exists ct, agree (AddController ct) = true) /\
  (forall k' i i', In (k', i) (m_hw m) -> In (k', i') (m_hw m') -> k' <> k -> i' <> i ->
     exists s, subtype = Some s /\ (value_of E m k' RESOURCE_SUB_TYPE = Ok None \/
       exists ct c, value_of E m k' RESOURCE_SUB_TYPE = Ok (Some c) /\ (c = VStr s \/ agree (ChangeSubtype ct c (VStr s)) = true))).
Proof. exact add_disk_asked. Qed.
Print Assumptions C30_consent_add_disk.

Theorem C30_consent_add_file : forall agree E m im file_id m', orderly E m -> add_file_run agree E m im file_id = Ok m' ->
  forall f, In f (files (e_ver E) m) -> ~ In f (files (e_ver E) m') -> agree (ReplaceFile (get_attr f (FILE_HREF (e_ver E))) (im_name im)) = true.
Proof. exact add_file_asked. Qed.
Print Assumptions C30_consent_add_file.

(** remove-file: the user has agreed to a question that names the file. *)
Theorem C30_consent_remove_file : forall agree E m path id m', remove_file_run agree E m path id = Ok m' ->
  exists h i d k, agree (RemoveFile h i d k) = true /\ (forall p, path = Some p -> p = h) /\ (forall s, id = Some s -> s = i).
Proof. exact remove_file_asked. Qed.
Print Assumptions C30_consent_remove_file.

(** A user who always says no: a second disk can be added, but the first cannot be replaced,
    changed to a CD-ROM or removed, and there is no new controller. *)
Definition no (p : prompt) : bool := false.
(** One who allows the File to be replaced, but no other kind of drive. *)
Definition same_kind (p : prompt) : bool := match p with ChangeDrive _ _ => false | _ => true end.
Definition add_as (agree : prompt -> bool) (m : vmd) (im : image) (dt : str) : result (vmd * str) :=
  add_disk_worker agree env0 100 ide m im dt None None None None None None.
Example C30_consent_example : orderly env0 m1 /\
  (exists m' k, add_as no m1 data (L "harddisk") = Ok (m', k) /\ length (files V1 m') = 2) /\
  add_as no m1 vmdk (L "harddisk") = Err ESystemExit /\
  (exists m', add_as same_kind m1 vmdk (L "harddisk") = Ok (m', L "4")) /\
  add_as same_kind m1 vmdk (L "cdrom") = Err ESystemExit /\
  (exists m', add_as yes m1 vmdk (L "cdrom") = Ok (m', L "4")) /\
  add_disk_worker no env0 100 ide m1 data (L "harddisk") None (Some (L "sata")) None None None None = Err ESystemExit /\
  add_file_run no env0 m1 vmdk None = Err ESystemExit /\
  remove_file_run no env0 m1 (Some (L "vm.vmdk")) None = Err ESystemExit.
Proof.
  split; [exact (C30_history env0 base m1 base_orderly history1) | ].
  split; [eexists _, _; split; vm_compute; reflexivity | ]. split; [vm_compute; reflexivity | ]. split; [eexists; vm_compute; reflexivity | ].
  split; [vm_compute; reflexivity | ]. split; [eexists; vm_compute; reflexivity | ]. split; [vm_compute; reflexivity | ]. split; vm_compute; reflexivity.
Qed.
