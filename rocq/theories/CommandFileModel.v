(** Whole runs of the commands add-file, add-disk and remove-file:
    COT/commands/command.py:280-305, 367-391 (ReadWriteCommand: package, run, finished),
    COT/commands/add_file.py:82-108, COT/commands/add_disk.py:495-622,
    COT/commands/remove_file.py:69-116 and COT/cli.py:413-423.

    The package is opened (OpenModel), the command does its work (DriveModel), and the package is
    written (SaveModel); see CommandModel for edit-product and edit-properties. *)
From Coq Require Import List Ascii Bool.
Import ListNotations.
From Verif Require Import PyBase PyDict XmlModel NamesModel ItemModel HardwareModel ProfileModel NetworkModel DriveModel PlatformModel InfoModel TarModel OpenModel SaveModel.

(** Where a file of the package is copied from.  Files of the opened package are where they were
    found (ovf.py:322-331); the file that is added is on the disk of the user (ovf.py:2386-2390). *)
Definition source_now (o : ovf) (new : option image) (h : str) : ref :=
  let old := match dget str_eqb h (o_files o) with Some r => r | None => OnDisk [] h end in
  match new with
  | Some im => if str_eqb h (im_name im) then OnDisk (im_dir im) (im_name im) else old
  | None => old
  end.
(** The envelope.  A new DiskSection is put before the VirtualSystem (_ensure_section,
    ovf.py:2825-2838); one without Disks is taken out (ovf.py:2449-2452).  What is in the section
    is put into its place when the package is written (SaveModel). *)
Definition envelope_now (o : ovf) (disks : option elem) : elem :=
  let v := o_version o in
  let e := o_envelope o in
  match o_disks o, disks with
  | None, Some s => set_children (insert_before (VIRTUAL_SYSTEM v) s (echildren e)) e
  | Some _, None => set_children (filter (fun c => negb (child_match (DISK_SECTION v) (DISK_SECTION_ATTRIB v) c)) (echildren e)) e
  | _, _ => e
  end.
(** The package after the command did its work *)
Definition package_of_vmd (o : ovf) (new : option image) (m : vmd) : ovf :=
  mkOvf (o_version o) (envelope_now o (m_disks m)) (m_refs m) (m_disks m) (o_networks o) (o_deploy o)
    (o_system o) (o_product o) (o_annotation o) (o_hardware_section o) (o_profiles o) (m_hw m)
    (o_platform o) (map (fun hd => (fst hd, source_now o new (fst hd))) (m_sources m)) (o_complaints o).

(** add_file.py:82-108 on an open package *)
Definition add_file_package (agree : prompt -> bool) (E : env) (im : image) (file_id : option str) (o : ovf) : result ovf :=
  do m <- add_file_run agree (env_of E o) (vmd_of o) im file_id;
  Ok (package_of_vmd o (Some im) m).
(** remove_file.py:69-116 on an open package *)
Definition remove_file_package (agree : prompt -> bool) (E : env) (path file_id : option str) (o : ovf) : result ovf :=
  do m <- remove_file_run agree (env_of E o) (vmd_of o) path file_id;
  Ok (package_of_vmd o None m).
(** add_disk.py:495-622 on an open package; [guess] is what the platform says about controllers *)
Definition add_disk_package (agree : prompt -> bool) (E : env) (fuel : nat) (guess : platform -> str -> str) (im : image)
    (drive_type : str) (file_id controller subtype address diskname description : option str) (o : ovf) : result ovf :=
  do mk <- add_disk_worker agree (env_of E o) fuel (guess (o_platform o)) (vmd_of o) im drive_type file_id controller subtype address diskname description;
  Ok (package_of_vmd o (Some im) (fst mk)).
