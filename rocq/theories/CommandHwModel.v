(** A whole run of the command edit-hardware: COT/commands/command.py:280-305, 367-391
    (ReadWriteCommand: package, run, finished), COT/commands/edit_hardware.py:553-590 and
    COT/cli.py:413-423.

    The package is opened (OpenModel), the command does its work (EditHwModel), and the package is
    written (SaveModel); see CommandModel for edit-product and edit-properties. *)
From Coq Require Import List Ascii Bool.
Import ListNotations.
From Verif Require Import PyBase PyDict XmlModel NamesModel ItemModel HardwareModel ProfileModel NetworkModel PlatformModel EditHwModel TarModel OpenModel SaveModel CommandModel.

(** The parts of an open package that edit-hardware works with.  The list of profiles has been
    asked for while the hardware was read (ovf.py:246-254), so that it is cached. *)
Definition vm_of_package (o : ovf) : vm :=
  mkVm (mkPdoc (o_envelope o) (match o_deploy o with Some _ => Attached | None => NoSection end) (o_hardware o)
          (Some (match o_deploy o with Some s => config_ids (o_version o) s | None => [] end)))
       (match o_networks o with Some _ => true | None => false end) (o_hardware_section o) [].

(** The package after the command did its work.  The sections for networks and profiles are those
    now in the envelope; a section for profiles that was taken out of it (ovf.py:1590-1591) is not
    written.  All else is as it was. *)
Definition package_of_vm (E : env) (o : ovf) (m : vm) : ovf :=
  let v := o_version o in
  mkOvf v (p_env (v_doc m)) (o_references o) (o_disks o)
    (network_section v (net_of m))
    (find (is_deploy v) (echildren (p_env (v_doc m))))
    (o_system o) (o_product o) (o_annotation o) (v_sec m) (profiles_of E m) (p_hw (v_doc m))
    (o_platform o) (o_files o) (o_complaints o).

(** edit_hardware.py:553-590 on an open package.  [P] is what the platform of the package says
    about hardware (C09, C10). *)
Definition edit_hardware_package (E : env) (U : user) (P : platform -> hw_platform) (s : settings) (o : ovf) : result ovf :=
  do m <- edit_hardware (env_of E o) U (P (o_platform o)) (vm_of_package o) s;
  Ok (package_of_vm (env_of E o) o m).
