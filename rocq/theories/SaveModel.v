(** Writing a package: COT/vm_description/ovf/ovf.py:809-854 (write) and COT/xml_file.py:85-102
    (write_xml).

    The sections are separate fields of an open package (OpenModel) although they are parts of
    one tree; here they are put into their places when the package is written.  The output
    and the working directory are absolute paths.  [print] is ElementTree's writer. *)
From Coq Require Import List Ascii Bool ZArith.
Import ListNotations.
From Verif Require Import PyBase PyDict XmlModel NamesModel ItemModel HardwareModel ProfileModel NetworkModel DriveModel
  EnvPropModel EditPropModel ProductModel InfoModel ValidationModel PlatformModel ValidateHwModel RefreshModel PathModel TarModel OvfWriteModel OpenModel.
Local Open Scope nat_scope.

(** A section, changed in place, in the tree *)
Definition replace (tag : str) (attrib : list (str * str)) (new p : elem) : elem :=
  set_children (update_first (child_match tag attrib) (fun _ => new) (echildren p)) p.
Definition put_section (tag : str) (attrib : list (str * str)) (new : option elem) (p : elem) : elem :=
  match new with Some s => replace tag attrib s p | None => p end.
Definition is_some {A} (o : option A) : bool := match o with Some _ => true | None => false end.

(** The files of the package while it is being written (file_reference.py); [capacity] is what
    qemu-img reports for an image *)
Definition files_now (w : TarModel.world) (capacity : str -> result str) (refs : list (str * ref)) : RefreshModel.world :=
  let data h := match dget str_eqb h refs with Some r => content w r | None => None end in
  RefreshModel.mkWorld
    (fun h _ => is_some (data h))
    (fun h _ => Ok tt)
    (fun h _ => match data h with Some d => Ok (Z.of_nat (length d)) | None => Err EEnvironment end)
    (fun h _ => match dget str_eqb h refs with Some (OnDisk _ _) => true | _ => false end)
    (fun h _ => match data h with Some d => capacity d | None => Err EEnvironment end).

Section Save.
  Variable E : env.
  Variable digest : str -> str -> str.
  Variable print : elem -> str.
  Variable capacity : str -> result str.
  Variable fuel : nat.

  Definition env_of (o : ovf) : env :=
    mkEnv (o_version o) (o_profiles o) (e_re_sub E) (e_seq_repr E) (e_tostring E) (e_fromstring E).
  Definition vmd_of (o : ovf) : vmd :=
    mkVmd (o_references o) (o_disks o) (o_hardware o) (map (fun hr => (fst hr, [])) (o_files o)).

  (** ovf.py:820-833: the envelope to be written and the files that belong to it *)
  Definition prepare (w : TarModel.world) (o : ovf) : result (elem * elem * list (str * ref)) :=
    let v := o_version o in
    do sec <- update_xml (env_of o) (o_hardware o) (o_hardware_section o);
    do _ <- validate_hardware (o_platform o) (env_of o) (o_hardware o) [];
    do m <- refresh_files (env_of o) (files_now w capacity (o_files o)) fuel (vmd_of o);
    let sys := replace (VIRTUAL_HW_SECTION v) (VIRTUAL_HW_SECTION_ATTRIB v) sec
                 (put_section (ANNOTATION_SECTION v) (ANNOTATION_SECTION_ATTRIB v) (o_annotation o)
                   (put_section (PRODUCT_SECTION v) (PRODUCT_SECTION_ATTRIB v) (o_product o) (o_system o))) in
    let e1 := replace (VIRTUAL_SYSTEM v) (VIRTUAL_SYSTEM_ATTRIB v) sys (o_envelope o) in
    let e2 := put_section (DEPLOY_OPT_SECTION v) [] (o_deploy o)
                (put_section (NETWORK_SECTION v) (NETWORK_SECTION_ATTRIB v) (o_networks o) e1) in
    let e3 := put_section (DISK_SECTION v) (DISK_SECTION_ATTRIB v) (m_disks m) (replace (REFERENCES v) [] (m_refs m) e2) in
    let net := refresh_networks v sec (mkNet e3 (is_some (o_networks o))) in
    Ok (n_env net, m_refs m, filter (fun hr => dmem str_eqb (fst hr) (m_sources m)) (o_files o)).

  (** ovf.py:2727: the name of the algorithm in the manifest *)
  Definition manifest_algorithm (v : version) : str := match v with V2 => L "SHA256" | _ => L "SHA1" end.
  (** the File elements, in order, ovf.py:2731 *)
  Definition names_in (v : version) (refs : elem) : list str :=
    flat_map (fun e => match get_attr e (FILE_HREF v) with Some h => [h] | None => [] end) (findall (FILE v) refs).

  Definition put_tar (w : TarModel.world) (p : str) (a : archive) : TarModel.world :=
    TarModel.mkWorld (w_files w) (fun q => if str_eqb q (normpath p) then Some a else w_tars w q).
  (** ovf.py:809-854 write; [input] is the archive the package was read from and [same] whether
      it is the output.  What is in the working directory afterwards, and what an OVA is left
      as if writing fails, are not modelled here. *)
  Definition write (w : TarModel.world) (wd input : str) (same : bool) (output : str) (o : ovf) : TarModel.world * result unit :=
    match output with
    | [] => (w, Ok tt)
    | _ =>
        match prepare w o with
        | Err e => (w, Err e)
        | Ok (envelope, references, refs) =>
            let v := o_version o in
            let hrefs := names_in v references in
            let xml := print (xml_reindent envelope 0) in
            match detect_type output with
            | Err e => (w, Err e)
            | Ok ext =>
                if str_eqb ext (L ".ova") then
                  match write_ova (digest (checksum_algorithm v)) w wd input same output (manifest_algorithm v) xml hrefs refs with
                  | Ok a => (put_tar w output a, Ok tt)
                  | Err e => (w, Err e)
                  end
                else if str_eqb ext (L ".ovf") then
                  write_ovf (digest (checksum_algorithm v)) w output (manifest_algorithm v) xml hrefs refs
                else (w, Err ENotImplemented)
            end
        end
    end.
End Save.
