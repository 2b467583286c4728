(** A whole run of the commands edit-product and edit-properties: COT/commands/command.py:280-305,
    367-391 (ReadWriteCommand: package, run, finished), COT/commands/edit_product.py:100-144,
    COT/commands/edit_properties.py:204-241 and COT/cli.py:413-423.

    The package is opened (OpenModel), the command does its work (ProductModel, EditPropModel) on
    the VirtualSystem of the open package, and the package is written (SaveModel).  The checks of
    disk space, the questions about overwriting and the removal of the working directory are in
    CliModel and SpaceModel. *)
From Coq Require Import List Ascii Bool.
Import ListNotations.
From Verif Require Import PyBase PyDict XmlModel NamesModel ItemModel HardwareModel EnvPropModel EditPropModel InfoModel PlatformModel TarModel OvfWriteModel OpenModel SaveModel.
From Verif Require ProductModel.

(** The VirtualSystem as it now is.  In the code its sections are parts of it; in an open package
    they are separate fields (see SaveModel). *)
Definition system_now (o : ovf) : elem :=
  let v := o_version o in
  replace (VIRTUAL_HW_SECTION v) (VIRTUAL_HW_SECTION_ATTRIB v) (o_hardware_section o)
    (put_section (ANNOTATION_SECTION v) (ANNOTATION_SECTION_ATTRIB v) (o_annotation o)
      (put_section (PRODUCT_SECTION v) (PRODUCT_SECTION_ATTRIB v) (o_product o) (o_system o))).
(** The package after a command changed the VirtualSystem.  [_ensure_section] (ovf.py:2821-2843)
    assigns a new product section to [self.product_section], so that this is the section in the
    tree; the hardware section is changed in place; no command modelled here touches the annotation. *)
Definition with_system (vs : elem) (plat : platform) (o : ovf) : result ovf :=
  let v := o_version o in
  do prod <- product_section v vs;
  do hws <- required vs (VIRTUAL_HW_SECTION v) (VIRTUAL_HW_SECTION_ATTRIB v);
  Ok (mkOvf v (o_envelope o) (o_references o) (o_disks o) (o_networks o) (o_deploy o) vs prod (o_annotation o) hws
        (o_profiles o) (o_hardware o) plat (o_files o) (o_complaints o)).

(** edit_product.py:100-144 on an open package *)
Definition edit_product_package (opts : ProductModel.options) (o : ovf) : result ovf :=
  let v := o_version o in
  do m <- ProductModel.edit_product v opts (ProductModel.mkPvm (system_now o) (ProductModel.read_class v (o_product o)) (o_platform o));
  with_system (ProductModel.pv_vs m) (ProductModel.pv_platform m) o.
(** edit_properties.py:204-241 on an open package; [typed] are the lines that the user types *)
Definition edit_properties_package (force : bool) (typed : list str) (a : edit_args) (o : ovf) : result ovf :=
  let r := EditPropModel.run force true (o_version o) (literal_cli_string (o_platform o)) (system_now o) typed a in
  do _ <- o_result r;
  with_system (o_doc r) (o_platform o) o.

Section Command.
  Variable E : env.
  Variable digest : str -> str -> str.
  Variable print : elem -> str.
  Variable parse : str -> option elem.
  Variable capacity : str -> result str.
  Variable fuel : nat.

  (** The files once the package is open: the descriptor of an archive is extracted into the
      working directory. *)
  Definition after_opening (w : world) (wd input : str) : world :=
    match descriptor w wd input with Ok (_, _, w1) => w1 | Err _ => w end.
  (** command.py:377-378: without --output the package is written where it was read *)
  Definition destination (input output : str) : str := match output with [] => input | _ => output end.
  (** cli.py:413-423: package, run, finished *)
  Definition command (edit : ovf -> result ovf) (w : world) (wd input : str) (same : bool) (output : str) : world * result unit :=
    match factory E digest parse w wd input output with
    | Err e => (w, Err e)
    | Ok o =>
        let w1 := after_opening w wd input in
        match edit o with
        | Err e => (w1, Err e)
        | Ok o1 => write E digest print capacity fuel w1 wd input same (destination input output) o1
        end
    end.
End Command.
