(** What users of edit-product and edit-properties rely on: what they asked for is in the package
    that was written, and all else is as it was. *)
From Coq Require Import List Ascii ZArith.
Import ListNotations.
From Verif Require Import PyBase PyDict XmlModel XmlSpec NamesModel ItemModel GenerateSpec HardwareModel RereadSpec ProfileSpec RefreshSpec EnvPropModel EnvPropSpec PlatformModel PathSpec TarModel TarSpec ArchiveProofs
  OvfWriteSpec OpenModel OpenSpec SaveModel SaveSpec.
From Verif Require ProductModel ProductSpec.

(** The output is a descriptor, to be put with its files into a directory where nothing is in the
    way, or an archive, made in the working directory [wd]; the files of the package are there and
    have usable names (C47, C65). *)
Inductive fits (w : world) (wd output : str) (o : ovf) : Prop :=
| fits_descriptor W B data : output = path_of (W ++ [B ++ L ".ovf"]) -> W <> [] -> (forall c, In c W -> proper c) -> stem B -> ~ In NL B ->
    copyable w W (B ++ L ".ovf") (B ++ L ".mf") (names_in (o_version o) (o_references o)) (o_files o) data -> fits w wd output o
| fits_archive W B data : kind_of output (L ".ova") -> stem_of output B -> wd = path_of W -> W <> [] -> (forall c, In c W -> proper c) -> ~ In NL B ->
    packable w W (B ++ L ".ovf") (B ++ L ".mf") (names_in (o_version o) (o_references o)) (o_files o) data -> fits w wd output o.
(** An opened package that can be written to this output (C16, C66, C68): its devices have values
    that fit into the document, their InstanceID under each of their profiles, and profiles that
    the document declares; its Items are ones that COT knows wholly; its files are there. *)
Record can_be_written (E : env) (w : world) (wd output : str) (o : ovf) : Prop := {
  cw_devices : forall k i, In (k, i) (o_hardware o) -> writable (env_of E o) i /\ numbered (env_of E o) k i /\ known_profiles (env_of E o) i;
  cw_items : plain_items (o_version o) (o_hardware_section o);
  cw_units : plain_units (o_version o) (vmd_of o);
  cw_files : fits w wd output o }.

(** The product information of a package: the class and the text of the first such element *)
Definition class_of (o : ovf) : option str :=
  match o_product o with Some s => get_attr s (ProductModel.PRODUCT_CLASS (o_version o)) | None => None end.
Definition text_of (tag : str) (o : ovf) : option (option str) :=
  match o_product o with Some s => option_map etext (hd_error (with_tag tag s)) | None => None end.
(** Elements with these tags in the product section have no elements in them. *)
Definition plain_texts (tags : list str) (o : ovf) : Prop :=
  forall s e, o_product o = Some s -> In e (echildren s) -> In (etag e) tags -> echildren e = [].
(** The properties of a package *)
Definition properties_of (o : ovf) : list elem := match o_product o with Some s => with_tag (PROPERTY (o_version o)) s | None => [] end.
(** The properties with a key *)
Definition with_key_in (key : str) (o : ovf) : list elem := filter (has_key (o_version o) key) (properties_of o).
(** Elements in properties (labels and descriptions) have no elements in them. *)
Definition plain_properties (o : ovf) : Prop := forall p e, In p (properties_of o) -> In e (echildren p) -> echildren e = [].
(** What is in the product section besides elements with these tags *)
Definition other_in_product (tags : list str) (o : ovf) : list elem :=
  match o_product o with Some s => filter (fun e => negb (mem_str (etag e) tags)) (echildren s) | None => [] end.

(** The tags of the texts that edit-product was asked for *)
Definition asked_for (v : version) (opts : ProductModel.options) : list str :=
  flat_map (fun tx : str * option str => match snd tx with Some _ => [fst tx] | None => [] end) (ProductSpec.texts v opts).

(** The package with another product section, and with another hardware section *)
Definition with_product (s : option elem) (p : platform) (o : ovf) : ovf :=
  mkOvf (o_version o) (o_envelope o) (o_references o) (o_disks o) (o_networks o) (o_deploy o) (o_system o) s (o_annotation o)
    (o_hardware_section o) (o_profiles o) (o_hardware o) p (o_files o) (o_complaints o).
(** The transports that were asked for: the attribute of the hardware section *)
Definition with_transports (ts : list str) (o : ovf) : ovf :=
  mkOvf (o_version o) (o_envelope o) (o_references o) (o_disks o) (o_networks o) (o_deploy o) (o_system o) (o_product o) (o_annotation o)
    (match ts with [] => o_hardware_section o | _ => set_attr (EditPropModel.ENVIRONMENT_TRANSPORT (o_version o)) (join (L " ") ts) (o_hardware_section o) end)
    (o_profiles o) (o_hardware o) (o_platform o) (o_files o) (o_complaints o).
