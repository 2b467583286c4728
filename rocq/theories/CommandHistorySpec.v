(** What users rely on when they run add-file, add-disk, remove-file, inject-config, edit-product
    and edit-properties one after another, each on the package that the last one left. *)
From Coq Require Import List Ascii ZArith.
Import ListNotations.
From Verif Require Import PyBase PyDict XmlModel XmlSpec NamesModel ItemModel HardwareModel HardwareSpec EditPropModel NetworkModel DriveModel DriveSpec PlatformModel ManifestSpec PathSpec TarModel
  OvfWriteSpec RereadSpec OpenModel OpenSpec SaveModel SaveSpec CommandModel CommandSpec CommandFileModel CommandFileSpec CommandInjectModel CommandInjectSpec.
From Verif Require InjectModel InjectSpec ProductModel ProductSpec.

(** One run: the command, what the user gave and answered, and the programs it used *)
Inductive step :=
| AddFile (agree : prompt -> bool) (im : image) (file_id : option str)
| RemoveFile (agree : prompt -> bool) (path file_id : option str)
| AddDisk (agree : prompt -> bool) (fuel : nat) (guess : platform -> str -> str) (im : image)
    (drive_type : str) (file_id controller subtype address diskname description : option str)
| InjectConfig (agree : prompt -> bool) (overwrite : option str -> bool) (make : str -> list (str * str) -> result (Z * Z))
    (image_of : str -> list (str * str) -> str) (fuel : nat) (s : InjectModel.settings)
| EditProduct (opts : ProductModel.options)
| EditProperties (force : bool) (typed : list str) (a : edit_args).
(** What it does to an open package, in the working directory [wd] *)
Definition does (E : env) (st : step) (wd : str) (w : world) (o : ovf) : result (world * ovf) :=
  match st with
  | AddFile agree im file_id => do o1 <- add_file_package agree E im file_id o; Ok (w, o1)
  | RemoveFile agree path file_id => do o1 <- remove_file_package agree E path file_id o; Ok (w, o1)
  | AddDisk agree fuel guess im dt file_id controller subtype address diskname desc =>
      do o1 <- add_disk_package agree E fuel guess im dt file_id controller subtype address diskname desc o; Ok (w, o1)
  | InjectConfig agree overwrite make image_of fuel s => inject_package agree overwrite make image_of E fuel wd s w o
  | EditProduct opts => do o1 <- edit_product_package opts o; Ok (w, o1)
  | EditProperties force typed a => do o1 <- edit_properties_package force typed a o; Ok (w, o1)
  end.
(** What C70, C72 and C73 ask of a run on the package [o], to be written to [dest] *)
Definition suits (E : env) (st : step) (wd : str) (w : world) (dest : str) (o : ovf) : Prop :=
  let v := o_version o in
  let m := vmd_of o in
  match st with
  | AddFile _ im file_id => no_slash im file_id /\ ids_agree v m im file_id
  | RemoveFile _ _ _ => True
  | AddDisk _ _ guess im dt file_id controller _ _ _ _ =>
      no_slash im file_id /\ (dt = L "harddisk" -> disk_ids_apart v m im file_id) /\
      (forall c, controller = Some c -> known_type c) /\ known_type (guess (o_platform o) dt)
  | InjectConfig _ _ _ _ _ s =>
      InjectSpec.plain_places (o_hardware o) /\ InjectSpec.drives_everywhere (env_of E o) (o_hardware o) /\
      (InjectSpec.config_drive (o_platform o) = L "harddisk" -> disk_ids_apart v m (mkImage wd (InjectSpec.config_disk (o_platform o)) 0 0) None) /\
      user_files_apart (o_platform o) wd s /\ package_files_apart wd o
  | EditProduct opts => can_be_written E w wd dest o /\ plain_texts (map fst (ProductSpec.texts v opts)) o
  | EditProperties force typed a => can_be_written E w wd dest o /\ forall o1, edit_properties_package force typed a o = Ok o1 -> plain_properties o1
  end.
(** The name of the file that it puts into the package, if any *)
Definition brings (st : step) (o : ovf) : option str :=
  match st with
  | AddFile _ im _ => Some (im_name im)
  | RemoveFile _ _ _ => None
  | AddDisk _ _ _ im _ _ _ _ _ _ _ => Some (im_name im)
  | InjectConfig _ _ _ _ _ _ => Some (InjectSpec.config_disk (o_platform o))
  | EditProduct _ | EditProperties _ _ _ => None
  end.
(** Whether it changes what is known of the product *)
Definition edits_product (st : step) : Prop :=
  match st with EditProduct _ | EditProperties _ _ _ => True | _ => False end.

(** The content of that file, in the files [w] that there are when the package is open *)
Definition supplied (st : step) (w : world) (o : ovf) (data : str) : Prop :=
  match st with
  | AddFile _ im _ => content w (OnDisk (im_dir im) (im_name im)) = Some data
  | RemoveFile _ _ _ => False
  | AddDisk _ _ _ im _ _ _ _ _ _ _ => content w (OnDisk (im_dir im) (im_name im)) = Some data
  | InjectConfig _ _ _ image_of _ s => exists l, on_the_disk w (o_platform o) s l /\ data = image_of (disk_format (o_platform o)) l
  | EditProduct _ | EditProperties _ _ _ => False
  end.

Section History.
  Variables (E : env) (digest : str -> str -> str) (print : elem -> str) (parse : str -> option elem) (capacity : str -> result str) (fuel : nat).
  (** Somebody opens the package [p], in some working directory, and it is [o]. *)
  Definition opened (w : world) (p : str) (o : ovf) : Prop :=
    exists d u output, (forall c, In c (d ++ [u]) -> proper c) /\ factory E digest parse w (path_of (d ++ [u])) p output = Ok o.
  (** The command was run on the package [p], which was [o], and left the package [p']. *)
  Definition ran (st : step) (w : world) (p : str) (o : ovf) (w' : world) (p' : str) : Prop :=
    exists d u same output, p' = destination p output /\ suits E st (path_of (d ++ [u])) (after_opening w (path_of (d ++ [u])) p) p' o /\
      changing_run E digest print parse capacity fuel (does E st (path_of (d ++ [u]))) w w' d u p same output o.
  (** Commands that were run one after another, each with the package that it left *)
  Inductive history : world -> str -> ovf -> list (step * ovf) -> world -> str -> ovf -> Prop :=
  | no_run w p o : history w p o [] w p o
  | run_first st w p o w1 p1 o1 l w2 p2 o2 : ran st w p o w1 p1 -> opened w1 p1 o1 -> history w1 p1 o1 l w2 p2 o2 ->
      history w p o ((st, o1) :: l) w2 p2 o2.
End History.

(** All that is not hardware, files or disks is the same; networks may be gone (C23).  If the
    product was edited ([ed]), this is all but the product, the platform that it stands for, and the
    transports for the properties, which are an attribute of the hardware section. *)
Record else_same (ed : Prop) (o o2 : ovf) : Prop := {
  es_version : o_version o2 = o_version o;
  es_profiles : o_profiles o2 = o_profiles o;
  es_annotation : same_section (o_annotation o) (o_annotation o2);
  es_deploy : same_section (o_deploy o) (o_deploy o2);
  es_networks : forall n, In n (column (NETWORK (o_version o)) (NETWORK_NAME (o_version o)) (o_networks o2)) ->
    In n (column (NETWORK (o_version o)) (NETWORK_NAME (o_version o)) (o_networks o));
  es_section : etag (o_hardware_section o2) = etag (o_hardware_section o) /\
    (forall k, k <> ENVIRONMENT_TRANSPORT (o_version o) -> get_attr (o_hardware_section o2) k = get_attr (o_hardware_section o) k) /\
    Forall2 same_content (other_children (o_version o) (o_hardware_section o)) (other_children (o_version o) (o_hardware_section o2));
  es_envelope : same_rest (beyond (envelope_sections (o_version o))) (o_envelope o) (o_envelope o2);
  es_system : same_rest (beyond (system_sections (o_version o))) (o_system o) (o_system o2);
  es_product : ~ ed -> same_section (o_product o) (o_product o2) /\ o_platform o2 = o_platform o /\
    eattrib (o_hardware_section o2) = eattrib (o_hardware_section o) }.
(** The devices are the same, but for those with these InstanceIDs. *)
Definition devices_same_but (E : env) (ks : list str) (h h2 : hw) : Prop :=
  (forall k i, ~ In k ks -> In (k, i) h -> kept_in E h2 k i) /\
  (forall k j, ~ In k ks -> In (k, j) h2 -> exists i, In (k, i) h /\ same_reports E i j).
