(** What it means that a package that was written is the same when it is opened again. *)
From Coq Require Import List Ascii ZArith.
Import ListNotations.
From Verif Require Import PyBase PyDict XmlModel XmlSpec NamesModel ItemModel GenerateSpec HardwareModel HardwareSpec RereadSpec ProfileModel NetworkModel NetworkSpec
  DriveModel EnvPropModel EditPropModel ProductModel InfoModel PlatformModel RefreshModel TarModel OpenModel OpenSpec SaveModel.

(** The parent has this section, in the state [s], or neither has it. *)
Definition holds_section (p : elem) (tag : str) (attrib : list (str * str)) (s : option elem) : Prop :=
  match s with
  | Some e => answers tag attrib e /\ exists e0, only p tag attrib e0
  | None => none p tag attrib
  end.
(** The envelope has the sections of the open package, which are to be written in its place;
    what is in them may have changed since it was opened. *)
Record consistent (o : ovf) : Prop := {
  k_version : etag (o_envelope o) = envelope_tag (o_version o);
  k_references : holds_section (o_envelope o) (REFERENCES (o_version o)) [] (Some (o_references o));
  k_disks : holds_section (o_envelope o) (DISK_SECTION (o_version o)) (DISK_SECTION_ATTRIB (o_version o)) (o_disks o);
  k_networks : holds_section (o_envelope o) (NETWORK_SECTION (o_version o)) (NETWORK_SECTION_ATTRIB (o_version o)) (o_networks o);
  k_deploy : holds_section (o_envelope o) (DEPLOY_OPT_SECTION (o_version o)) [] (o_deploy o);
  k_system : holds_section (o_envelope o) (VIRTUAL_SYSTEM (o_version o)) (VIRTUAL_SYSTEM_ATTRIB (o_version o)) (Some (o_system o));
  k_product : holds_section (o_system o) (PRODUCT_SECTION (o_version o)) (PRODUCT_SECTION_ATTRIB (o_version o)) (o_product o);
  k_annotation : holds_section (o_system o) (ANNOTATION_SECTION (o_version o)) (ANNOTATION_SECTION_ATTRIB (o_version o)) (o_annotation o);
  k_hardware : holds_section (o_system o) (VIRTUAL_HW_SECTION (o_version o)) (VIRTUAL_HW_SECTION_ATTRIB (o_version o)) (Some (o_hardware_section o));
  k_profiles : o_profiles o = named (match o_deploy o with Some s => config_ids (o_version o) s | None => [] end);
  k_platform : o_platform o = for_product_string (match o_product o with Some s => get_attr s (PRODUCT_CLASS (o_version o)) | None => None end);
  k_hrefs : forall e, In e (echildren (o_references o)) -> etag e = FILE (o_version o) -> get_attr e (FILE_HREF (o_version o)) <> None }.

(** The Items of the section have only children that COT knows, without children of their own. *)
Definition plain_items (v : version) (sec : elem) : Prop :=
  forall x c, In x (echildren sec) -> is_item v x -> In c (echildren x) ->
    echildren c = [] /\ In (strip_ns (etag c)) (ITEM_CHILDREN v).
(** The hardware can be written (C16, C66): every device has its InstanceID under each of its
    profiles, known profiles, values that fit into the document.  If nothing looks changed then
    nothing is. *)
Record hardware_ready (E : env) (h : hw) (sec : elem) : Prop := {
  h_history : hw_reachable (e_ver E) h;
  h_devices : forall k i, In (k, i) h -> writable E i /\ numbered E k i /\ known_profiles E i;
  h_unchanged : looks_unchanged (e_ver E) h sec -> exists h0, read_hardware E sec = Ok h0 /\ same_devices h h0 /\ plain_items (e_ver E) sec }.

Definition same_section (a b : option elem) : Prop :=
  match a, b with Some x, Some y => same_content x y | None, None => True | _, _ => False end.
(** An attribute of all elements with this tag in a section, in order *)
Definition column (tag k : str) (s : option elem) : list (option str) :=
  match s with
  | Some s => map (fun e => get_attr e k) (filter (fun c => str_eqb (etag c) tag) (echildren s))
  | None => []
  end.

(** The sections of an envelope and of a virtual system that COT knows, and everything else *)
Definition envelope_sections (v : version) : list (str * list (str * str)) :=
  [(REFERENCES v, []); (DISK_SECTION v, DISK_SECTION_ATTRIB v); (NETWORK_SECTION v, NETWORK_SECTION_ATTRIB v); (DEPLOY_OPT_SECTION v, []);
   (VIRTUAL_SYSTEM v, VIRTUAL_SYSTEM_ATTRIB v)].
Definition system_sections (v : version) : list (str * list (str * str)) :=
  [(PRODUCT_SECTION v, PRODUCT_SECTION_ATTRIB v); (ANNOTATION_SECTION v, ANNOTATION_SECTION_ATTRIB v); (VIRTUAL_HW_SECTION v, VIRTUAL_HW_SECTION_ATTRIB v)].
Definition beyond (sections : list (str * list (str * str))) (p : elem) : list elem :=
  filter (fun x => negb (existsb (fun s => child_match (fst s) (snd s) x) sections)) (echildren p).
(** The same element, with the same of what [rest] selects *)
Definition same_rest (rest : elem -> list elem) (e e2 : elem) : Prop :=
  etag e2 = etag e /\ eattrib e2 = eattrib e /\ Forall2 same_content (rest e) (rest e2).

(** The package [o2], with the files of [w2], is the package [o], with those of [w]. *)
Record same_package (E : env) (w w2 : world) (o o2 : ovf) : Prop := {
  sp_version : o_version o2 = o_version o;
  sp_profiles : o_profiles o2 = o_profiles o;
  sp_platform : o_platform o2 = o_platform o;
  sp_hardware : same_hardware (env_of E o) (o_hardware o) (o_hardware o2);
  (* the attributes of the hardware section and what is in it besides the Items *)
  sp_section : same_rest (other_children (o_version o)) (o_hardware_section o) (o_hardware_section o2);
  sp_product : same_section (o_product o) (o_product o2);
  sp_annotation : same_section (o_annotation o) (o_annotation o2);
  sp_deploy : same_section (o_deploy o) (o_deploy o2);
  (* the networks of the NICs that are written *)
  sp_networks : exists sec, update_xml (env_of E o) (o_hardware o) (o_hardware_section o) = Ok sec /\
    forall n, In n (column (NETWORK (o_version o)) (NETWORK_NAME (o_version o)) (o_networks o2)) <->
      In n (column (NETWORK (o_version o)) (NETWORK_NAME (o_version o)) (o_networks o)) /\ in_use (o_version o) sec n;
  (* all of the Disks but what they say of the capacity *)
  sp_disks : forall k, k <> DISK_CAPACITY (o_version o) -> k <> DISK_CAP_UNITS (o_version o) ->
    column (DISK (o_version o)) k (o_disks o2) = column (DISK (o_version o)) k (o_disks o);
  (* all of the Files but what they say of the size *)
  sp_references : forall k, k <> FILE_SIZE (o_version o) ->
    column (FILE (o_version o)) k (Some (o_references o2)) = column (FILE (o_version o)) k (Some (o_references o));
  sp_files : forall h data, (exists r2, In (h, r2) (o_files o2) /\ content w2 r2 = Some data) <->
    (exists r, In (h, r) (o_files o) /\ content w r = Some data);
  (* sections that COT knows nothing of *)
  sp_envelope : same_rest (beyond (envelope_sections (o_version o))) (o_envelope o) (o_envelope o2);
  sp_system : same_rest (beyond (system_sections (o_version o))) (o_system o) (o_system o2);
  sp_complaints : o_complaints o2 = [] }.

(** What qemu-img says of an image is a number of bytes. *)
Definition images_measured (capacity : str -> result str) : Prop :=
  forall x c, capacity x = Ok c -> exists n, py_int c = Some n /\ (0 <= n < 2 ^ 63)%Z.
(** ElementTree reads what it has written of this package, up to the blanks between elements. *)
Definition read_as_printed (E : env) (print : elem -> str) (parse : str -> option elem) (capacity : str -> result str) (fuel : nat) (w : world) (o : ovf) : Prop :=
  forall e refs l, prepare E capacity fuel w o = Ok (e, refs, l) ->
    exists root, parse (print (xml_reindent e 0)) = Some root /\ same_content (xml_reindent e 0) root.
(** The package with other hardware *)
Definition with_hardware (h : hw) (o : ovf) : ovf :=
  mkOvf (o_version o) (o_envelope o) (o_references o) (o_disks o) (o_networks o) (o_deploy o) (o_system o) (o_product o) (o_annotation o)
    (o_hardware_section o) (o_profiles o) h (o_platform o) (o_files o) (o_complaints o).
