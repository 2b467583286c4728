(** What users rely on when a package is opened. *)
From Coq Require Import List Ascii ZArith.
Import ListNotations.
From Verif Require Import PyBase PyDict XmlModel XmlSpec NamesModel ItemModel HardwareModel ProfileModel NetworkModel DriveModel
  EnvPropModel EditPropModel ProductModel PlatformModel InfoModel ManifestModel SelectModel RawModel PathModel PathSpec TarModel TarSpec OvfWriteModel OpenModel.

(** ** The name *)

(** The last part of the path is [base] and then this extension, [base] not being only dots. *)
Definition has_extension (e path : str) : Prop :=
  exists dir base, path = dir ++ base ++ "."%char :: e /\ (dir = [] \/ exists d, dir = d ++ ["/"%char]) /\
    ~ In "/"%char base /\ exists c, In c base /\ c <> "."%char.
Definition alphanumeric (c : ascii) : Prop := in_range 97 122 c = true \/ in_range 65 90 c = true \/ is_digit c = true.
(** Something like ".ovf" or ".ova" in the middle of the name of the file, before a character
    that is no letter or digit; [pre] is what comes before. *)
Definition mentions (e path : str) (pre : str) : Prop :=
  exists c post, basename path = pre ++ "."%char :: e ++ c :: post /\ ~ alphanumeric c.
(** The kind of package the name stands for: by its extension, otherwise by the first mention. *)
Inductive kind_of (path : str) : str -> Prop :=
| by_extension e : In e [L "ovf"; L "ova"; L "box"] -> has_extension e path -> kind_of path ("."%char :: e)
| by_mention e pre : (forall x, In x [L "ovf"; L "ova"; L "box"] -> ~ has_extension x path) ->
    In e [L "ovf"; L "ova"] -> mentions e path pre ->
    (forall e' pre', In e' [L "ovf"; L "ova"] -> mentions e' path pre' -> length pre <= length pre') ->
    kind_of path ("."%char :: e).

(** ** The sections *)

(** The only child of the element with this tag and these attributes, or that there is none. *)
Definition only (p : elem) (tag : str) (attrib : list (str * str)) (e : elem) : Prop :=
  exists pre post, echildren p = pre ++ e :: post /\ answers tag attrib e /\ forall x, In x (pre ++ post) -> ~ answers tag attrib x.
Definition none (p : elem) (tag : str) (attrib : list (str * str)) : Prop := forall x, In x (echildren p) -> ~ answers tag attrib x.
Definition several (p : elem) (tag : str) (attrib : list (str * str)) : Prop :=
  exists pre x mid y post, echildren p = pre ++ x :: mid ++ y :: post /\ answers tag attrib x /\ answers tag attrib y.
Definition at_most (p : elem) (tag : str) (attrib : list (str * str)) (o : option elem) : Prop :=
  match o with Some e => only p tag attrib e | None => none p tag attrib end.

(** An envelope of this version of the format *)
Definition envelope_tag (v : version) : str :=
  match v with
  | V0 => L "{http://www.vmware.com/schema/ovf/1/envelope}Envelope"
  | V1 => L "{http://schemas.dmtf.org/ovf/envelope/1}Envelope"
  | V2 => L "{http://schemas.dmtf.org/ovf/envelope/2}Envelope"
  end.

(** ** The devices *)

Definition is_item (v : version) (x : elem) : Prop :=
  etag x = ITEM v \/ etag x = STORAGE_ITEM v \/ etag x = ETHERNET_PORT_ITEM v.
(** where the properties of such an Item are *)
Definition item_ns (v : version) (x : elem) : str :=
  if str_eqb (etag x) (ITEM v) then RASD v else if str_eqb (etag x) (STORAGE_ITEM v) then SASD v else EPASD v.
(** the text of the first InstanceID: None if there is none *)
Definition instance_id (v : version) (x : elem) : option (option str) :=
  option_map etext (find (fun c => str_eqb (etag c) (item_ns v x ++ INSTANCE_ID v)) (echildren x)).
Definition item_profiles (v : version) (x : elem) : list str :=
  match get_attr x (ITEM_CONFIG v) with Some s => words s | None => [] end.
(** the Items for one device, in order *)
Definition of_instance (v : version) (k : str) (x : elem) : bool :=
  mem_str (etag x) [ITEM v; STORAGE_ITEM v; ETHERNET_PORT_ITEM v] &&
  match instance_id v x with Some (Some k') => str_eqb k' k | _ => false end.
Definition items_for (v : version) (k : str) (xs : list elem) : list elem := filter (of_instance v k) xs.
(** The Items can be taken together as one device (C13). *)
Definition one_device (E : env) (xs : list elem) (i : item) : Prop := fold_result (add_item E) xs (new_ovfitem E) = Ok i.

Record hardware_fine (E : env) (xs : list elem) : Prop := {
  f_id : forall x, In x xs -> is_item (e_ver E) x -> exists k, k <> [] /\ instance_id (e_ver E) x = Some (Some k);
  f_profiles : forall x p, In x xs -> is_item (e_ver E) x -> In p (item_profiles (e_ver E) x) -> In p (e_profiles E);
  f_device : forall k, exists i, one_device E (items_for (e_ver E) k xs) i }.
(** What is wrong with the hardware, and what is raised for it *)
Inductive hardware_wrong (E : env) (xs : list elem) : exn -> Prop :=
| w_no_id x : In x xs -> is_item (e_ver E) x -> instance_id (e_ver E) x = None -> hardware_wrong E xs EAttributeError
| w_empty_id x o : In x xs -> is_item (e_ver E) x -> instance_id (e_ver E) x = Some o -> (o = None \/ o = Some []) ->
    hardware_wrong E xs ETypeError
| w_profile x p : In x xs -> is_item (e_ver E) x -> In p (item_profiles (e_ver E) x) -> ~ In p (e_profiles E) ->
    hardware_wrong E xs EOVFHardwareData
| w_first pre x post k e : xs = pre ++ x :: post -> items_for (e_ver E) k pre = [] -> of_instance (e_ver E) k x = true ->
    add_item E (new_ovfitem E) x = Err e -> hardware_wrong E xs e
| w_conflict pre x post k i e : xs = pre ++ x :: post -> items_for (e_ver E) k pre <> [] -> of_instance (e_ver E) k x = true ->
    one_device E (items_for (e_ver E) k pre) i -> add_item E i x = Err e ->
    hardware_wrong E xs (match e with EOVFItemData => EOVFHardwareData | _ => e end).

(** ** The files *)

(** A file of the package, in its directory or archive, with its content *)
Definition found (w : world) (c : container) (name : str) (r : ref) (data : str) : Prop :=
  content w r = Some data /\
  match c with
  | Dir d => r = OnDisk d (normpath name)
  | Tar t => exists a n, w_tars w t = Some a /\ resolve a (normpath name) = Some n /\ r = InTar t n
  end.
Definition missing (w : world) (c : container) (name : str) : Prop := forall r data, ~ found w c name r data.
Definition ref_name (r : ref) : str := match r with OnDisk _ n => n | InTar _ n => n end.
(** A File element for this name, and the size its last one gives *)
Definition listed (v : version) (refs : elem) (h : str) : Prop :=
  exists e, In e (echildren refs) /\ etag e = FILE v /\ get_attr e (FILE_HREF v) = Some h.
Definition listed_size (v : version) (refs : elem) (h : str) (size : option str) : Prop :=
  exists pre e post, echildren refs = pre ++ e :: post /\ etag e = FILE v /\ get_attr e (FILE_HREF v) = Some h /\
    get_attr e (FILE_SIZE v) = size /\
    forall e', In e' post -> etag e' = FILE v -> get_attr e' (FILE_HREF v) <> Some h.
(** The entries of the manifest: none if there is no manifest *)
Definition manifest_of (w : world) (c : container) (path : str) (entries : list (str * (str * str))) : Prop :=
  (exists r text, found w c (splitext_root (basename path) ++ L ".mf") r text /\ entries = parse_manifest text) \/
  (missing w c (splitext_root (basename path) ++ L ".mf") /\ entries = []).
(** What there is to complain about *)
Inductive due (digest : str -> str) (w : world) (c : container) (path : str) (v : version) (refs : elem) (entries : list (str * (str * str)))
  : complaint -> Prop :=
| due_references n : In n (map fst entries) -> n <> basename path -> ~ listed v refs n -> due digest w c path v refs entries (NotInReferences n)
| due_manifest n : entries <> [] -> listed v refs n -> ~ In n (map fst entries) -> due digest w c path v refs entries (NotInManifest n)
| due_descriptor : entries <> [] -> ~ In (basename path) (map fst entries) -> due digest w c path v refs entries NoDescriptorEntry
| due_checksum n r data algo sum : (listed v refs n \/ n = basename path) -> found w c n r data ->
    dget str_eqb n entries = Some (algo, sum) -> digest data <> sum -> due digest w c path v refs entries (BadChecksum (ref_name r))
| due_size n r data s z : listed_size v refs n (Some s) -> found w c n r data -> py_int s = Some z -> Z.of_nat (length data) <> z ->
    due digest w c path v refs entries (BadSize (ref_name r))
| due_missing n : listed v refs n -> missing w c n -> due digest w c path v refs entries (NoSuchFile n).

(** ** The package *)

(** The member that is extracted from the archive to the directory of these parts, [d] and the
    last one [u], and the path of it (C32): the first descriptor; nothing is extracted if any
    name leads elsewhere. *)
Definition extracted (d : list str) (u : str) (tar : option archive) (m : member) (path : str) : Prop :=
  exists a A B, tar = Some a /\ a = A ++ m :: B /\ ovf_name (t_name m) /\ (forall x, In x A -> ~ ovf_name (t_name x)) /\
    path = path_join (path_of (d ++ [u])) (t_name m) /\
    forall x, In x a -> ~ two_slashes (t_name x) /\ beside d u (follow (d ++ [u]) (t_name x)).
(** Where the descriptor is, what it contains, and the files there are then *)
Inductive descriptor_is (w : world) (d : list str) (u input : str) : container -> str -> str -> world -> Prop :=
| in_place t : kind_of input (L ".ovf") -> read w input = Some t ->
    descriptor_is w d u input (Dir (dirname (normpath input))) input t w
| in_archive k m path : kind_of input k -> k <> L ".ovf" -> extracted d u (w_tars w (normpath input)) m path -> t_link m = None ->
    descriptor_is w d u input (Tar (normpath input)) path (t_data m) (put w path (t_data m))
| in_archive_link k m path target t : kind_of input k -> k <> L ".ovf" -> extracted d u (w_tars w (normpath input)) m path ->
    t_link m = Some target -> read w (path_join (dirname path) target) = Some t ->
    descriptor_is w d u input (Tar (normpath input)) path t w.

(** The package [o] is what the envelope says. *)
Record described (E : env) (digest : str -> str -> str) (w : world) (c : container) (path : str) (root : elem) (o : ovf) : Prop := {
  d_envelope : o_envelope o = root;
  d_version : etag root = envelope_tag (o_version o);
  d_references : only root (REFERENCES (o_version o)) [] (o_references o);
  d_disks : at_most root (DISK_SECTION (o_version o)) (DISK_SECTION_ATTRIB (o_version o)) (o_disks o);
  d_networks : at_most root (NETWORK_SECTION (o_version o)) (NETWORK_SECTION_ATTRIB (o_version o)) (o_networks o);
  d_deploy : at_most root (DEPLOY_OPT_SECTION (o_version o)) [] (o_deploy o);
  d_system : only root (VIRTUAL_SYSTEM (o_version o)) (VIRTUAL_SYSTEM_ATTRIB (o_version o)) (o_system o);
  d_product : at_most (o_system o) (PRODUCT_SECTION (o_version o)) (PRODUCT_SECTION_ATTRIB (o_version o)) (o_product o);
  d_annotation : at_most (o_system o) (ANNOTATION_SECTION (o_version o)) (ANNOTATION_SECTION_ATTRIB (o_version o)) (o_annotation o);
  d_hardware_section : only (o_system o) (VIRTUAL_HW_SECTION (o_version o)) (VIRTUAL_HW_SECTION_ATTRIB (o_version o)) (o_hardware_section o);
  d_profiles : o_profiles o = named (match o_deploy o with Some s => config_ids (o_version o) s | None => [] end);
  (* what the Items say, one device for each InstanceID *)
  d_hardware : let E' := mkEnv (o_version o) (o_profiles o) (e_re_sub E) (e_seq_repr E) (e_tostring E) (e_fromstring E) in
    hardware_fine E' (echildren (o_hardware_section o)) /\
    forall k i, dget str_eqb k (o_hardware o) = Some i <->
      items_for (o_version o) k (echildren (o_hardware_section o)) <> [] /\
      exists j, one_device E' (items_for (o_version o) k (echildren (o_hardware_section o))) j /\ i = with_modified false j;
  d_platform : o_platform o = for_product_string (match o_product o with Some s => get_attr s (PRODUCT_CLASS (o_version o)) | None => None end);
  (* the files that are there, and what is wrong with them *)
  d_hrefs : forall e, In e (echildren (o_references o)) -> etag e = FILE (o_version o) -> get_attr e (FILE_HREF (o_version o)) <> None;
  d_sizes : forall h s r data, listed_size (o_version o) (o_references o) h (Some s) -> found w c h r data -> py_int s <> None;
  d_descriptor : exists r data, found w c (basename path) r data;
  d_files : forall h r, In (h, r) (o_files o) <-> listed (o_version o) (o_references o) h /\ exists data, found w c h r data;
  d_complaints : exists entries, manifest_of w c path entries /\
    forall x, In x (o_complaints o) <-> due (digest (match o_version o with V2 => L "sha256" | _ => L "sha1" end)) w c path (o_version o) (o_references o) entries x }.

(** What is wrong with an envelope, and what is raised for it.  [v] is the version, [refs], [sys]
    and [hws] the sections, where they are needed. *)
Inductive envelope_wrong (E : env) (w : world) (c : container) (path : str) (root : elem) : exn -> Prop :=
| e_root : (forall v, etag root <> envelope_tag v) -> envelope_wrong E w c path root EVMInitError
| e_none v tag : etag root = envelope_tag v -> In tag [(REFERENCES v, []); (VIRTUAL_SYSTEM v, VIRTUAL_SYSTEM_ATTRIB v)] ->
    none root (fst tag) (snd tag) -> envelope_wrong E w c path root EKeyError
| e_several v tag : etag root = envelope_tag v ->
    In tag [(REFERENCES v, []); (DISK_SECTION v, DISK_SECTION_ATTRIB v); (NETWORK_SECTION v, NETWORK_SECTION_ATTRIB v);
            (DEPLOY_OPT_SECTION v, []); (VIRTUAL_SYSTEM v, VIRTUAL_SYSTEM_ATTRIB v)] ->
    several root (fst tag) (snd tag) -> envelope_wrong E w c path root ELookupError
| e_sys_none v sys : etag root = envelope_tag v -> only root (VIRTUAL_SYSTEM v) (VIRTUAL_SYSTEM_ATTRIB v) sys ->
    none sys (VIRTUAL_HW_SECTION v) (VIRTUAL_HW_SECTION_ATTRIB v) -> envelope_wrong E w c path root EKeyError
| e_sys_several v sys tag : etag root = envelope_tag v -> only root (VIRTUAL_SYSTEM v) (VIRTUAL_SYSTEM_ATTRIB v) sys ->
    In tag [(PRODUCT_SECTION v, PRODUCT_SECTION_ATTRIB v); (ANNOTATION_SECTION v, ANNOTATION_SECTION_ATTRIB v);
            (VIRTUAL_HW_SECTION v, VIRTUAL_HW_SECTION_ATTRIB v)] ->
    several sys (fst tag) (snd tag) -> envelope_wrong E w c path root ELookupError
| e_hardware v sys hws deploy e : etag root = envelope_tag v -> only root (VIRTUAL_SYSTEM v) (VIRTUAL_SYSTEM_ATTRIB v) sys ->
    only sys (VIRTUAL_HW_SECTION v) (VIRTUAL_HW_SECTION_ATTRIB v) hws -> at_most root (DEPLOY_OPT_SECTION v) [] deploy ->
    hardware_wrong (mkEnv v (named (match deploy with Some s => config_ids v s | None => [] end))
                      (e_re_sub E) (e_seq_repr E) (e_tostring E) (e_fromstring E)) (echildren hws) e ->
    envelope_wrong E w c path root (match e with EOVFHardwareData => EVMInitError | _ => e end)
| e_href v refs e : etag root = envelope_tag v -> only root (REFERENCES v) [] refs ->
    In e (echildren refs) -> etag e = FILE v -> get_attr e (FILE_HREF v) = None -> envelope_wrong E w c path root ETypeError
| e_descriptor v : etag root = envelope_tag v -> missing w c (basename path) -> envelope_wrong E w c path root EEnvironment
| e_size v refs h s r data : etag root = envelope_tag v -> only root (REFERENCES v) [] refs ->
    listed_size v refs h (Some s) -> found w c h r data -> py_int s = None -> envelope_wrong E w c path root EValueError.

(** Why a package is not opened *)
Inductive refused (E : env) (parse : str -> option elem) (w : world) (d : list str) (u input output : str) : exn -> Prop :=
| r_name : (forall k, ~ kind_of input k) -> refused E parse w d u input output EVMInitError
| r_output : output <> [] -> (forall k, ~ kind_of output k) -> refused E parse w d u input output EVMInitError
| r_archive k : kind_of input k -> k <> L ".ovf" -> (forall m p, ~ extracted d u (w_tars w (normpath input)) m p) ->
    refused E parse w d u input output EVMInitError
| r_file : kind_of input (L ".ovf") -> read w input = None -> refused E parse w d u input output EEnvironment
| r_link k m path target : kind_of input k -> k <> L ".ovf" -> extracted d u (w_tars w (normpath input)) m path ->
    t_link m = Some target -> read w (path_join (dirname path) target) = None -> refused E parse w d u input output EEnvironment
| r_xml c path t w' : descriptor_is w d u input c path t w' -> parse t = None -> refused E parse w d u input output EVMInitError
| r_envelope c path t w' root e : descriptor_is w d u input c path t w' -> parse t = Some root ->
    envelope_wrong E w' c path root e ->
    refused E parse w d u input output (match e with EValueUnsupported => EVMInitError | _ => e end).
