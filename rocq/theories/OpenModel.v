(** Opening a package: COT/vm_description/ovf/ovf.py:124-266, 307-420 and
    COT/vm_description/vm_description.py:125-190.

    The input and the working directory are absolute paths, so that [os.path.abspath] is
    [normpath].  ElementTree's parser is [parse], whose None is ParseError; a file is its
    bytes.  The removal of the working directory on an error is in CliModel.  Log messages
    and the registration of namespaces (for writing) are left out. *)
From Verif Require Import PyBase PyDict XmlModel NamesModel ItemModel HardwareModel ProfileModel NetworkModel DriveModel
  EnvPropModel EditPropModel ProductModel PlatformModel InfoModel PathModel TarModel OvfWriteModel.

(** name_helper.py:220 *)
Definition REFERENCES (v : version) : str := OVF_NS v ++ L "References".
(** name_helper.py:380, 513-515 *)
Definition VIRTUAL_SYSTEM_ATTRIB (v : version) : list (str * str) :=
  match v with V0 => [(XSI_TYPE, L "ovf:VirtualSystem_Type")] | _ => [] end.

(** ovf.py:394-418 ovf_version *)
Definition ovf_version (root : elem) : result version :=
  let ns := get_ns (etag root) in
  if str_eqb ns (L "http://www.vmware.com/schema/ovf/1/envelope") then Ok V0
  else if str_eqb ns (L "http://schemas.dmtf.org/ovf/envelope/1") then Ok V1
  else if str_eqb ns (L "http://schemas.dmtf.org/ovf/envelope/2") then Ok V2
  else Err EVMInitError.

(** ovf.py:420-428 checksum_algorithm *)
Definition checksum_algorithm (v : version) : str := match v with V2 => L "sha256" | _ => L "sha1" end.

(** ovf.py:187-195 the sanity check.  ([re.search] of "Envelope" in the tag: the tag contains it.) *)
Definition is_envelope (root : elem) : bool :=
  contains (L "Envelope") (etag root) && str_eqb (strip_ns (etag root)) (L "Envelope").

(** The OVF object after [__init__] *)
Record ovf : Type := mkOvf {
  o_version : version;
  o_envelope : elem;
  o_references : elem;
  o_disks : option elem;
  o_networks : option elem;
  o_deploy : option elem;
  o_system : elem;
  o_product : option elem;
  o_annotation : option elem;
  o_hardware_section : elem;
  o_profiles : list str;
  o_hardware : hw;
  o_platform : platform;
  o_files : list (str * ref);
  o_complaints : list complaint }.

(** [find_child(..., required=True)] never gives None *)
Definition required (p : elem) (tag : str) (attrib : list (str * str)) : result elem :=
  do o <- find_child p tag attrib true;
  match o with Some e => Ok e | None => Err EKeyError end.

(** ovf.py:322-324: the href and size of each File.  A File without href raises TypeError;
    simplified: here before the other files are looked at. *)
Fixpoint file_elems (v : version) (l : list elem) : result (list (str * option str)) :=
  match l with
  | [] => Ok []
  | e :: l' =>
      match get_attr e (FILE_HREF v) with
      | None => Err ETypeError
      | Some h => do r <- file_elems v l'; Ok ((h, get_attr e (FILE_SIZE v)) :: r)
      end
  end.

Section Open.
  (** [re.sub], [str] of tuples and the serialiser, as for the items *)
  Variable E : env.
  (** [file_checksum]: algorithm and content *)
  Variable digest : str -> str -> str.
  Variable parse : str -> option elem.

  (** ovf.py:124-144 _ovf_descriptor_from_name: the path of the descriptor, its content (None if
      there is no such file) and the files after extraction.  A symbolic link is followed once. *)
  Definition descriptor (w : world) (wd input : str) : result (str * option str * world) :=
    do ext <- detect_type input;
    if str_eqb ext (L ".ova") || str_eqb ext (L ".box") then
      do mp <- untar wd (w_tars w (normpath input));
      match t_link (fst mp) with
      | None => Ok (snd mp, Some (t_data (fst mp)), put w (snd mp) (t_data (fst mp)))
      | Some target => Ok (snd mp, read w (path_join (dirname (snd mp)) target), w)
      end
    else Ok (input, read w input, w).

  (** ovf.py:171-264 OVF.__init__ for the envelope that was read *)
  Definition open_envelope (w : world) (c : container) (path : str) (root : elem) : result ovf :=
    if negb (is_envelope root) then Err EVMInitError
    else
      do v <- ovf_version root;
      do refs <- required root (REFERENCES v) [];
      do disks <- find_child root (DISK_SECTION v) (DISK_SECTION_ATTRIB v) false;
      do nets <- find_child root (NETWORK_SECTION v) (NETWORK_SECTION_ATTRIB v) false;
      do deploy <- find_child root (DEPLOY_OPT_SECTION v) [] false;
      do sys <- required root (VIRTUAL_SYSTEM v) (VIRTUAL_SYSTEM_ATTRIB v);
      do prod <- find_child sys (PRODUCT_SECTION v) (PRODUCT_SECTION_ATTRIB v) false;
      do ann <- find_child sys (ANNOTATION_SECTION v) (ANNOTATION_SECTION_ATTRIB v) false;
      do hws <- required sys (VIRTUAL_HW_SECTION v) (VIRTUAL_HW_SECTION_ATTRIB v);
      let profiles := named (match deploy with Some s => config_ids v s | None => [] end) in
      do h <- (match read_hardware (mkEnv v profiles (e_re_sub E) (e_seq_repr E) (e_tostring E) (e_fromstring E)) hws with
               | Ok h => Ok h
               | Err EOVFHardwareData => Err EVMInitError
               | Err e => Err e
               end);
      let plat := for_product_string (read_class v prod) in
      do files <- file_elems v (findall (FILE v) refs);
      do fc <- load_files (digest (checksum_algorithm v)) w c path files;
      Ok (mkOvf v root refs disks nets deploy sys prod ann hws profiles h plat (fst fc) (snd fc)).

  (** ovf.py:146-268 OVF.__init__; [output] is "" if none was given or it is not yet known *)
  Definition open_ovf (w : world) (wd input output : str) : result ovf :=
    do _ <- (if is_nil output then Ok tt else do _ <- detect_type output; Ok tt);
    do pcw <- descriptor w wd input;
    let '(path, text, w') := pcw in
    match text with
    | None => Err EEnvironment
    | Some t =>
        match parse t with
        | None => Err EVMInitError
        | Some root =>
            let c := if str_eqb input path then Dir (dirname (normpath path)) else Tar (normpath input) in
            open_envelope w' c path root
        end
    end.

  (** vm_description.py:125-170 factory; OVF is the only subclass *)
  Definition factory (w : world) (wd input output : str) : result ovf :=
    match detect_type input with
    | Err EValueUnsupported => Err EVMInitError
    | Err e => Err e
    | Ok _ => match open_ovf w wd input output with
              | Err EValueUnsupported => Err EVMInitError
              | r => r
              end
    end.
End Open.
