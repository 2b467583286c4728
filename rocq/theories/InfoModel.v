(** What [cot info] prints: COT/vm_description/ovf/ovf.py:939-1534 and
    COT/commands/info.py.  Nothing here changes the package, so all of it is functions of
    what was read. *)
From Coq Require Import List Ascii ZArith QArith Bool Lia.
Import ListNotations.
From Verif Require Import PyBase PyDict NamesModel XmlModel ItemModel HardwareModel NetworkModel ProfileModel
  UnitsModel PrettyModel DriveModel EnvPropModel EditPropModel EditHwModel ProductModel PlatformModel ValidateHwModel WrapModel.
Local Open Scope nat_scope.

(** name_helper.py:231-232, 265-266, 457-462, 510-521 *)
Definition ANNOTATION_SECTION (v : version) : str :=
  OVF_NS v ++ match v with V0 => L "Section" | _ => L "AnnotationSection" end.
Definition ANNOTATION_SECTION_ATTRIB (v : version) : list (str * str) :=
  match v with V0 => [(XSI_TYPE, L "ovf:AnnotationSection_Type")] | _ => [] end.
Definition ANNOTATION (v : version) : str := OVF_NS v ++ L "Annotation".
Definition EULA_SECTION (v : version) : str :=
  OVF_NS v ++ match v with V0 => L "Section" | _ => L "EulaSection" end.
Definition EULA_SECTION_ATTRIB (v : version) : list (str * str) :=
  match v with V0 => [(XSI_TYPE, L "ovf:EulaSection_Type")] | _ => [] end.
Definition EULA_LICENSE (v : version) : str := OVF_NS v ++ L "License".

(** [PLATFORM_NAME] of the platform modules: cisco_c9800cl.py:26, cisco_csr1000v.py:26,
    cisco_iosv.py:26, cisco_iosxrv.py:36, 72, 97, cisco_iosxrv_9000.py:27,
    cisco_nexus_9000v.py:26, cisco_nxosv.py:26; None for the generic platform *)
Definition platform_name (p : platform) : option str :=
  match p with
  | C9800CL => Some (L "Cisco C9800-CL")
  | CSR1000V => Some (L "Cisco CSR1000V")
  | IOSv => Some (L "Cisco IOSv")
  | IOSXRv => Some (L "Cisco IOS XRv")
  | IOSXRvRP => Some (L "Cisco IOS XRv route processor card")
  | IOSXRvLC => Some (L "Cisco IOS XRv line card")
  | IOSXRv9000 => Some (L "Cisco IOS XRv 9000")
  | Nexus9000v => Some (L "Cisco Nexus 9000v")
  | NXOSv => Some (L "Cisco NX-OSv")
  | _ => None
  end.

(** 'brief', None, 'verbose' *)
Inductive verbosity : Type := Brief | Normal | Verbose.
Definition is_verbose (b : verbosity) : bool := match b with Verbose => true | _ => false end.
Definition is_brief (b : verbosity) : bool := match b with Brief => true | _ => false end.

(** The opened package, as far as [info_string] looks at it: ovf.py:211-262 *)
Record info_vm : Type := mkInfoVm {
  iv_file : str;               (* input_file *)
  iv_vs : elem;                (* virtual_system *)
  iv_nets : netdoc;            (* network_section *)
  iv_deploy : option elem;     (* deploy_opt_section *)
  iv_vmd : vmd }.              (* references, disk_section, hardware *)

(** [{0:w}] and [{0:>w}] of a string *)
Definition ljust (w : nat) (s : str) : str := s ++ repeat SP (w - length s).
Definition rjust (w : nat) (s : str) : str := repeat SP (w - length s) ++ s.
Definition blanks (n : nat) : str := repeat SP n.
(** [s[:n]]; a negative n counts from the end *)
Definition slice_to (n : Z) (s : str) : str :=
  if (0 <=? n)%Z then firstn (Z.to_nat n) s else firstn (length s - Z.to_nat (- n)) s.
(** [str(x)] of a text or None *)
Definition shown (o : option str) : str := match o with Some s => s | None => L "None" end.
Definition quoted (s : str) : str := L """" ++ s ++ L """".

(** [str.splitlines] on Latin-1: \n, \r, \r\n, \v, \f, \x1c-\x1e, \x85 *)
Definition line_end (c : ascii) : bool := in_range 10 13 c || in_range 28 30 c || (code c =? 133)%N.
Fixpoint splitlines_from (cur : str) (s : str) : list str :=
  match s with
  | [] => match cur with [] => [] | _ => [rev cur] end
  | c :: s' =>
      if (code c =? 13)%N
      then rev cur :: match s' with
                      | d :: s'' => if (code d =? 10)%N then splitlines_from [] s'' else splitlines_from [] s'
                      | [] => []
                      end
      else if line_end c then rev cur :: splitlines_from [] s'
      else splitlines_from (c :: cur) s'
  end.
Definition splitlines (s : str) : list str := splitlines_from [] s.

(** [max] of a list of lengths; of an empty list it is a ValueError *)
Definition longest (l : list str) : nat := fold_right (fun s n => Nat.max (length s) n) 0 l.

(** the lines [wrapper.wrap(line)] of each line, an empty line staying empty
    (ovf.py:1012-1018, 1055-1059, 1366-1370) *)
Fixpoint wrap_each (width : Z) (ini sub : str) (l : list str) : result (list str) :=
  match l with
  | [] => Ok []
  | [] :: l' => do r <- wrap_each width ini sub l'; Ok ([] :: r)
  | line :: l' => do a <- wrap width ini sub line; do r <- wrap_each width ini sub l'; Ok (a ++ r)
  end.
(** [str_list.extend(f(x)) for x in l] *)
Fixpoint each {A} (f : A -> result (list str)) (l : list A) : result (list str) :=
  match l with
  | [] => Ok []
  | x :: l' => do a <- f x; do r <- each f l'; Ok (a ++ r)
  end.

Section Info.
Variable E : env.
Let v : version := e_ver E.
(** [pretty_bytes] of the text of an attribute, ovf.py:1091: Python's [float] reads it *)
Variable pretty_text : str -> result str.
(** [TextWrapper.wrap] with the default settings (ovf.py:1476-1478, breaking long words, and
    at hyphens): left open, width and the two indents first *)
Variable wrap_hyphens : Z -> str -> str -> str -> result (list str).
Variable m : info_vm.

(** [pretty_bytes] of an int (utilities.py:99-160): [float] of it is exact below 2^53 *)
Definition pretty_int (z : Z) : result str := pretty_bytes (inject_Z (round53 z)) 0.

(** ovf.py:939-955 _info_string_header.  [self.platform] is the platform of the product
    class, ovf.py:380-393. *)
Definition info_header (width : Z) : result str :=
  do sec <- product_section v (iv_vs m);
  let line := repeat "-"%char (Z.to_nat width) in
  Ok (join [NL] ([line; iv_file m]
      ++ match platform_name (for_product_string (read_class v sec)) with
         | Some n => [L "COT detected platform type: " ++ n]
         | None => []
         end
      ++ [line])).

(** ovf.py:957-992 _info_string_product; None for no section *)
Definition product_rows (brief : bool) (sec : option elem) : list (str * option str * str) :=
  let text tag := match sec with Some s => findtext_opt tag s | None => None end in
  let always := fun x => [x] in
  let if_long := fun x => if brief then [] else [x] in
  always (L "Product:  ", text (PRODUCT v), L "(No product string)")
  ++ if_long (L "          ", text (PRODUCT_URL v), L "(No product URL)")
  ++ always (L "Vendor:   ", text (VENDOR v), L "(No vendor string)")
  ++ if_long (L "          ", text (VENDOR_URL v), L "(No vendor URL)")
  ++ always (L "Version:  ", text (VERSION v), L "(No version string)")
  ++ if_long (L "          ", text (FULL_VERSION v), L "(No detailed version string)").
Definition info_product (verb : verbosity) (width : Z) : result (option str) :=
  do sec <- product_section v (iv_vs m);
  let text tag := match sec with Some s => findtext_opt tag s | None => None end in
  if negb (existsb some_text [text (PRODUCT v); text (VENDOR v); text (VERSION v)])
     && (is_brief verb || negb (existsb some_text [text (PRODUCT_URL v); text (VENDOR_URL v); text (FULL_VERSION v)]))
  then Ok None
  else do lines <- each (fun r : str * option str * str =>
                           let '(label, value, default) := r in
                           wrap width [] (blanks 10) (label ++ match value with Some s => s | None => default end))
                        (product_rows (is_brief verb) sec);
       Ok (Some (join [NL] lines)).

(** ovf.py:994-1021 _info_string_annotation *)
Definition first_child (tag : str) (e : elem) : option elem :=
  match findall tag e with c :: _ => Some c | [] => None end.
Definition text_of (o : option elem) : option str :=
  match o with Some e => match etext e with Some (c :: s) => Some (c :: s) | _ => None end | None => None end.
Definition info_annotation (width : Z) : result (option str) :=
  do o <- find_child (iv_vs m) (ANNOTATION_SECTION v) (ANNOTATION_SECTION_ATTRIB v) false;
  match o with
  | None => Ok None
  | Some sec =>
      match text_of (first_child (ANNOTATION v) sec) with
      | None => Ok None
      | Some t =>
          match splitlines t with
          | [] => Ok (Some [])
          | line :: others =>
              do a <- wrap_each width (L "Annotation: ") (blanks 12) [line];
              do r <- wrap_each width (blanks 12) (blanks 12) others;
              Ok (Some (join [NL] (a ++ r)))
          end
      end
  end.

(** ovf.py:1023-1061 _info_string_eula *)
Definition info_one_eula (verb : verbosity) (width : Z) (eula : elem) : result (list str) :=
  match text_of (first_child (EULA_LICENSE v) eula) with
  | None => Ok []
  | Some t =>
      do i <- match text_of (first_child (INFO v) eula) with
              | Some s => wrap width (blanks 2) (blanks 2) s
              | None => Ok []
              end;
      do r <- (if is_verbose verb then wrap_each width (blanks 4) (blanks 4) (splitlines t)
               else Ok [L "    (not displayed, use 'cot info --verbose' if desired)"]);
      Ok (i ++ r)
  end.
Definition has_license (eula : elem) : bool :=
  match text_of (first_child (EULA_LICENSE v) eula) with Some _ => true | None => false end.
Definition info_eula (verb : verbosity) (width : Z) : result str :=
  let eulas := find_all_children (iv_vs m) [EULA_SECTION v] (EULA_SECTION_ATTRIB v) in
  do lines <- each (info_one_eula verb width) eulas;
  Ok (join [NL] ((if existsb has_license eulas then [L "End User License Agreement(s):"] else []) ++ lines)).

(** ovf.py:1415-1437 device_info_str *)
Definition device_info_str (o : option str) : result str :=
  match o with
  | None => Ok []
  | Some k =>
      do c <- find_parent_from_item E (iv_vmd m) (Some k);
      do t <- hardware_type E (iv_vmd m) k;
      do a <- value_of E (iv_vmd m) k ADDRESS_ON_PARENT;
      do ca <- match c with
               | None => Ok (L "(?)", L "?")
               | Some ck => do ct <- hardware_type E (iv_vmd m) ck;
                            do x <- value_of E (iv_vmd m) ck ADDRESS;
                            Ok (upper ct, shown_value E x)
               end;
      let '(ct, x) := (ca : str * str) in
      Ok (t ++ L " @ " ++ ct ++ L " " ++ x ++ L ":" ++ shown_value E a)
  end.

(** ovf.py:3023-3034 get_capacity_from_disk *)
Definition get_capacity_from_disk (disk : elem) : result Z :=
  match get_attr disk (DISK_CAPACITY v) with
  | None => Err ETypeError
  | Some s => do z <- int_or_err s;
              programmatic_bytes_to_int (zdec z) (get_attr_or disk (DISK_CAP_UNITS v) (L "byte"))
  end.

(** ovf.py:1063-1073 the templates *)
Definition disk_row (w : nat) (name size cap device : str) : str :=
  ljust w name ++ L " " ++ rjust 9 size ++ L " " ++ rjust 9 cap ++ L " " ++ firstn 20 device.
Definition file_row (w : nat) (name size : str) : str := ljust w name ++ L " " ++ rjust 9 size.
Definition COLUMNS_WIDTH : Z := 1 + 9 + 1 + 9 + 1 + 20.

(** ovf.py:1075-1110 _info_strings_for_file; the File is given by its place *)
Record file_info : Type := mkFileInfo {
  fi_id : option str; fi_size : str; fi_disk : option str; fi_capacity : str; fi_device : str }.
Definition info_for_file (j : nat) : result file_info :=
  let d := iv_vmd m in
  do file <- child_at (m_refs d) j;
  do size <- match get_attr file (FILE_SIZE v) with Some s => pretty_text s | None => Ok [] end;
  do disk <- find_disk_from_file_id v d (get_attr file (FILE_ID v));
  match disk with
  | None => do k <- find_item_from_file E d (Some j);
            do dev <- device_info_str k;
            Ok (mkFileInfo (get_attr file (FILE_ID v)) size (Some []) [] dev)
  | Some n => do s <- the_disks d; do e <- child_at s n;
              do c <- get_capacity_from_disk e;
              do cap <- pretty_int c;
              do k <- find_item_from_disk E d (Some n);
              do dev <- device_info_str k;
              Ok (mkFileInfo (get_attr file (FILE_ID v)) size (get_attr e (DISK_ID v)) cap dev)
  end.

(** ovf.py:1130-1135: the width of the first column *)
Definition href_width (width : Z) (names : list str) : nat :=
  Z.to_nat (Z.max (Z.min (Z.of_nat (longest names)) (width - COLUMNS_WIDTH - 2)) 18 + 2).
(** ovf.py:1149-1152 *)
Definition cut_name (w : nat) (name : str) : str :=
  let s := L "  " ++ name in if w <? length s then firstn (w - 3) s ++ L "..." else s.
Definition some_str (o : option str) : bool := match o with Some (_ :: _) => true | _ => false end.
(** ovf.py:1144-1162, one File *)
Definition file_lines_of (verb : verbosity) (w : nat) (j : nat) : result (list str) :=
  do i <- info_for_file j;
  do file <- child_at (m_refs (iv_vmd m)) j;
  do name <- match get_attr file (FILE_HREF v) with Some s => Ok s | None => Err ETypeError end;
  let row := match fi_capacity i, fi_device i with
             | [], [] => file_row w (cut_name w name) (fi_size i)
             | _, _ => disk_row w (cut_name w name) (fi_size i) (fi_capacity i) (fi_device i)
             end in
  Ok (row :: if is_verbose verb
             then (L "    File ID: " ++ shown (fi_id i))
                  :: match fi_disk i with Some (c :: s) => [L "    Disk ID: " ++ c :: s] | _ => [] end
             else []).
(** ovf.py:1164-1174, one Disk *)
Definition disk_lines_of (w : nat) (n : nat) : result (list str) :=
  let d := iv_vmd m in
  do s <- the_disks d; do e <- child_at s n;
  do file <- find_place (m_refs d) (FILE v) (FILE_ID v) (get_attr e (DISK_FILE_REF v));
  match file with
  | Some _ => Ok []
  | None => do c <- get_capacity_from_disk e;
            do cap <- pretty_int c;
            do k <- find_item_from_disk E d (Some n);
            do dev <- device_info_str k;
            Ok [disk_row w (L "  (disk placeholder)") (L "--") cap dev]
  end.
(** the places of the children with a tag *)
Definition all_places (tag : str) (e : elem) : list nat := places (fun x => str_eqb (etag x) tag) 0 (echildren e).
Fixpoint hrefs (l : list elem) : result (list str) :=
  match l with
  | [] => Ok []
  | e :: l' => match get_attr e (FILE_HREF v) with
               | Some s => do r <- hrefs l'; Ok (s :: r)
               | None => Err ETypeError
               end
  end.
(** ovf.py:1112-1175 _info_string_files_disks *)
Definition info_files_disks (width : Z) (verb : verbosity) : result (option str) :=
  let d := iv_vmd m in
  let files := all_places (FILE v) (m_refs d) in
  let disks := match m_disks d with Some s => all_places (DISK v) s | None => [] end in
  match files, disks with
  | [], [] => Ok None
  | _, _ =>
      do names <- hrefs (findall (FILE v) (m_refs d));
      let w := href_width width names in
      do a <- each (file_lines_of verb w) files;
      do b <- each (disk_lines_of w) disks;
      Ok (Some (join [NL]
        ([disk_row w (L "Files and Disks:") (L "File Size") (L "Capacity") (L "Device");
          disk_row w [] (L "---------") (L "---------") (L "--------------------")] ++ a ++ b)))
  end.

(** ovf.py:1177-1215 _info_string_hardware *)
Fixpoint subtypes_of (ks : list str) : result (list (list str)) :=
  match ks with
  | [] => Ok []
  | k :: ks' => do i <- hitem k (m_hw (iv_vmd m)); do r <- subtypes_of ks'; Ok (get_all_subtypes (i_props i) :: r)
  end.
Definition all_subtypes (rt : str) : result (list str) :=
  do ks <- find_all_items E (m_hw (iv_vmd m)) (Some rt) [] [];
  do l <- subtypes_of ks;
  Ok (list_union l).
Definition variant_lines (width : Z) (label : str) (l : list str) : result (list str) :=
  match l with [] => Ok [] | _ => wrap width label (blanks 28) (join (L " ") l) end.
Definition info_hardware (width : Z) : result (option str) :=
  do sec <- virtual_hw_section v (iv_vs m);
  let types := match sec with Some s => system_types E s | None => None end in
  do scsi <- all_subtypes (L "scsi");
  do ide <- all_subtypes (L "ide");
  do eth <- all_subtypes (L "ethernet");
  match types, scsi, ide, eth with
  | None, [], [], [] => Ok None
  | _, _, _, _ =>
      do a <- match types with
              | Some l => wrap width (L "  System types:             ") (blanks 28) (join (L " ") l)
              | None => Ok []
              end;
      do b <- variant_lines width (L "  SCSI device types:        ") scsi;
      do c <- variant_lines width (L "  IDE device types:         ") ide;
      do d <- variant_lines width (L "  Ethernet device types:    ") eth;
      Ok (Some (join [NL] (L "Hardware Variants:" :: a ++ b ++ c ++ d)))
  end.

(** ovf.py:1217-1255 _info_string_networks *)
Definition network_lines (verb : verbosity) (width : Z) (max_n : nat) (truncate : bool) (max_d : Z)
    (x : str * option str) : result (list str) :=
  let (name, desc) := x in
  match desc with
  | None | Some [] => Ok [L "  " ++ name]
  | Some t =>
      if truncate && (max_d <? zlen t)%Z
      then Ok [L "  " ++ ljust max_n name ++ L "  " ++ L """" ++ slice_to (max_d - 3) t ++ L "..."""]
      else wrap width (L "  ") (blanks (5 + max_n)) (ljust max_n name ++ L "  " ++ quoted t)
  end.
Fixpoint network_names (l : list elem) : result (list str) :=
  match l with
  | [] => Ok []
  | e :: l' => match get_attr e (NETWORK_NAME v) with
               | Some s => do r <- network_names l'; Ok (s :: r)
               | None => Err ETypeError
               end
  end.
Definition info_networks (verb : verbosity) (width : Z) : result (option str) :=
  match network_section v (iv_nets m) with
  | None => Ok None
  | Some sec =>
      match findall (NETWORK v) sec with
      | [] => Err EValueError
      | nets =>
          do names <- network_names nets;
          let descs := map (findtext_opt (NWK_DESC v)) nets in
          let max_n := longest names in
          let max_d := Z.of_nat (longest (map shown descs)) in
          let truncate := (width <=? Z.of_nat max_n + max_d + 6)%Z && negb (is_verbose verb) in
          let max_d := if truncate then (width - 6 - Z.of_nat max_n)%Z else max_d in
          do lines <- each (network_lines verb width max_n truncate max_d) (combine names descs);
          Ok (Some (join [NL] (L "Networks:" :: lines)))
      end
  end.

(** ovf.py:1257-1295 _info_string_nics *)
Definition nic_value (k n : str) : result (option value) := value_of E (iv_vmd m) k n.
Fixpoint nic_names (ks : list str) : result (list str) :=
  match ks with
  | [] => Ok []
  | k :: ks' => do o <- nic_value k (ELEMENT_NAME v); do r <- nic_names ks'; Ok (shown_value E o :: r)
  end.
Definition nic_lines (verb : verbosity) (width : Z) (w : nat) (k : str) : result (list str) :=
  do net <- nic_value k CONNECTION;
  do name <- nic_value k (ELEMENT_NAME v);
  do name <- match name with
             | Some x => Ok (vtext E x)
             | None => do i <- nic_value k (INSTANCE_ID v); Ok (L "<instance " ++ shown_value E i ++ L ">")
             end;
  do desc <- (if is_verbose verb
              then do d <- nic_value k ITEM_DESCRIPTION;
                   do d <- match d with Some x => Ok (Some x) | None => nic_value k CAPTION end;
                   match d with Some x => wrap width (blanks 4) (blanks 4) (vtext E x) | None => Ok [] end
              else Ok []);
  Ok ((L "  " ++ ljust w name ++ L " : " ++ shown_value E net) :: desc).
Definition info_nics (verb : verbosity) (width : Z) : result (option str) :=
  if is_brief verb then Ok None
  else
    do ks <- find_all_items E (m_hw (iv_vmd m)) (Some (L "ethernet")) [] [];
    match ks with
    | [] => Ok None
    | _ =>
        do names <- nic_names ks;
        let w := Nat.max (longest names) (length (L "<instance 10>")) in
        do lines <- each (nic_lines verb width w) ks;
        Ok (Some (join [NL] (L "NICs and Associated Networks:" :: lines)))
    end.

(** ovf.py:1297-1315 _info_string_environment *)
Definition info_environment (width : Z) : result (option str) :=
  do t <- environment_transports v (iv_vs m);
  match t with
  | None | Some [] => Ok None
  | Some l => do lines <- wrap width (L "  ") (L "    ") (L "Transport types: " ++ join (L " ") l);
              Ok (Some (join [NL] (L "Environment:" :: lines)))
  end.

(** ovf.py:1317-1371 _info_string_properties *)
Definition value_shown (p : prop_info) : str :=
  match pi_value p with Some x => quoted x | None => L "--" end.
Definition key_shown (p : prop_info) : str := L "<" ++ shown (pi_key p) ++ L ">".
Definition property_line (keys : bool) (max_key max_label max_width : nat) (p : prop_info) : str :=
  if keys
  then L "  " ++ ljust max_key (key_shown p) ++ L "  " ++ ljust max_label (pi_label p) ++ L "  " ++ value_shown p
  else L "  " ++ ljust max_width (match pi_label p with [] => key_shown p | l => l end) ++ L "  " ++ value_shown p.
Definition info_properties (verb : verbosity) (width : Z) : result (option str) :=
  do ps <- environment_properties v (iv_vs m);
  match ps with
  | [] => Ok None
  | _ =>
      let max_key := 2 + longest (map (fun p => shown (pi_key p)) ps) in
      let max_label := longest (map pi_label ps) in
      let max_value := longest (map (fun p => shown (pi_value p)) ps) in
      let max_width := if forallb (fun p => match pi_label p with [] => false | _ => true end) ps
                       then max_label else Nat.max max_key max_label in
      let keys := (0 <? max_label) && (Z.of_nat (max_key + max_label + max_value) <? width - 8)%Z in
      do lines <- each (fun p =>
                    do d <- (if is_verbose verb then wrap_each width (blanks 6) (blanks 6) (splitlines (pi_desc p)) else Ok []);
                    Ok (property_line keys max_key max_label max_width p :: d)) ps;
      Ok (Some (join [NL] (L "Properties:" :: lines)))
  end.

(** ** The configuration profiles *)

(** [config_profiles], ovf.py:538-559; [default_config_profile], vm_description.py:293-301 *)
Definition profile_ids : list (option str) :=
  match iv_deploy m with Some sec => config_ids v sec | None => [] end.
Definition default_profile : option str := match profile_ids with p :: _ => p | [] => None end.

(** ovf.py:1439-1446 *)
Definition profile_row (w : nat) (name cpus memory nics serials disks : str) : str :=
  ljust w name ++ L " " ++ rjust 4 cpus ++ L " " ++ rjust 9 memory ++ L " " ++ rjust 4 nics ++ L " "
  ++ rjust 7 serials ++ L " " ++ rjust 14 disks.
(** ovf.py:1465-1467 *)
Definition profile_width : nat :=
  Nat.max (length (L "Configuration Profiles: "))
    (Nat.max (2 + longest (map shown (match profile_ids with [] => [None] | l => l end)))
       (2 + length (shown default_profile ++ L " (default)"))).
Definition profile_header : str :=
  profile_row profile_width (L "Configuration Profiles:") (L "CPUs") (L "Memory") (L "NICs") (L "Serials") (L "Disks/Capacity")
  ++ [NL] ++ profile_row profile_width [] (L "----") (L "---------") (L "----") (L "-------") (L "--------------").

Definition value_in (k n : str) (p : profile) : result (option value) :=
  do i <- hitem k (m_hw (iv_vmd m)); get_value E (i_props i) n (Some [p]).
(** the CPUs and the memory of a profile, ovf.py:1481-1491: an absent quantity cannot be
    formatted, nor read as a number (a list instead of a text is left out: TypeError) *)
Definition profile_cpus (p : profile) : result str :=
  do o <- find_item E (m_hw (iv_vmd m)) (Some (L "cpu")) [] p;
  match o with
  | None => Ok (L "0")
  | Some k => do q <- value_in k VIRTUAL_QUANTITY p;
              match q with Some (VStr s) => Ok s | _ => Err ETypeError end
  end.
Definition profile_memory (p : profile) : result Z :=
  do o <- find_item E (m_hw (iv_vmd m)) (Some (L "memory")) [] p;
  match o with
  | None => Ok 0%Z
  | Some k => do q <- value_in k VIRTUAL_QUANTITY p;
              do u <- value_in k ALLOCATION_UNITS p;
              ValidateHwModel.bytes_of q u
  end.
(** ovf.py:1496-1499 *)
Definition disks_size : result Z :=
  match m_disks (iv_vmd m) with
  | None => Ok 0%Z
  | Some s => fold_result (fun a e => do c <- get_capacity_from_disk e; Ok (a + c)%Z) (findall (DISK v) s) 0%Z
  end.
(** ovf.py:1480-1522, one profile *)
Definition profile_lines (width : Z) (verbose : bool) (p : profile) : result (list str) :=
  let h := m_hw (iv_vmd m) in
  do cpus <- profile_cpus p;
  do memory <- profile_memory p;
  do nics <- get_item_count E h (Some (L "ethernet")) p;
  do serials <- get_item_count E h (Some (L "serial")) p;
  do disks <- get_item_count E h (Some (L "harddisk")) p;
  do size <- disks_size;
  let name := L "  " ++ shown p ++ (if opt_str_eqb p default_profile then L " (default)" else []) in
  do memory <- pretty_int memory;
  do size <- pretty_int size;
  let row := profile_row profile_width name cpus memory (zdec nics) (zdec serials)
               (rjust 2 (zdec disks) ++ L " / " ++ rjust 9 size) in
  match p, iv_deploy m with
  | Some id, Some sec =>
      if verbose then
        do c <- find_child sec (CONFIG v) [(CONFIG_ID v, id)] false;
        match c with
        | None => Err EAttributeError
        | Some c =>
            do a <- wrap_hyphens width (blanks 4) (blanks 21) (ljust 15 (L "Label:") ++ L " " ++ quoted (shown (findtext_opt (CFG_LABEL v) c)));
            do b <- wrap_hyphens width (blanks 4) (blanks 21) (ljust 15 (L "Description:") ++ L " " ++ quoted (shown (findtext_opt (CFG_DESC v) c)));
            Ok (row :: a ++ b)
        end
      else Ok [row]
  | _, _ => Ok [row]
  end.
(** ovf.py:1448-1523 profile_info_list and ovf.py:1525-1536 profile_info_string *)
Definition profile_info_list (width : Z) (verbose : bool) : result (str * list str) :=
  do lines <- each (profile_lines width verbose) (match profile_ids with [] => [None] | l => l end);
  Ok (profile_header, lines).
Definition profile_info_string (width : Z) (verb : verbosity) : result str :=
  do r <- profile_info_list width (negb (is_brief verb));
  Ok (join [NL] (fst r :: snd r)).

(** ** Everything *)

(** ovf.py:1373-1413 info_string: the empty sections are left out *)
Definition present_sections (l : list (option str)) : list str :=
  flat_map (fun o => match o with Some (c :: s) => [c :: s] | _ => [] end) l.
Definition info_string (width : Z) (verb : verbosity) : result str :=
  do h <- info_header width;
  do s1 <- info_product verb width;
  do s2 <- info_annotation width;
  do s3 <- info_eula verb width;
  do s4 <- info_files_disks width verb;
  do s5 <- info_hardware width;
  do s6 <- profile_info_string width verb;
  do s7 <- info_networks verb width;
  do s8 <- info_nics verb width;
  do s9 <- info_environment width;
  do s10 <- info_properties verb width;
  Ok (h ++ [NL] ++ join [NL; NL] (present_sections [s1; s2; Some s3; s4; s5; Some s6; s7; s8; s9; s10])).
End Info.
