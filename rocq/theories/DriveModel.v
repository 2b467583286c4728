(** Model of how COT/vm_description/ovf/ovf.py links files, disks, drives and controllers,
    and of the commands add-disk, add-file and remove-file.

    A [vmd] is the part of an OVF object these functions work on.  The References and
    DiskSection elements are modelled by themselves; that they are the ones in the envelope,
    and where _ensure_section puts a new DiskSection, is not repeated here.  A Python
    reference to a File or Disk element is the position of the element among the children of
    its section; an OVFItem is the key of the item in the hardware.  Log messages are left
    out.  On an error the model has no state: that Python has then already made some of the
    changes is not modelled. *)
From Verif Require Import PyBase PyDict ValidationModel XmlModel NamesModel ItemModel HardwareModel
  UnitsModel RawModel NetworkModel DiskOptModel.
Local Open Scope nat_scope.

(** name_helper.py:211-228, 456, 507-509 *)
Definition FILE (v : version) : str := OVF_NS v ++ L "File".
Definition FILE_ID (v : version) : str := OVF_NS v ++ L "id".
Definition FILE_HREF (v : version) : str := OVF_NS v ++ L "href".
Definition FILE_SIZE (v : version) : str := OVF_NS v ++ L "size".
Definition DISK_SECTION (v : version) : str :=
  OVF_NS v ++ match v with V0 => L "Section" | _ => L "DiskSection" end.
Definition DISK_SECTION_ATTRIB (v : version) : list (str * str) :=
  match v with V0 => [(XSI_TYPE, L "ovf:DiskSection_Type")] | _ => [] end.
Definition DISK (v : version) : str := OVF_NS v ++ L "Disk".
Definition DISK_ID (v : version) : str := OVF_NS v ++ L "diskId".
Definition DISK_FILE_REF (v : version) : str := OVF_NS v ++ L "fileRef".
Definition DISK_CAPACITY (v : version) : str := OVF_NS v ++ L "capacity".
Definition DISK_CAP_UNITS (v : version) : str := OVF_NS v ++ L "capacityAllocationUnits".
Definition DISK_FORMAT (v : version) : str := OVF_NS v ++ L "format".
(** name_helper.py:299-302, 470-471 *)
Definition OLD_FILE_REF : str := L "/file/".
Definition OLD_DISK_REF : str := L "/disk/".
Definition FILE_REF (v : version) : str := match v with V0 => L "/file/" | _ => L "ovf:/file/" end.
Definition DISK_REF (v : version) : str := match v with V0 => L "/disk/" | _ => L "ovf:/disk/" end.
(** ovf.py:2474-2477 *)
Definition STREAM_OPTIMIZED : str :=
  L "http://www.vmware.com/interfaces/specifications/vmdk.html#streamOptimized".

(** The References element, the DiskSection element if there is one, the hardware, and
    [file_references]: for each file name the directory it is copied from. *)
Record vmd : Type := mkVmd {
  m_refs : elem;
  m_disks : option elem;
  m_hw : hw;
  m_sources : list (str * str) }.
Definition with_refs (r : elem) (m : vmd) := mkVmd r (m_disks m) (m_hw m) (m_sources m).
Definition with_disks (d : option elem) (m : vmd) := mkVmd (m_refs m) d (m_hw m) (m_sources m).
Definition with_hw (h : hw) (m : vmd) := mkVmd (m_refs m) (m_disks m) h (m_sources m).
Definition with_sources (s : list (str * str)) (m : vmd) := mkVmd (m_refs m) (m_disks m) (m_hw m) s.

(** ** Finding elements *)

(** xml_file.py:131-212 find_child for one tag and one attribute, which may be asked to be
    absent; the position of the child *)
Definition is_child (tag k : str) (v : option str) (e : elem) : bool :=
  str_eqb (etag e) tag && opt_eqb (get_attr e k) v.
Fixpoint places {A} (f : A -> bool) (n : nat) (l : list A) : list nat :=
  match l with
  | [] => []
  | x :: l' => if f x then n :: places f (S n) l' else places f (S n) l'
  end.
Definition find_place (parent : elem) (tag k : str) (v : option str) : result (option nat) :=
  match places (is_child tag k v) 0 (echildren parent) with
  | [] => Ok None
  | [j] => Ok (Some j)
  | _ => Err ELookupError
  end.
(** the element at a position, and one of its attributes *)
Definition child_at (parent : elem) (j : nat) : result elem :=
  match nth_error (echildren parent) j with Some e => Ok e | None => Err EIndexError end.
Definition attr_at (parent : elem) (j : nat) (k : str) : result (option str) :=
  do e <- child_at parent j; Ok (get_attr e k).

(** [prefix + id]; a missing id is a TypeError *)
Definition plus (prefix : str) (id : option str) : result str :=
  match id with Some s => Ok (prefix ++ s) | None => Err ETypeError end.

Definition value_of (E : env) (m : vmd) (k n : str) : result (option value) :=
  do i <- hitem k (m_hw m); get_value E (i_props i) n None.

(** ovf.py:2866-2886 find_parent_from_item *)
Definition find_parent_from_item (E : env) (m : vmd) (o : option str) : result (option str) :=
  match o with
  | None => Ok None
  | Some k =>
      do p <- value_of E m k PARENT;
      match p with
      | None => Ok None
      | Some v => find_item E (m_hw m) None [(INSTANCE_ID (e_ver E), Some v)] None
      end
  end.

(** ovf.py:2895-2911 and 2925-2935: by the new form of the reference, then by the old one *)
Definition find_by_host (E : env) (m : vmd) (new old : str) (id : option str) : result (option str) :=
  do a <- plus new id;
  do r <- find_item E (m_hw m) None [(HOST_RESOURCE, Some (VStr a))] None;
  match r with
  | Some k => Ok (Some k)
  | None => do b <- plus old id; find_item E (m_hw m) None [(HOST_RESOURCE, Some (VStr b))] None
  end.
(** the DiskSection, when there must be one: None has no children and attributes *)
Definition the_disks (m : vmd) : result elem :=
  match m_disks m with Some s => Ok s | None => Err EAttributeError end.
(** ovf.py:2888-2911 find_item_from_disk *)
Definition find_item_from_disk (E : env) (m : vmd) (disk : option nat) : result (option str) :=
  match disk with
  | None => Ok None
  | Some d => do s <- the_disks m; do id <- attr_at s d (DISK_ID (e_ver E));
              find_by_host E m (DISK_REF (e_ver E)) OLD_DISK_REF id
  end.
(** ovf.py:2913-2935 find_item_from_file *)
Definition find_item_from_file (E : env) (m : vmd) (file : option nat) : result (option str) :=
  match file with
  | None => Ok None
  | Some f => do id <- attr_at (m_refs m) f (FILE_ID (e_ver E));
              find_by_host E m (FILE_REF (e_ver E)) OLD_FILE_REF id
  end.
(** ovf.py:2937-2950 find_disk_from_file_id *)
Definition find_disk_from_file_id (v : version) (m : vmd) (id : option str) : result (option nat) :=
  match id, m_disks m with
  | Some _, Some s => find_place s (DISK v) (DISK_FILE_REF v) id
  | _, _ => Ok None
  end.

(** (file, disk, controller, drive), any of which may be None *)
Definition found : Type := option nat * option nat * option str * option str.
Definition nothing : found := (None, None, None, None).

(** ovf.py:2036-2046 and 2091-2102: from a file and a disk to the drive and its controller *)
Definition from_file_and_disk (E : env) (m : vmd) (file disk : option nat) : result found :=
  do d1 <- find_item_from_file E m file;
  do d2 <- find_item_from_disk E m disk;
  do drive <- check_for_conflict str_eqb [d1; d2];
  do ctrl <- find_parent_from_item E m drive;
  match drive, ctrl with
  | Some _, None => Err ELookupError
  | _, _ => Ok (file, disk, ctrl, drive)
  end.

(** ovf.py:2000-2046 search_from_filename; None is a file name that was not given *)
Definition search_from_filename (E : env) (m : vmd) (filename : option str) : result found :=
  let v := e_ver E in
  do file <- find_place (m_refs m) (FILE v) (FILE_HREF v) filename;
  match file with
  | None => Ok nothing
  | Some f =>
      do id <- attr_at (m_refs m) f (FILE_ID v);
      do disk <- find_disk_from_file_id v m id;
      from_file_and_disk E m file disk
  end.

(** ovf.py:2048-2102 search_from_file_id *)
Definition search_from_file_id (E : env) (m : vmd) (file_id : option str) : result found :=
  let v := e_ver E in
  match file_id with
  | None => Ok nothing
  | Some _ =>
      do file <- find_place (m_refs m) (FILE v) (FILE_ID v) file_id;
      do disk <- find_disk_from_file_id v m file_id;
      match disk, file with
      | Some _, None => Err ELookupError
      | _, _ => from_file_and_disk E m file disk
      end
  end.

(** The text of a HostResource; the tuples of ResourceSubType have no startswith *)
Definition host_text (v : value) : result str :=
  match v with VStr s => Ok s | VTuple _ => Err EAttributeError end.
Definition is_disk_ref (v : version) (s : str) : bool := starts_with (DISK_REF v) s || starts_with OLD_DISK_REF s.
Definition is_file_ref (v : version) (s : str) : bool := starts_with (FILE_REF v) s || starts_with OLD_FILE_REF s.

(** ovf.py:2161-2187: from a drive to its disk and file *)
Definition behind_drive (E : env) (m : vmd) (s : str) : result (option nat * option nat) :=
  let v := e_ver E in
  if is_disk_ref v s then
    do disk <- (match m_disks m with
                | Some sec => find_place sec (DISK v) (DISK_ID v) (Some (basename s))
                | None => Ok None end);
    match disk with
    | Some d => do sec <- the_disks m; do id <- attr_at sec d (DISK_FILE_REF v);
                do file <- find_place (m_refs m) (FILE v) (FILE_ID v) id; Ok (file, disk)
    | None => Ok (None, None)
    end
  else if is_file_ref v s then
    do file <- find_place (m_refs m) (FILE v) (FILE_ID v) (Some (basename s));
    do disk <- (match m_disks m with
                | Some sec => find_place sec (DISK v) (DISK_FILE_REF v) (Some (basename s))
                | None => Ok None end);
    Ok (file, disk)
  else Ok (None, None).

(** ovf.py:2104-2189 search_from_controller *)
Definition search_from_controller (E : env) (m : vmd) (controller address : option str) : result found :=
  let v := e_ver E in
  match controller, address with
  | Some c, Some a =>
      match split_on ":"%char a with
      | ctrl_addr :: disk_addr :: _ =>
          do ctrl <- find_item E (m_hw m) (Some c) [(ADDRESS, Some (VStr ctrl_addr))] None;
          match ctrl with
          | None => Ok nothing
          | Some ck =>
              do inst <- value_of E m ck (INSTANCE_ID v);
              do drive <- find_item E (m_hw m) None
                            [(PARENT, inst); (ADDRESS_ON_PARENT, Some (VStr disk_addr))] None;
              match drive with
              | None => Ok (None, None, ctrl, None)
              | Some dk =>
                  do hr <- value_of E m dk HOST_RESOURCE;
                  match hr with
                  | None => Ok (None, None, ctrl, drive)
                  | Some x => do s <- host_text x; do fd <- behind_drive E m s;
                              Ok (fst fd, snd fd, ctrl, drive)
                  end
              end
          end
      | _ => Err EIndexError
      end
  | _, _ => Ok nothing
  end.

(** ** Free addresses *)

(** [x in list] for the text [x] *)
Definition in_addresses (x : str) (l : list (option value)) : bool :=
  existsb (fun o => match o with Some v => value_eqb v (VStr x) | None => false end) l.
(** ovf.py:2207-2209, 2503-2505, 2556-2558: [while str(a) in l: a += 1] *)
Fixpoint free_from (fuel : nat) (l : list (option value)) (a : Z) : result Z :=
  match fuel with
  | O => Err EOutOfFuel
  | S f => if in_addresses (zdec a) l then free_from f l (a + 1)%Z else Ok a
  end.
Definition lowest_free (l : list (option value)) : result Z := free_from (S (length l)) l 0.

(** the values of a property of some devices *)
Definition values_of (E : env) (m : vmd) (n : str) (ks : list str) : result (list (option value)) :=
  fold_right (fun k r => do v <- value_of E m k n; do l <- r; Ok (v :: l)) (Ok []) ks.
(** ovf.py:2204-2209, 2551-2558: the lowest free address on a controller *)
Definition open_slot (E : env) (m : vmd) (ck : str) : result Z :=
  do inst <- value_of E m ck (INSTANCE_ID (e_ver E));
  do ks <- find_all_items E (m_hw m) None [(PARENT, inst)] [];
  do l <- values_of E m ADDRESS_ON_PARENT ks;
  lowest_free l.

(** "{0}".format of a value that may be None *)
Definition shown_value (E : env) (o : option value) : str :=
  match o with Some v => vtext E v | None => L "None" end.

(** ovf.py:2191-2222 find_open_controller *)
Definition slot_ok (controller_type : str) (a : Z) : bool :=
  negb ((str_eqb controller_type (L "scsi") && (7 <? a)%Z) || (str_eqb controller_type (L "ide") && (1 <? a)%Z)).
Fixpoint first_open (E : env) (m : vmd) (ct : str) (ks : list str) : result (option (str * str)) :=
  match ks with
  | [] => Ok None
  | k :: ks' =>
      do ca <- value_of E m k ADDRESS;
      do a <- open_slot E m k;
      if slot_ok ct a then Ok (Some (k, shown_value E ca ++ L ":" ++ zdec a))
      else first_open E m ct ks'
  end.
Definition find_open_controller (E : env) (m : vmd) (ct : str) : result (option (str * str)) :=
  do ks <- find_all_items E (m_hw m) (Some ct) [] [];
  first_open E m ct ks.

(** item.py:150-157 OVFItem.hardware_type *)
Definition hardware_type (E : env) (m : vmd) (k : str) : result str :=
  do o <- value_of E m k RESOURCE_TYPE;
  Ok (match o with
      | Some (VStr s) => match res_name s RES_MAP with
                         | Some n => n
                         | None => L "unknown (" ++ s ++ L ")" end
      | _ => L "unknown (" ++ shown_value E o ++ L ")"
      end).

(** ovf.py:2257-2279 get_common_subtype *)
Fixpoint common_subtype (E : env) (m : vmd) (sub : option value) (ks : list str) : result (option value) :=
  match ks with
  | [] => Ok sub
  | k :: ks' =>
      do s <- value_of E m k RESOURCE_SUB_TYPE;
      match sub with
      | None => common_subtype E m s ks'
      | Some _ => if opt_value_eqb sub s then common_subtype E m sub ks' else Ok None
      end
  end.
Definition get_common_subtype (E : env) (m : vmd) (ct : str) : result (option value) :=
  do ks <- find_all_items E (m_hw m) (Some ct) [] [];
  common_subtype E m None ks.

(** ** Checks *)

(** ovf.py:2281-2327 check_sanity_of_disk_device; the elements and the keys are given *)
Definition check_sanity (E : env) (m : vmd) (disk file : option nat) (drive : str) (ctrl : option str) : result unit :=
  let v := e_ver E in
  do _ <- (match ctrl with
           | Some ck => do a <- value_of E m drive PARENT; do b <- value_of E m ck (INSTANCE_ID v);
                        match_or_die opt_value_eqb a b
           | None => Ok tt end);
  do hr <- value_of E m drive HOST_RESOURCE;
  match hr with
  | None => Ok tt
  | Some x =>
      do s <- host_text x;
      match (if is_disk_ref v s then disk else None) with
      | Some d => do sec <- the_disks m; do id <- attr_at sec d (DISK_ID v);
                  match_or_die opt_eqb (Some (basename s)) id
      | None =>
          match (if is_file_ref v s then file else None) with
          | Some f => do id <- attr_at (m_refs m) f (FILE_ID v);
                      match_or_die opt_eqb (Some (basename s)) id
          | None => Err EValueUnsupported
          end
      end
  end.

(** ** Changes *)

Fixpoint update_at {A} (j : nat) (f : A -> A) (l : list A) : list A :=
  match l, j with
  | [], _ => []
  | x :: l', O => f x :: l'
  | x :: l', S j' => x :: update_at j' f l'
  end.
Fixpoint remove_at {A} (j : nat) (l : list A) : list A :=
  match l, j with
  | [], _ => []
  | _ :: l', O => l'
  | x :: l', S j' => x :: remove_at j' l'
  end.
Fixpoint insert_at {A} (j : nat) (x : A) (l : list A) : list A :=
  match j, l with
  | O, _ => x :: l
  | S j', [] => [x]
  | S j', y :: l' => y :: insert_at j' x l'
  end.
(** [l.index(x)] *)
Fixpoint index_nat (x : nat) (l : list nat) : option nat :=
  match l with
  | [] => None
  | y :: l' => if Nat.eqb x y then Some 0 else option_map S (index_nat x l')
  end.

(** ovf.py:2378-2384: the attributes of a File; [element.clear()] leaves only the tag *)
Definition file_elem (v : version) (id name size : str) : elem :=
  Elem (FILE v) [(FILE_ID v, id); (FILE_HREF v, name); (FILE_SIZE v, size)] None None [].

(** ovf.py:2366-2374: where the next disks have their files *)
Fixpoint next_file (v : version) (m : vmd) (sec : elem) (all_files : list nat) (ds : list nat) : result nat :=
  match ds with
  | [] => Ok (length all_files)
  | d :: ds' =>
      do id <- attr_at sec d (DISK_FILE_REF v);
      do nf <- find_place (m_refs m) (FILE v) (FILE_ID v) id;
      match nf with
      | None => next_file v m sec all_files ds'
      | Some f => match index_nat f all_files with Some j => Ok j | None => Err EValueError end
      end
  end.

(** A file on the disk of the user: directory, name and size (os.path.getsize). *)
Record image : Type := mkImage { im_dir : str; im_name : str; im_size : Z; im_capacity : Z }.

(** ovf.py:2329-2393 add_file; returns the position of the new or overwritten File.  The
    path is given as directory and name. *)
Definition add_file (v : version) (m : vmd) (im : image) (file_id : str) (file disk : option nat)
    : result (vmd * nat) :=
  let new := file_elem v file_id (im_name im) (zdec (im_size im)) in
  let place := fun (refs : elem) (sources : list (str * str)) (f : nat) =>
    Ok (with_sources (dset str_eqb (im_name im) (im_dir im) sources) (with_refs refs m), f) in
  match file, disk with
  | Some f, _ =>
      do href <- attr_at (m_refs m) f (FILE_HREF v);
      let sources := match href with Some h => ddel str_eqb h (m_sources m) | None => m_sources m end in
      place (set_children (update_at f (fun _ => new) (echildren (m_refs m))) (m_refs m)) sources f
  | None, None =>
      place (set_children (echildren (m_refs m) ++ [new]) (m_refs m)) (m_sources m)
        (length (echildren (m_refs m)))
  | None, Some d =>
      do sec <- the_disks m;
      let all_files := places (fun e => str_eqb (etag e) (FILE v)) 0 (echildren (m_refs m)) in
      let all_disks := places (fun e => str_eqb (etag e) (DISK v)) 0 (echildren sec) in
      match index_nat d all_disks with
      | None => Err EValueError
      | Some di =>
          do j <- next_file v m sec all_files (skipn di all_disks);
          place (set_children (insert_at j new (echildren (m_refs m))) (m_refs m)) (m_sources m)
            (Nat.min j (length (echildren (m_refs m))))
      end
  end.

(** ovf.py:2395-2426 remove_file *)
Definition remove_file (E : env) (m : vmd) (file : nat) (disk : option nat) (drive : option str) : result vmd :=
  let v := e_ver E in
  do href <- attr_at (m_refs m) file (FILE_HREF v);
  match href with
  | None => Err EKeyError
  | Some h =>
      if negb (dmem str_eqb h (m_sources m)) then Err EKeyError
      else
        let m1 := with_sources (ddel str_eqb h (m_sources m))
                    (with_refs (set_children (remove_at file (echildren (m_refs m))) (m_refs m)) m) in
        do m2 <- (match disk with
                  | None => Ok m1
                  | Some d => do sec <- the_disks m1;
                              Ok (with_disks (Some (set_children (remove_at d (echildren sec)) sec)) m1)
                  end);
        match drive with
        | None => Ok m2
        | Some k =>
            do t <- value_of E m2 k RESOURCE_TYPE;
            if opt_value_eqb t (Some (VStr (L "15"))) then
              do i <- hitem k (m_hw m2);
              do i' <- set_property E i HOST_RESOURCE (IStr []) [] true;
              Ok (with_hw (hset k i' (m_hw m2)) m2)
            else if opt_value_eqb t (Some (VStr (L "17"))) then
              do h' <- delete_item E (m_hw m2) k; Ok (with_hw h' m2)
            else Err EValueUnsupported
        end
  end.

(** ovf.py:3036-3055 set_capacity_of_disk; the capacity is read as a number *)
Definition capacity_attrs (fuel : nat) (v : version) (c : Z) : result (list (str * str)) :=
  match v with
  | V0 => Ok [(DISK_CAPACITY v, zdec c)]
  | _ => do cu <- int_bytes_to_programmatic_units fuel c;
         Ok [(DISK_CAPACITY v, fst cu); (DISK_CAP_UNITS v, snd cu)]
  end.
Definition disk_elem (v : version) (cap : list (str * str)) (id : option str) (file_id : str) : elem :=
  Elem (DISK v) (cap ++ (match id with Some s => [(DISK_ID v, s)] | None => [] end)
                 ++ [(DISK_FILE_REF v, file_id); (DISK_FORMAT v, STREAM_OPTIMIZED)]) None None [].
(** A new DiskSection, by _ensure_section (ovf.py:2802-2843). *)
Definition new_disk_section (v : version) : elem :=
  Elem (DISK_SECTION v) (DISK_SECTION_ATTRIB v) None None
    [Elem (INFO v) [] (Some (L "Virtual disk information")) None []].

(** ovf.py:2428-2478 add_disk.  A Disk without diskId would get the attribute None, which
    cannot be written to a file; here it stays without. *)
Definition add_disk (fuel : nat) (v : version) (m : vmd) (im : image) (file_id drive_type : str) (disk : option nat)
    : result (vmd * option nat) :=
  if negb (str_eqb drive_type (L "harddisk")) then
    match disk, m_disks m with
    | Some d, Some sec =>
        let cs := remove_at d (echildren sec) in
        Ok (with_disks (if existsb (fun e => str_eqb (etag e) (DISK v)) cs
                        then Some (set_children cs sec) else None) m, None)
    | _, _ => Ok (m, None)
    end
  else
    let sec := match m_disks m with Some s => s | None => new_disk_section v end in
    do cap <- capacity_attrs fuel v (im_capacity im);
    match disk with
    | Some d =>
        do id <- attr_at sec d (DISK_ID v);
        Ok (with_disks (Some (set_children (update_at d (fun _ => disk_elem v cap id file_id) (echildren sec)) sec)) m,
            Some d)
    | None =>
        Ok (with_disks (Some (set_children (echildren sec ++ [disk_elem v cap (Some file_id) file_id]) sec)) m,
            Some (length (echildren sec)))
    end.

(** Successive [set_property] calls on one item, for all profiles. *)
Definition set_props (E : env) (m : vmd) (k : str) (l : list (str * inval)) : result vmd :=
  do i <- hitem k (m_hw m);
  do i' <- fold_result (fun i nx => set_property E i (fst nx) (snd nx) [] true) l i;
  Ok (with_hw (hset k i' (m_hw m)) m).

(** [s.upper()] of a device type, which is made of lower case letters *)
Definition upper_type (s : str) : str :=
  map (fun c => let n := nat_of_ascii c in
                if (97 <=? n) && (n <=? 122) then ascii_of_nat (n - 32) else c) s.

(** ovf.py:2480-2524 add_controller_device; the address is text or not given *)
Definition too_high (ct kind1 kind2 : str) (lim1 lim2 : Z) (address : str) : result bool :=
  if str_eqb ct kind1 then int_above address lim1
  else if str_eqb ct kind2 then int_above address lim2 else Ok false.
Definition add_controller_device (E : env) (m : vmd) (ct : str) (subtype : option inval) (address : option str)
    (ctrl : option str) : result (vmd * str) :=
  do mk <- (match ctrl with
            | Some k => Ok (m, k)
            | None =>
                do kh <- new_item E (m_hw m) ct [];
                let m1 := with_hw (snd kh) m in
                do a <- (match address with
                         | Some a => Ok a
                         | None => do ks <- find_all_items E (m_hw m1) (Some ct) [] [];
                                   do l <- values_of E m1 ADDRESS ks;
                                   do z <- lowest_free l; Ok (zdec z)
                         end);
                do bad <- too_high ct (L "scsi") (L "ide") 3 1 a;
                if bad : bool then Err EValueTooHigh
                else
                  do m2 <- set_props E m1 (fst kh)
                    [(ADDRESS, IStr a);
                     (ELEMENT_NAME (e_ver E), IStr (upper_type ct ++ L " Controller"));
                     (ITEM_DESCRIPTION, IStr (upper_type ct ++ L " Controller " ++ a))];
                  Ok (m2, fst kh)
            end);
  match subtype with
  | None => Ok mk
  | Some s => do m3 <- set_props E (fst mk) (snd mk) [(RESOURCE_SUB_TYPE, s)]; Ok (m3, snd mk)
  end.

(** [str] of a property of the parent given to set_property *)
Definition as_input (o : option value) : inval :=
  match o with None => INone | Some (VStr s) => IStr s | Some (VTuple l) => ISeq l end.

(** ovf.py:2526-2583 _create_new_disk_device *)
Definition create_disk_device (E : env) (m : vmd) (drive_type : str) (address name : option str) (ctrl : str)
    : result (vmd * str * str) :=
  do inst <- value_of E m ctrl (INSTANCE_ID (e_ver E));
  do a <- (match address with Some a => Ok a | None => do z <- open_slot E m ctrl; Ok (zdec z) end);
  do ct <- hardware_type E m ctrl;
  do bad <- too_high ct (L "scsi") (L "ide") 15 1 a;
  if bad : bool then Err EValueTooHigh
  else
    do nm <- (match name with
              | Some n => Ok n
              | None => if str_eqb drive_type (L "cdrom") then Ok (L "CD-ROM Drive")
                        else if str_eqb drive_type (L "harddisk") then Ok (L "Hard Disk Drive")
                        else Err EValueUnsupported
              end);
    do kh <- new_item E (m_hw m) drive_type [];
    do m2 <- set_props E (with_hw (snd kh) m) (fst kh) [(ADDRESS_ON_PARENT, IStr a); (PARENT, as_input inst)];
    Ok (m2, fst kh, nm).

(** ovf.py:2585-2630 add_disk_device *)
Definition add_disk_device (E : env) (m : vmd) (drive_type : str) (address name description : option str)
    (disk : option nat) (file : nat) (ctrl : str) (drive : option str) : result (vmd * str) :=
  let v := e_ver E in
  do mkn <- (match drive with
             | Some k => Ok (m, k, name)
             | None => do r <- create_disk_device E m drive_type address name ctrl;
                       Ok (fst (fst r), snd (fst r), Some (snd r))
             end);
  let '(m1, k, nm) := (mkn : vmd * str * option str) in
  do t <- res_map drive_type;
  do host <- (if str_eqb drive_type (L "harddisk") then
                match disk with
                | Some d => do sec <- the_disks m1; do id <- attr_at sec d (DISK_ID v); plus (DISK_REF v) id
                | None => Err EAttributeError
                end
              else do id <- attr_at (m_refs m1) file (FILE_ID v); plus (FILE_REF v) id);
  do m2 <- set_props E m1 k
    ([(RESOURCE_TYPE, IStr t); (HOST_RESOURCE, IStr host)]
     ++ (match nm with Some n => [(ELEMENT_NAME v, IStr n)] | None => [] end)
     ++ (match description with Some d => [(ITEM_DESCRIPTION, IStr d)] | None => [] end));
  Ok (m2, k).

(** ** Commands *)

(** The questions that are asked with confirm_or_die; the texts are not modelled. *)
Inductive prompt : Type :=
| ReplaceFile (href : option str) (new : str)
| FillEmptyDrive (drive_type : str)
| ChangeDrive (old new : str)
| ChangeSubtype (ctrl : str) (old new : value)
| AddController (ctrl : str)
| RemoveFile (path id : str) (disk : option nat) (drive : option str).

Section Commands.
  (** what the user answers *)
  Variable agree : prompt -> bool.
  Definition confirm_or_die (p : prompt) : result unit := if agree p then Ok tt else Err ESystemExit.

  (** add_disk.py:283-348 search_for_elements *)
  Definition search_for_elements (E : env) (m : vmd) (disk_file : str) (file_id controller address : option str)
      : result found :=
    do r1 <- search_from_filename E m (Some disk_file);
    do r2 <- search_from_file_id E m (match file_id with Some _ => file_id | None => Some disk_file end);
    do r3 <- search_from_controller E m controller address;
    let '(f1, d1, c1, i1) := (r1 : found) in
    let '(f2, d2, c2, i2) := (r2 : found) in
    let '(f3, d3, c3, i3) := (r3 : found) in
    do f <- check_for_conflict Nat.eqb [f1; f2; f3];
    do d <- check_for_conflict Nat.eqb [d1; d2; d3];
    do c <- check_for_conflict str_eqb [c1; c2; c3];
    do i <- check_for_conflict str_eqb [i1; i2; i3];
    Ok (f, d, c, i).

  (** add_disk.py:351-387 guess_controller_type; [guess] is controller_type_for_device *)
  Definition guess_controller_type (E : env) (m : vmd) (guess : str -> str) (ctrl : option str) (drive_type : str)
      : result str :=
    match ctrl with
    | None => Ok (guess drive_type)
    | Some k => do t <- hardware_type E m k;
                if mem_str t [L "ide"; L "sata"; L "scsi"] then Ok t else Err EValueUnsupported
    end.

  (** add_disk.py:390-437 validate_elements *)
  Definition validate_elements (E : env) (m : vmd) (file disk : option nat) (drive ctrl : option str)
      (file_id : option str) (ctrl_type : str) : result unit :=
    let v := e_ver E in
    do fid <- (match file with Some f => attr_at (m_refs m) f (FILE_ID v) | None => Ok None end);
    do ref <- (match disk with Some d => do sec <- the_disks m; attr_at sec d (DISK_FILE_REF v) | None => Ok None end);
    do _ <- (match file, file_id with
             | Some _, Some _ => match_or_die opt_eqb fid file_id | _, _ => Ok tt end);
    do _ <- (match file, disk with
             | Some _, Some _ => match_or_die opt_eqb fid ref | _, _ => Ok tt end);
    do _ <- (match disk, file_id with
             | Some _, Some _ => match_or_die opt_eqb ref file_id | _, _ => Ok tt end);
    do _ <- (match drive with Some k => check_sanity E m disk file k ctrl | None => Ok tt end);
    match ctrl with
    | Some k => do t <- hardware_type E m k; match_or_die str_eqb t ctrl_type
    | None => Ok tt
    end.

  (** add_disk.py:440-492 confirm_elements.  A given subtype is a text, the current one a
      tuple, so they are never equal (item.py:446-452, 160-163). *)
  Definition confirm_elements (E : env) (m : vmd) (file : option nat) (path : str) (disk : option nat)
      (drive : option str) (drive_type controller : str) (ctrl : option str) (subtype : option str) : result unit :=
    do _ <- (match file with
             | Some f => do href <- attr_at (m_refs m) f (FILE_HREF (e_ver E)); confirm_or_die (ReplaceFile href path)
             | None => match disk, drive with
                       | None, None => Ok tt
                       | _, _ => confirm_or_die (FillEmptyDrive drive_type)
                       end
             end);
    do _ <- (match drive with
             | Some k => do t <- hardware_type E m k;
                         if str_eqb t drive_type then Ok tt else confirm_or_die (ChangeDrive t drive_type)
             | None => Ok tt
             end);
    match ctrl with
    | Some k =>
        match subtype with
        | None => Ok tt
        | Some s => do cur <- value_of E m k RESOURCE_SUB_TYPE;
                    match cur with
                    | None => Ok tt
                    | Some c => if value_eqb c (VStr s) then Ok tt
                                else confirm_or_die (ChangeSubtype controller c (VStr s))
                    end
        end
    | None => confirm_or_die (AddController controller)
    end.

  (** add_disk.py:495-622 add_disk_worker, for a disk image that needs no conversion and a
      given drive type; returns the drive as well *)
  Definition add_disk_worker (E : env) (fuel : nat) (guess : str -> str) (m : vmd) (im : image) (drive_type : str)
      (file_id controller subtype address diskname description : option str) : result (vmd * str) :=
    let v := e_ver E in
    do r <- search_for_elements E m (im_name im) file_id controller address;
    let '(file, disk, ctrl0, drive) := (r : found) in
    do ct <- (match controller with Some c => Ok c | None => guess_controller_type E m guess ctrl0 drive_type end);
    do ca <- (match ctrl0, address with
              | None, None => do o <- find_open_controller E m ct;
                              Ok (match o with Some (k, a) => (Some k, Some a) | None => (None, None) end)
              | _, _ => Ok (ctrl0, address)
              end);
    let '(ctrl, addr) := (ca : option str * option str) in
    do _ <- validate_elements E m file disk drive ctrl file_id ct;
    do _ <- confirm_elements E m file (im_name im) disk drive drive_type ct ctrl subtype;
    do id1 <- (match file_id, file with
               | None, Some f => attr_at (m_refs m) f (FILE_ID v) | _, _ => Ok file_id end);
    do id2 <- (match id1, disk with
               | None, Some d => do sec <- the_disks m; attr_at sec d (DISK_FILE_REF v) | _, _ => Ok id1 end);
    let fid := match id2 with Some s => s | None => im_name im end in
    do mf <- add_file v m im fid file disk;
    do md <- add_disk fuel v (fst mf) im fid drive_type disk;
    do parts <- (match addr with
                 | Some a => match split_on ":"%char a with
                             | x :: y :: _ => Ok (Some x, Some y) | _ => Err EIndexError end
                 | None => Ok (None, None)
                 end);
    do sub <- (match ctrl, subtype with
               | None, None => do s <- get_common_subtype E (fst md) ct; Ok (option_map (fun x => as_input (Some x)) s)
               | _, _ => Ok (option_map IStr subtype)
               end);
    do mc <- add_controller_device E (fst md) ct sub (fst parts) ctrl;
    add_disk_device E (fst mc) drive_type (snd parts) diskname description (snd md) (snd mf) (snd mc) drive.

  (** add_file.py:82-108 COTAddFile.run *)
  Definition add_file_run (E : env) (m : vmd) (im : image) (file_id : option str) : result vmd :=
    let v := e_ver E in
    do r1 <- search_from_filename E m (Some (im_name im));
    let '(f1, _, _, _) := (r1 : found) in
    do file <- (match file_id with
                | Some _ => do r2 <- search_from_file_id E m file_id;
                            let '(f2, _, _, _) := (r2 : found) in
                            check_for_conflict Nat.eqb [f1; f2]
                | None => Ok f1
                end);
    do id <- (match file_id, file with
              | Some s, _ => Ok (Some s)
              | None, Some f => attr_at (m_refs m) f (FILE_ID v)
              | None, None => Ok (Some (im_name im))
              end);
    do _ <- (match file with
             | Some f => do href <- attr_at (m_refs m) f (FILE_HREF v); confirm_or_die (ReplaceFile href (im_name im))
             | None => Ok tt end);
    match id with
    | None => Err ETypeError       (* the attribute None cannot be written to a file *)
    | Some s => do mf <- add_file v m im s file None; Ok (fst mf)
    end.

  (** remove_file.py:69-116 COTRemoveFile.run *)
  Definition remove_file_run (E : env) (m : vmd) (file_path file_id : option str) : result vmd :=
    let v := e_ver E in
    do r1 <- search_from_filename E m file_path;
    do r2 <- search_from_file_id E m file_id;
    let '(f1, d1, _, i1) := (r1 : found) in
    let '(f2, d2, _, i2) := (r2 : found) in
    do file <- check_for_conflict Nat.eqb [f1; f2];
    do disk <- check_for_conflict Nat.eqb [d1; d2];
    do drive <- check_for_conflict str_eqb [i1; i2];
    match file with
    | None => Err EInvalidInput
    | Some f =>
        do id <- attr_at (m_refs m) f (FILE_ID v);
        do href <- attr_at (m_refs m) f (FILE_HREF v);
        do _ <- (match file_id with Some _ => match_or_die opt_eqb file_id id | None => Ok tt end);
        do _ <- (match file_path with Some _ => match_or_die opt_eqb file_path href | None => Ok tt end);
        do _ <- confirm_or_die (RemoveFile (match href with Some s => s | None => L "None" end)
                                           (match id with Some s => s | None => L "None" end) disk drive);
        remove_file E m f disk drive
    end.
End Commands.
