(** Model of the command inject-config: COT/commands/inject_config.py, with the functions of
    COT/vm_description/ovf/ovf.py that only it uses. *)
From Verif Require Import PyBase PyDict ValidationModel XmlModel NamesModel ItemModel HardwareModel PlatformModel
  RawModel PathModel DriveModel.
Local Open Scope nat_scope.

(** ** Empty drives and their places *)

(** ovf.py:2952-2991 find_empty_drive *)
Definition no_file_ref (v : version) (e : elem) : bool :=
  str_eqb (etag e) (DISK v) && match get_attr e (DISK_FILE_REF v) with None => true | Some _ => false end.
Definition find_empty_drive (E : env) (m : vmd) (drive_type : str) : result (option str) :=
  if str_eqb drive_type (L "cdrom") then
    do ks <- find_all_items E (m_hw m) (Some drive_type) [(HOST_RESOURCE, None)] [];
    Ok (match ks with k :: _ => Some k | [] => None end)
  else if str_eqb drive_type (L "harddisk") then
    match m_disks m with
    | None => Ok None
    | Some sec =>
        match places (no_file_ref (e_ver E)) 0 (echildren sec) with
        | d :: _ => find_item_from_disk E m (Some d)
        | [] => Ok None
        end
    end
  else Err EValueUnsupported.

(** ovf.py:2993-3010 find_device_location; a missing address is a TypeError of [+] *)
Definition as_text (o : option value) : result str :=
  match o with Some (VStr s) => Ok s | _ => Err ETypeError end.
Definition find_device_location (E : env) (m : vmd) (device : str) : result (str * str) :=
  do c <- find_parent_from_item E m (Some device);
  match c with
  | None => Err ELookupError
  | Some ck =>
      do t <- hardware_type E m ck;
      do a <- value_of E m ck ADDRESS;
      do a' <- as_text a;
      do b <- value_of E m device ADDRESS_ON_PARENT;
      do b' <- as_text b;
      Ok (t, a' ++ L ":" ++ b')
  end.

(** ** Files *)

(** The files of the host: a path and what is in it (for a directory, all that is in it). *)
Definition host : Type := list (str * str).
Definition read (h : host) (path : str) : result str :=
  match dget str_eqb path h with Some c => Ok c | None => Err EEnvironment end.
(** shutil.copy; a file cannot be copied to itself (shutil.Error) *)
Definition copy (src dst : str) (h : host) : result host :=
  do c <- read h src;
  if str_eqb src dst then Err EEnvironment else Ok (dset str_eqb dst c h).
(** [if self.config_file] *)
Definition given (o : option str) : option str := match o with Some [] => None | _ => o end.
(** inject_config.py:212-226: one file is copied into the working directory under the name
    of the platform; returns the copy as well.  Joining a path with None is an
    AttributeError. *)
Definition copy_as (o : option str) (name : option str) (wd : str) (h : host) : result (list str * host) :=
  match given o with
  | None => Ok ([], h)
  | Some src =>
      match name with
      | None => Err EAttributeError
      | Some n => do h' <- copy src (path_join wd n) h; Ok ([path_join wd n], h')
      end
  end.
(** what is put on the disk: names and contents *)
Definition content (h : host) (paths : list str) : result (list (str * str)) :=
  fold_right (fun p r => do c <- read h p; do l <- r; Ok ((basename p, c) :: l)) (Ok []) paths.

(** ** The command *)

Record settings : Type := mkSettings { s_config : option str; s_secondary : option str; s_extra : list str }.

(** inject_config.py:69-119: the setters.  [exists_] is os.path.exists. *)
Definition set_text (exists_ : str -> bool) (name value : option str) : result (option str) :=
  match value with
  | None => Ok None
  | Some s => if negb (exists_ s) then Err EInvalidInput
              else match name with None => Err EInvalidInput | Some _ => Ok (Some s) end
  end.
Definition inject_args (exists_ : str -> bool) (p : platform) (config secondary : option str) (extra : list str)
    : result settings :=
  do c <- set_text exists_ (config_text_file p) config;
  do s <- set_text exists_ (secondary_config_text_file p) secondary;
  if forallb exists_ extra then Ok (mkSettings c s extra) else Err EInvalidInput.
(** inject_config.py:121-131 ready_to_run *)
Definition inject_ready (s : settings) : bool :=
  match given (s_config s), given (s_secondary s), s_extra s with None, None, [] => false | _, _, _ => true end.

(** The name of the disk that is looked for (inject_config.py:186-192), the file that is
    made (229-237) and its format, and the name of the file that is added
    (ovf.py:1965-1998 convert_disk_if_needed and vmdk.py:88-90 for a hard disk). *)
Definition wanted_name (drive_type : str) : result str :=
  if str_eqb drive_type (L "cdrom") then Ok (L "config.iso")
  else if str_eqb drive_type (L "harddisk") then Ok (L "config.vmdk")
  else Err EValueUnsupported.
Definition made_name (drive_type : str) : str * str :=
  if str_eqb drive_type (L "cdrom") then (L "config.iso", L "iso") else (L "config.img", L "raw").
Definition added_name (drive_type path : str) : str :=
  if str_eqb drive_type (L "harddisk") then splitext_root (basename path) ++ L ".vmdk" else basename path.

Section Inject.
  (** what the user answers to the questions of add-disk, and whether the configuration disk
      with this identifier may be overwritten *)
  Variable agree : prompt -> bool.
  Variable overwrite : option str -> bool.
  (** the programs that make a disk image of this format with these files, and convert it:
      size and capacity of the file that is added *)
  Variable make : str -> list (str * str) -> result (Z * Z).

  (** inject_config.py:168-260 run; [wd] is the working directory.  The two branches for
      other drive types (195-198, 236-239) are the first error; guessing the controller type
      (add_disk.py:351-387) is not needed, as it is given. *)
  Definition inject_run (E : env) (fuel : nat) (p : platform) (wd : str) (h : host) (s : settings) (m : vmd)
      : result (vmd * str) :=
    let dt := bootstrap_disk_type p in
    if negb (inject_ready s) then Err EInvalidInput
    else
      do name <- wanted_name dt;
      do r <- search_from_filename E m (Some name);
      let '(file, _, _, drive0) := (r : found) in
      do fd <- (match file with
                | Some f => do id <- attr_at (m_refs m) f (FILE_ID (e_ver E));
                            if overwrite id then Ok (id, drive0) else Err ESystemExit
                | None => do d <- find_empty_drive E m dt; Ok (None, d)
                end);
      match snd (fd : option str * option str) with
      | None => Err ELookupError
      | Some drive =>
          do loc <- find_device_location E m drive;
          do c1 <- copy_as (s_config s) (config_text_file p) wd h;
          do c2 <- copy_as (s_secondary s) (secondary_config_text_file p) wd (snd c1);
          let files := fst c1 ++ fst c2 ++ s_extra s in
          let path := path_join wd (fst (made_name dt)) in
          do _ <- (if dmem str_eqb path (snd c2) then Err ERuntimeError else Ok tt);
          do l <- content (snd c2) files;
          do sc <- make (snd (made_name dt)) l;
          add_disk_worker agree E fuel (fun _ => []) m
            (mkImage wd (added_name dt path) (fst sc) (snd sc)) dt (fst fd) (Some (fst loc)) None (Some (snd loc)) None
            (Some (L "Configuration disk"))
      end.
End Inject.
