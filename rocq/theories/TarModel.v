(** Model of how OVA archives are opened and written: COT/vm_description/ovf/ovf.py and
    COT/file_reference.py.

    A file system is a map from places (the names from the root down) to contents, and a map
    from paths of TAR files to their members; directories, permissions and links on the disk
    are not modelled, nor is the byte format of TAR.  Messages that report a problem in the
    package are values ([complaint]); other log messages are left out. *)
From Verif Require Import PyBase PyDict ManifestModel RawModel SelectModel ItemModel PathModel PathSpec.
Local Open Scope nat_scope.

(** A member of a TAR file: its name, the target if it is a symbolic link, its data. *)
Record member : Type := mkMember { t_name : str; t_link : option str; t_data : str }.
Definition archive : Type := list member.

(** ** Type of a file by its name *)

(** the first match of r"(\.ov[fa])[^a-zA-Z0-9]" in ovf.py:113 *)
Fixpoint mid_extension (s : str) : option str :=
  match s with
  | [] => None
  | c :: s' =>
      let here (e : str) := starts_with e s &&
        match skipn 4 s with x :: _ => negb (in_range 97 122 x || in_range 65 90 x || is_digit x) | [] => false end in
      if here (L ".ovf") then Some (L ".ovf")
      else if here (L ".ova") then Some (L ".ova")
      else mid_extension s'
  end.
(** ovf.py:84-122 detect_type_from_name *)
Definition detect_type (filename : str) : result str :=
  let name := basename filename in
  let e := splitext_ext name in
  if mem_str e [L ".ovf"; L ".ova"; L ".box"] then Ok e
  else match mid_extension name with Some x => Ok x | None => Err EValueUnsupported end.

(** ** Opening *)

(** ovf.py:2672-2675: the path of the member starts with the working directory *)
Definition name_ok (wd name : str) : bool := starts_with wd (normpath (path_join wd name)).
Definition is_ovf (m : member) : bool := str_eqb (splitext_ext (t_name m)) (L ".ovf").
(** ovf.py:2634-2707 untar: the one member that is extracted to the working directory, and
    the path of it.  [None] is a file that tarfile cannot open.  [os.path.abspath] is
    [normpath] here, since the working directory is absolute. *)
Definition untar (wd : str) (tar : option archive) : result (member * str) :=
  match tar with
  | None => Err EVMInitError
  | Some [] => Err EVMInitError
  | Some (m0 :: rest) =>
      if negb (forallb (fun m => name_ok wd (t_name m)) (m0 :: rest)) then Err EVMInitError
      else
        do m <- (if is_ovf m0 then Ok m0
                 else match filter is_ovf (m0 :: rest) with
                      | [] => Err EVMInitError
                      | c :: _ => Ok c
                      end);
        Ok (m, path_join wd (t_name m))
  end.

(** ** Files *)

Record world : Type := mkWorld {
  w_files : list str -> option str;
  w_tars : str -> option archive }.

(** the place of an absolute path in the file system *)
Definition read (w : world) (p : str) : option str := w_files w (place p).
Definition put (w : world) (p data : str) : world :=
  mkWorld (fun q => if strs_eqb q (place p) then Some data else w_files w q) (w_tars w).

(** [TarFile.getmember]: the last member of that name.  (A slash at the end of the name,
    which newer versions of tarfile drop, is not modelled.) *)
Definition getmember (a : archive) (name : str) : option member :=
  find (fun m => str_eqb (t_name m) name) (rev a).

(** A FileReference: FileOnDisk or FileInTAR, with container_path and filename. *)
Inductive ref : Type :=
| OnDisk (dir name : str)
| InTar (tar name : str).

(** file_reference.py:295-309 FileInTAR.exists, which may change the filename *)
Definition resolve (a : archive) (name : str) : option str :=
  match getmember a name with
  | Some _ => Some name
  | None => option_map t_name (find (fun m => str_eqb (normpath (t_name m)) name) a)
  end.
(** the content of the file behind a reference; None if it does not exist *)
Definition content (w : world) (r : ref) : option str :=
  match r with
  | OnDisk d n => read w (path_join d n)
  | InTar t n => match w_tars w t with
                 | Some a => option_map t_data (getmember a n)
                 | None => None
                 end
  end.

(** A directory or a TAR file, with its absolute path. *)
Inductive container : Type := Dir (d : str) | Tar (t : str).

(** Problems that are reported while a package is opened. *)
Inductive complaint : Type :=
| NotInReferences (name : str)          (* in the manifest, but no File *)
| NotInManifest (name : str)            (* a File, but not in the manifest *)
| NoDescriptorEntry                     (* the manifest has no entry for the descriptor *)
| BadChecksum (name : str)
| BadSize (name : str)
| NoSuchFile (name : str).              (* a File that does not exist *)

Section Digest.
  (** [file_checksum] with the algorithm of the package, in hexadecimal digits *)
  Variable digest : str -> str.

  (** file_reference.py:44-72 FileReference.create and 74-130 __init__ *)
  Definition create (w : world) (c : container) (filename : str) (sum size : option str)
      : result (ref * list complaint) :=
    let name := normpath filename in
    do r <- (match c with
             | Dir d => Ok (OnDisk d name)
             | Tar t => match w_tars w t with
                        | None => Err EEnvironment
                        | Some a => match resolve a name with
                                    | Some n => Ok (InTar t n)
                                    | None => Err EEnvironment
                                    end
                        end
             end);
    match content w r with
    | None => Err EEnvironment
    | Some data =>
        let shown := match r with OnDisk _ n => n | InTar _ n => n end in
        let c1 := match sum with
                  | Some s => if str_eqb (digest data) s then [] else [BadChecksum shown]
                  | None => []
                  end in
        do c2 <- (match size with
                  | Some s => match py_int s with
                              | Some z => Ok (if Z.eqb (Z.of_nat (length data)) z then [] else [BadSize shown])
                              | None => Err EValueError
                              end
                  | None => Ok []
                  end);
        Ok (r, c1 ++ c2)
    end.

  (** ovf.py:270-305 _compare_file_lists *)
  Definition compare_file_lists (descriptor : str) (files manifest : list str) : list complaint :=
    match manifest with
    | [] => []
    | _ =>
        flat_map (fun n => if str_eqb n (basename descriptor) then []
                           else if mem_str n files then [] else [NotInReferences n]) manifest ++
        flat_map (fun n => if mem_str n manifest then [] else [NotInManifest n]) files ++
        (if mem_str (basename descriptor) manifest then [] else [NoDescriptorEntry])
    end.

  (** ovf.py:359-377: the loop over the files *)
  Fixpoint load_each (w : world) (c : container) (entries : list (str * (str * str)))
      (files : list (str * option str)) : result (list (str * ref) * list complaint) :=
    match files with
    | [] => Ok ([], [])
    | (href, size) :: rest =>
        let sum := option_map snd (dget str_eqb href entries) in
        match create w c href sum size with
        | Ok (r, cs) => do x <- load_each w c entries rest; Ok ((href, r) :: fst x, cs ++ snd x)
        | Err e => if is_environment_error e
                   then do x <- load_each w c entries rest; Ok (fst x, NoSuchFile href :: snd x)
                   else Err e
        end
    end.

  (** ovf.py:307-379 _init_check_file_entries.  [elems] are the href and size attributes of
      the File elements.  The algorithm named in the manifest is ignored, as in the code.
      The decoding of the manifest from UTF-8 is not modelled. *)
  Definition load_files (w : world) (c : container) (descriptor : str) (elems : list (str * option str))
      : result (list (str * ref) * list complaint) :=
    let files := fold_left (fun d e => dset str_eqb (fst e) (snd e) d) elems [] in
    do entries <- (match create w c (splitext_root (basename descriptor) ++ L ".mf") None None with
                   | Ok (r, _) => match content w r with
                                  | Some text => Ok (parse_manifest text)
                                  | None => Err EEnvironment
                                  end
                   | Err e => if is_environment_error e then Ok [] else Err e
                   end);
    let c1 := compare_file_lists descriptor (map fst files) (map fst entries) in
    do d <- create w c (basename descriptor)
              (option_map snd (dget str_eqb (basename descriptor) entries)) None;
    do x <- load_each w c entries files;
    Ok (fst x, c1 ++ snd d ++ snd x).

  (** ** Writing *)

  (** ovf.py:2762-2777 in tar: the files in the archive that is about to be overwritten are
      extracted to the working directory *)
  Fixpoint carry_over (w : world) (wd : str) (refs : list (str * ref)) : result (world * list (str * ref)) :=
    match refs with
    | [] => Ok (w, [])
    | (href, OnDisk d n) :: rest => do x <- carry_over w wd rest; Ok (fst x, (href, OnDisk d n) :: snd x)
    | (href, InTar t n) :: rest =>
        match content w (InTar t n) with
        | None => Err EKeyError
        | Some data =>
            let w' := put w (path_join wd n) data in
            do rc <- create w' (Dir wd) href None None;
            do x <- carry_over w' wd rest; Ok (fst x, (href, fst rc) :: snd x)
        end
    end.

  (** file_reference.py:243-251 and 342-352 add_to_archive; [tarfile.add] drops slashes at
      the start of the name *)
  Definition add_to_archive (w : world) (r : ref) : result member :=
    match r with
    | OnDisk d n => match content w r with
                    | Some data => Ok (mkMember (lstrip_slashes n) None data)
                    | None => Err EEnvironment
                    end
    | InTar t n => match w_tars w t with
                   | None => Err EEnvironment
                   | Some a => match getmember a n with Some m => Ok m | None => Err EKeyError end
                   end
    end.
  Fixpoint add_all (w : world) (refs : list (str * ref)) (hrefs : list str) : result archive :=
    match hrefs with
    | [] => Ok []
    | h :: rest =>
        match dget str_eqb h refs with
        | None => Err EKeyError
        | Some r => do m <- add_to_archive w r; do x <- add_all w refs rest; Ok (m :: x)
        end
    end.

  (** ovf.py:2744-2800 tar: the members of the new archive.  [same] says that the output is
      the input; the input can then not be read any more when the output is opened. *)
  Definition tar (w : world) (wd input : str) (same : bool) (ovf_file : str) (hrefs : list str) (refs : list (str * ref))
      : result archive :=
    do x <- (if same then carry_over w wd refs else Ok (w, refs));
    let w1 := if same then mkWorld (w_files (fst x)) (fun t => if str_eqb t input then None else w_tars (fst x) t)
              else fst x in
    match read w1 ovf_file with
    | None => Err EEnvironment
    | Some xml =>
        let mf := splitext_root ovf_file ++ L ".mf" in
        do l <- add_all w1 (snd x) hrefs;
        Ok (mkMember (basename ovf_file) None xml ::
            (match read w1 mf with Some text => [mkMember (basename mf) None text] | None => [] end) ++ l)
    end.

  (** the checksum of each reference, when all of them exist (file_reference.py:132-141) *)
  Definition checksums (w : world) (refs : list (str * ref)) : list (str * str) :=
    map (fun x => (fst x, match content w (snd x) with Some data => digest data | None => [] end)) refs.

  (** ovf.py:833-841 in write: the descriptor and the manifest are written to the working
      directory and packed with the files.  [xml] is the text of the descriptor, [algo] the
      name of the algorithm in upper case. *)
  Definition write_ova (w : world) (wd input : str) (same : bool) (output algo xml : str) (hrefs : list str)
      (refs : list (str * ref)) : result archive :=
    let ovf_file := path_join wd (basename (splitext_root output) ++ L ".ovf") in
    let w1 := put w ovf_file xml in
    do text <- generate_manifest algo (basename ovf_file) (digest xml) hrefs (checksums w1 refs);
    let w2 := put w1 (splitext_root ovf_file ++ L ".mf") text in
    tar w2 wd input same ovf_file hrefs refs.
End Digest.
